(** Detection of executable files and of the boot disks made from them. *)
From Verif Require Import Base BaseLemmas DiskModel AtariModel AtariSpec AtariGeom AtariHeader AtariProps SpartaModel ExecModel ExecProofs ExecProofs2 DetectModel DetectSpec DetectProofs DetectErrors DetectErrors2 DetectErrors3 DetectStay Properties_Detect Properties_Detect2 DetectDsk.
From Verif Require CartModel.

(** Data without an ATR header, of none of the sizes of Atari disks, and without a
    SpartaDOS boot record in its first bytes. *)
Definition atari_sizes : list Z := [92160; 133120; 183936; 184320].
Definition not_atari_disk (b : list Z) : Prop :=
  ~ has_atr_header b /\ ~ In (zlen b) atari_sizes /\ ~ sparta_boot_record b.

Section Raw.
  Variables (e : env) (b : list Z).
  Hypothesis Hb : bytes_ok b.
  Hypothesis N : not_atari_disk b.

  Lemma raw_usual : usual_sectors b.
  Proof. intros H. exfalso. exact (proj1 N H). Qed.
  Lemma raw_strict h : atari_header b = Ok h -> checked true (atr_strict h (zlen b)) = Err (EAtr InvalidSegmentParser).
  Proof.
    intros E. destruct (header_usual b Hb raw_usual) as (h' & E' & _ & _ & O & _ & OI). assert (h' = h) by congruence. subst h'.
    destruct N as (N1 & N2 & _). unfold atr_strict. destruct O as [O|O]; [|exfalso; apply N1, OI, O].
    rewrite O. cbn [Z.eqb orb Z.sub]. replace (zmem (zlen b) [92160; 133120; 183936; 184320]) with false; [reflexivity|].
    symmetry. apply zmem_false. exact N2.
  Qed.
  Lemma raw_atari p : In p [PKBoot; PSparta; PAtariDos; PBoot; PUnidentified] -> refuses (parse e true p b).
  Proof.
    destruct (header_usual b Hb raw_usual) as (h & E & S1 & S2 & _). pose proof (raw_strict h E) as SF.
    assert (K : forall r : res image, clean r -> (forall x, r <> Ok x) -> as_parser r = Err (EAtr InvalidSegmentParser)).
    { intros r C Nx. pose proof (as_parser_clean r C) as Q. destruct r as [x|x]; [exfalso; exact (Nx x eq_refl)|].
      destruct x as [y| | | | | | | | | | | |]; try discriminate C. destruct y; try discriminate C; reflexivity. }
    intros [<-|[<-|[<-|[<-|[<-|[]]]]]]; unfold refuses, parse.
    - apply K; [apply kboot_parse_clean; [exact Hb|exact raw_usual]|]. intros x. cbn [parse_image].
      destruct (kboot_open b) as [k|] eqn:KO; cbn [rbind]; [|discriminate]. rewrite (raw_strict _ (kboot_hdr b k KO)). discriminate.
    - exact (sparta_refuses e true b Hb raw_usual (proj2 (proj2 N))).
    - apply K.
      + cbn [parse_image]. apply clean_bind; [exact (open_image_clean b h Hb E S1 S2)|]. intros im O.
        destruct (open_image_hdr b im O) as [Hh _]. rewrite (raw_strict _ Hh). reflexivity.
      + intros x. cbn [parse_image]. destruct (open_image b) as [im|] eqn:O; cbn [rbind]; [|discriminate].
        destruct (open_image_hdr b im O) as [Hh _]. rewrite (raw_strict _ Hh). discriminate.
    - apply K; [apply boot_clean; [exact Hb|exact raw_usual]|]. intros x. cbn [parse_image]. rewrite E. cbn [rbind].
      destruct (boot_check h b); cbn [rbind]; [|discriminate]. rewrite SF. discriminate.
    - apply K; [apply unidentified_clean; [exact Hb|exact raw_usual]|]. intros x. cbn [parse_image]. rewrite E. cbn [rbind]. rewrite SF. discriminate.
  Qed.
  Lemma raw_cart k t : slice b 0 4 <> CartModel.cart_magic -> refuses (as_parser (cart_image k true b t)).
  Proof.
    intros NM. pose proof (cart_clean k true b t) as C. pose proof (as_parser_clean _ C) as Q. unfold refuses.
    destruct (as_parser _) as [x|x] eqn:P; [exfalso|congruence].
    revert P. unfold cart_image. unfold CartModel.open_cart. destruct (CartModel.get_cart t) as [ct|y]; cbn [rbind].
    2:{ destruct y as [a| | | | | | | | | | | |]; try discriminate. destruct a; discriminate. }
    assert (R : CartModel.read_cart_header (slice b 0 16) = Err (EAtr InvalidCartHeader)).
    { unfold CartModel.read_cart_header. destruct (zlen (slice b 0 16) =? 16) eqn:Z0; [|reflexivity].
      rewrite slice_slice by lia. replace (zlist_eqb _ CartModel.cart_magic) with false; [reflexivity|].
      symmetry. destruct (zlist_eqb _ _) eqn:Z1; [|reflexivity]. apply zlist_eqb_eq in Z1. exfalso. apply NM. rewrite <- Z1. f_equal; lia. }
    rewrite R.
    cbn [rbind CartModel.cart_check_size CartModel.ci_hdr CartModel.no_header CartModel.h_type Z.eqb]. unfold CartModel.cart_strict. cbn [CartModel.ci_hdr CartModel.no_header CartModel.h_type CartModel.h_name].
    destruct k; vm_compute; discriminate.
  Qed.
End Raw.

(** * Atari executables *)
Lemma xex_found e b segs : bytes_ok b -> getb b 0 = 255 -> getb b 1 = 255 -> ~ In (zlen b) atari_sizes -> ~ sparta_boot_record b ->
  unclaimed e b -> snd (parse_xex b (zrepeat 0 (zlen b))) = Ok segs ->
  exists d, find_diskimage e b = Ok (mkFound M_xex d PXex (IXex segs)).
Proof.
  intros Hb B0 B1 Sz Sp [NC NS] P.
  assert (ND : not_atari_disk b) by (split; [intros (_ & X & _); lia|split; assumption]).
  destruct (detail_ok M_xex b) as [d Hd].
  { intros [_ H]. assert (G : forall l, slice b 0 5 = 150 :: l -> False).
    { intros l E. assert (X : getb (slice b 0 5) 0 = 150) by (rewrite E; reflexivity).
      destruct (Z.ltb_spec 0 (zlen b)) as [L|L].
      - assert (L5 : 0 < zlen (slice b 0 5)) by (rewrite zlen_slice_min by lia; lia). rewrite getb_slice in X by lia. change (0 + 0) with 0 in X. lia.
      - destruct b as [|x0 t0]; [discriminate B0|]. rewrite zlen_cons in L. pose proof (zlen_nonneg t0). lia. }
    destruct H as [H|H]; exact (G _ H). }
  exists d. assert (PX : parse e true PXex b = Ok (IXex segs)) by (unfold parse; cbn [parse_image]; rewrite P; reflexivity).
  apply (C45_first_wins e b b (true, (M_xex, PXex)) (IXex segs) d); [apply unpacked_plain; exact NC| |exact PX|exact Hd].
  rewrite (attempts_plain _ _ NS). exists (map (pair true) [(M_atr, PKBoot); (M_atr, PSparta); (M_atr, PAtariDos); (M_atr, PBoot); (M_atr, PUnidentified)]). eexists. split; [reflexivity|]. split.
  - intros q Hq. apply in_map_iff in Hq. destruct Hq as (mp & <- & Hq). unfold attempt. cbn [fst snd]. apply raw_atari; [exact Hb|exact ND|].
    cbn [In] in Hq. destruct Hq as [<-|[<-|[<-|[<-|[<-|[]]]]]]; cbn; tauto.
  - unfold attempt. cbn [fst snd]. rewrite PX. discriminate.
Qed.

(** * Apple executables *)
Lemma bin_found e b s : bytes_ok b -> ~ (getb b 0 = 255 /\ getb b 1 = 255) -> slice b 0 4 <> CartModel.cart_magic ->
  ~ has_atr_header b -> ~ sparta_boot_record b -> unclaimed e b -> e_zip e b = NotZip -> parse_bsave b = Ok s ->
  find_diskimage e b = Ok (mkFound M_bin None PBin (IBin s)).
Proof.
  intros Hb NX NM NA Sp [NC NS] Z0 P.
  assert (L : 4 <= zlen b <= 65539).
  { unfold parse_bsave in P. destruct (zlen (slice b 0 4) =? 4) eqn:E4; [|discriminate P]. apply Z.eqb_eq in E4. rewrite zlen_slice_min in E4 by lia.
    destruct (negb (le2 (getb b 2) (getb b 3) =? zlen b - 4)) eqn:E5; [discriminate P|]. pose proof (le2_range (getb b 2) (getb b 3) (bytes_ok_getb b 2 Hb) (bytes_ok_getb b 3 Hb)). lia. }
  assert (ND : not_atari_disk b) by (split; [exact NA|split; [cbn; lia|exact Sp]]).
  assert (PX : parse e true PBin b = Ok (IBin s)) by (unfold parse; cbn [parse_image]; rewrite P; reflexivity).
  apply (C45_first_wins e b b (true, (M_bin, PBin)) (IBin s) None); [apply unpacked_plain; exact NC| |exact PX|reflexivity].
  exists (map (pair true) (before_dsk ++ [(M_dsk, PDos33); (M_dsk, PProdos)])), (map (pair true) [(M_rom, PRom)]). split; [|split].
  - rewrite (attempts_plain _ _ NS). reflexivity.
  - intros q Hq. apply in_map_iff in Hq. destruct Hq as (mp & <- & Hq). unfold attempt. cbn [fst snd].
    unfold before_dsk in Hq. rewrite !in_app_iff in Hq. destruct Hq as [[Hq|[Hq|[Hq|Hq]]]|Hq].
    + cbn [In] in Hq. destruct Hq as [Hq|[Hq|[Hq|[Hq|[Hq|[Hq|[]]]]]]]; subst mp; cbn [snd]; try (apply raw_atari; [exact Hb|exact ND|cbn [In]; tauto]).
      unfold refuses, parse. cbn [parse_image]. unfold parse_xex. cbn [parse_xex_loop].
      replace (negb (0 <? zlen b)) with false by lia. replace (negb (0 + 1 <? zlen b)) with false by lia.
      pose proof (bytes_ok_getb b 0 Hb) as B0. pose proof (bytes_ok_getb b 1 Hb) as B1. unfold is_byte in *.
      change (0 + 1) with 1. replace (le2 (getb b 0) (getb b 1) =? 65535) with false; [reflexivity|]. symmetry. apply Z.eqb_neq. intros X. apply NX. unfold le2 in X. lia.
    + apply in_map_iff in Hq. destruct Hq as (t & <- & _). exact (raw_cart b _ t NM).
    + apply in_map_iff in Hq. destruct Hq as (t & <- & _). exact (raw_cart b _ t NM).
    + destruct Hq as [<-|[]]. unfold refuses, parse. cbn [snd parse_image]. rewrite Z0. reflexivity.
    + cbn [In] in Hq. destruct (dos33_other_size e true b ltac:(lia)) as [D1 D2]. destruct Hq as [<-|[<-|[]]]; [exact D1|exact D2].
  - unfold attempt. cbn [fst snd]. rewrite PX. discriminate.
Qed.

(** * Boot disks *)
Lemma kboot_found e x b : 1 <= zlen x < 65536 -> add_atr_header (add_xexboot_header x) = Ok b -> unclaimed e b ->
  exists d k, find_diskimage e b = Ok (mkFound M_atr d PKBoot (IKBoot k)) /\ kboot_file k = x.
Proof.
  intros H E [NC NS]. destruct (kboot_round x ltac:(lia) (add_xexboot_header x) eq_refl H) as (b1 & E1 & k & KO & KF). rewrite E in E1. injection E1 as <-.
  destruct (kboot_image_open x ltac:(lia) (add_xexboot_header x) eq_refl) as (b1 & h & start & E1 & Zb & S0 & C & Ho & _). rewrite E in E1. injection E1 as <-.
  pose proof (kboot_hdr b k KO) as KH. unfold atari_header in KH. cbv zeta in KH. rewrite C in KH. injection KH as KH.
  pose proof (zlen_pay x (add_xexboot_header x) eq_refl) as Zp.
  assert (PX : parse e true PKBoot b = Ok (IKBoot k)).
  { unfold parse. cbn [parse_image]. rewrite KO. cbn [rbind]. rewrite <- KH. unfold atr_strict. rewrite Ho. reflexivity. }
  destruct (detail_ok M_atr b) as [d Hd].
  { intros [L Hj]. clear PX KF KO KH C Ho S0 NC NS start k. set (pay := add_xexboot_header x) in *. clearbody pay.
    unfold add_atr_header in E. destruct (check_size (mkH 16 0 128 0 0 128 0 0 0 0) (zlen pay)) as [h1|] eqn:C1; [|discriminate E]. cbn [rbind] in E. injection E as <-.
    unfold check_size in C1. replace (zlen pay =? 92160) with false in C1 by lia. replace (zlen pay =? 92176) with false in C1 by lia.
    replace (zlen pay =? 184320) with false in C1 by lia. replace (zlen pay =? 184336) with false in C1 by lia.
    replace (zlen pay =? 183936) with false in C1 by lia. replace (zlen pay =? 183952) with false in C1 by lia.
    cbn [orb h_ssize] in C1. cbn [Z.eqb] in C1.
    match type of C1 with Ok ?v = Ok _ => assert (X : v = h1) by congruence end. clear C1. cbn in X. subst h1.
    assert (Lp : 0 <= zlen pay <= 2124) by (pose proof (zlen_nonneg pay); lia). clear Zp Zb L.
    assert (G : forall y l, slice (atr_encode (mkH 16 (zlen pay) 128 0 0 128 ((zlen pay - 0) / 128 + 0) 0 0 0) ++ pay) 0 5 = y :: l -> getb (y :: l) 3 = 0).
    { intros y l <-. rewrite slice_app_l by (rewrite ?zlen_atr_encode; lia). unfold atr_encode. cbn -[Z.div Z.modulo u8]. unfold u8.
      assert (Lq : 0 <= zlen pay / 16 < 256) by (split; [apply Z.div_pos; lia|apply Z.div_lt_upper_bound; lia]).
      rewrite (Z.mod_small (zlen pay / 16)) by lia. rewrite (Z.div_small (zlen pay / 16)) by lia. reflexivity. }
    destruct Hj as [Hj|Hj]; apply G in Hj; discriminate Hj. }
  exists d, k. split; [|exact KF].
  apply (C45_first_wins e b b (true, (M_atr, PKBoot)) (IKBoot k) d); [apply unpacked_plain; exact NC| |exact PX|exact Hd].
  rewrite (attempts_plain _ _ NS). exists [], (map (pair true) (tl documented_order)). split; [reflexivity|]. split; [intros q []|].
  unfold attempt. cbn [fst snd]. rewrite PX. discriminate.
Qed.
