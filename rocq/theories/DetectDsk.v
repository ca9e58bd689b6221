(** Detection of Apple DOS 3.3 disks: which parsers refuse 143360 bytes. *)
From Verif Require Import Base BaseLemmas DiskModel DirLemmas AtariModel AtariSpec AtariGeom AtariHeader AtariProps SpartaModel ExecModel DetectModel DetectSpec DetectProofs DetectErrors DetectErrors2 DetectErrors3 DetectStay Properties_Detect Dos33Model Dos33Spec Dos33Dir Dos33Files Dos33Ops.
From Verif Require CartModel.

(** The first bytes are not those of an ATR file, of an Atari executable, of a
    cartridge or of a SpartaDOS disk. *)
Record apple_boot (b : list Z) : Prop := mkAB {
  ab_atr : ~ has_atr_header b;
  ab_xex : ~ (getb b 0 = 255 /\ getb b 1 = 255);
  ab_cart : slice b 0 4 <> CartModel.cart_magic;
  ab_sparta : ~ sparta_boot_record b }.

(** The parsers tried before those for Apple disks. *)
Definition before_dsk : list (mime * pclass) :=
  [(M_atr, PKBoot); (M_atr, PSparta); (M_atr, PAtariDos); (M_atr, PBoot); (M_atr, PUnidentified);
   (M_xex, PXex)]
  ++ map (fun t => (M_cart8, PCart8 t)) (CartModel.cart_parsers CartModel.HomeComputer)
  ++ map (fun t => (M_cart52, PCart52 t)) (CartModel.cart_parsers CartModel.A5200)
  ++ [(M_mame, PMame)].

Section Dsk.
  Variables (e : env) (b : list Z).
  Hypothesis Hb : bytes_ok b.
  Hypothesis Hl : zlen b = 143360.
  Hypothesis A : apple_boot b.

  Lemma plain_usual : usual_sectors b.
  Proof. intros H. exfalso. exact (ab_atr b A H). Qed.
  Lemma strict_fails h : atari_header b = Ok h -> checked true (atr_strict h (zlen b)) = Err (EAtr InvalidSegmentParser).
  Proof.
    intros E. destruct (header_usual b Hb plain_usual) as (h' & E' & _ & _ & O & _ & OI). assert (h' = h) by congruence. subst h'.
    unfold atr_strict. rewrite Hl. destruct O as [O|O]; [rewrite O; reflexivity|]. exfalso. apply (ab_atr b A), OI, O.
  Qed.
  Lemma kboot_hdr k : kboot_open b = Ok k -> atari_header b = Ok (k_hdr k).
  Proof.
    unfold kboot_open, atari_header. cbv zeta. destruct (check_size _ _) as [h|]; cbn [rbind]; [|discriminate].
    destruct (get_pos h 4) as [[p s]|y]; cbn [rbind]; [|discriminate]. destruct (_ <=? _); [discriminate|]. destruct (_ || _); [discriminate|].
    intros X. injection X as <-. reflexivity.
  Qed.
  Lemma dsk_atari p : In p [PKBoot; PSparta; PAtariDos; PBoot; PUnidentified] -> refuses (parse e true p b).
  Proof.
    destruct (header_usual b Hb plain_usual) as (h & E & S1 & S2 & _). pose proof (strict_fails h E) as SF.
    assert (K : forall r : res image, clean r -> (forall x, r <> Ok x) -> as_parser r = Err (EAtr InvalidSegmentParser)).
    { intros r C N. pose proof (as_parser_clean r C) as Q. destruct r as [x|x]; [exfalso; exact (N x eq_refl)|].
      destruct x as [y| | | | | | | | | | | |]; try discriminate C. destruct y; try discriminate C; reflexivity. }
    intros [<-|[<-|[<-|[<-|[<-|[]]]]]]; unfold refuses, parse.
    - apply K; [apply kboot_parse_clean; [exact Hb|exact plain_usual]|]. intros x. cbn [parse_image].
      destruct (kboot_open b) as [k|] eqn:KO; cbn [rbind]; [|discriminate]. rewrite (strict_fails _ (kboot_hdr k KO)). discriminate.
    - exact (sparta_refuses e true b Hb plain_usual (ab_sparta b A)).
    - apply K.
      + cbn [parse_image]. apply clean_bind; [exact (open_image_clean b h Hb E S1 S2)|]. intros im O.
        destruct (open_image_hdr b im O) as [Hh _]. rewrite (strict_fails _ Hh). reflexivity.
      + intros x. cbn [parse_image]. destruct (open_image b) as [im|] eqn:O; cbn [rbind]; [|discriminate].
        destruct (open_image_hdr b im O) as [Hh _]. rewrite (strict_fails _ Hh). discriminate.
    - apply K; [apply boot_clean; [exact Hb|exact plain_usual]|]. intros x. cbn [parse_image]. rewrite E. cbn [rbind].
      destruct (boot_check h b); cbn [rbind]; [|discriminate]. rewrite SF. discriminate.
    - apply K; [apply unidentified_clean; [exact Hb|exact plain_usual]|]. intros x. cbn [parse_image]. rewrite E. cbn [rbind]. rewrite SF. discriminate.
  Qed.
  Lemma dsk_xex : refuses (parse e true PXex b).
  Proof.
    unfold refuses, parse. cbn [parse_image]. unfold parse_xex. cbn [parse_xex_loop]. rewrite Hl. cbn [Z.ltb Z.compare negb Z.add].
    pose proof (bytes_ok_getb b 0 Hb) as B0. pose proof (bytes_ok_getb b 1 Hb) as B1. unfold is_byte in *.
    replace (le2 (getb b 0) (getb b 1) =? 65535) with false; [reflexivity|]. symmetry. apply Z.eqb_neq. intros X. apply (ab_xex b A).
    unfold le2 in X. lia.
  Qed.
  Lemma dsk_cart k t : refuses (as_parser (cart_image k true b t)).
  Proof.
    pose proof (cart_clean k true b t) as C. pose proof (as_parser_clean _ C) as Q. unfold refuses.
    destruct (as_parser _) as [x|x] eqn:P; [exfalso|congruence].
    revert P. unfold cart_image. unfold CartModel.open_cart. destruct (CartModel.get_cart t) as [ct|y]; cbn [rbind].
    2:{ destruct y as [a| | | | | | | | | | | |]; try discriminate. destruct a; discriminate. }
    unfold CartModel.read_cart_header. rewrite zlen_slice by lia. change (16 - 0 =? 16) with true. cbv iota.
    rewrite slice_slice by lia. replace (zlist_eqb _ CartModel.cart_magic) with false.
    2:{ symmetry. destruct (zlist_eqb _ _) eqn:Z0; [|reflexivity]. apply zlist_eqb_eq in Z0. exfalso. apply (ab_cart b A).
        rewrite <- Z0. f_equal; lia. }
    cbn [rbind CartModel.cart_check_size CartModel.ci_hdr CartModel.no_header CartModel.h_type Z.eqb]. unfold CartModel.cart_strict. cbn [CartModel.ci_hdr CartModel.no_header CartModel.h_type CartModel.h_name].
    destruct k; vm_compute; discriminate.
  Qed.
  Lemma dsk_early : e_zip e b = NotZip -> forall q, In q before_dsk -> refuses (parse e true (snd q) b).
  Proof.
    intros Z0 q Hq. unfold before_dsk in Hq. rewrite !in_app_iff in Hq. destruct Hq as [Hq|[Hq|[Hq|Hq]]].
    - cbn [In] in Hq. destruct Hq as [Hq|[Hq|[Hq|[Hq|[Hq|[Hq|[]]]]]]]; subst q; cbn [snd]; try (apply dsk_atari; cbn [In]; tauto). exact dsk_xex.
    - apply in_map_iff in Hq. destruct Hq as (t & <- & _). exact (dsk_cart _ t).
    - apply in_map_iff in Hq. destruct Hq as (t & <- & _). exact (dsk_cart _ t).
    - destruct Hq as [<-|[]]. unfold refuses, parse. cbn [snd parse_image]. rewrite Z0. reflexivity.
  Qed.
End Dsk.

(** Detection of such data is what the DOS 3.3 parser says, unless it refuses. *)
Lemma dsk_detect e b im : bytes_ok b -> zlen b = 143360 -> apple_boot b -> not_container e b -> e_sig e b = None -> e_zip e b = NotZip ->
  parse e true PDos33 b = Ok im -> find_diskimage e b = Ok (mkFound M_dsk None PDos33 im).
Proof.
  intros Hb Hl A NC NS Z0 P.
  apply (C45_first_wins e b b (true, (M_dsk, PDos33)) im None); [apply unpacked_plain; exact NC| |exact P|reflexivity].
  exists (map (pair true) before_dsk), (map (pair true) [(M_dsk, PProdos); (M_bin, PBin); (M_rom, PRom)]). split; [|split].
  - unfold attempts. rewrite NS. reflexivity.
  - intros q Hq. apply in_map_iff in Hq. destruct Hq as (mp & <- & Hq). unfold attempt. cbn [fst snd]. apply dsk_early; assumption.
  - unfold attempt. cbn [fst snd]. rewrite P. discriminate.
Qed.
Lemma dsk_detect_err e b x : bytes_ok b -> zlen b = 143360 -> apple_boot b -> not_container e b -> e_sig e b = None -> e_zip e b = NotZip ->
  parse e true PDos33 b = Err x -> x <> EAtr InvalidSegmentParser -> find_diskimage e b = Err x.
Proof.
  intros Hb Hl A NC NS Z0 P NX.
  assert (F : first_choice (attempt e b) (attempts e b) (true, (M_dsk, PDos33))).
  { exists (map (pair true) before_dsk), (map (pair true) [(M_dsk, PProdos); (M_bin, PBin); (M_rom, PRom)]). split; [|split].
    - unfold attempts. rewrite NS. reflexivity.
    - intros q Hq. apply in_map_iff in Hq. destruct Hq as (mp & <- & Hq). unfold attempt. cbn [fst snd]. apply dsk_early; assumption.
    - unfold attempt, refuses. cbn [fst snd]. rewrite P. congruence. }
  pose proof (find_spec e b b (unpacked_plain e b NC)) as S0. destruct (find_diskimage e b) as [f|y].
  - exfalso. destruct S0 as (a & F' & _ & Q & _). rewrite <- (first_choice_unique _ _ _ _ F F') in Q. unfold attempt in Q. cbn [fst snd] in Q. congruence.
  - destruct S0 as [(N & _)|(a & F' & K)]; [exfalso; exact (first_choice_not_all _ _ _ F N)|].
    rewrite <- (first_choice_unique _ _ _ _ F F') in K. unfold attempt in K. cbn [fst snd] in K. destruct K as [K|(im & K & _)]; congruence.
Qed.

(** * Consistent DOS 3.3 disks *)
Lemma consistent3_file im d : consistent3 im -> In d (i_files im) -> exists x, get_file3 im d = Ok x.
Proof.
  intros C Hin. destruct (consistent3_view im C) as (cat & k & E & D). rewrite E in *. cbn [view3 i_files] in Hin.
  set (b := i_bytes im) in *. apply (in_files3 b cat k D) in Hin. destruct Hin as (i & Hi & L & ->).
  destruct (k3_files _ _ _ D i Hi L) as (_ & _ & tl & dl & F & _). exists (contents3 b dl).
  exact (get_file3_spec b cat k _ i tl dl D Hi L F).
Qed.
Lemma consistent3_vtoc im : consistent3 im -> zlen (i_bytes im) = 143360 /\ vtoc_sectors (i_bytes im) = 560 /\ bytes_ok (i_bytes im).
Proof.
  intros C. destruct (consistent3_view im C) as (cat & k & _ & D). split; [exact (k3_size _ _ _ D)|]. split; [|exact (k3_bytes _ _ _ D)].
  pose proof (k3_geom _ _ _ D) as G. pose proof (k3_size _ _ _ D) as L. unfold vtoc_sectors. rewrite <- G. unfold vtoc, sec. rewrite !getb_slice by lia. reflexivity.
Qed.
Lemma consistent3_parses e s im : consistent3 im -> parse e s PDos33 (i_bytes im) = Ok (IDos33 im).
Proof.
  intros C. destruct (consistent3_vtoc im C) as (L & V & Hb). destruct (parse e s PDos33 (i_bytes im)) as [x|x] eqn:P.
  - unfold parse in P. cbn [parse_image] in P. rewrite (proj1 C) in P. cbn [rbind] in P. destruct (dos33_segments im); cbn [rbind as_parser] in P; [congruence|].
    destruct e0 as [a| | | | | | | | | | | |]; try discriminate P. destruct a; discriminate P.
  - exfalso. pose proof (open33_hdr _ _ (proj1 C)) as (_ & _ & M). rewrite V in M.
    unfold parse in P. cbn [parse_image] in P. rewrite (proj1 C) in P. cbn [rbind] in P. unfold dos33_segments in P. cbv zeta in P.
    rewrite !slices3_ok in P by lia. cbn [rbind] in P. unfold get_pos3, valid3 in P. rewrite M in P. cbn in P.
    rewrite file_segments_ok in P; [discriminate|]. intros d y Hd G. destruct (consistent3_file im d C Hd) as [z Z0]. congruence.
Qed.
