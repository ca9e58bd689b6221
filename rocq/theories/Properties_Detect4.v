(** C42: refutations and cases.  C70: known ROM images. *)
From Verif Require Import Base BaseLemmas DiskModel DirLemmas AtariModel AtariSpec AtariGeom AtariHeader AtariWrite AtariOps AtariProps AtariBlank AtariDemo SpartaModel ExecModel DetectModel DetectSpec DetectProofs DetectErrors DetectErrors2 DetectErrors3 DetectStay Properties_Detect Properties_Detect2 DetectDsk Dos33Model Dos33Spec Dos33Dir Dos33Files Dos33Ops Properties_Detect3.
From Verif Require CartModel Properties_Cart.

(** * C42 *)

(** The conditions of C42_detection_partial hold for every consistent Atari disk
    whose first sector is not a SpartaDOS boot record. *)
Lemma consistent_usual im : consistent im -> usual_sectors (a_bytes im).
Proof.
  intros C A. destruct (consistent_view im C) as (k & E & G & D & Hh).
  pose proof (hg_ss _ _ G) as SS. pose proof (hg_16 _ _ G) as S16.
  destruct (in_dec Z.eq_dec (zlen (a_bytes im) - 16) [92160; 92176; 184320; 184336; 183936; 183952]) as [I0|I0]; [left; exact I0|right]. cbn [In] in I0.
  assert (X : h_ssize (a_hdr im) = le2 (getb (a_bytes im) 4) (getb (a_bytes im) 5)).
  { revert Hh. unfold hdr_of, read_header, atr_header. destruct A as (L & A0 & A1). rewrite (zlen_slice (a_bytes im) 0 16) by lia. change (16 - 0 =? 16) with true. cbv zeta.
    rewrite !getb_slice by lia. cbn [Z.add]. rewrite A0, A1. change (negb (le2 150 2 =? 662)) with false. cbv iota. unfold check_size. cbn [h_ssize h_offset].
    replace (_ || _) with false by lia. replace (_ || _) with false by lia. replace (_ || _) with false by lia.
    destruct (_ =? 0); [discriminate|]. intros H.
    apply (f_equal (fun r => match r with Ok h => h_ssize h | Err _ => 0 end)) in H. symmetry. exact H. }
  rewrite <- X. split; [lia|]. rewrite (Z.div_mod (h_ssize (a_hdr im)) 16) by lia. rewrite S16, Z.add_0_r.
  replace (16 * (h_ssize (a_hdr im) / 16)) with ((8 * (h_ssize (a_hdr im) / 16)) * 2) by ring. apply Z.mod_mul. lia.
Qed.
Theorem C42_consistent_atari (e : env) (im : aimg) :
  consistent im -> not_container e (a_bytes im) -> sig_ok e -> zip_ok e (a_bytes im) ->
  ~ sparta_boot_record (a_bytes im) -> zlen (a_bytes im) <> 143360 ->
  library_error (find_diskimage e (a_bytes im)).
Proof.
  intros C NC SO ZO NS NL. destruct (consistent_view im C) as (k & E & G & D & Hh).
  apply C42_detection_partial; try assumption.
  - exact (dk_bytes _ _ _ D).
  - exact (consistent_usual im C).
  - intros [L _]. pose proof (big_image im C). lia.
  - intros im' d x O Hd Gf. assert (im' = im) by (destruct C as [O' _]; congruence). subst im'.
    destruct (consistent_files im d C Hd) as [y Y]. congruence.
  - intros L. contradiction.
Qed.
Print Assumptions C42_consistent_atari.
Example C42_example : sig_ok env0 /\ exists im, consistent im /\ not_container env0 (a_bytes im) /\ zip_ok env0 (a_bytes im) /\
  ~ sparta_boot_record (a_bytes im) /\ zlen (a_bytes im) <> 143360.
Proof.
  split; [intros b m H; discriminate H|].
  assert (PS : plain_size 128 720) by (unfold plain_size; split; [cbn [In]; lia|lia]).
  destruct (C69_formatted_detected env0 128 720) as (im & B & C & _ & N); [lia|reflexivity|lia|exact PS|apply env0_unclaimed; reflexivity|].
  exists im. split; [exact C|]. split; [rewrite B; apply env0_unclaimed; reflexivity|]. split; [split; [discriminate|intros x H; discriminate H]|].
  split; [exact N|]. rewrite B. unfold fmt_disk. vm_compute. discriminate.
Qed.

(** Files that make detection raise something else than an error of the library. *)
(** An ATR header of a single density disk and nothing else: IndexError *)
Definition bare_header : list Z := [0x96; 0x02; 0xd0; 0x05; 0x80; 0; 0; 0; 0; 0; 0; 0; 0; 0; 0; 0].
Theorem C42_short_disk_refuted : exists b, bytes_ok b /\ usual_sectors b /\ find_diskimage env0 b = Err EIndex.
Proof.
  exists bare_header. split; [apply bytes_ok_b; reflexivity|]. split; [intros _; right; vm_compute; split; [discriminate|reflexivity]|]. vm_compute. reflexivity.
Qed.
Print Assumptions C42_short_disk_refuted.
(** An ATR header with sector size 0: ZeroDivisionError *)
Theorem C42_sector_size_refuted : exists b, bytes_ok b /\ find_diskimage env0 b = Err EZeroDiv.
Proof. exists [0x96; 0x02; 1; 0; 0; 0; 0; 0; 0; 0; 0; 0; 0; 0; 0; 0]. split; [apply bytes_ok_b; reflexivity|]. vm_compute. reflexivity. Qed.
Print Assumptions C42_sector_size_refuted.
(** One sector that looks like a SpartaDOS boot sector without a directory: TypeError *)
Definition sparta_sector : list Z := zrepeat 0 11 ++ [1; 0] ++ zrepeat 0 18 ++ [0x80; 0x11] ++ zrepeat 0 95.
Theorem C42_sparta_refuted : exists b, bytes_ok b /\ usual_sectors b /\ find_diskimage env0 b = Err EType.
Proof.
  exists sparta_sector. split; [apply bytes_ok_b; reflexivity|]. split; [|vm_compute; reflexivity].
  intros (_ & X & _). vm_compute in X. discriminate X.
Qed.
Print Assumptions C42_sparta_refuted.
(** An Apple disk whose VTOC says that it has one sector: NameError *)
Definition one_sector_disk : list Z := zrepeat 0 (272 * 256 + 0x34) ++ [1; 1] ++ zrepeat 0 (143360 - (272 * 256 + 0x36)).
Lemma osd_get i : 0 <= i < 143360 -> getb one_sector_disk i = if (i =? 272 * 256 + 0x34) || (i =? 272 * 256 + 0x35) then 1 else 0.
Proof.
  intros Hi. unfold one_sector_disk. destruct (Z.ltb_spec i (272 * 256 + 0x34)) as [L|L].
  - rewrite getb_app_l by (rewrite zlen_zrepeat; lia). rewrite getb_zrepeat by lia. replace (_ || _) with false by lia. reflexivity.
  - rewrite getb_app_r by (rewrite zlen_zrepeat; lia). rewrite zlen_zrepeat by lia.
    destruct (Z.ltb_spec i (272 * 256 + 0x36)) as [L'|L'].
    + assert (E : i = 272 * 256 + 0x34 \/ i = 272 * 256 + 0x35) by lia. destruct E as [-> | ->]; vm_compute; reflexivity.
    + rewrite getb_app_r by (change (zlen [1; 1]) with 2; lia). change (zlen [1; 1]) with 2. rewrite getb_zrepeat by lia. replace (_ || _) with false by lia. reflexivity.
Qed.
Lemma osd_len : zlen one_sector_disk = 143360.
Proof. unfold one_sector_disk. rewrite !zlen_app, !zlen_zrepeat by lia. reflexivity. Qed.
Lemma osd_bytes : bytes_ok one_sector_disk.
Proof.
  unfold one_sector_disk. apply bytes_ok_app. split; [apply bytes_ok_zrepeat; unfold is_byte; lia|]. apply bytes_ok_app.
  split; [apply bytes_ok_b; reflexivity|apply bytes_ok_zrepeat; unfold is_byte; lia].
Qed.
Lemma osd_parse e s : parse e s PDos33 one_sector_disk = Err EName.
Proof.
  pose proof osd_len as L.
  assert (V0 : forall n, 0 <= n < 560 -> forall i, 0 <= i < 256 -> getb (slice one_sector_disk (n * 256) (n * 256 + 256)) i = getb one_sector_disk (n * 256 + i))
    by (intros; rewrite getb_slice by lia; reflexivity).
  assert (B : boot_info (mkI one_sector_disk hdr33_0 [] true) = Ok tt).
  { unfold boot_info. cbn [i_hdr i_bytes]. rewrite raw3_0 by (assumption || lia). cbn [rbind].
    destruct (zlist_eqb _ _) eqn:Q.
    - exfalso. apply zlist_eqb_eq in Q. assert (X : getb (slice (slice one_sector_disk (0 * 256) (0 * 256 + 256)) 0 4) 0 = 1) by (rewrite Q; reflexivity).
      rewrite getb_slice in X by lia. rewrite V0 in X by lia. rewrite osd_get in X by lia. discriminate X.
    - rewrite raw3_0 by (assumption || lia). cbn [rbind]. rewrite !V0 by lia. rewrite !osd_get by lia. reflexivity. }
  unfold parse. cbn [parse_image]. unfold open33. rewrite L. change (negb (143360 =? 143360)) with false. cbv iota.
  unfold get_metadata3. rewrite B. unfold get_vtoc3. cbn [i_hdr i_bytes]. rewrite raw3_0 by (assumption || lia). cbv zeta. cbn [i_files i_sane].
  rewrite !V0 by lia. rewrite !osd_get by lia. vm_compute. reflexivity.
Qed.
Theorem C42_apple_refuted : exists b, bytes_ok b /\ zlen b = 143360 /\ apple_boot b /\ find_diskimage env0 b = Err EName.
Proof.
  exists one_sector_disk. pose proof osd_len as L. pose proof osd_bytes as Hb.
  assert (Z0 : forall p, 0 <= p < 256 -> getb one_sector_disk p = 0) by (intros p Hp; rewrite osd_get by lia; replace (_ || _) with false by lia; reflexivity).
  assert (A : apple_boot one_sector_disk) by (apply zero_boot; assumption).
  split; [exact Hb|]. split; [exact L|]. split; [exact A|].
  destruct (env0_unclaimed3 one_sector_disk (Z0 0 ltac:(lia))) as (NC & NS & NZ).
  apply dsk_detect_err; try assumption; [apply osd_parse|discriminate].
Qed.
Print Assumptions C42_apple_refuted.

(** * C70: images listed in the signature table *)

Lemma sig_found e b m p im : not_container e b -> e_sig e b = Some m ->
  (exists before after, mime_parsers m = before ++ p :: after /\ forall q, In q before -> refuses (parse e false q b)) ->
  parse e false p b = Ok im -> find_diskimage e b = Ok (mkFound m None p im).
Proof.
  intros NC SG (bf & af & EQ & R) P.
  apply (C45_first_wins e b b (false, (m, p)) im None); [apply unpacked_plain; exact NC| |exact P|reflexivity].
  unfold attempts. rewrite SG, EQ, map_app. cbn [map].
  exists (map (fun p => (false, (m, p))) bf), (map (fun p => (false, (m, p))) af ++ map (pair true) documented_order). split; [|split].
  - rewrite <- app_assoc. reflexivity.
  - intros q Hq. apply in_map_iff in Hq. destruct Hq as (x & <- & Hx). exact (R x Hx).
  - unfold attempt, refuses. cbn [fst snd]. rewrite P. discriminate.
Qed.
Definition pow2 (n : Z) : Prop := exists k, 0 <= k /\ n = 2 ^ k.
Lemma rom_pow2 b : pow2 (zlen b) -> rom_image b = Ok (IRom b).
Proof.
  intros P. assert (N : zlen b <> 0). { destruct P as (k & Hk & ->). apply Z.pow_nonzero; lia. }
  unfold rom_image. rewrite (proj2 (proj1 (Properties_Cart.C65_rom_partial b) N) P). reflexivity.
Qed.
(** A known 2600 or Vectrex image whose size is a power of two is recognised as
    such, whatever else it looks like. *)
Theorem C70_known_rom_partial (e : env) (b : list Z) (m : mime) :
  not_container e b -> e_sig e b = Some m -> m = M_2600 \/ m = M_vectrex -> pow2 (zlen b) ->
  find_diskimage e b = Ok (mkFound m None (if match m with M_2600 => true | _ => false end then P2600 else PVectrex) (IRom b)).
Proof.
  intros NC SG M P. apply sig_found; [exact NC|exact SG| |].
  - exists [], []. split; [destruct M as [-> | ->]; reflexivity|intros q []].
  - unfold parse. destruct M as [-> | ->]; cbn [parse_image]; rewrite rom_pow2 by exact P; reflexivity.
Qed.
Print Assumptions C70_known_rom_partial.

(** The cartridge type given to a known 5200 image. *)
Definition type52 (size : Z) : Z :=
  if size =? 4096 then 20 else if size =? 8192 then 19 else if size =? 16384 then 16
  else if size =? 32768 then 4 else if size =? 40960 then 7 else -1.
Definition relaxed_n (n : Z) (b : list Z) (t : Z) : res image :=
  let! _ := CartModel.get_cart t in
  let! h := CartModel.set_type CartModel.no_header t in
  let! c := CartModel.get_cart (CartModel.h_type h) in
  if CartModel.h_type h =? -1 then Ok (ICart (CartModel.mkCI b t h))
  else if 0 <? (n - CartModel.h_off h) mod 1024 then Err (EAtr InvalidDiskImage)
  else if negb ((n - CartModel.h_off h) / 1024 =? CartModel.ct_size c) then Err (EAtr InvalidDiskImage)
  else Ok (ICart (CartModel.mkCI b t h)).
Lemma set_type_type h t x : CartModel.set_type h t = Ok x -> CartModel.h_type x = t.
Proof.
  unfold CartModel.set_type. destruct (CartModel.get_cart t) as [c|]; cbn [rbind]; [|discriminate].
  destruct (match CartModel.ct_main c with Some _ => _ | None => _ end) as [[ms mo] ma].
  destruct (CartModel.ct_bank c) as [[[bs bo] ba]|].
  - destruct (CartModel.bank_loop _ _ _ _); cbn [rbind]; [|discriminate]. intros H. injection H as <-. reflexivity.
  - intros H. injection H as <-. reflexivity.
Qed.
Lemma relaxed_eq k b t : t <> -1 -> slice b 0 4 <> CartModel.cart_magic -> cart_image k false b t = relaxed_n (zlen b) b t.
Proof.
  intros T N. unfold cart_image, CartModel.open_cart, relaxed_n. destruct (CartModel.get_cart t) as [ct|] eqn:G; cbn [rbind]; [|reflexivity].
  replace (match CartModel.read_cart_header (slice b 0 16) with Err (EAtr InvalidCartHeader) => Ok CartModel.no_header | r => r end) with (@Ok CartModel.cheader CartModel.no_header).
  2:{ unfold CartModel.read_cart_header. destruct (Z.eqb_spec (zlen (slice b 0 16)) 16) as [L|L]; [|reflexivity].
      replace (zlist_eqb _ CartModel.cart_magic) with false; [reflexivity|]. symmetry. destruct (zlist_eqb _ _) eqn:Z0; [|reflexivity].
      apply zlist_eqb_eq in Z0. exfalso. apply N. pose proof (zlen_nonneg b).
      assert (16 <= zlen b) by (revert L; rewrite zlen_slice_min by lia; lia). rewrite slice_slice in Z0 by lia. rewrite <- Z0. f_equal; lia. }
  cbn [rbind]. change (CartModel.cart_check_size (CartModel.mkCI b t CartModel.no_header)) with (@Ok unit tt). cbn [rbind]. unfold CartModel.cart_relaxed. cbn [rbind CartModel.ci_hdr CartModel.ci_type CartModel.ci_bytes CartModel.h_type].
  change (CartModel.h_type CartModel.no_header) with (-1). replace (-1 =? t) with false by lia. cbn [negb].
  destruct (CartModel.set_type CartModel.no_header t) as [h|] eqn:ST; cbn [rbind]; [|reflexivity].
  pose proof (set_type_type _ _ _ ST) as HT. rewrite HT, G. cbn [rbind]. unfold CartModel.cart_check_size. cbn [CartModel.ci_hdr CartModel.ci_bytes]. rewrite HT.
  replace (t =? -1) with false by lia. rewrite G. cbn [rbind]. destruct (0 <? _); [reflexivity|]. destruct (negb _); reflexivity.
Qed.
(** A known 5200 image without a cartridge header, of 4 KB or more: the type is
    the one given by the size. *)
Theorem C70_known_5200_partial (e : env) (b : list Z) :
  not_container e b -> sig_ok e -> e_sig e b = Some M_cart52 -> slice b 0 4 <> CartModel.cart_magic -> zlen b <> 2048 ->
  exists c, find_diskimage e b = Ok (mkFound M_cart52 None (PCart52 (type52 (zlen b))) (ICart c)) /\
    CartModel.ci_bytes c = b /\ CartModel.h_type (CartModel.ci_hdr c) = type52 (zlen b).
Proof.
  intros NC SO SG N L0. pose proof (SO b _ SG) as T. cbn [in_table] in T. apply zmem_In in T.
  assert (K : forall t n, t <> -1 -> zlen b = n -> parse e false (PCart52 t) b = as_parser (relaxed_n n b t)).
  { intros t n Ht <-. unfold parse. cbn [parse_image]. rewrite relaxed_eq by assumption. reflexivity. }
  assert (E : forall t n im bf af, zlen b = n -> mime_parsers M_cart52 = map PCart52 bf ++ PCart52 t :: af ->
     forallb (fun t => negb (t =? -1)) (t :: bf) = true ->
     (forall q, In q bf -> as_parser (relaxed_n n b q) = Err (EAtr InvalidSegmentParser)) -> as_parser (relaxed_n n b t) = Ok im ->
     find_diskimage e b = Ok (mkFound M_cart52 None (PCart52 t) im)).
  { intros t n im bf af Hn EQ NN R P. rewrite forallb_forall in NN. apply sig_found; [exact NC|exact SG| |].
    - exists (map PCart52 bf), af. split; [exact EQ|]. intros q Hq. apply in_map_iff in Hq. destruct Hq as (x & <- & Hx). unfold refuses.
      rewrite (K x n); [exact (R x Hx)| |exact Hn]. specialize (NN x (or_intror Hx)). lia.
    - rewrite (K t n); [exact P| |exact Hn]. specialize (NN t (or_introl eq_refl)). lia. }
  cbn [sig_5200 In] in T. destruct T as [T|[T|[T|[T|[T|[T|[]]]]]]]; [congruence| | | | |]; symmetry in T; rewrite T.
  - eexists. split; [|split; [|]]; [apply (E 20 4096 _ [0] (map PCart52 [19; 16; 6; 4; 7]) T); [reflexivity|reflexivity| |vm_compute; reflexivity]; cbn [In]; intuition (subst; vm_compute; reflexivity)|reflexivity|reflexivity].
  - eexists. split; [|split; [|]]; [apply (E 19 8192 _ [0; 20] (map PCart52 [16; 6; 4; 7]) T); [reflexivity|reflexivity| |vm_compute; reflexivity]; cbn [In]; intuition (subst; vm_compute; reflexivity)|reflexivity|reflexivity].
  - eexists. split; [|split; [|]]; [apply (E 16 16384 _ [0; 20; 19] (map PCart52 [6; 4; 7]) T); [reflexivity|reflexivity| |vm_compute; reflexivity]; cbn [In]; intuition (subst; vm_compute; reflexivity)|reflexivity|reflexivity].
  - eexists. split; [|split; [|]]; [apply (E 4 32768 _ [0; 20; 19; 16; 6] (map PCart52 [7]) T); [reflexivity|reflexivity| |vm_compute; reflexivity]; cbn [In]; intuition (subst; vm_compute; reflexivity)|reflexivity|reflexivity].
  - eexists. split; [|split; [|]]; [apply (E 7 40960 _ [0; 20; 19; 16; 6; 4] [] T); [reflexivity|reflexivity| |vm_compute; reflexivity]; cbn [In]; intuition (subst; vm_compute; reflexivity)|reflexivity|reflexivity].
Qed.
Print Assumptions C70_known_5200_partial.
(** An environment whose table knows one image by its first byte and its size. *)
Definition env_sig (m : mime) (n : Z) : env :=
  mkEnv (fun _ => NotPacked) (fun _ => NotPacked) (fun _ => NotPacked) (fun _ => NotZip)
    (fun b => if (zlen b =? n) && (getb b 0 =? 7) then Some m else None).
Example C70_example : sig_ok (env_sig M_vectrex 128) /\ not_container (env_sig M_vectrex 128) (7 :: zrepeat 0 127) /\
  e_sig (env_sig M_vectrex 128) (7 :: zrepeat 0 127) = Some M_vectrex /\ pow2 (zlen (7 :: zrepeat 0 127)) /\
  sig_ok (env_sig M_cart52 4096) /\ not_container (env_sig M_cart52 4096) (7 :: zrepeat 0 4095) /\
  e_sig (env_sig M_cart52 4096) (7 :: zrepeat 0 4095) = Some M_cart52 /\ slice (7 :: zrepeat 0 4095) 0 4 <> CartModel.cart_magic.
Proof.
  assert (SO : forall m n, in_table m n = true -> sig_ok (env_sig m n)).
  { intros m n T b x H. cbn [env_sig e_sig] in H. destruct (Z.eqb_spec (zlen b) n) as [E|E]; cbn [andb] in H; [|discriminate].
    destruct (_ =? 7); [|discriminate]. injection H as <-. rewrite E. exact T. }
  assert (NC : forall m n l, not_container (env_sig m n) (7 :: l)).
  { intros m n l. repeat (split; [reflexivity|]). intros (_ & [X|X] & _); discriminate X. }
  split; [apply SO; vm_compute; reflexivity|]. split; [apply NC|]. split; [vm_compute; reflexivity|]. split; [exists 7; split; [lia|vm_compute; reflexivity]|].
  split; [apply SO; vm_compute; reflexivity|]. split; [apply NC|]. split; [vm_compute; reflexivity|]. vm_compute. discriminate.
Qed.
(** Images whose size is not a power of two are never recognised by the table:
    all Starpath tapes, for example. *)
Theorem C70_starpath_refuted (e : env) (b : list Z) (f : found) :
  not_container e b -> sig_ok e -> e_sig e b = Some M_starpath -> find_diskimage e b = Ok f -> f_mime f <> M_starpath.
Proof.
  intros NC SO SG F M. pose proof (SO b _ SG) as T. cbn [in_table] in T. apply zmem_In in T.
  assert (R : refuses (parse e false PStarpath b)).
  { unfold refuses, parse. cbn [parse_image]. unfold rom_image, CartModel.open_rom. cbn [sig_starpath In] in T.
    destruct T as [T|[T|[T|[]]]]; rewrite <- T; reflexivity. }
  pose proof (C45_first_accepting e b b (unpacked_plain e b NC)) as S0. rewrite F in S0. destruct S0 as (a & (bf & af & EQ & _ & NR) & E & P & _).
  assert (Hin : In a (attempts e b)) by (rewrite EQ; apply in_or_app; right; left; reflexivity).
  unfold attempts in Hin. rewrite SG in Hin. apply in_app_or in Hin. destruct Hin as [Hin|Hin].
  - cbn [mime_parsers map In] in Hin. destruct Hin as [<-|[]]. exact (NR R).
  - apply in_map_iff in Hin. destruct Hin as (mp & <- & Hin). cbn [snd] in E. rewrite M in E. subst mp.
    assert (X : forallb (fun mp => match fst mp with M_starpath => false | _ => true end) documented_order = true) by (vm_compute; reflexivity).
    rewrite forallb_forall in X. specialize (X _ Hin). discriminate X.
Qed.
Print Assumptions C70_starpath_refuted.
