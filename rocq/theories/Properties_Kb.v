(** Atari boot disks started on the modelled machine: C82. *)
From Verif Require Import Base BaseLemmas DiskModel AtariModel AtariSpec AtariDir AtariHeader AtariDemo ExecModel ExecSpec ExecProofs ExecProofs2 CliModel DetectModel MainModel MainProofs MainProofs2 MainInst CliProofs Properties_Cli Properties_Main Properties_Main2 Properties_Main3.
From Verif Require Import CpuModel AppleBoot KbSpec KbBoot.

(** * What the image holds *)
Lemma sector_code n i : 0 <= i < 0xe3 -> i <> 9 -> i <> 10 -> getb (boot_sectors n) i = getb xexboot_header i.
Proof.
  intros Hi H9 H10. set (bc := setslice xexboot_header 9 (put2 n)).
  assert (Zx : zlen xexboot_header = 300) by reflexivity.
  assert (B0 : zlen bc = 300) by (unfold bc; rewrite zlen_setslice; rewrite ?Zx, ?zlen_put2; lia).
  set (s0 := setslice (zrepeat 0 384) 0 bc).
  assert (Z0 : zlen (zrepeat 0 384) = 384) by reflexivity.
  assert (Z1 : zlen s0 = 384) by (unfold s0; rewrite zlen_setslice; rewrite ?B0, ?Z0; lia).
  assert (G1 : getb s0 i = getb bc i).
  { unfold s0. rewrite getb_setslice by (rewrite ?B0, ?Z0; lia). rewrite B0.
    replace (0 <=? i) with true by lia. replace (i <? 0 + 300) with true by lia. cbn [andb]. f_equal; lia. }
  assert (G2 : getb bc i = getb xexboot_header i).
  { unfold bc. rewrite getb_setslice by (rewrite ?zlen_put2, ?Zx; lia). rewrite zlen_put2. replace ((9 <=? i) && (i <? 9 + 2)) with false by lia. reflexivity. }
  assert (I : forall (data : list Z) off s c, zlen data = 384 -> 268 <= off -> zlen s <= 20 -> off + 40 <= 384 ->
     zlen (insert_bytes data off s c) = 384 /\ getb (insert_bytes data off s c) i = getb data i).
  { intros data off s c Hd H1 H2 H3. unfold insert_bytes. set (t := map _ s). assert (Zt : zlen t = zlen s) by (unfold t, zlen; rewrite map_length; reflexivity).
    pose proof (zlen_nonneg s). assert (0 <= (20 - zlen t) / 2 <= 10) by (rewrite Zt; Z.to_euclidean_division_equations; lia).
    split; [rewrite zlen_setslice; rewrite ?Zt; rewrite <- ?Zt; lia|]. rewrite getb_setslice by lia.
    replace (off + (20 - zlen t) / 2 <=? i) with false by lia. reflexivity. }
  unfold boot_sectors. fold bc. fold s0.
  destruct (I s0 268 title 0xc0 Z1) as [I1 I2]; [lia|cbn; lia|lia|].
  destruct (I (insert_bytes s0 268 title 0xc0) 308 author 0x40 I1) as [J1 J2]; [lia|cbn; lia|lia|].
  rewrite J2, I2, G1. exact G2.
Qed.
Lemma image_holds x b : 1 <= zlen x < 90000 -> add_atr_header (add_xexboot_header x) = Ok b ->
  le2 (getb b 4) (getb b 5) = 128 /\
  (forall k, 0 <= k -> 128 * k < zlen x -> 128 * (4 + k) <= disk_size b /\ 128 * (4 + k) <= zlen b - 16) /\
  (forall i, 0 <= i < zlen x -> getb b (400 + i) = getb x i) /\
  (forall i, 0 <= i < 0xe3 -> i <> 9 -> i <> 10 -> getb b (16 + i) = getb xexboot_header i) /\
  getb b 25 = (zlen x mod 65536) mod 256 /\ getb b 26 = (zlen x mod 65536) / 256.
Proof.
  intros Hx E. set (pay := add_xexboot_header x) in *. pose proof (zlen_pay x pay eq_refl) as Zp. destruct (pad_spec x) as (P0 & P1). destruct (boot_sectors_spec (zlen x)) as (B0 & B1 & B2 & _).
  assert (Hp : zlen x <= (zlen x + 127) / 128 * 128 < zlen x + 128) by (Z.to_euclidean_division_equations; lia).
  assert (Pm : zlen pay mod 16 = 0) by (rewrite Zp; Z.to_euclidean_division_equations; lia).
  unfold add_atr_header, check_size in E. cbn [h_ssize h_isize h_ninit h_offset h_crc h_unused h_flags] in E.
  replace (zlen pay =? 92160) with false in E by lia. replace (zlen pay =? 92176) with false in E by lia.
  replace (zlen pay =? 184320) with false in E by lia. replace (zlen pay =? 184336) with false in E by lia.
  replace (zlen pay =? 183936) with false in E by lia. replace (zlen pay =? 183952) with false in E by lia.
  cbn [orb] in E. replace (128 =? 0) with false in E by lia. cbn [rbind] in E. set (h := mkH 16 (zlen pay) _ _ _ _ _ _ _ _) in E. assert (Eb : b = atr_encode h ++ pay) by congruence. subst b. clear E.
  assert (Zb : zlen (atr_encode h ++ pay) = 16 + zlen pay) by (rewrite zlen_app, zlen_atr_encode; lia).
  assert (G : forall i, 0 <= i -> getb (atr_encode h ++ pay) (16 + i) = getb pay i) by (intros i Hi; rewrite getb_app_r by (rewrite zlen_atr_encode; lia); rewrite zlen_atr_encode; f_equal; lia).
  assert (GB : forall i, 0 <= i < 384 -> getb pay i = getb (boot_sectors (zlen x)) i) by (intros i Hi; apply getb_app_l; lia).
  split; [reflexivity|]. split; [|split; [|split; [|split]]].
  - intros k Hk Hkx. assert (D : disk_size (atr_encode h ++ pay) = zlen pay).
    { set (P := zlen pay / 16). transitivity (16 * (le2 (u8 (P mod 65536)) (u8 (P mod 65536 / 256)) + 65536 * u8 (P / 65536))); [reflexivity|]. rewrite BaseLemmas.le2_u8. unfold u16, u8. assert (0 <= P < 65536 * 256) by (unfold P; Z.to_euclidean_division_equations; lia). rewrite (Z.mod_small (P / 65536)), Z.mod_mod by (Z.to_euclidean_division_equations; lia). unfold P. Z.to_euclidean_division_equations. lia. }
    rewrite D, Zb, Zp. Z.to_euclidean_division_equations. lia.
  - intros i Hi. replace (400 + i) with (16 + (384 + i)) by lia. rewrite G by lia. unfold pay, add_xexboot_header. rewrite getb_app_r by lia. rewrite B0. replace (384 + i - 384) with i by lia. unfold pad_sectors. apply getb_app_l. lia.
  - intros i Hi H9 H10. rewrite G, GB by lia. apply sector_code; assumption.
  - change 25 with (16 + 9). rewrite G, GB by lia. rewrite B1. unfold u8. Z.to_euclidean_division_equations. lia.
  - change 26 with (16 + 10). rewrite G, GB by lia. rewrite B2. unfold u8. Z.to_euclidean_division_equations. lia.
Qed.

(** * C82 *)
(** An executable of whole pieces: the loader reads it and starts it at the address it
    leaves at $02E0, with every byte in its place.  [ps] are the pieces whose length the
    loader is told: all of them, if there are fewer than 65536 bytes. *)
Lemma boots_loads ps qs b junk bus s M' : bytes_ok (encode ps) -> Forall placed ps -> 1 <= zlen (encode ps) < 65536 -> zlen (encode (ps ++ qs)) < 90000 ->
  zlen (encode ps) = zlen (encode (ps ++ qs)) mod 65536 -> add_atr_header (add_xexboot_header (encode (ps ++ qs))) = Ok b -> booted b s ->
  xex_loads (subroutine b junk bus) ps (clear_init (mm s)) M' ->
  exists s', atari_reach b junk bus s s' /\ pc s' = le2 (M' 0x2e0) (M' 0x2e1) /\ rs s' = rs s - 2 /\ forall a, writable a -> mm s' a = M' a.
Proof.
  intros Hb F H1 H2 Em E Bo XL. assert (Ea : encode (ps ++ qs) = encode ps ++ encode qs) by (unfold encode; rewrite !flat_map_concat_map, map_app, concat_app; reflexivity).
  pose proof (zlen_nonneg (encode qs)). assert (Za : zlen (encode (ps ++ qs)) = zlen (encode ps) + zlen (encode qs)) by (rewrite Ea; apply zlen_app).
  destruct (image_holds (encode (ps ++ qs)) b ltac:(lia) E) as (A1 & A2 & A3 & A4 & A5 & A6). rewrite <- Em in A5, A6.
  apply (kboot_runs b junk bus (encode ps)) with (ps := ps); try assumption; try reflexivity.
  - intros k Hk Hl. apply A2; lia.
  - intros i Hi. rewrite A3 by lia. rewrite Ea. apply getb_app_l. lia.
  - intros i. apply bytes_ok_getb. exact Hb.
Qed.
(** No piece is outside the memory that a program may be loaded to, or sets the address of a
    routine to call. *)
Definition harmless (q : piece) : Prop :=
  match q with
  | PMark => True
  | PSeg o d => d <> [] /\ forall a, o <= a < o + zlen d -> loadable a
  | _ => False
  end.
Lemma boots_pieces ps qs b junk bus s : bytes_ok (encode ps) -> Forall harmless ps -> 1 <= zlen (encode ps) < 65536 -> zlen (encode (ps ++ qs)) < 90000 ->
  zlen (encode ps) = zlen (encode (ps ++ qs)) mod 65536 -> add_atr_header (add_xexboot_header (encode (ps ++ qs))) = Ok b -> booted b s ->
  exists s', atari_reach b junk bus s s' /\ pc s' = le2 (xex_memory ps (mm s) 0x2e0) (xex_memory ps (mm s) 0x2e1) /\ rs s' = rs s - 2 /\
    forall a, loadable a -> mm s' a = xex_memory ps (mm s) a.
Proof.
  intros Hb F H1 H2 Em E Bo.
  assert (E0 : forall a, loadable a -> clear_init (mm s) a = mm s a) by (intros a Ha; unfold loadable in Ha; unfold clear_init; rewrite !upd_neq by lia; reflexivity).
  assert (E1 : forall a, loadable a -> xex_memory ps (clear_init (mm s)) a = xex_memory ps (mm s) a) by (apply (xex_memory_ext loadable); exact E0).
  destruct (boots_loads ps qs b junk bus s (xex_memory ps (clear_init (mm s))) Hb) as (s' & Re & Pc & Rs & M); try assumption.
  - eapply Forall_impl; [|exact F]. intros [|o d|y|l|o e d]; cbn [harmless placed]; try tauto. intros [N A]. split; [exact N|]. intros a Ha. specialize (A a Ha). unfold loadable, writable in *. lia.
  - apply calm_loads; [|reflexivity|reflexivity]. eapply Forall_impl; [|exact F]. intros [|o d|y|l|o e d]; cbn [harmless calm]; try tauto. intros [N A] a Ha X. specialize (A a X). unfold loadable in A. lia.
  - exists s'. split; [exact Re|]. split; [rewrite Pc, !E1 by (unfold loadable; lia); reflexivity|]. split; [exact Rs|]. intros a Ha. rewrite M by (unfold loadable, writable in *; lia). apply E1. exact Ha.
Qed.
Theorem C82_executable_boots_partial ps b junk bus s : bytes_ok (encode ps) -> Forall harmless ps -> 1 <= zlen (encode ps) < 65536 ->
  add_atr_header (add_xexboot_header (encode ps)) = Ok b -> booted b s ->
  exists s', atari_reach b junk bus s s' /\ pc s' = le2 (xex_memory ps (mm s) 0x2e0) (xex_memory ps (mm s) 0x2e1) /\ rs s' = rs s - 2 /\
    forall a, loadable a -> mm s' a = xex_memory ps (mm s) a.
Proof.
  intros Hb F H1 E Bo. apply (boots_pieces ps []); rewrite ?app_nil_r; try assumption; try lia.
Qed.
Print Assumptions C82_executable_boots_partial.

(** The segments given to the program: in memory a program may use, and not over the
    cells that hold the start address. *)
Definition ordinary (s : iseg) : Prop := i_data s <> [] /\ bytes_ok (i_data s) /\
  forall a, i_origin s <= a < i_origin s + zlen (i_data s) -> 0x400 <= a < 0x700 \/ 0x880 <= a < 0xc000.
Definition seg_piece (s : iseg) : piece := PSeg (i_origin s) (i_data s).
Lemma xenc_encode segs : flat_map xenc segs = encode (map seg_piece segs).
Proof. induction segs as [|s l IH]; [reflexivity|]. cbn [flat_map map]. rewrite IH. reflexivity. Qed.
(** ... or over the address of a routine to call while loading *)
Definition fit (s : iseg) : Prop := i_data s <> [] /\ bytes_ok (i_data s) /\
  forall a, i_origin s <= a < i_origin s + zlen (i_data s) -> 0x400 <= a < 0x700 \/ 0x880 <= a < 0xc000 \/ 0x2e2 <= a < 0x2e4.
Lemma ordinary_fit segs : Forall ordinary segs -> Forall fit segs.
Proof. apply Forall_impl. intros s (N & B & A). split; [exact N|]. split; [exact B|]. intros a Ha. specialize (A a Ha). lia. Qed.
Lemma fit_no_run segs : Forall fit segs -> existsb (fun s => i_origin s =? 0x2e0) segs = false.
Proof.
  intros F. induction F as [|s l (N & _ & A) _ IH]; [reflexivity|]. cbn [existsb]. rewrite IH. rewrite orb_false_r. apply Z.eqb_neq. intros E.
  assert (1 <= zlen (i_data s)) by (pose proof (zlen_nonneg (i_data s)); assert (zlen (i_data s) <> 0) by (intros Z; apply N, zlen_0_nil; exact Z); lia). specialize (A (i_origin s) ltac:(lia)). lia.
Qed.
Lemma ordinary_kept segs : Forall ordinary segs -> forall m a, 0x2e0 <= a < 0x2e2 -> xex_memory (map seg_piece segs) m a = m a.
Proof.
  intros F. induction F as [|s l (N & _ & A) _ IH]; [reflexivity|]. intros m a Ha. unfold xex_memory in *. cbn [map fold_left]. rewrite IH by exact Ha. cbn [seg_piece place_piece].
  destruct (Z.leb_spec (i_origin s) a), (Z.ltb_spec a (i_origin s + zlen (i_data s))); try reflexivity. specialize (A a ltac:(lia)). lia.
Qed.
Lemma memory_of segs : forall m a, xex_memory (map seg_piece segs) m a = if existsb (fun s => covers s a) segs then ExecSpec.memory segs a else m a.
Proof.
  induction segs as [|s l IH]; intros m a; [reflexivity|]. unfold xex_memory in *. cbn [map fold_left]. rewrite IH. cbn [existsb ExecSpec.memory]. cbn [seg_piece place_piece].
  destruct (existsb _ l); [rewrite orb_true_r; reflexivity|]. rewrite orb_false_r. unfold covers. destruct (_ && _); reflexivity.
Qed.
Lemma made_fit s0 sl : Forall fit (s0 :: sl) -> get_xex (s0 :: sl) None = Ok (encode (PMark :: PSeg 0x2e0 (put2 (i_origin s0)) :: map seg_piece (s0 :: sl))).
Proof.
  intros F. destruct (get_xex (s0 :: sl) None) as [x|e] eqn:G.
  - destruct (get_xex_spec _ _ _ G) as [[N _]|[_ (a & R & ->)]]; [rewrite fit_no_run in N by exact F; discriminate|].
    cbn [xex_run truthy] in R. injection R as <-. unfold with_run. rewrite xenc_encode. reflexivity.
  - unfold get_xex in G. rewrite fit_no_run in G by exact F. cbn [xex_run truthy rbind] in G. discriminate.
Qed.
Lemma made_pieces s0 sl : Forall ordinary (s0 :: sl) -> get_xex (s0 :: sl) None = Ok (encode (PMark :: PSeg 0x2e0 (put2 (i_origin s0)) :: map seg_piece (s0 :: sl))).
Proof. intros F. apply made_fit, ordinary_fit. exact F. Qed.
Lemma zlen_made r segs : zlen (encode (PMark :: PSeg 0x2e0 (put2 r) :: map seg_piece segs)) = 8 + fold_right (fun t n => 4 + zlen (i_data t) + n) 0 segs.
Proof.
  change (encode (PMark :: PSeg 0x2e0 (put2 r) :: map seg_piece segs)) with ([255; 255] ++ (put2 0x2e0 ++ put2 0x2e1 ++ put2 r) ++ encode (map seg_piece segs)). rewrite !zlen_app, !zlen_put2. change (zlen [255; 255]) with 2.
  enough (zlen (encode (map seg_piece segs)) = fold_right (fun t n => 4 + zlen (i_data t) + n) 0 segs) by lia. induction segs as [|t l IH]; [reflexivity|]. cbn [map fold_right].
  change (encode (seg_piece t :: map seg_piece l)) with ((put2 (i_origin t) ++ put2 (i_origin t + zlen (i_data t) - 1) ++ i_data t) ++ encode (map seg_piece l)). rewrite !zlen_app, !zlen_put2. lia.
Qed.
(** A disk made of segments: the machine starts at the first segment, with all of them
    in memory. *)
Theorem C82_boots_partial s0 sl run b junk bus s : Forall ordinary (s0 :: sl) -> kboot_create (s0 :: sl) run = Ok b ->
  8 + fold_right (fun t n => 4 + zlen (i_data t) + n) 0 (s0 :: sl) < 65536 -> booted b s ->
  exists s', atari_reach b junk bus s s' /\ pc s' = i_origin s0 /\ rs s' = rs s - 2 /\
    forall a, 0x400 <= a < 0x700 \/ 0x880 <= a < 0xc000 ->
      mm s' a = if existsb (fun t => covers t a) (s0 :: sl) then ExecSpec.memory (s0 :: sl) a else mm s a.
Proof.
  intros F K Sz Bo. pose proof (made_pieces s0 sl F) as G. set (segs := s0 :: sl) in *. set (ps := PMark :: PSeg 0x2e0 (put2 (i_origin s0)) :: map seg_piece segs) in *.
  rewrite (kboot_create_atr segs run _ G) in K.
  assert (Zs : zlen (encode ps) = 8 + fold_right (fun t n => 4 + zlen (i_data t) + n) 0 segs) by (apply zlen_made).
  assert (Hb : bytes_ok (encode ps)).
  { change (encode ps) with ([255; 255] ++ (put2 0x2e0 ++ put2 0x2e1 ++ put2 (i_origin s0)) ++ encode (map seg_piece segs)). apply Forall_app. split; [repeat constructor; discriminate|].
    apply Forall_app. split; [repeat (apply Forall_app; split); apply bytes_ok_put2|]. clear - F. induction F as [|t l (_ & B & _) _ IH]; [constructor|]. cbn [map].
    change (encode (seg_piece t :: map seg_piece l)) with ((put2 (i_origin t) ++ put2 (i_origin t + zlen (i_data t) - 1) ++ i_data t) ++ encode (map seg_piece l)).
    repeat (apply Forall_app; split); try apply bytes_ok_put2; assumption. }
  assert (H0 : 1 <= fold_right (fun t n => 4 + zlen (i_data t) + n) 0 segs).
  { unfold segs. cbn [fold_right]. pose proof (zlen_nonneg (i_data s0)). enough (0 <= fold_right (fun t n => 4 + zlen (i_data t) + n) 0 sl) by lia. clear. induction sl as [|t l IH]; cbn [fold_right]; [lia|]. pose proof (zlen_nonneg (i_data t)). lia. }
  destruct (C82_executable_boots_partial ps b junk bus s Hb) as (s' & Re & Pc & Rs & M); try assumption; try lia.
  { constructor; [exact Logic.I|]. constructor; [split; [discriminate|]; rewrite zlen_put2; intros a Ha; right; right; lia|]. clear - F. induction F as [|t l (N & _ & A) _ IH]; [constructor|]. cbn [map]. constructor; [|exact IH]. split; [exact N|]. intros a Ha. specialize (A a Ha). unfold loadable. tauto. }
  exists s'. split; [exact Re|]. split; [|split; [exact Rs|]].
  - rewrite Pc. unfold ps, xex_memory. cbn [fold_left]. fold (xex_memory (map seg_piece segs)). rewrite !ordinary_kept by (assumption || lia). cbn [place_piece]. rewrite zlen_put2.
    cbn [Z.leb Z.ltb Z.compare Pos.compare Pos.compare_cont Z.add Pos.add Pos.succ andb Z.sub Z.opp Z.pos_sub]. change (le2 (u8 (i_origin s0)) (u8 (i_origin s0 / 256)) = i_origin s0). rewrite BaseLemmas.le2_u8. unfold u16. apply Z.mod_small.
    inversion F as [|t l (N & _ & A) _]; subst t l. assert (1 <= zlen (i_data s0)) by (pose proof (zlen_nonneg (i_data s0)); assert (zlen (i_data s0) <> 0) by (intros Z; apply N, zlen_0_nil; exact Z); lia). specialize (A (i_origin s0) ltac:(lia)). lia.
  - intros a Ha. rewrite M by (unfold loadable; tauto). unfold ps, xex_memory. cbn [fold_left]. fold (xex_memory (map seg_piece segs)). rewrite memory_of. cbn [place_piece]. rewrite zlen_put2.
    replace ((736 <=? a) && (a <? 736 + 2)) with false by lia. reflexivity.
Qed.
Print Assumptions C82_boots_partial.

(** The program gathers the segments, makes the disk and saves it: the file it leaves
    boots, on every machine, into the first segment. *)
Theorem C82_made_disk_boots_partial w o f name src args obj run s0 sl start :
  boot_class name = Some BKBoot -> gathered w f src args obj run (s0 :: sl) start -> Forall ordinary (s0 :: sl) ->
  8 + fold_right (fun t n => 4 + zlen (i_data t) + n) 0 (s0 :: sl) < 65536 ->
  exists b, main w o f name (KBoot src args obj run) = (fput f name b, [MSaving name], Ok tt) /\
    forall junk bus s, booted b s ->
    exists s', atari_reach b junk bus s s' /\ pc s' = i_origin s0 /\ rs s' = rs s - 2 /\
      forall a, 0x400 <= a < 0x700 \/ 0x880 <= a < 0xc000 ->
        mm s' a = if existsb (fun t => covers t a) (s0 :: sl) then ExecSpec.memory (s0 :: sl) a else mm s a.
Proof.
  intros Bc G F Sz. destruct (C77_boot_atr_partial w o f name src args obj run (s0 :: sl) start _ Bc G ltac:(discriminate) (made_pieces s0 sl F)) as (b & E & K & _).
  { rewrite zlen_made. exact Sz. }
  exists b. split; [exact E|]. intros junk bus s Bo. apply (C82_boots_partial s0 sl None b junk bus s F K Sz Bo).
Qed.
Print Assumptions C82_made_disk_boots_partial.

(** A machine that has read the boot sectors; all its other memory is $FF. *)
Definition boot_mem (b : list Z) : memory := fun a => if (0x700 <=? a) && (a <? 0x880) then getb b (16 + (a - 0x700)) else 0xff.
Definition boot_state (b : list Z) : cpu unit := mkC 0 0 0 0xff 0x706 false false false (boot_mem b) tt.
Lemma boot_booted x b : 1 <= zlen x < 90000 -> add_atr_header (add_xexboot_header x) = Ok b -> booted b (boot_state b).
Proof.
  intros Hx E. destruct (image_holds x b Hx E) as (_ & _ & _ & C & _).
  pose proof (C 1 ltac:(lia) ltac:(lia) ltac:(lia)) as B17. pose proof (C 2 ltac:(lia) ltac:(lia) ltac:(lia)) as B18. pose proof (C 3 ltac:(lia) ltac:(lia) ltac:(lia)) as B19.
  change (getb b 17 = 3) in B17. change (getb b 18 = 0) in B18. change (getb b 19 = 7) in B19. unfold booted. rewrite B17, B18, B19. change (le2 0 7) with 0x700.
  split; [reflexivity|]. split; [cbn; lia|]. intros i Hi. cbn [boot_state mm]. unfold boot_mem. replace ((1792 <=? 1792 + i) && (1792 + i <? 2176)) with true by lia. f_equal. lia.
Qed.
(** The executable [xex1] asks to be started at $0601; the disk starts it at $0600.
    The machine's other memory is not touched. *)
Example C82_made_case : exists b s', main w0 no_opts (xex_fs xex1) p_atr (KBoot [] [] [p_xex] []) = (fput (xex_fs xex1) p_atr b, [MSaving p_atr], Ok tt) /\
  booted b (boot_state b) /\ atari_reach b (fun _ _ => 0x55) (fun _ => 0xaa) (boot_state b) s' /\ pc s' = 0x600 /\ mm s' 0x600 = 7 /\ mm s' 0x601 = 8 /\ mm s' 0x602 = 0xff.
Proof.
  assert (F : Forall ordinary [seg1]).
  { constructor; [|constructor]. split; [discriminate|]. split; [repeat constructor; discriminate|]. change (i_origin seg1) with 0x600. change (zlen (i_data seg1)) with 2. intros a Ha. lia. }
  assert (Sz : 8 + fold_right (fun t n => 4 + zlen (i_data t) + n) 0 [seg1] < 65536) by reflexivity.
  assert (G : gathered w0 (xex_fs xex1) [] [] [p_xex] [] [seg1] (Some 0x601)) by (apply xex1_gathered_any; reflexivity).
  destruct (C82_made_disk_boots_partial w0 no_opts (xex_fs xex1) p_atr [] [] [p_xex] [] seg1 [] (Some 0x601) eq_refl G F Sz) as (b & E & H).
  destruct (C77_boot_atr_partial w0 no_opts (xex_fs xex1) p_atr [] [] [p_xex] [] [seg1] (Some 0x601) _ eq_refl G ltac:(discriminate) (made_pieces seg1 [] F) ltac:(reflexivity)) as (b' & E' & K & _).
  assert (b' = b) by (rewrite E in E'; assert (Q : fput (xex_fs xex1) p_atr b p_atr = fput (xex_fs xex1) p_atr b' p_atr) by congruence; rewrite !fput_eq in Q; congruence). subst b'.
  rewrite (kboot_create_atr [seg1] None _ (made_pieces seg1 [] F)) in K.
  assert (Bo : booted b (boot_state b)) by (eapply boot_booted; [|exact K]; rewrite zlen_made; cbn [fold_right]; change (zlen (i_data seg1)) with 2; lia).
  destruct (H (fun _ _ => 0x55) (fun _ => 0xaa) (boot_state b) Bo) as (s' & Re & Pc & _ & M). exists b, s'.
  split; [exact E|]. split; [exact Bo|]. split; [exact Re|]. split; [exact Pc|]. repeat split; rewrite M by lia; reflexivity.
Qed.

(** The same executable put on a disk as it is (what [add_xexboot_header] is for): it
    starts where it asks for. *)
Example C82_executable_case : exists b s', add_atr_header (add_xexboot_header xex1) = Ok b /\ booted b (boot_state b) /\
  atari_reach b (fun _ _ => 0x55) (fun _ => 0xaa) (boot_state b) s' /\ pc s' = 0x601 /\ mm s' 0x600 = 7 /\ mm s' 0x601 = 8.
Proof.
  destruct (kboot_image_open xex1 ltac:(vm_compute; congruence) _ eq_refl) as (b & h & st & K & _).
  assert (Bo : booted b (boot_state b)) by (eapply boot_booted; [|exact K]; change (zlen xex1) with 14; lia).
  destruct (C82_executable_boots_partial [PMark; PSeg 0x2e0 [1; 6]; PSeg 0x600 [7; 8]] b (fun _ _ => 0x55) (fun _ => 0xaa) (boot_state b)) as (s' & Re & Pc & _ & M); try assumption.
  - apply AtariDemo.bytes_ok_b. reflexivity.
  - constructor; [exact Logic.I|]. constructor; [|constructor; [|constructor]]; (split; [discriminate|]); [change (zlen [1; 6]) with 2|change (zlen [7; 8]) with 2]; intros a Ha; unfold loadable; lia.
  - vm_compute. split; [discriminate|reflexivity].
  - exists b, s'. split; [exact K|]. split; [exact Bo|]. split; [exact Re|]. split; [exact Pc|]. split; rewrite M by (unfold loadable; lia); reflexivity.
Qed.

(** Exceptions.  The start address of the executable is lost, although the disk is made of
    an executable that has one ([C77_atari_start_ignored_refuted]: also the one given as
    an option). *)
Theorem C82_start_lost_refuted : exists f b s', gathered w0 f [] [] [p_xex] [] [seg1] (Some 0x601) /\
  main w0 no_opts f p_atr (KBoot [] [] [p_xex] []) = (fput f p_atr b, [MSaving p_atr], Ok tt) /\ booted b (boot_state b) /\
  atari_reach b (fun _ _ => 0x55) (fun _ => 0xaa) (boot_state b) s' /\ pc s' <> 0x601 /\ mm s' (pc s') <> mm s' 0x601.
Proof.
  destruct C82_made_case as (b & s' & E & Bo & Re & Pc & M0 & M1 & _). exists (xex_fs xex1), b, s'. split; [apply xex1_gathered_any; reflexivity|]. split; [exact E|]. split; [exact Bo|]. split; [exact Re|]. rewrite Pc, M0, M1. split; discriminate.
Qed.
Print Assumptions C82_start_lost_refuted.

(** The loader counts the bytes in 16 bits.  A disk is made of any number of them without
    complaint: of 65550 bytes it loads the first 14 and starts the program. *)
Definition big_segs : list iseg := [mkI 0x600 [1; 2]; mkI 0x1000 (zrepeat 7 32764); mkI 0x1000 (zrepeat 7 32764)].
Theorem C82_large_refuted : exists b s', Forall ordinary big_segs /\ kboot_create big_segs None = Ok b /\ booted b (boot_state b) /\
  atari_reach b (fun _ _ => 0x55) (fun _ => 0xaa) (boot_state b) s' /\ pc s' = 0x600 /\ ExecSpec.memory big_segs 0x1000 = 7 /\ mm s' 0x1000 = 0xff.
Proof.
  assert (Zr : zlen (zrepeat 7 32764) = 32764) by (apply zlen_zrepeat; lia).
  assert (Gr : getb (zrepeat 7 32764) 0 = 7) by (apply getb_zrepeat; lia).
  assert (Br : bytes_ok (zrepeat 7 32764)) by (apply bytes_ok_zrepeat; unfold is_byte; lia).
  unfold big_segs. set (d := zrepeat 7 32764) in *. clearbody d.
  assert (Nd : d <> []) by (intros ->; discriminate Zr).
  assert (F : Forall ordinary [mkI 0x600 [1; 2]; mkI 0x1000 d; mkI 0x1000 d]).
  { assert (O2 : ordinary (mkI 0x1000 d)) by (split; [exact Nd|]; split; [exact Br|]; cbn [i_origin i_data]; rewrite Zr; intros a Ha; lia).
    constructor; [|constructor; [exact O2|constructor; [exact O2|constructor]]]. split; [discriminate|]. split; [apply AtariDemo.bytes_ok_b; reflexivity|]. cbn [i_origin i_data]. change (zlen [1; 2]) with 2. intros a Ha. lia. }
  pose proof (made_pieces _ _ F) as G. cbn [i_origin map seg_piece i_data] in G.
  set (ps := [PMark; PSeg 0x2e0 (put2 0x600); PSeg 0x600 [1; 2]]). set (qs := [PSeg 0x1000 d; PSeg 0x1000 d]).
  change (get_xex [mkI 0x600 [1; 2]; mkI 0x1000 d; mkI 0x1000 d] None = Ok (encode (ps ++ qs))) in G.
  assert (Zx : zlen (encode (ps ++ qs)) = 65550).
  { change (encode (ps ++ qs)) with (encode ps ++ (put2 0x1000 ++ put2 (0x1000 + zlen d - 1) ++ d) ++ (put2 0x1000 ++ put2 (0x1000 + zlen d - 1) ++ d) ++ []). rewrite !zlen_app, !zlen_put2, Zr. reflexivity. }
  assert (Kx : exists b, add_atr_header (add_xexboot_header (encode (ps ++ qs))) = Ok b).
  { destruct (kboot_image_open (encode (ps ++ qs)) ltac:(lia) _ eq_refl) as (b & h & st & E & _). exists b. exact E. }
  destruct Kx as (b & K). pose proof (boot_booted _ b ltac:(rewrite Zx; lia) K) as Bo.
  destruct (boots_pieces ps qs b (fun _ _ => 0x55) (fun _ => 0xaa) (boot_state b)) as (s' & Re & Pc & _ & M); try assumption.
  - apply AtariDemo.bytes_ok_b. reflexivity.
  - constructor; [exact Logic.I|]. constructor; [|constructor; [|constructor]]; (split; [discriminate|]); [change (zlen (put2 0x600)) with 2|change (zlen [1; 2]) with 2]; intros a Ha; unfold loadable; lia.
  - vm_compute. split; [discriminate|reflexivity].
  - rewrite Zx. lia.
  - rewrite Zx. reflexivity.
  - exists b, s'. split; [exact F|]. split; [rewrite (kboot_create_atr _ None _ G); exact K|]. split; [exact Bo|]. split; [exact Re|]. split; [exact Pc|]. split.
    + cbn [ExecSpec.memory existsb]. unfold covers. cbn [i_origin i_data]. rewrite Zr. exact Gr.
    + rewrite M by (unfold loadable; lia). reflexivity.
Qed.
Print Assumptions C82_large_refuted.
