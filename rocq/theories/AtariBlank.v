(** Freshly formatted disks of every size satisfy the consistency predicates, so
    the theorems about consistent images are not vacuous. *)
From Verif Require Import Base BaseLemmas DiskModel DirLemmas AtariModel AtariSpec AtariGeom AtariDir AtariVtoc AtariChain AtariSectors AtariWrite AtariDelete AtariShred AtariOps.

(** Sectors a format program marks free on a disk of [n] sectors. *)
Definition usable (nsec n : Z) : bool :=
  (4 <=? n) && (n <=? nsec) && negb ((360 <=? n) && (n <=? 368)).
Definition fmt_bitmap (nsec : Z) : list Z :=
  packbits (map (fun n => if usable nsec n then 1 else 0) (zrange 0 720)).
Definition fmt_vtoc (ss nsec : Z) : list Z :=
  [2] ++ put2 707 ++ put2 707 ++ zrepeat 0 5 ++ fmt_bitmap nsec ++ zrepeat 0 (ss - 100).
(** The header of an ATR image and the whole image. *)
Definition fmt_header (ss nsec : Z) : list Z :=
  put2 0x296 ++ put2 (nsec * ss / 16 mod 65536) ++ put2 ss ++ [u8 (nsec * ss / 16 / 65536)] ++ zrepeat 0 9.
Definition fmt_disk (ss nsec : Z) : list Z :=
  fmt_header ss nsec ++ zrepeat 0 (359 * ss) ++ fmt_vtoc ss nsec ++ zrepeat 0 ((nsec - 360) * ss).

Definition fmt_geom (ss nsec : Z) : geom := mkG 16 ss 0 nsec.

Section Fmt.
  Variables (ss nsec : Z).
  Hypothesis Hss : 128 <= ss <= 256.
  Hypothesis Hss16 : ss mod 16 = 0.
  Hypothesis Hn : 368 <= nsec.
  Let g := fmt_geom ss nsec.
  Let b := fmt_disk ss nsec.

  Lemma tail_nonneg : 0 <= (nsec - 360) * ss.
  Proof. nia. Qed.
  Lemma length_fmt_bits : length (map (fun n => if usable nsec n then 1 else 0) (zrange 0 720)) = (8 * 90)%nat.
  Proof. rewrite map_length. unfold zrange. rewrite length_zseq_nat. reflexivity. Qed.
  Lemma zlen_fmt_bitmap : zlen (fmt_bitmap nsec) = 90.
  Proof. unfold fmt_bitmap, zlen. rewrite (length_packbits _ 90 length_fmt_bits). reflexivity. Qed.
  Lemma zlen_fmt_vtoc : zlen (fmt_vtoc ss nsec) = ss.
  Proof.
    unfold fmt_vtoc. rewrite !zlen_app, zlen_fmt_bitmap, !zlen_zrepeat by lia.
    change (zlen [2]) with 1. change (zlen (put2 707)) with 2. lia.
  Qed.
  Lemma zlen_fmt_header : zlen (fmt_header ss nsec) = 16.
  Proof. reflexivity. Qed.
  Lemma zlen_fmt : zlen b = 16 + nsec * ss.
  Proof.
    pose proof tail_nonneg. unfold b, fmt_disk. rewrite !zlen_app, zlen_fmt_header, zlen_fmt_vtoc, !zlen_zrepeat by lia. lia.
  Qed.

  Lemma fmt_sector_360 : sector g b 360 = fmt_vtoc ss nsec.
  Proof.
    unfold sector, spos, g, fmt_geom, b, fmt_disk. cbn [g_off g_ss g_skew].
    rewrite app_assoc.
    assert (E : zlen (fmt_header ss nsec ++ zrepeat 0 (359 * ss)) = 16 + (360 - 1) * ss - 0).
    { rewrite zlen_app, zlen_fmt_header, zlen_zrepeat by lia. lia. }
    rewrite slice_app_r by lia. rewrite E.
    rewrite slice_app_l by (rewrite ?zlen_fmt_vtoc; lia).
    rewrite Z.sub_diag. apply slice_all. rewrite zlen_fmt_vtoc. lia.
  Qed.
  (** Everything outside the header and the VTOC is zero. *)
  Lemma fmt_zero i : 16 <= i -> i < 16 + 359 * ss \/ 16 + 360 * ss <= i -> getb b i = 0.
  Proof.
    intros H1 H2. pose proof tail_nonneg. unfold b, fmt_disk. rewrite getb_app_r by (rewrite zlen_fmt_header; lia). rewrite zlen_fmt_header.
    destruct H2 as [H2|H2].
    - rewrite getb_app_l by (rewrite zlen_zrepeat; lia). apply getb_zrepeat. lia.
    - rewrite getb_app_r by (rewrite zlen_zrepeat; lia). rewrite zlen_zrepeat by lia.
      rewrite getb_app_r by (rewrite zlen_fmt_vtoc; lia). rewrite zlen_fmt_vtoc.
      destruct (Z_lt_dec (i - 16 - 359 * ss - ss) ((nsec - 360) * ss)).
      + apply getb_zrepeat. lia.
      + apply getb_oob. rewrite zlen_zrepeat by lia. lia.
  Qed.

  Lemma fmt_bitmap_bit n : 0 <= n < 720 ->
    (getb (fmt_bitmap nsec) (n / 8) / 2 ^ (7 - n mod 8)) mod 2 = if usable nsec n then 1 else 0.
  Proof.
    intros H. rewrite <- getb_unpackbits by (try lia; rewrite zlen_fmt_bitmap; lia).
    unfold fmt_bitmap. rewrite (unpackbits_packbits _ 90).
    - unfold getb. rewrite (nth_map_zrange (fun n => if usable nsec n then 1 else 0)) by lia. reflexivity.
    - apply length_fmt_bits.
    - apply Forall_forall. intros x Hx. apply in_map_iff in Hx. destruct Hx as (y & <- & _).
      destruct (usable nsec y); [right|left]; reflexivity.
  Qed.
  Lemma fmt_free_bit n : 0 <= n < 720 -> free_bit g b n = if usable nsec n then 1 else 0.
  Proof.
    intros H. unfold free_bit. rewrite fmt_sector_360. rewrite <- fmt_bitmap_bit by assumption.
    f_equal. f_equal. unfold fmt_vtoc.
    assert (0 <= n / 8 < 90) by (Z.to_euclidean_division_equations; lia).
    replace ([2] ++ put2 707 ++ put2 707 ++ zrepeat 0 5 ++ fmt_bitmap nsec ++ zrepeat 0 (ss - 100))
      with (([2] ++ put2 707 ++ put2 707 ++ zrepeat 0 5) ++ fmt_bitmap nsec ++ zrepeat 0 (ss - 100)) by reflexivity.
    assert (E : zlen ([2] ++ put2 707 ++ put2 707 ++ zrepeat 0 5) = 10) by reflexivity.
    rewrite getb_app_r by lia. rewrite E.
    rewrite getb_app_l by (rewrite zlen_fmt_bitmap; lia).
    f_equal. lia.
  Qed.

  Lemma fmt_slot i : 0 <= i < num_slots g -> e_flag (slot g b i) = 0.
  Proof.
    intros Hi. unfold num_slots, g in Hi. cbn [fmt_geom g_ss] in Hi. unfold e_flag, slot.
    rewrite getb_slice by (unfold spos, g; cbn [fmt_geom g_off g_ss g_skew]; lia).
    unfold spos, g. cbn [fmt_geom g_off g_ss g_skew]. apply fmt_zero; lia.
  Qed.

  Lemma bytes_ok_fmt : bytes_ok b.
  Proof.
    assert (Z0 : forall n, bytes_ok (zrepeat 0 n)) by (intros; apply bytes_ok_zrepeat; unfold is_byte; lia).
    assert (A : forall l m, bytes_ok l -> bytes_ok m -> bytes_ok (l ++ m)) by (intros; apply Forall_app; auto).
    unfold b, fmt_disk, fmt_header, fmt_vtoc.
    repeat apply A; try apply bytes_ok_put2; try apply Z0.
    - constructor; [apply is_byte_u8|constructor].
    - constructor; [unfold is_byte; lia|constructor].
    - eapply bytes_ok_packbits. apply length_fmt_bits.
  Qed.

  Lemma fmt_dos2 : dos2_disk g b 0.
  Proof.
    constructor.
    - apply bytes_ok_fmt.
    - auto.
    - exact Hn.
    - unfold spos, g; cbn [fmt_geom g_off g_ss g_skew]. lia.
    - rewrite zlen_fmt. unfold spos, g; cbn [fmt_geom g_off g_ss g_skew g_max]. lia.
    - right. rewrite fmt_sector_360. reflexivity.
    - intros n H1 H2. rewrite fmt_free_bit in H2 by assumption. unfold usable in H2.
      destruct (_ && _) eqn:E; [|lia]. unfold data_sector, g. cbn [fmt_geom g_max]. lia.
    - lia.
    - intros i Hi. lia.
    - intros i Hi. apply fmt_slot. lia.
    - intros i j Hi Hj. lia.
    - intros i Hi. lia.
  Qed.

  Lemma fmt_tidy : tidy g b 0.
  Proof.
    constructor.
    - intros n H1 H2. change (g_max g) with nsec in H1.
      assert (Hne : n <> 360) by (unfold system_sector in H2; lia).
      assert (Hlo : (n - 1) * ss + ss <= nsec * ss) by nia.
      assert (Z1 : zlen (sector g b n) = ss).
      { unfold sector. rewrite zlen_slice; unfold spos, g; cbn [fmt_geom g_off g_ss g_skew]; rewrite ?zlen_fmt; nia. }
      assert (Hd : (n - 1) * ss + ss <= 359 * ss \/ 360 * ss <= (n - 1) * ss) by nia.
      unfold link_next. rewrite Z1. unfold sector, spos, g. cbn [fmt_geom g_off g_ss g_skew].
      rewrite !getb_slice by lia. rewrite !fmt_zero by lia. unfold system_sector. cbn. lia.
    - intros i Hi. lia.
    - intros i Hi. lia.
  Qed.

  (** The number of free sectors of a formatted disk. *)
  Lemma fmt_free_count : free_count g b = zlen (filter (usable nsec) (zrange 0 720)).
  Proof.
    unfold free_count. erewrite map_ext_in.
    2:{ intros n Hx. apply In_zrange in Hx. apply fmt_free_bit. lia. }
    rewrite sum_bits by (intros x _; destruct (usable nsec x); [right|left]; reflexivity).
    f_equal. apply filter_ext_in. intros x _. destruct (usable nsec x); reflexivity.
  Qed.

  (** The header [open_image] computes. *)
  Definition fmt_hdr : hdr := mkH 16 (nsec * ss) ss 0 0 (ss - 3) nsec 0 0 0.
  (** Sizes that [check_size] takes for a different geometry. *)
  Definition plain_size : Prop :=
    ~ In (nsec * ss) [92176; 184336; 183936; 183952] /\
    (nsec * ss = 92160 -> ss = 128) /\ (nsec * ss = 184320 -> ss = 256) /\
    (nsec * ss = 133120 -> ss = 128).
  Lemma fmt_hdr_of : plain_size -> hdr_of b = Ok fmt_hdr.
  Proof.
    intros (P1 & P2 & P3 & P4). unfold hdr_of, read_header.
    assert (E : slice b 0 16 = fmt_header ss nsec).
    { unfold b, fmt_disk. rewrite slice_app_l by (rewrite ?zlen_fmt_header; lia).
      apply slice_all. rewrite zlen_fmt_header. lia. }
    rewrite E.
    assert (E2 : exists isz, atr_header (fmt_header ss nsec) = Ok (mkH 16 isz ss 0 0 128 0 0 0 0)).
    { eexists. unfold atr_header. rewrite zlen_fmt_header. cbn [Z.eqb Pos.eqb].
      change (le2 (getb (fmt_header ss nsec) 0) (getb (fmt_header ss nsec) 1)) with 662.
      cbn [Z.eqb Pos.eqb negb].
      change (le2 (getb (fmt_header ss nsec) 4) (getb (fmt_header ss nsec) 5)) with (le2 (u8 ss) (u8 (ss / 256))).
      rewrite le2_u8, u16_id by lia. reflexivity. }
    destruct E2 as (isz & E2). rewrite E2. cbv zeta. cbn [h_offset]. rewrite zlen_fmt.
    replace (16 + nsec * ss - 16) with (nsec * ss) by lia.
    unfold check_size. cbn [h_ssize h_isize h_ninit h_offset h_crc h_unused h_flags].
    cbn [In] in P1.
    assert (Hd : (nsec * ss - 0 * 0) / ss + 0 = nsec) by (rewrite Z.sub_0_r, Z.div_mul; lia).
    destruct (Z.eqb_spec (nsec * ss) 92160) as [E3|E3].
    { cbn [orb Z.eqb Pos.eqb]. specialize (P2 E3). unfold fmt_hdr. rewrite E3. rewrite E3 in Hd. subst ss. do 2 f_equal. exact Hd. }
    replace (nsec * ss =? 92176) with false by lia. cbn [orb].
    destruct (Z.eqb_spec (nsec * ss) 184320) as [E4|E4].
    { cbn [orb Z.eqb Pos.eqb]. specialize (P3 E4). unfold fmt_hdr. rewrite E4. rewrite E4 in Hd. subst ss. do 2 f_equal. exact Hd. }
    replace (nsec * ss =? 184336) with false by lia.
    replace (nsec * ss =? 183936) with false by lia.
    replace (nsec * ss =? 183952) with false by lia. cbn [orb].
    replace (ss =? 0) with false by lia. unfold fmt_hdr. rewrite Hd. reflexivity.
  Qed.
  Lemma fmt_geom_of : geom_of fmt_hdr = g.
  Proof. unfold geom_of, fmt_hdr, g, fmt_geom. cbn. reflexivity. Qed.
End Fmt.

(** A freshly formatted image opens, is consistent and tidy, and is empty. *)
Lemma fmt_opens ss nsec : 128 <= ss <= 256 -> ss mod 16 = 0 -> 368 <= nsec -> plain_size ss nsec ->
  exists im, open_image (fmt_disk ss nsec) = Ok im /\ consistent_tidy im /\ listing im = [] /\
    a_bytes im = fmt_disk ss nsec /\ a_hdr im = fmt_hdr ss nsec.
Proof.
  intros H1 H2 H3 P. pose proof (fmt_hdr_of ss nsec H1 H2 H3 P) as Hh.
  pose proof (fmt_dos2 ss nsec H1 H2 H3) as D. pose proof (fmt_tidy ss nsec H1 H2 H3) as T.
  rewrite <- (fmt_geom_of ss nsec) in D, T.
  assert (G : hgeo (fmt_hdr ss nsec) (fmt_disk ss nsec)).
  { apply hdr_of_hgeo; try assumption. cbn [fmt_hdr h_image_size h_max]. destruct P as (_ & _ & _ & P4).
    intros E. specialize (P4 E). lia. }
  pose proof (view_open _ _ _ G D Hh) as Ho.
  exists (view (fmt_hdr ss nsec) (fmt_disk ss nsec) 0). split; [assumption|].
  split; [split; [exact Ho|exists 0; auto]|]. split; [|split; reflexivity].
  rewrite listing_view. reflexivity.
Qed.
