(** The segments of boot disks, unidentified disks and KBoot disks. *)
From Coq Require Import String.
From Verif Require Import Base BaseLemmas DiskModel AtariModel AtariSpec AtariGeom
  ExecModel SegModel SegSpec SegProofs SegProofs2 TextModel DetectModel EditModel EditProofs EditAtari SegListModel SegListSpec SegListProofs SegListAtari.

Record hdr_facts (hd : hdr) (b : list Z) : Prop := mkHF {
  hf_ssize : 0 < h_ssize hd;
  hf_init : (h_isize hd = 0 /\ h_ninit hd = 0) \/ (h_isize hd = 128 /\ h_ninit hd = 3);
  hf_off : h_offset hd = 0 \/ h_offset hd = 16;
  hf_len : h_offset hd <= zlen b;
  hf_size : 0 <= h_image_size hd <= zlen b - h_offset hd;
  hf_max : h_max hd = (h_image_size hd - h_isize hd * h_ninit hd) / h_ssize hd + h_ninit hd;
  hf_three : h_ninit hd = 3 -> h_image_size hd = 183936 /\ h_ssize hd = 256
}.
Lemma header_facts b hd : bytes_ok b -> hdr_of b = Ok hd -> hdr_facts hd b.
Proof.
  intros Hb E. unfold hdr_of in E. pose proof (zlen_nonneg b) as Nb.
  assert (R : (h_offset (read_header b) = 0 \/ h_offset (read_header b) = 16) /\ h_isize (read_header b) = 0 /\ h_ninit (read_header b) = 0 /\
    0 <= h_ssize (read_header b) /\ h_offset (read_header b) <= zlen b).
  { unfold read_header, atr_header. rewrite zlen_slice_min by lia. destruct (Z.eqb_spec (Z.max 0 (Z.min (16 - 0) (zlen b - 0))) 16) as [L|L]; [|unfold xfd_header; cbn [h_offset h_isize h_ninit h_ssize]; lia].
    destruct (negb _); unfold xfd_header; cbn [h_offset h_isize h_ninit h_ssize]; [lia|]. split; [lia|]. split; [lia|]. split; [lia|]. split; [|lia].
    assert (B : forall i, is_byte (getb (slice b 0 16) i)) by (intros i; apply bytes_ok_getb, bytes_ok_slice, Hb). unfold is_byte in B. pose proof (B 4). pose proof (B 5). unfold le2. lia. }
  destruct R as (R1 & R2 & R3 & R4 & R5). unfold check_size in E. rewrite R2, R3 in E.
  repeat match type of E with context [if ?c then _ else _] => destruct c eqn:? end; try discriminate; injection E as <-; constructor; cbn in *; lia.
Qed.
Lemma first_bytes_size hd b n : hdr_facts hd b -> 1 <= n <= h_max hd -> 1 <= first_bytes hd n <= h_image_size hd /\ first_bytes hd 1 <= first_bytes hd n.
Proof.
  intros [F1 F2 F3 F4 F5 F6 F7] N. unfold first_bytes. destruct F2 as [[I1 I2]|[I1 I2]]; rewrite I1, I2 in *.
  - replace (Z.min n 0) with 0 by lia. replace (Z.max 0 (n - 0)) with n by lia. change (Z.min 1 0) with 0. change (Z.max 0 (1 - 0)) with 1.
    assert (n * h_ssize hd <= h_image_size hd).
    { replace (h_image_size hd - 0 * 0) with (h_image_size hd) in F6 by lia. assert (n <= h_image_size hd / h_ssize hd) by lia.
      pose proof (Z.mul_div_le (h_image_size hd) (h_ssize hd) F1). nia. }
    nia.
  - destruct (F7 eq_refl) as (-> & S2). rewrite S2 in *. change ((183936 - 128 * 3) / 256 + 3) with 720 in F6. change (Z.min 1 3) with 1. change (Z.max 0 (1 - 3)) with 0. lia.
Qed.
Lemma valid_max hd b n p : hdr_facts hd b -> get_pos hd n = Ok p -> 1 <= n <= h_max hd.
Proof.
  intros F E. unfold get_pos, sector_valid in E. assert (0 <= h_max hd).
  { destruct F as [F1 F2 F3 F4 F5 F6 F7]. rewrite F6. destruct F2 as [[I1 I2]|[I1 I2]]; rewrite I1, I2 in *.
    - replace (h_image_size hd - 0 * 0) with (h_image_size hd) by lia. assert (0 <= h_image_size hd / h_ssize hd) by (apply Z.div_pos; lia). lia.
    - destruct (F7 eq_refl) as (-> & ->). cbn. lia. }
  destruct (negb _) eqn:V in E; [discriminate|]. lia.
Qed.
Lemma more_max hd b m : hdr_facts hd b -> forall n x, more_sectors hd m n = Ok x -> m = O \/ n + Z.of_nat m <= h_max hd.
Proof.
  intros F. induction m as [|m IH]; intros n x E; [left; reflexivity|right]. cbn [more_sectors] in E.
  destruct (get_pos hd (n + 1)) as [[p s]|] eqn:P; cbn [rbind] in E; [|discriminate]. pose proof (valid_max hd b _ _ F P).
  destruct (more_sectors hd m (n + 1)) as [y|] eqn:Y; cbn [rbind] in E; [|discriminate]. destruct (IH (n + 1) y Y) as [->|]; lia.
Qed.
Lemma sized hd b : hdr_facts hd b -> 1 <= h_max hd -> 0 < h_image_size hd.
Proof. intros F M. pose proof (first_bytes_size hd b 1 F ltac:(lia)). lia. Qed.
Lemma ninit_max hd b : hdr_facts hd b -> 1 <= h_max hd -> 0 <= h_ninit hd <= h_max hd.
Proof.
  intros [F1 F2 F3 F4 F5 F6 F7] M. destruct F2 as [[I1 I2]|[I1 I2]]; rewrite I1, I2 in *; [lia|]. destruct (F7 eq_refl) as (E1 & E2). rewrite E1, E2 in F6. cbn in F6. lia.
Qed.

(** Lines of the boot sectors, if the first byte of the disk is 0. *)
Definition boot_lines (hd : hdr) (b : list Z) : list entry :=
  let o := h_offset hd in
  if getb b o =? 0 then boot_entries o (first_bytes hd (Z.max 1 (getb b (o + 1)))) (le2 (getb b (o + 2)) (getb b (o + 3))) 6 else [].

Lemma boot_list_ok e strict h r b im : bytes_ok b -> raw_ok h r -> read_data h r = b -> parse_image e strict PBoot b = Ok im ->
  exists hd l, im = IBoot hd b /\ hdr_of b = Ok hd /\ image_segments h r PBoot im = (h, Ok l) /\
    Forall2 (seg_is h r) l (image_head "Atari Boot Disk Image" hd (zlen b) ++ boot_lines hd b).
Proof.
  intros Hb R Rb E. cbn [parse_image] in E. change (atari_header b) with (hdr_of b) in E. destruct (hdr_of b) as [hd|] eqn:Hh; cbn [rbind] in E; [|discriminate].
  pose proof (header_facts b hd Hb Hh) as F. assert (L : raw_len h r = zlen b) by (rewrite <- Rb, read_data_shows, zlen_map, zlen_shows by exact R; reflexivity).
  destruct (boot_check hd b) as [u|]; cbn [rbind] in E; [|discriminate]. destruct (checked _ _) as [u'|]; cbn [rbind] in E; [|discriminate].
  destruct (boot_segments hd b 1 6) as [u''|] eqn:Bs; cbn [rbind] in E; [|discriminate]. injection E as <-. exists hd.
  unfold boot_segments in Bs. destruct (get_sectors hd b 1 1) as [data|] eqn:Gs; cbn [rbind] in Bs; [|discriminate].
  assert (M : 1 <= h_max hd).
  { unfold get_sectors, get_sector_slice in Gs. destruct (get_pos hd 1) as [p|] eqn:P; cbn [rbind] in Gs; [|discriminate]. pose proof (valid_max hd b 1 p F P). lia. }
  pose proof (ninit_max hd b F M) as Ni. pose proof (sized hd b F M) as Sz.
  assert (Ed : data = slice b (h_offset hd) (h_offset hd + first_bytes hd 1)).
  { unfold get_sectors in Gs. rewrite (first_slice hd 1) in Gs by lia. cbn [rbind] in Gs. injection Gs as <-. reflexivity. }
  pose proof (first_bytes_size hd b 1 F ltac:(lia)) as (F1 & _). pose proof (hf_size _ _ F) as Fs. pose proof (hf_off _ _ F) as Fo.
  unfold view_rec in Bs. destruct (Z.eqb_spec (zlen (slice data 0 6)) 0) as [|N0]; cbn [rbind] in Bs; [discriminate|].
  destruct (Z.eqb_spec (zlen (slice data 0 6)) 6) as [N6|]; cbn [rbind] in Bs; [|discriminate]. rewrite zlen_slice_min in N6 by lia.
  assert (Zd : zlen data = first_bytes hd 1) by (rewrite Ed, zlen_slice; lia).
  assert (Gd : forall i, 0 <= i < 6 -> getb data i = getb b (h_offset hd + i)) by (intros i Hi; rewrite Ed; apply getb_slice; lia).
  assert (X : exists l, boot_segs h r hd b 1 6 = Ok l /\ Forall2 (made r h) l (boot_lines hd b)).
  { unfold boot_lines. rewrite <- !Gd by lia. replace (getb b (h_offset hd)) with (getb data 0) by (rewrite Gd by lia; f_equal; lia).
    rewrite !getb_slice in Bs by lia. cbn [Z.add] in Bs. destruct (getb data 0 =? 0) eqn:Z0.
    - assert (B : is_byte (getb data 1)) by (apply bytes_ok_getb; rewrite Ed; apply bytes_ok_slice; exact Hb). unfold is_byte in B.
      assert (D1 : getb data 1 <= h_max hd).
      { unfold get_sector_slice in Bs. destruct (get_pos hd 1) as [[p s]|]; cbn [rbind] in Bs; [|discriminate].
        destruct (more_sectors hd _ 1) as [y|] eqn:Y; cbn [rbind] in Bs; [|discriminate]. destruct (more_max hd b _ F _ _ Y); lia. }
      pose proof (first_bytes_size hd b (Z.max 1 (getb data 1)) F ltac:(lia)) as (S1 & S2).
      destruct (boot_made h r hd b 1 6 data R Gs ltac:(lia) ltac:(lia) ltac:(lia) ltac:(lia) ltac:(lia) ltac:(lia) ltac:(lia)) as (l & El & Ml). rewrite Z0 in Ml. exists l. split; [exact El|exact Ml].
    - exists []. split; [|constructor]. unfold boot_segs. rewrite Gs. cbn [rbind]. unfold view_rec. rewrite zlen_slice by lia. cbn [Z.sub Z.eqb Pos.eqb Z.opp Z.add Pos.add rbind].
      rewrite getb_slice by lia. cbn [Z.add]. rewrite Z0. reflexivity. }
  destruct X as (l & El & Ml). unfold image_segments, with_whole, parse_segments, boot_parse_segments, pure. rewrite El. cbn [hbind].
  exists ((whole_seg r (txt "Atari Boot Disk Image") :: atari_head_segs h r hd) ++ l). split; [reflexivity|]. split; [reflexivity|]. split; [reflexivity|].
  apply made_all; [exact R|]. apply Forall2_join; [|exact Ml]. rewrite <- L. apply head_made; try assumption; lia.
Qed.

Lemma plain_list_ok e strict h r b im : bytes_ok b -> raw_ok h r -> read_data h r = b -> parse_image e strict PUnidentified b = Ok im -> 128 < zlen b ->
  exists hd l, im = IUnidentified hd b /\ hdr_of b = Ok hd /\ image_segments h r PUnidentified im = (h, Ok l) /\
    Forall2 (seg_is h r) l (image_head "Atari Disk Image" hd (zlen b)).
Proof.
  intros Hb R Rb E L0. cbn [parse_image] in E. change (atari_header b) with (hdr_of b) in E. destruct (hdr_of b) as [hd|] eqn:Hh; cbn [rbind] in E; [|discriminate].
  pose proof (header_facts b hd Hb Hh) as F. assert (L : raw_len h r = zlen b) by (rewrite <- Rb, read_data_shows, zlen_map, zlen_shows by exact R; reflexivity).
  destruct (checked _ _) as [u'|]; cbn [rbind] in E; [|discriminate]. injection E as <-. pose proof (hf_off _ _ F) as Fo. pose proof (hf_size _ _ F) as Fs.
  assert (Sz : 0 < h_image_size hd).
  { clear - Hh L0. unfold hdr_of in Hh. assert (O : h_offset (read_header b) <= 16) by (unfold read_header, atr_header; destruct (_ =? 16); [destruct (negb _); cbn; lia|cbn; lia]).
    unfold check_size in Hh. repeat match type of Hh with context [if ?c then _ else _] => destruct c eqn:? end; try discriminate; injection Hh as <-; cbn in *; lia. }
  exists hd. eexists. split; [reflexivity|]. split; [reflexivity|]. split; [reflexivity|]. apply made_all; [exact R|]. rewrite <- L. apply head_made; try assumption; lia.
Qed.

Lemma kboot_list_ok e strict h r b im : bytes_ok b -> raw_ok h r -> read_data h r = b -> parse_image e strict PKBoot b = Ok im ->
  exists k l, im = IKBoot k /\ hdr_of b = Ok (k_hdr k) /\ image_segments h r PKBoot im = (h, Ok l) /\
    Forall2 (seg_is h r) l (image_head "KBoot Disk Image" (k_hdr k) (zlen b) ++ [mkEn KObj (txt "KBoot Executable") (k_start k) (zrange (k_start k) (k_start k + k_size k))]) /\
    exists l0 s, l = l0 ++ [s] /\ read_data h (g_raw s) = kboot_file k.
Proof.
  intros Hb R Rb E. cbn [parse_image] in E. destruct (kboot_open b) as [k|] eqn:K; cbn [rbind] in E; [|discriminate].
  destruct (checked _ _) as [u'|]; cbn [rbind] in E; [|discriminate]. injection E as <-. unfold kboot_open in K.
  cbv zeta in K. destruct (check_size (read_header b) (zlen b - h_offset (read_header b))) as [hd|] eqn:Hc; cbn [rbind] in K; [|discriminate].
  assert (Hh : hdr_of b = Ok hd) by exact Hc. pose proof (header_facts b hd Hb Hh) as F.
  assert (L : raw_len h r = zlen b) by (rewrite <- Rb, read_data_shows, zlen_map, zlen_shows by exact R; reflexivity).
  destruct (get_pos hd 4) as [[start sz]|] eqn:P; cbn [rbind] in K; [|discriminate]. pose proof (valid_max hd b _ _ F P) as M.
  destruct (_ <=? _) in K; [discriminate|]. destruct (_ || _) eqn:C in K; [discriminate|]. injection K as <-. cbn [k_hdr].
  set (count := getb b _ + _ + _) in *.
  assert (B : forall i, is_byte (getb b i)) by (intros i; apply bytes_ok_getb; exact Hb). unfold is_byte in B.
  assert (C0 : 0 <= count) by (unfold count; pose proof (B (h_offset hd + 9)); pose proof (B (h_offset hd + 9 + 1)); pose proof (B (h_offset hd + 9 + 2)); lia).
  pose proof (hf_off _ _ F) as Fo. pose proof (hf_size _ _ F) as Fs. pose proof (hf_ssize _ _ F) as Fz. pose proof (sized hd b F ltac:(lia)) as Sz.
  assert (S0 : 0 <= start).
  { unfold get_pos in P. destruct (negb _) in P; [discriminate|]. destruct (hf_init _ _ F) as [[I1 I2]|[I1 I2]]; rewrite I1, I2 in P; [replace (4 <=? 0) with false in P by lia|replace (4 <=? 3) with false in P by lia]; apply (f_equal (fun x => match x with Ok (p, _) => p | Err _ => 0 end)) in P; cbv beta iota in P; rewrite <- P; clear - Fz Fo; lia. }
  assert (W : Forall2 (made r h) ((whole_seg r (txt "KBoot Disk Image") :: atari_head_segs h r hd) ++ [mkSeg KObj (txt "KBoot Executable") start (raw_slice h r (Some start) (Some (start + count)))])
     (image_head "KBoot Disk Image" hd (zlen b) ++ [mkEn KObj (txt "KBoot Executable") start (zrange start (start + count))])).
  { apply Forall2_join; [rewrite <- L; apply head_made; try assumption; lia|]. constructor; [|constructor]. split; [|auto]. cbn [g_raw n_at]. apply slice_window; [exact R|lia|lia]. }
  eexists _, _. split; [reflexivity|]. split; [exact Hh|]. split; [reflexivity|]. split; [exact (made_all r h _ _ R W)|].
  set (s := mkSeg KObj (txt "KBoot Executable") start (raw_slice h r (Some start) (Some (start + count)))).
  exists (whole_seg r (txt "KBoot Disk Image") :: atari_head_segs h r hd), s. split; [reflexivity|].
  assert (Ms : made r h s (mkEn KObj (txt "KBoot Executable") start (zrange start (start + count)))) by (split; [cbn [g_raw n_at s]; apply slice_window; [exact R|lia|lia]|auto]).
  rewrite (si_bytes _ _ _ _ (made_seg r h _ _ R Ms)). cbn [n_at]. rewrite Rb. unfold kboot_file. cbn [k_bytes k_start k_size]. symmetry. apply slice_map_range; lia.
Qed.
