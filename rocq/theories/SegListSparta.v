(** The segments of SpartaDOS disks. *)
From Coq Require Import String.
From Verif Require Import Base BaseLemmas DiskModel AtariModel AtariSpec AtariGeom AtariHeader
  SpartaModel SpartaSpec SpartaProofs ExecModel SegModel SegSpec SegProofs SegProofs2 TextModel DetectModel EditModel EditProofs EditAtari
  SegListModel SegListSpec SegListProofs SegListAtari SegListOther.

(** The bytes of a sector that the code in the boot record stands for; the manual of SpartaDOS
    says: $80 for 128, 0 for 256 and 1 for 512. *)
Definition said_bytes (code : Z) : Z :=
  match code with 0x80 => 128 | 0 => 256 | 1 => 512 | _ => -1 end.
Lemma said_bytes_eq code : sector_size_of code = said_bytes code.
Proof.
  unfold sector_size_of, said_bytes. destruct (Z.eqb_spec code 0) as [->|N0]; [reflexivity|]. destruct (Z.eqb_spec code 1) as [->|N1]; [reflexivity|].
  destruct (Z.eqb_spec code 0x80) as [->|N2]; [reflexivity|].
  destruct code as [|c|c]; [congruence| |reflexivity].
  do 8 (destruct c as [c|c|]; try reflexivity; try congruence).
Qed.
(** The lines before those of the files, without the root directory.  There is none for
    all boot sectors; that of the header is there twice on a disk with boot sectors. *)
Definition sparta_fixed (hd : hdr) (b : list Z) : list entry :=
  let g := geom_of hd in
  let o := h_offset hd in
  let size := first_bytes hd 1 in
  let addr := boot_word g b 2 in
  let header := mkEn KObj (txt "Boot Header") addr (zrange o (o + 43)) in
  let code := mkEn KObj (txt "Boot Code") (addr + 43) (zrange (o + 43) (o + size)) in
  let first := boot_word g b 16 in
  let num := boot_byte g b 15 in
  image_head "Sparta DOS Disk Image" hd (zlen b) ++
  header :: (if 0 <? boot_byte g b 1 then [header; code] else []) ++
  [mkEn (KRaw first num 0 0 (said_bytes (boot_byte g b 31))) (txt "Bitmap") 0 (zrange (spos g first) (spos g first + num * g_ss g))].
(** The line of a file; [t] are the bytes of its time. *)
Definition sparta_label (d : sdirent) (t : list Z) : list Z :=
  sfilename d ++ txt " " ++ dec (sd_length d) ++ txt "@" ++ dec (sd_start d) ++ txt " " ++ stamp_text t.
Definition sparta_line (h : heap) (r : raw) (im : simg) (d : sdirent) (t : list Z) (s : seg) : Prop :=
  match sget_file im d with
  | Ok data =>
      raw_ok h (g_raw s) /\ r_data (g_raw s) = r_data r /\ r_style (g_raw s) = r_style r /\ r_extra (g_raw s) = r_extra r /\
      g_origin s = 0 /\ read_data h (g_raw s) = data /\
      (g_kind s = KDefault /\ g_name s = sparta_label d t \/
       g_kind s = KEmpty (stamp_text t) /\ g_name s = sfilename d /\ data = s_bytes im)
  | Err e => is_invalid_file e = true /\ s = mkSeg (KFailed e) (sfilename d) 0 r
  end.

Lemma any_order h r o : raw_ok h r -> raw_len h r <= 2147483648 -> Forall (fun p => 0 <= p < raw_len h r) o ->
  exists s, raw_indexed h r (to_numpy_list o) = Ok s /\ raw_ok h s /\ r_data s = r_data r /\ r_style s = r_style r /\ r_extra s = r_extra r /\
    read_data h s = map (getb (read_data h r)) o.
Proof.
  intros R Hl F. rewrite (to_numpy_small (raw_len h r)) by (try exact F; lia).
  assert (F0 : Forall (fun i => 0 <= i) o) by (eapply Forall_impl; [|exact F]; cbn; lia).
  pose proof (raw_indexed_shows h r o R F0) as X. unfold pyselect in X. rewrite zlen_shows in X by exact R.
  replace (forallb _ o) with true in X.
  2: { symmetry. apply forallb_forall. intros p Hp. rewrite Forall_forall in F. specialize (F p Hp). lia. }
  destruct X as (seg & E & R' & Sg & D1 & D2 & D3). exists seg. repeat (split; [assumption|]).
  rewrite (read_data_shows h seg R'), (read_data_shows h r R), Sg, D1, map_map. apply map_ext_in. intros p Hp.
  rewrite Forall_forall in F. rewrite getb_map by (rewrite zlen_shows by exact R; apply F; exact Hp). reflexivity.
Qed.

(** * Runs *)
Lemma runs_in b hd : bytes_ok b -> hdr_of b = Ok hd -> forall m rem runs, sread_runs hd m rem = Ok runs ->
  Forall (fun r => 0 <= fst r /\ 0 <= snd r /\ fst r + snd r <= zlen b) (sruns runs).
Proof.
  intros Hb Hh. destruct (hdr_of_facts b hd Hb Hh) as (F1 & F2 & _). induction m as [|n m IH]; intros rem runs E; [discriminate|]. cbn [sread_runs] in E.
  destruct (n =? 0); [injection E as <-; constructor|]. destruct (get_pos hd n) as [[p s]|] eqn:Ep; [|discriminate]. cbn [rbind] in E.
  pose proof (get_pos_inside b hd n _ _ Hb Hh Ep) as (P1 & P2 & P3).
  destruct (sread_runs hd m (rem - Z.min rem s)) as [x|] eqn:Er; [|discriminate]. cbn [rbind] in E. injection E as <-. unfold sruns. cbn [map fst snd].
  constructor; [cbn [fst snd]; lia|exact (IH _ _ Er)].
Qed.
Lemma positions_none runs : Forall (fun r : Z * Z => 0 <= snd r) runs -> (run_positions runs = [] <-> forallb (fun r => snd r =? 0) runs = true).
Proof.
  induction 1 as [|[p n] l A _ IH]; [split; reflexivity|]. unfold run_positions in *. cbn [flat_map forallb fst snd] in *. rewrite andb_true_iff, <- IH. split.
  - intros E. apply app_eq_nil in E. destruct E as [E1 E2]. split; [|exact E2]. destruct (Z.eqb_spec n 0); [reflexivity|]. rewrite (zrange_cons p) in E1 by lia. discriminate.
  - intros [E1 E2]. rewrite E2. replace n with 0 by lia. rewrite (zrange_nil p) by lia. reflexivity.
Qed.
Lemma positions_read (b : list Z) runs : Forall (fun r => 0 <= fst r /\ 0 <= snd r /\ fst r + snd r <= zlen b) runs ->
  flat_map (fun r => slice b (fst r) (fst r + snd r)) runs = map (getb b) (run_positions runs).
Proof.
  induction 1 as [|[p n] l A _ IH]; [reflexivity|]. unfold run_positions in *. cbn [flat_map fst snd] in *. rewrite map_app, IH. f_equal. apply slice_map_range; lia.
Qed.
Lemma positions_in (b : list Z) runs : Forall (fun r => 0 <= fst r /\ 0 <= snd r /\ fst r + snd r <= zlen b) runs -> Forall (fun p => 0 <= p < zlen b) (run_positions runs).
Proof.
  intros F. apply Forall_forall. intros p Hp. unfold run_positions in Hp. apply in_flat_map in Hp. destruct Hp as ([q n] & H1 & H2).
  rewrite Forall_forall in F. specialize (F _ H1). cbn [fst snd] in *. apply In_zrange in H2. lia.
Qed.

Section S.
  Variables (h : heap) (r : raw) (im : simg).
  Let b := s_bytes im.
  Let hd := s_hdr im.
  Hypothesis Hb : bytes_ok b.
  Hypothesis Hh : hdr_of b = Ok hd.
  Hypothesis R : raw_ok h r.
  Hypothesis Hl : raw_len h r <= 2147483648.
  Hypothesis Rb : read_data h r = b.
  Lemma s_len : raw_len h r = zlen b.
  Proof. rewrite <- Rb, read_data_shows, zlen_map, zlen_shows by exact R. reflexivity. Qed.

  Lemma sparta_file_line d t : match sget_file im d with
    | Ok _ => exists s, sparta_file_seg r im h (d, t) = (h, Ok s) /\ sparta_line h r im d t s
    | Err e => sparta_file_seg r im h (d, t) = (h, Err e)
    end.
  Proof.
    pose proof s_len as L. unfold sparta_line, sparta_file_seg, pure, sget_file, sget_bytes. fold b hd. destruct (sfile_runs (sfuel b) hd b d) as [runs|e] eqn:Er; cbn [rbind]; [|reflexivity].
    assert (F : Forall (fun r => 0 <= fst r /\ 0 <= snd r /\ fst r + snd r <= zlen b) runs).
    { unfold sfile_runs in Er. destruct (negb _); [discriminate|]. destruct (sector_map _ _ _ _) as [[m|]|]; cbn [rbind] in Er; try discriminate.
      destruct (sread_runs hd m (sd_length d)) as [x|] eqn:Ex; cbn [rbind] in Er; [|discriminate]. injection Er as <-. exact (runs_in b hd Hb Hh _ _ _ Ex). }
    pose proof (positions_none runs) as Pn. destruct Pn as [Pn1 Pn2]; [eapply Forall_impl; [|exact F]; intros x; cbv beta; lia|].
    pose proof (positions_in b runs F) as Pi. pose proof (positions_read b runs F) as Pr. destruct (forallb (fun r => snd r =? 0) runs) eqn:Fz.
    - rewrite Pn2 by reflexivity. eexists. split; [reflexivity|]. cbn [g_raw g_origin g_kind g_name]. repeat (split; [solve [assumption|reflexivity]|]). right. auto.
    - unfold indexed_bytes. replace (forallb (fun r => (snd r =? 0) || (fst r + snd r <=? zlen b)) runs) with true.
      2: { symmetry. apply forallb_forall. intros x Hx. rewrite Forall_forall in F. specialize (F x Hx). cbv beta in F. lia. }
      destruct (run_positions runs) as [|p ps] eqn:Ep; [specialize (Pn1 eq_refl); discriminate|].
      destruct (any_order h r (p :: ps) R Hl) as (s & Es & S1 & S2 & S3 & S4 & S5); [rewrite L; exact Pi|]. rewrite Es. cbn [rbind].
      eexists. split; [reflexivity|]. cbn [g_raw g_origin g_kind g_name]. repeat (split; [solve [assumption|reflexivity]|]).
      split; [rewrite S5, Rb, Pr; reflexivity|]. left. split; reflexivity.
  Qed.

  Lemma sparta_files_ok l : file_segments (sget_file im) (map fst l) = Ok tt ->
    exists files, each_file (fun dt : sdirent * list Z => sfilename (fst dt)) (sparta_file_seg r im) r h l = (h, Ok files) /\
      Forall2 (fun dt s => sparta_line h r im (fst dt) (snd dt) s) l files.
  Proof.
    induction l as [|[d t] l IH]; intros E; [exists []; split; [reflexivity|constructor]|]. cbn [map fst file_segments] in E. cbn [each_file].
    pose proof (sparta_file_line d t) as X. destruct (sget_file im d) as [data|e] eqn:G.
    - destruct X as (s & Es & Ls). rewrite Es. destruct (IH E) as (files & Ef & Ff). rewrite Ef. cbn [hbind]. exists (s :: files). split; [reflexivity|]. constructor; [exact Ls|exact Ff].
    - rewrite X. destruct (is_invalid_file e) eqn:Ie; [|discriminate]. destruct (IH E) as (files & Ef & Ff). rewrite Ef. cbn [hbind].
      eexists. split; [reflexivity|]. constructor; [|exact Ff]. unfold sparta_line. cbn [fst snd]. rewrite G. auto.
  Qed.

  (** * The bitmap *)
  Let g := geom_of hd.
  Lemma bitmap_more m : forall n start count x, start <> 0 -> 4 <= n -> contig_loop hd (zrange n (n + Z.of_nat m)) start count = Ok x ->
    x = (start, count + Z.of_nat m * g_ss g) /\ (m = O \/ n + Z.of_nat m <= h_max hd + 1).
  Proof.
    induction m as [|m IH]; intros n start count x S0 N E.
    - rewrite zrange_nil in E by lia. cbn [contig_loop] in E. injection E as <-. split; [f_equal; lia|left; reflexivity].
    - rewrite zrange_cons in E by lia. cbn [contig_loop] in E. destruct (get_pos hd n) as [[p s]|] eqn:P; cbn [rbind] in E; [|discriminate].
      assert (U : usable g n) by (pose proof (valid_max hd b n _ (header_facts b hd Hb Hh) P); split; [exact H|right; exact N]).
      assert (P' : get_pos hd n = Ok (spos g n, g_ss g)) by exact (pos_usable b hd Hb Hh n U). rewrite P in P'. assert (s = g_ss g) by (injection P'; auto). subst s.
      replace (start =? 0) with false in E by lia. replace (n + Z.of_nat (S m)) with (n + 1 + Z.of_nat m) in E by lia.
      destruct (IH (n + 1) _ _ _ S0 ltac:(lia) E) as (-> & B). destruct U as [U _]. unfold g, geom_of in U. cbn [g_max] in U. split; [f_equal; lia|right; lia].
  Qed.
  Lemma bitmap_bounds first num x : 4 <= first -> 0 <= num -> contig_loop hd (zrange first (first + num)) 0 0 = Ok x -> 0 < num ->
    x = (spos g first, num * g_ss g) /\ 0 <= spos g first /\ spos g first + num * g_ss g <= zlen b.
  Proof.
    intros N N0 E Np. rewrite zrange_cons in E by lia. cbn [contig_loop] in E. destruct (get_pos hd first) as [[p s]|] eqn:P; cbn [rbind] in E; [|discriminate].
    pose proof (header_facts b hd Hb Hh) as HF. pose proof (valid_max hd b first _ HF P) as V. assert (U : usable g first) by (split; [exact V|right; exact N]).
    assert (P' : get_pos hd first = Ok (spos g first, g_ss g)) by exact (pos_usable b hd Hb Hh first U). rewrite P in P'.
    assert (p = spos g first /\ s = g_ss g) as [-> ->] by (injection P'; auto). cbn [Z.eqb] in E.
    pose proof (hf_off _ _ HF) as Fo. pose proof (hf_ssize _ _ HF) as Fs. pose proof (hf_init _ _ HF) as Fi. pose proof (hf_three _ _ HF) as F3.
    assert (S0 : 0 < spos g first).
    { clear - N Fo Fs Fi F3. unfold spos, g, geom_of. cbn [g_off g_ss g_skew]. destruct Fi as [[I1 I2]|[I1 I2]]; rewrite I1, I2; [nia|]. destruct (F3 I2) as [_ ->]. lia. }
    replace (first + num) with (first + 1 + Z.of_nat (Z.to_nat (num - 1))) in E by lia.
    destruct (bitmap_more _ (first + 1) (spos g first) _ _ ltac:(lia) ltac:(lia) E) as (-> & B). split; [f_equal; rewrite Z2Nat.id by lia; ring|]. split; [lia|].
    assert (U' : usable g (first + num - 1)) by (split; [unfold g, geom_of; cbn [g_max]; destruct B; lia|right; lia]).
    destruct (sector_usable b hd Hb Hh _ U') as (_ & Q & _). fold g in Q. unfold spos in *. lia.
  Qed.
End S.

Lemma sparta_list_ok e strict h r b im : bytes_ok b -> raw_ok h r -> raw_len h r <= 2147483648 -> read_data h r = b -> parse_image e strict PSparta b = Ok im ->
  exists a d l files s, im = ISparta a /\ open_sparta b = Ok a /\ s_rootd a = Some d /\ stamps a = Ok l /\ map fst l = s_files a /\
    let hd := s_hdr a in
    let g := geom_of hd in
    (43 <= first_bytes hd 1 -> 4 <= boot_word g b 16 -> 1 <= boot_byte g b 15 -> boot_word g b 16 + boot_byte g b 15 < 65536 ->
     exists fixed, image_segments h r PSparta im = (h, Ok (fixed ++ s :: files)) /\
       Forall2 (seg_is h r) fixed (sparta_fixed hd b) /\
       (exists data, sget_file a d = Ok data /\ read_data h (g_raw s) = data /\ g_name s = sfilename d) /\
       Forall2 (fun dt s => sparta_line h r a (fst dt) (snd dt) s) l files).
Proof.
  intros Hb R Hl Rb E. cbn [parse_image] in E. destruct (open_sparta b) as [a|] eqn:Op; cbn [rbind] in E; [|discriminate].
  destruct (checked _ _) as [u|]; cbn [rbind] in E; [|discriminate]. destruct (sparta_segments a) as [[]|] eqn:Sg; cbn [rbind] in E; [|discriminate].
  injection E as <-. unfold open_sparta, open_sparta_fuel in Op. destruct (check_size _ _) as [hd|] eqn:Hc in Op; cbn [rbind] in Op; [|discriminate].
  assert (Hh : hdr_of b = Ok hd) by exact Hc. clear Hc. destruct (boot_sector_info b hd) as [im0|] eqn:Bi; cbn [rbind] in Op; [|discriminate].
  pose proof (header_facts b hd Hb Hh) as HF. assert (L : raw_len h r = zlen b) by (rewrite <- Rb, read_data_shows, zlen_map, zlen_shows by exact R; reflexivity).
  unfold boot_sector_info in Bi. destruct (get_sectors hd b 1 1) as [data|] eqn:Gs; cbn [rbind] in Bi; [|discriminate].
  assert (M : 1 <= h_max hd).
  { unfold get_sectors, get_sector_slice in Gs. destruct (get_pos hd 1) as [p|] eqn:P; cbn [rbind] in Gs; [|discriminate]. pose proof (valid_max hd b 1 p HF P). lia. }
  pose proof (ninit_max hd b HF M) as Ni. pose proof (sized hd b HF M) as Sz.
  assert (Ed : data = slice b (h_offset hd) (h_offset hd + first_bytes hd 1)).
  { unfold get_sectors in Gs. rewrite (first_slice hd 1) in Gs by lia. cbn [rbind] in Gs. injection Gs as <-. reflexivity. }
  pose proof (first_bytes_size hd b 1 HF ltac:(lia)) as (F1 & _). pose proof (hf_size _ _ HF) as Fs. pose proof (hf_off _ _ HF) as Fo.
  destruct (Z.eqb_spec (zlen (slice data 0 33)) 0) as [|N0]; [discriminate|].
  destruct (Z.eqb_spec (zlen (slice data 0 33)) 33) as [N6|]; cbn [negb] in Bi; [|discriminate]. rewrite zlen_slice_min in N6 by lia.
  assert (Zd : zlen data = first_bytes hd 1) by (rewrite Ed, zlen_slice; lia).
  assert (Gd : forall i, 0 <= i < 33 -> getb (slice data 0 33) i = boot_byte (geom_of hd) b i).
  { intros i Hi. rewrite getb_slice by lia. cbn [Z.add]. rewrite Ed, getb_slice by lia. unfold boot_byte, geom_of. cbn [g_off]. reflexivity. }
  cbv zeta in Bi. destruct (_ && _) in Bi; [|discriminate].
  assert (E0 : s_bytes im0 = b /\ s_hdr im0 = hd /\ s_numboot im0 = boot_byte (geom_of hd) b 1 /\ s_bootaddr im0 = boot_word (geom_of hd) b 2 /\
    s_bitmap im0 = boot_word (geom_of hd) b 16 /\ s_nbitmap im0 = boot_byte (geom_of hd) b 15 /\ s_ssize im0 = sector_size_of (boot_byte (geom_of hd) b 31)).
  { assert (X : im0 = mkS b hd (getb (slice data 0 33) 1) (le2 (getb (slice data 0 33) 2) (getb (slice data 0 33) (2 + 1)))
      (le2 (getb (slice data 0 33) 16) (getb (slice data 0 33) (16 + 1))) (getb (slice data 0 33) 15) (le2 (getb (slice data 0 33) 9) (getb (slice data 0 33) (9 + 1)))
      (sector_size_of (getb (slice data 0 33) 31)) (le2 (getb (slice data 0 33) 11) (getb (slice data 0 33) (11 + 1))) (le2 (getb (slice data 0 33) 13) (getb (slice data 0 33) (13 + 1))) [] None) by congruence.
    rewrite X. cbn [s_bytes s_hdr s_numboot s_bootaddr s_bitmap s_nbitmap s_ssize]. unfold boot_word. rewrite !Gd by lia. auto 10. }
  destruct E0 as (I1 & I2 & I3 & I4 & I5 & I6 & I7).
  assert (Ea : s_bytes a = b /\ s_hdr a = hd /\ s_numboot a = boot_byte (geom_of hd) b 1 /\ s_bootaddr a = boot_word (geom_of hd) b 2 /\
    s_bitmap a = boot_word (geom_of hd) b 16 /\ s_nbitmap a = boot_byte (geom_of hd) b 15 /\ s_ssize a = sector_size_of (boot_byte (geom_of hd) b 31)).
  { assert (exists ds d, a = with_dir im0 ds d) as (ds & d & ->).
    { unfold sget_directory in Op. destruct (sector_map _ _ _ _) as [[[|s0 m]|]|]; cbn [rbind] in Op; try discriminate.
      destruct (s0 =? 0); [exists [], None; congruence|]. destruct (get_raw_bytes _ _ _) as [[[x y] z]|]; cbn [rbind] in Op; [|discriminate].
      destruct (parse_sdirent _ _ _) as [d0|]; cbn [rbind] in Op; [|discriminate]. destruct (sget_bytes _ _ _ _) as [s1|]; cbn [rbind] in Op; [|discriminate].
      destruct (sentries _ _ _ _ _) as [ds|]; cbn [rbind] in Op; [|discriminate]. eexists _, _. injection Op as <-. reflexivity. }
    unfold with_dir. cbn [s_bytes s_hdr s_numboot s_bootaddr s_bitmap s_nbitmap s_ssize]. auto 10. }
  clear I1 I2 I3 I4 I5 I6 I7. destruct Ea as (I1 & I2 & I3 & I4 & I5 & I6 & I7).
  unfold sparta_segments in Sg. rewrite I2 in Sg. destruct (get_sector_slice hd 1 _) as [ab|] eqn:Gl in Sg; cbn [rbind] in Sg; [|discriminate].
  destruct (sbitmap_bounds a) as [[start count]|] eqn:Bb; cbn [rbind] in Sg; [|discriminate].
  destruct (s_rootd a) as [d|] eqn:Rd; [|discriminate]. destruct (sget_file a d) as [c|] eqn:Gf; cbn [rbind] in Sg; [|discriminate].
  assert (St : stamps a = Ok (map (fun d => (d, slice c (23 * sd_num d + 17) (23 * sd_num d + 23))) (s_files a))) by (unfold stamps; rewrite Rd, Gf; reflexivity).
  set (l := map _ (s_files a)) in St. assert (Ml : map fst l = s_files a) by (unfold l; rewrite map_map; cbn [fst]; apply map_id).
  assert (Hb' : bytes_ok (s_bytes a)) by (rewrite I1; exact Hb). assert (Hh' : hdr_of (s_bytes a) = Ok (s_hdr a)) by (rewrite I1, I2; exact Hh).
  assert (Rb' : read_data h r = s_bytes a) by (rewrite I1; exact Rb).
  rewrite <- Ml in Sg. destruct (sparta_files_ok h r a Hb' Hh' R Hl Rb' l Sg) as (files & Ef & Ff).
  pose proof (sparta_file_line h r a Hb' Hh' R Hl Rb' d (root_stamp a d)) as Ls. rewrite Gf in Ls. destruct Ls as (s & Es & Ls).
  unfold sparta_line in Ls. rewrite Gf in Ls. destruct Ls as (Q1 & Q2 & Q3 & Q4 & Q5 & Q6 & Q7).
  exists a, d, l, files, (mkSeg (g_kind s) (sfilename d) (g_origin s) (g_raw s)). split; [reflexivity|].
  split; [reflexivity|]. split; [exact Rd|]. split; [exact St|]. split; [exact Ml|]. cbv zeta. rewrite I2. intros B43 B4 N1 Nb.
  set (g := geom_of hd) in *. assert (Bn : 0 <= boot_byte g b 1) by (apply bytes_ok_getb; exact Hb).
  assert (Gl' : get_sector_slice hd 1 (Z.min (s_numboot a) 1) = Ok (h_offset hd, h_offset hd + first_bytes hd 1)).
  { rewrite first_slice by lia. replace (Z.max 1 (Z.min (s_numboot a) 1)) with 1 by lia. reflexivity. }
  unfold sbitmap_bounds in Bb. rewrite I2, I5, I6 in Bb. assert (B16 : 0 <= boot_word g b 16).
  { unfold boot_word. assert (B : forall i, is_byte (boot_byte g b i)) by (intros i; apply bytes_ok_getb; exact Hb). pose proof (B 16). pose proof (B (16 + 1)). unfold is_byte, le2 in *. lia. }
  unfold u16 in Bb. rewrite Z.mod_small in Bb by lia. pose proof Bb as Bc.
  assert (Z3 : (start, count) = (spos g (boot_word g b 16), boot_byte g b 15 * g_ss g) /\ 0 <= spos g (boot_word g b 16) /\ spos g (boot_word g b 16) + boot_byte g b 15 * g_ss g <= zlen b).
  { pose proof (bitmap_bounds a Hb' Hh') as X. rewrite I1, I2 in X. exact (X (boot_word g b 16) (boot_byte g b 15) _ B4 ltac:(lia) Bb ltac:(lia)). }
  destruct Z3 as (Z1 & Z2 & Z3). assert (start = spos g (boot_word g b 16) /\ count = boot_byte g b 15 * g_ss g) as [-> ->] by (injection Z1; auto).
  pose proof (hf_ssize _ _ HF) as Fss. assert (0 <= boot_byte g b 15 * g_ss g) by (unfold g at 2, geom_of; cbn [g_ss]; nia).
  unfold image_segments, with_whole, parse_segments, sparta_parse_segments, pure. unfold sparta_boot_segs. rewrite I2, Gl'. cbn [rbind hbind].
  unfold sparta_vtoc_segs, sbitmap_bounds. rewrite I2, I5, I6. unfold u16. rewrite Z.mod_small by lia. rewrite Bc. cbn [rbind hbind].
  unfold sparta_dir_segs. rewrite Rd, Es. cbn [hbind]. rewrite St. cbn [hbind]. rewrite Ef. cbn [hbind].
  set (hs := mkSeg KObj (txt "Boot Header") _ _). set (cs := mkSeg KObj (txt "Boot Code") _ _). set (bs := mkSeg (KRaw _ _ _ _ _) _ _ _).
  exists (whole_seg r (txt "Sparta DOS Disk Image") :: atari_head_segs h r hd ++ (hs :: (if 0 <? s_numboot a then [hs; cs] else [])) ++ [bs]).
  split; [cbn [app]; rewrite <- !app_assoc; cbn [app]; rewrite <- !app_assoc; reflexivity|]. split.
  2: { split; [exists c; auto|exact Ff]. }
  apply made_all; [exact R|]. unfold sparta_fixed. cbv zeta. fold g. rewrite I3.
  assert (Wb : window r h (raw_slice h r (Some (h_offset hd)) (Some (h_offset hd + first_bytes hd 1))) (zrange (h_offset hd) (h_offset hd + first_bytes hd 1))) by (apply slice_window; [exact R|lia|lia]).
  assert (Mh : made r h hs (mkEn KObj (txt "Boot Header") (boot_word g b 2) (zrange (h_offset hd) (h_offset hd + 43)))).
  { split; [|unfold hs; cbn [g_kind g_name g_origin n_kind n_name n_origin]; rewrite I4; auto]. unfold hs. cbn [g_raw n_at]. replace (zrange (h_offset hd) (h_offset hd + 43)) with (pyslice (zrange (h_offset hd) (h_offset hd + first_bytes hd 1)) (Some 0) (Some 43)) by (rewrite pyslice_range by lia; f_equal; lia). apply window_slice; [exact R|exact Wb]. }
  assert (Mc : made r h cs (mkEn KObj (txt "Boot Code") (boot_word g b 2 + 43) (zrange (h_offset hd + 43) (h_offset hd + first_bytes hd 1)))).
  { split; [|unfold cs; cbn [g_kind g_name g_origin n_kind n_name n_origin]; rewrite I4; auto]. unfold cs. cbn [g_raw n_at]. rewrite <- pyslice_range_end by lia. apply window_slice; [exact R|exact Wb]. }
  assert (Mb : made r h bs (mkEn (KRaw (boot_word g b 16) (boot_byte g b 15) 0 0 (said_bytes (boot_byte g b 31))) (txt "Bitmap") 0
     (zrange (spos g (boot_word g b 16)) (spos g (boot_word g b 16) + boot_byte g b 15 * g_ss g)))).
  { split; [unfold bs; cbn [g_raw n_at]; apply slice_window; [exact R|lia|lia]|]. unfold bs. cbn [g_kind g_name g_origin n_kind n_name n_origin]. rewrite I7, said_bytes_eq. auto. }
  change (whole_seg r (txt "Sparta DOS Disk Image") :: atari_head_segs h r hd ++ ?x) with ((whole_seg r (txt "Sparta DOS Disk Image") :: atari_head_segs h r hd) ++ x).
  apply Forall2_join; [rewrite <- L; apply head_made; try assumption; lia|]. cbn [app]. constructor; [exact Mh|].
  apply Forall2_join; [destruct (0 <? boot_byte g b 1); repeat (constructor; [assumption|]); constructor|]. constructor; [exact Mb|constructor].
Qed.
