(** Opening a SpartaDOS disk. *)
From Verif Require Import Base BaseLemmas DiskModel AtariModel AtariSpec AtariGeom AtariHeader SpartaModel SpartaSpec SpartaProofs.

(** What the listing says about an entry. *)
Record shows (e : list Z) (d : sdirent) : Prop := mkShows {
  sh_name : sfilename d = se_name e;
  sh_live : sd_inuse d = true <-> se_live e;
  sh_locked : sd_locked d = true <-> se_bit e 1;
  sh_deleted : sd_deleted d = true <-> se_bit e 16;
  sh_isdir : sd_isdir d = true <-> se_bit e 32;
  sh_start : sd_start d = se_start e;
  sh_length : se_len e < 8388608 -> sd_length d = se_len e }.

Lemma flag_bit_mod f k : flag_bit f k = true <-> (f / k) mod 2 = 1.
Proof. unfold flag_bit. pose proof (Z.mod_pos_bound (f / k) 2 ltac:(lia)). lia. Qed.

Lemma parse_shows h num e : bytes_ok e -> zlen e = 23 ->
  exists d, parse_sdirent h num e = Ok d /\ shows e d /\ sd_sane d = ssanity h (sd_inuse d) (sd_start d).
Proof.
  intros B L. unfold parse_sdirent. rewrite L. cbn [Z.eqb Pos.eqb negb]. eexists. split; [reflexivity|]. split; [|reflexivity].
  constructor; cbn [sfilename sd_base sd_ext sd_inuse sd_locked sd_deleted sd_isdir sd_start sd_length]; try apply flag_bit_mod.
  - unfold se_name, join_name, trim, sfilename. cbn [sd_base sd_ext]. 
    assert (Q : flag_bit (getb e 0) 32 = ((getb e 0 / 32) mod 2 =? 1)).
    { pose proof (flag_bit_mod (getb e 0) 32). destruct (flag_bit _ _), (Z.eqb_spec ((getb e 0 / 32) mod 2) 1); try reflexivity; intuition congruence. }
    rewrite <- Q. f_equal. destruct (if flag_bit (getb e 0) 32 then [] else _); reflexivity.
  - reflexivity.
  - intros Hl. unfold se_len in *. pose proof (bytes_ok_getb e 5 B) as B5. pose proof (bytes_ok_getb e 4 B) as B4. pose proof (bytes_ok_getb e 3 B) as B3. unfold is_byte in *.
    unfold signed8. replace (getb e 5 <? 128) with true by lia. unfold le2. lia.
Qed.

Section Disk.
Variables (b : list Z) (h : hdr) (dir : list Z) (k : Z).
Hypothesis Hh : hdr_of b = Ok h.
Let g := geom_of h.
Hypothesis Hd : sparta_disk g b dir k.

Lemma d_bytes : bytes_ok b. Proof. exact (sk_bytes _ _ _ _ Hd). Qed.
Lemma boot_record : exists data, get_sectors h b 1 1 = Ok data /\ slice data 0 33 = slice b (g_off g) (g_off g + 33) /\ g_off g + 33 <= zlen b /\ 0 <= g_off g.
Proof.
  pose proof (sk_max _ _ _ _ Hd) as M. destruct (sk_ss _ _ _ _ Hd) as [S1 S2]. destruct (hdr_of_facts b h d_bytes Hh) as (F1 & F2 & F3 & F4 & F5).
  unfold g, geom_of in M, S1. cbn [g_max g_ss] in M, S1.
  destruct (get_pos_valid h 1 F3) as [V _]. destruct (V ltac:(lia)) as (p & s & Ep).
  pose proof (get_pos_inside b h 1 p s d_bytes Hh Ep) as (P1 & P2 & P3).
  assert (Q : p = h_offset h /\ 33 <= s).
  { unfold get_pos in Ep. destruct (negb _); [discriminate|]. destruct F5 as [(B1 & B2 & B3 & B4 & B5)|(B1 & B2)]; rewrite B1 in Ep.
    - replace (1 <=? 3) with true in Ep by lia. injection Ep as <- <-. lia.
    - replace (1 <=? 0) with false in Ep by lia. injection Ep as <- <-. lia. }
  destruct Q as [-> Q]. exists (slice b (h_offset h) (h_offset h + s)). unfold g, geom_of. cbn [g_off].
  split.
  - unfold get_sectors, get_sector_slice. rewrite Ep. cbn [rbind]. rewrite Z.sub_diag. cbn [Z.to_nat more_sectors rbind]. rewrite Z.add_0_r. reflexivity.
  - split; [|lia]. rewrite slice_slice by lia. f_equal; lia.
Qed.
Lemma boot_info : exists im, boot_sector_info b h = Ok im /\ s_bytes im = b /\ s_hdr im = h /\ s_root im = boot_word g b 9 /\ s_total im = g_max g /\ s_free im = boot_word g b 13 /\
   s_bitmap im = boot_word g b 16 /\ s_nbitmap im = boot_byte g b 15 /\ s_numboot im = boot_byte g b 1 /\ s_bootaddr im = boot_word g b 2.
Proof.
  destruct boot_record as (data & E & Es & L & Lo). unfold boot_sector_info. rewrite E. cbn [rbind]. rewrite Es.
  assert (Lr : zlen (slice b (g_off g) (g_off g + 33)) = 33) by (rewrite zlen_slice by lia; lia).
  rewrite Lr. cbn [Z.eqb Pos.eqb negb].
  assert (W : forall i, 0 <= i < 33 -> getb (slice b (g_off g) (g_off g + 33)) i = boot_byte g b i).
  { intros i Hi. rewrite getb_slice by lia. reflexivity. }
  assert (W2 : forall i, 0 <= i < 32 -> le2 (getb (slice b (g_off g) (g_off g + 33)) i) (getb (slice b (g_off g) (g_off g + 33)) (i + 1)) = boot_word g b i).
  { intros i Hi. rewrite !W by lia. reflexivity. }
  rewrite !W2 by lia. rewrite !W by lia.
  assert (Hr : boot_word g b 9 <= h_max h).
  { destruct (sk_root _ _ _ _ Hd) as (ds & (cs & m & C & _) & _). inversion C as [n [U _] _|n c1 m1 [U _] _ _]; subst; unfold g, geom_of in *; cbn [g_max] in U; lia. }
  pose proof (sk_total _ _ _ _ Hd) as K1. pose proof (sk_bitmap _ _ _ _ Hd) as K2. pose proof (sk_first _ _ _ _ Hd) as K3. 
  change (g_max g) with (h_max h) in *. 
  rewrite K1, Z.eqb_refl. replace (boot_word g b 18 <=? h_max h) with true by lia. replace (boot_word g b 16 <=? h_max h) with true by lia. replace (boot_word g b 9 <=? h_max h) with true by lia.
  assert (V : zmem (boot_byte g b 32) [17; 32; 33] = true).
  { destruct (sk_version _ _ _ _ Hd) as [->|[->| ->]]; reflexivity. }
  assert (C : (sector_size_of (boot_byte g b 31) =? -1) = false).
  { destruct (sk_code _ _ _ _ Hd) as [->|[->| ->]]; reflexivity. }
  rewrite V, C. cbn [andb negb]. eexists. split; [reflexivity|]. cbn. repeat (split; [reflexivity|]). reflexivity.
Qed.

Lemma sentries_spec : forall n num i s, bytes_ok s -> 0 <= i -> i + 23 * Z.of_nat n <= zlen s ->
  exists ds, sentries n h num s i = Ok ds /\ length ds = n /\
    forall j, (j < n)%nat -> exists d, nth_error ds j = Some d /\ shows (slice s (i + 23 * Z.of_nat j) (i + 23 * Z.of_nat j + 23)) d /\
      sd_sane d = ssanity h (sd_inuse d) (sd_start d).
Proof.
  induction n as [|n IH]; intros num i s B Hi L.
  - exists []. split; [reflexivity|]. split; [reflexivity|]. lia.
  - cbn [sentries]. destruct (parse_shows h num (slice s i (i + 23))) as (d & E & Sw & Sa); [apply bytes_ok_slice; assumption|rewrite zlen_slice by lia; lia|].
    rewrite E. cbn [rbind]. destruct (IH (num + 1) (i + 23) s B ltac:(lia) ltac:(lia)) as (ds & E2 & L2 & N). rewrite E2. cbn [rbind].
    exists (d :: ds). split; [reflexivity|]. split; [cbn [length]; lia|]. intros [|j] Hj.
    + exists d. split; [reflexivity|]. cbn [Z.of_nat]. rewrite Z.mul_0_r, Z.add_0_r. split; assumption.
    + destruct (N j ltac:(lia)) as (d' & N1 & N2). exists d'. split; [exact N1|].
      replace (i + 23 * Z.of_nat (S j)) with (i + 23 + 23 * Z.of_nat j) by lia. exact N2.
Qed.

Lemma bytes_ok_firstn n (l : list Z) : bytes_ok l -> bytes_ok (firstn n l).
Proof. unfold bytes_ok. rewrite !Forall_forall. intros H x Hx. apply H. rewrite <- (firstn_skipn n l). apply in_or_app. left. exact Hx. Qed.
Lemma bytes_ok_file len ds : bytes_ok (file_bytes g b len ds).
Proof.
  unfold file_bytes. apply bytes_ok_firstn. induction ds; cbn [flat_map]; [constructor|]. apply bytes_ok_app. split; [|assumption]. apply bytes_ok_slice. exact d_bytes.
Qed.

Lemma open_disk : exists im, open_sparta b = Ok im /\ s_bytes im = b /\ s_hdr im = h /\ length (s_files im) = Z.to_nat k /\
  s_total im = g_max g /\ s_free im = boot_word g b 13 /\ s_bitmap im = boot_word g b 16 /\ s_nbitmap im = boot_byte g b 15 /\
  s_numboot im = boot_byte g b 1 /\ s_bootaddr im = boot_word g b 2 /\
  (exists d, s_rootd im = Some d /\ sd_start d = boot_word g b 9 /\ sd_length d = zlen dir /\ sd_sane d = true) /\
  forall i, 1 <= i <= k -> exists d, nth_error (s_files im) (Z.to_nat (i - 1)) = Some d /\ shows (s_entry dir i) d /\
     sd_sane d = ssanity h (sd_inuse d) (sd_start d).
Proof.
  destruct boot_info as (im0 & E0 & I1 & I2 & I3 & I4 & I5 & I6 & I7 & I8 & I9).
  destruct (sk_root _ _ _ _ Hd) as (ds & F & Hne & Edir). pose proof F as (cs & m & C & (rest & Em & Nz) & U).
  destruct (sk_ss _ _ _ _ Hd) as [S1 S2]. pose proof (sk_dir _ _ _ _ Hd) as Ld. pose proof (sk_k _ _ _ _ Hd) as Hk. pose proof (sk_len _ _ _ _ Hd) as Le. pose proof (sk_small _ _ _ _ Hd) as Ls.
  unfold open_sparta, open_sparta_fuel. unfold hdr_of in Hh. rewrite Hh. cbn [rbind]. rewrite E0. cbn [rbind].
  unfold sget_directory. rewrite I1, I2, I3. fold (hdr_of b) in Hh. rewrite (sector_map_chain b h d_bytes Hh _ cs m ltac:(fold g; lia) S2 C). cbn [rbind].
  destruct ds as [|s0 ds]; [contradiction|]. rewrite Em. cbn [app]. inversion U as [|x l U0 Ul]; subst x l.
  pose proof U0 as [U01 U02]. replace (s0 =? 0) with false by lia.
  unfold get_raw_bytes. rewrite (pos_usable b h d_bytes Hh s0 U0). cbn [rbind]. fold g. change (slice b (spos g s0) (spos g s0 + g_ss g)) with (sector g b s0).
  pose proof (sector_usable b h d_bytes Hh s0 U0) as (P1 & P2 & P3). fold g in P1, P2, P3.
  assert (E23 : slice (sector g b s0) 0 23 = s_entry dir 0).
  { unfold s_entry. rewrite Edir. unfold file_bytes. cbn [flat_map]. change (23 * 0) with 0. change (0 + 23) with 23.
    rewrite <- (slice_app_l (sector g b s0) (flat_map (sector g b) ds) 0 23) by lia.
    rewrite Le. unfold slice. cbn [Z.to_nat skipn]. rewrite firstn_firstn. f_equal. lia. }
  rewrite E23. assert (B0 : bytes_ok (s_entry dir 0)) by (apply bytes_ok_slice; rewrite Edir; apply bytes_ok_file).
  assert (L0 : zlen (s_entry dir 0) = 23) by (unfold s_entry; rewrite zlen_slice by lia; lia).
  destruct (parse_shows h 0 _ B0 L0) as (d0 & Ep & Sh & _). rewrite Ep. cbn [rbind].
  set (d := with_start h d0 (boot_word g b 9)).
  assert (Hroot : usable g (boot_word g b 9)) by (inversion C; assumption).
  assert (Dsane : sd_sane d = true).
  { unfold d, with_start. cbn [sd_sane]. unfold ssanity. destruct (negb _); [reflexivity|]. destruct Hroot as [Hr _]. unfold sector_valid, g, geom_of in *. cbn [g_max] in Hr. lia. }
  assert (Dlen : sd_length d = zlen dir) by (unfold d, with_start; cbn [sd_length]; rewrite (sh_length _ _ Sh) by lia; exact Le).
  assert (Sb : sget_bytes (sfuel b) h b d = Ok dir).
  { rewrite (sget_bytes_spec b h d_bytes Hh d (s0 :: ds)); [|fold g; lia|exact S2|exact F|exact Dsane|lia|discriminate]. f_equal. rewrite Dlen. fold g. rewrite <- Le. symmetry. exact Edir. }
  rewrite Sb. cbn [rbind]. rewrite Dlen.
  assert (Nk : num_entries (zlen dir) = Z.to_nat k).
  { unfold num_entries. f_equal. rewrite Ld. replace (23 * (k + 1) - 23 + 22) with (22 + k * 23) by lia. rewrite Z.div_add by lia. reflexivity. }
  rewrite Nk. assert (Bd : bytes_ok dir) by (rewrite Edir; apply bytes_ok_file).
  destruct (sentries_spec (Z.to_nat k) 1 23 dir Bd ltac:(lia) ltac:(lia)) as (fs & Ef & Lf & Nf). rewrite Ef. cbn [rbind].
  eexists. split; [reflexivity|]. cbn [with_dir s_bytes s_hdr s_files s_total s_free s_bitmap s_nbitmap s_numboot s_bootaddr s_rootd].
  repeat (split; [assumption|]). split; [exists d; auto|].
  intros i Hi. destruct (Nf (Z.to_nat (i - 1)) ltac:(lia)) as (f & N1 & N2 & N3). exists f. split; [exact N1|]. split; [|exact N3].
  unfold s_entry. replace (23 * i) with (23 + 23 * Z.of_nat (Z.to_nat (i - 1))) by lia. exact N2.
Qed.
End Disk.
