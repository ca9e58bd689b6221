(** * C50 for DOS 3.3 images: what a catalog entry must be for the image to open *)
From Verif Require Import Base BaseLemmas DiskModel Dos33Model Dos33Geom Dos33Files Dos33Demo AtariDemo Dos33Props DetectErrors6 TextOpen.

(** ** The catalog, in terms of the bytes of the image *)
(** [byte_at b m j]: byte [j] of sector [m]. *)
Definition byte_at (b : list Z) (m j : Z) : Z := getb b (256 * m + j).
(** [in_catalog b n m]: following the links (track in byte 1, sector in byte 2)
    from sector [n], sector [m] is met before a link to sector 0. *)
Inductive in_catalog (b : list Z) : Z -> Z -> Prop :=
| IC_here n : 0 < n -> in_catalog b n n
| IC_next n m : 0 < n -> in_catalog b (16 * byte_at b n 1 + byte_at b n 2) m -> in_catalog b n m.
(** The first catalog sector, and the number of sectors, named by sector 272. *)
Definition first_catalog (b : list Z) : Z := 16 * byte_at b 272 1 + byte_at b 272 2.
Definition disk_sectors (b : list Z) : Z := byte_at b 272 52 * byte_at b 272 53.
(** Entry [k] of catalog sector [m] is in front of the end of that sector's
    list, and not a deleted one. *)
Definition reached (b : list Z) (m k : Z) : Prop :=
  forall j, 0 <= j <= k -> byte_at b m (11 + 35 * j) = 255 \/ byte_at b m (11 + 35 * j + 2) <> 0.
Definition possible (b : list Z) (m k : Z) : Prop :=
  let e j := byte_at b m (11 + 35 * k + j) in
  e 0 <> 0 /\ 16 * e 0 + e 1 < disk_sectors b /\ e 33 + 256 * e 34 <= disk_sectors b.

(** ** Lemmas *)
Lemma sector_ents_has h raw n : bytes_ok raw -> forall i k, 0 <= k < Z.of_nat n -> 0 <= i ->
  (forall j, 0 <= j <= k -> flag3 (parse_ent h (slice raw (i + 35 * j) (i + 35 * j + 35))) <> 0) ->
  In (parse_ent h (slice raw (i + 35 * k) (i + 35 * k + 35))) (sector_ents h raw i n).
Proof.
  intros Hb. induction n as [|n IH]; intros i k Hk Hi F; [lia|]. cbn [sector_ents].
  pose proof (F 0 ltac:(lia)) as F0. rewrite Z.mul_0_r, Z.add_0_r in F0. destruct (flag3 _ =? 0) eqn:E; [lia|]. clear E.
  destruct (Z.eq_dec k 0) as [->|K]; [left; rewrite Z.mul_0_r, Z.add_0_r; reflexivity|]. right.
  replace (i + 35 * k) with ((i + 35) + 35 * (k - 1)) by lia. apply IH; [lia|lia|].
  intros j Hj. specialize (F (j + 1) ltac:(lia)). replace (i + 35 * (j + 1)) with (i + 35 + 35 * j) in F by lia. exact F.
Qed.
Lemma flag3_parse h e : is_byte (getb e 2) -> (getb e 0 = 255 \/ getb e 2 <> 0) -> flag3 (parse_ent h e) <> 0.
Proof.
  intros B H. unfold flag3, parse_ent. cbn [d3_del d3_type d3_lock]. unfold is_byte in B. destruct (getb e 0 =? 255) eqn:E; [discriminate|].
  pose proof (Z.div_mod (getb e 2) 128 ltac:(lia)). pose proof (Z.mod_pos_bound (getb e 2) 128 ltac:(lia)). pose proof (Z.div_pos (getb e 2) 128 ltac:(lia) ltac:(lia)).
  assert (getb e 2 <> 0) by lia. nia.
Qed.
Lemma cat_loop_has h b : bytes_ok b -> zlen b = 143360 -> forall n m, in_catalog b n m ->
  forall f ds, cat_loop f h b n = (ds, None) -> forall k, 0 <= k < 7 -> reached b m k ->
  0 <= m /\ In (parse_ent h (slice (slice b (m * 256) (m * 256 + 256)) (11 + 35 * k) (11 + 35 * k + 35))) ds.
Proof.
  intros Hb L n m C. induction C as [n P|n m P C IH]; intros f ds E k Hk R.
  - destruct f as [|f]; cbn [cat_loop] in E; replace (0 <? n) with true in E by lia; [discriminate|].
    destruct (assert_valid3 h n); [|discriminate]. unfold get_raw3, get_pos3 in E. destruct (negb (valid3 h n)); [discriminate|]. cbn [rbind] in E.
    destruct (link_of _) as [nx|]; cbn [rbind] in E; [|discriminate]. destruct (cat_loop f h b nx) as [ds' err]. apply (f_equal fst) in E. cbn [fst] in E. subst ds.
    split; [lia|]. apply in_or_app. left. apply sector_ents_has; [apply bytes_ok_slice; exact Hb|exact Hk|lia|].
    intros j Hj. apply flag3_parse; [apply bytes_ok_getb; do 2 apply bytes_ok_slice; exact Hb|]. rewrite !getb_slice by lia. specialize (R j Hj). unfold byte_at in R.
    replace (n * 256 + (11 + 35 * j + 0)) with (256 * n + (11 + 35 * j)) by lia.
    replace (n * 256 + (11 + 35 * j + 2)) with (256 * n + (11 + 35 * j + 2)) by lia. exact R.
  - destruct f as [|f]; cbn [cat_loop] in E; replace (0 <? n) with true in E by lia; [discriminate|].
    destruct (assert_valid3 h n); [|discriminate]. unfold get_raw3, get_pos3 in E. destruct (negb (valid3 h n)); [discriminate|]. cbn [rbind] in E.
    unfold link_of in E. destruct (zlen _ <? 3); [discriminate|]. cbn [rbind] in E. rewrite !getb_slice in E by lia.
    destruct (cat_loop f h b _) as [ds' err] eqn:E2. pose proof (f_equal snd E) as E3. apply (f_equal fst) in E. cbn [fst snd] in E, E3. subst ds err.
    unfold from_ts in E2. unfold byte_at in IH.
    replace (16 * getb b (256 * n + 1) + getb b (256 * n + 2)) with (getb b (n * 256 + 1) * 16 + getb b (n * 256 + 2)) in IH
      by (rewrite (Z.mul_comm 256 n); lia).
    destruct (IH _ _ E2 k Hk R) as [Q1 Q2]. split; [exact Q1|]. apply in_or_app. right. exact Q2.
Qed.
Lemma open33_entries b im : bytes_ok b -> open33 b = Ok im -> exists ds,
  zlen b = 143360 /\ h_max3 (i_hdr im) = disk_sectors b /\ cat_loop (fuel33 (i_hdr im)) (i_hdr im) b (first_catalog b) = (ds, None) /\
  forallb d3_sane ds = true /\ i_files im = filter (fun d => negb (d3_del d)) ds.
Proof.
  intros Hb. unfold open33. destruct (zlen b =? 143360) eqn:L; cbn [negb]; [|discriminate]. apply Z.eqb_eq in L. unfold get_metadata3.
  destruct (boot_info (mkI b hdr33_0 [] true)); [|discriminate]. unfold get_vtoc3. cbn [i_hdr i_bytes].
  change (get_raw3 hdr33_0 b 272) with (Ok (slice b (272 * 256) (272 * 256 + 256), 272 * 256)). cbv beta iota zeta. rewrite !getb_slice by lia.
  set (h := mkH33 _ _ _). destruct (assert_valid3 h (h_fdir h)); [|discriminate].
  unfold get_directory3, get_directory_fuel. cbn [i_hdr i_bytes i_files i_sane].
  destruct (cat_loop (fuel33 h) h b (h_fdir h)) as [ds [e|]] eqn:Ec; [discriminate|]. cbn [i_sane].
  destruct (true && forallb d3_sane ds) eqn:S; [|discriminate]. intros E. injection E as <-. exists ds. cbn [i_hdr i_files].
  split; [exact L|]. split; [reflexivity|]. split.
  { rewrite <- Ec. f_equal. unfold first_catalog, byte_at, h, from_ts. cbn [h_fdir]. f_equal. apply Z.mul_comm. }
  cbn [andb] in S. split; [exact S|]. rewrite forallb_forall in S. apply filter_ext_in. intros d Hd. rewrite (S d Hd). reflexivity.
Qed.
Lemma disk_sectors_nonneg b : bytes_ok b -> 0 <= disk_sectors b.
Proof.
  intros Hb. unfold disk_sectors, byte_at. pose proof (bytes_ok_getb _ (256 * 272 + 52) Hb). pose proof (bytes_ok_getb _ (256 * 272 + 53) Hb). unfold is_byte in *. nia.
Qed.
Lemma sane_means h e : 0 <= h_max3 h -> getb e 0 <> 255 -> d3_sane (parse_ent h e) = true ->
  getb e 0 <> 0 /\ from_ts (getb e 0) (getb e 1) < h_max3 h /\ 0 <= le2 (getb e 33) (getb e 34) <= h_max3 h.
Proof.
  intros P N. unfold parse_ent. cbn [d3_sane]. unfold sanity3, valid3. replace (getb e 0 =? 255) with false by lia. cbv beta iota.
  destruct (getb e 0 =? 0) eqn:E0; [discriminate|]. destruct (h_max3 h <? 0) eqn:E1; [lia|]. cbn [orb].
  destruct (0 <=? from_ts _ _) eqn:E2; cbn [andb negb]; [|discriminate]. destruct (from_ts _ _ <? h_max3 h) eqn:E3; cbn [negb]; [|discriminate].
  intros H. apply negb_true_iff, orb_false_iff in H. lia.
Qed.

(** ** C50, DOS 3.3 *)
(** Every file of an opened image: its list starts at a sector of the disk that
    is not on track 0, and it has no more sectors than the disk. *)
Theorem C50_dos33_opened_entries_are_possible b im d : bytes_ok b -> open33 b = Ok im -> In d (i_files im) ->
  d3_del d = false /\ d3_track d <> 0 /\ 0 <= 16 * d3_track d + d3_sector d < disk_sectors b /\ 0 <= d3_count d <= disk_sectors b.
Proof.
  intros Hb O Hd. destruct (open33_entries b im Hb O) as (ds & _ & M & C & S & F). rewrite F in Hd. apply filter_In in Hd. destruct Hd as [Hd D].
  rewrite forallb_forall in S. specialize (S d Hd). apply negb_true_iff in D. split; [exact D|].
  assert (X : exists e, d = parse_ent (i_hdr im) e /\ bytes_ok e).
  { clear -Hb C Hd. revert C Hd. generalize (fuel33 (i_hdr im)) as f. intros f. revert ds. generalize (first_catalog b) as n.
    induction f as [|f IH]; intros n ds; cbn [cat_loop]; (destruct (0 <? n); [|intros E; injection E as <-; intros []]); [discriminate|].
    destruct (assert_valid3 _ n); [|discriminate]. destruct (get_raw3 (i_hdr im) b n) as [[raw p]|] eqn:G; cbn [rbind]; [|discriminate].
    destruct (link_of raw) as [nx|]; cbn [rbind]; [|discriminate]. specialize (IH nx). destruct (cat_loop f _ b nx) as [ds' err].
    intros E. pose proof (f_equal snd E) as E3. apply (f_equal fst) in E. cbn [fst snd] in E, E3. subst ds err. intros H. apply in_app_or in H. destruct H as [H|H]; [|apply (IH ds' eq_refl H)].
    apply (raw3_ok _ _ _ _ _ Hb) in G. revert H. generalize 11 as i, 7%nat as k. intros i k. revert i. induction k as [|k IHk]; intros i; cbn [sector_ents]; [intros []|].
    destruct (_ =? 0); [intros []|]. intros [<-|H]; [|exact (IHk _ H)]. eexists. split; [reflexivity|]. apply bytes_ok_slice. exact G. }
  destruct X as (e & -> & He). pose proof (disk_sectors_nonneg b Hb) as P. rewrite <- M in *.
  assert (N : getb e 0 <> 255) by (unfold parse_ent in D; cbn [d3_del] in D; lia).
  destruct (sane_means _ e P N S) as (S1 & S2 & S3). unfold parse_ent. cbn [d3_track d3_sector d3_count]. replace (getb e 0 =? 255) with false by lia.
  unfold from_ts in S2. pose proof (bytes_ok_getb e 0 He). pose proof (bytes_ok_getb e 1 He). unfold is_byte in *. lia.
Qed.
Print Assumptions C50_dos33_opened_entries_are_possible.

(** An image with an entry in use for which this fails is refused. *)
Theorem C50_dos33_impossible_entry_is_refused b m k : bytes_ok b ->
  in_catalog b (first_catalog b) m -> 0 <= k < 7 -> reached b m k -> byte_at b m (11 + 35 * k) <> 255 ->
  ~ possible b m k -> exists e, open33 b = Err e.
Proof.
  intros Hb C Hk R D NP. destruct (open33 b) as [im|e] eqn:O; [|exists e; reflexivity]. exfalso. apply NP.
  destruct (open33_entries b im Hb O) as (ds & L & M & Cl & S & _).
  destruct (cat_loop_has _ b Hb L _ m C _ ds Cl k Hk R) as [Pm I0]. rewrite forallb_forall in S. specialize (S _ I0).
  pose proof (disk_sectors_nonneg b Hb) as P. rewrite <- M in P. apply sane_means in S; [|exact P|].
  - unfold possible. cbv zeta. unfold byte_at in *. rewrite !getb_slice in S by lia. rewrite <- M. unfold from_ts, le2 in S.
    replace (m * 256) with (256 * m) in S by lia. lia.
  - rewrite !getb_slice by lia. unfold byte_at in D. replace (m * 256 + (11 + 35 * k + 0)) with (256 * m + (11 + 35 * k)) by lia. exact D.
Qed.
Print Assumptions C50_dos33_impossible_entry_is_refused.

(** A disk whose second entry claims 561 sectors of a disk of 560, and the disk
    of HELLO alone, which opens. *)
Definition big_entry : list Z := [4; 0; 4] ++ demo_name OLD ++ [49; 2].
Definition big_disk : list Z := disk_of (demo_sec 286 [hello_entry; big_entry]).
Definition big_check (b : list Z) : bool :=
  forallb (fun x => (0 <=? x) && (x <? 256)) b && (first_catalog b =? 287) && (disk_sectors b =? 560) &&
  forallb (fun j => negb (byte_at b 287 (11 + 35 * j + 2) =? 0)) [0; 1] &&
  (byte_at b 287 (11 + 35) =? 4) && (byte_at b 287 (11 + 35 + 33) + 256 * byte_at b 287 (11 + 35 + 34) =? 561).
Lemma big_check_means b : big_check b = true -> bytes_ok b /\ in_catalog b (first_catalog b) 287 /\ 0 <= 1 < 7 /\ reached b 287 1 /\
  byte_at b 287 (11 + 35 * 1) <> 255 /\ ~ possible b 287 1.
Proof.
  unfold big_check. intros H. repeat (apply andb_true_iff in H; destruct H as [H ?]).
  apply Z.eqb_eq in H0, H1, H3, H4. cbn [forallb] in H2. apply andb_true_iff in H2. destruct H2 as [A B]. apply andb_true_iff in B. destruct B as [B _].
  apply negb_true_iff in A, B. apply Z.eqb_neq in A, B.
  split; [apply bytes_ok_b; exact H|]. rewrite H4. split; [constructor; lia|]. split; [lia|]. split; [|split].
  - intros j Hj. assert (J : j = 0 \/ j = 1) by lia. destruct J as [-> | ->]; right; [exact A|exact B].
  - change (11 + 35 * 1) with (11 + 35). rewrite H1. discriminate.
  - unfold possible. cbv zeta. change (11 + 35 * 1 + 33) with (11 + 35 + 33). change (11 + 35 * 1 + 34) with (11 + 35 + 34). rewrite H0, H3. intros (_ & _ & X). lia.
Qed.
Example C50_dos33_refused_example : bytes_ok big_disk /\ in_catalog big_disk (first_catalog big_disk) 287 /\ 0 <= 1 < 7 /\ reached big_disk 287 1 /\
  byte_at big_disk 287 (11 + 35 * 1) <> 255 /\ ~ possible big_disk 287 1.
Proof. apply big_check_means. vm_compute. reflexivity. Qed.
Example C50_dos33_example : bytes_ok loop_disk /\ open33 loop_disk = Ok loop_im /\ In (parse_ent (H3 (fdir3 demo_one)) hello_entry) (i_files loop_im).
Proof. split; [exact loop_disk_ok|]. split; [exact loop_opens|exact loop_listed]. Qed.
