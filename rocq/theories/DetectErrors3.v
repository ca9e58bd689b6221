(** Which exceptions opening DOS 3.3 disks can raise. *)
From Verif Require Import Base BaseLemmas DiskModel ExecModel DetectModel DetectSpec DetectProofs DetectErrors DetectErrors2 Dos33Model.

(** * DOS 3.3 *)
(** The number of sectors that the VTOC of a DOS 3.3 disk claims. *)
Definition vtoc_sectors (b : list Z) : Z := getb b (272 * 256 + 0x34) * getb b (272 * 256 + 0x35).

Lemma get_raw3_ok h b n : zlen b = 143360 -> h_max3 h <= 560 -> valid3 h n = true -> 0 <= h_max3 h ->
  get_raw3 h b n = Ok (slice b (n * 256) (n * 256 + 256), n * 256) /\ zlen (slice b (n * 256) (n * 256 + 256)) = 256.
Proof.
  intros L M V P. unfold get_raw3, get_pos3. rewrite V. cbn [negb rbind]. split; [reflexivity|].
  unfold valid3 in V. rewrite zlen_slice; lia.
Qed.
Lemma cat_loop_err f h b n : zlen b = 143360 -> 0 <= h_max3 h <= 560 ->
  match snd (cat_loop f h b n) with None => True | Some e => e = EAtr ByteNotInFile166 \/ e = EFuel end.
Proof.
  intros L M. revert n. induction f as [|f IH]; intros n; cbn [cat_loop]; destruct (0 <? n); cbn [snd]; auto.
  unfold assert_valid3. destruct (valid3 h n) eqn:V; cbn [snd]; [|auto].
  destruct (get_raw3_ok h b n L ltac:(lia) V ltac:(lia)) as [E Z]. rewrite E. cbn [rbind]. unfold link_of. rewrite Z.
  change (256 <? 3) with false. cbn [rbind]. specialize (IH (from_ts (getb (slice b (n * 256) (n * 256 + 256)) 1) (getb (slice b (n * 256) (n * 256 + 256)) 2))).
  destruct (cat_loop f h b _) as [ds err]. cbn [snd] in *. exact IH.
Qed.
Lemma raw3_0 b n : zlen b = 143360 -> 0 <= n < 560 ->
  get_raw3 hdr33_0 b n = Ok (slice b (n * 256) (n * 256 + 256), n * 256).
Proof. intros L Hn. unfold get_raw3, get_pos3, valid3, hdr33_0. cbn [h_max3]. replace (negb _) with false by lia. reflexivity. Qed.
Lemma open33_err b x : bytes_ok b -> vtoc_sectors b <= 560 -> open33 b = Err x ->
  refusal x = true \/ x = EFuel.
Proof.
  intros Hb M. unfold open33. destruct (zlen b =? 143360) eqn:L; cbn [negb]; [|intros H; injection H as <-; left; reflexivity].
  apply Z.eqb_eq in L. unfold get_metadata3.
  assert (C : clean (boot_info (mkI b hdr33_0 [] true))).
  { unfold boot_info. cbv zeta. cbn [i_hdr i_bytes]. rewrite !raw3_0 by (assumption || lia). cbn [rbind].
    destruct (zlist_eqb _ _); [reflexivity|]. destruct (_ =? 3); [|exact I]. destruct (_ && _); exact I || reflexivity. }
  destruct (boot_info _) as [u|y]; [|intros H; injection H as <-; left; exact C].
  unfold get_vtoc3. cbn [i_hdr i_bytes]. rewrite raw3_0 by (assumption || lia). cbv zeta. cbn [i_files i_sane].
  set (v := slice b (272 * 256) (272 * 256 + 256)). set (h := mkH33 _ _ _).
  assert (EM : h_max3 h = vtoc_sectors b).
  { unfold h, vtoc_sectors, v. cbn [h_max3]. rewrite !getb_slice by lia. reflexivity. }
  assert (P : 0 <= h_max3 h).
  { rewrite EM. unfold vtoc_sectors. pose proof (bytes_ok_getb _ (272 * 256 + 0x34) Hb). pose proof (bytes_ok_getb _ (272 * 256 + 0x35) Hb).
    unfold is_byte in *. nia. }
  unfold assert_valid3. destruct (valid3 h (h_fdir h)); [|intros H; injection H as <-; left; reflexivity].
  unfold get_directory3, get_directory_fuel. cbn [i_hdr i_bytes].
  pose proof (cat_loop_err (fuel33 h) h b (h_fdir h) L ltac:(lia)) as K.
  destruct (cat_loop _ _ _ _) as [ds [e|]]; cbn [snd] in K.
  - intros H. injection H as <-. destruct K as [->| ->]; [left; reflexivity|right; reflexivity].
  - destruct (i_sane _); [discriminate|]. intros H. injection H as <-. left. reflexivity.
Qed.
Lemma open33_hdr b im : open33 b = Ok im -> zlen b = 143360 /\ i_bytes im = b /\ h_max3 (i_hdr im) = vtoc_sectors b.
Proof.
  unfold open33. destruct (zlen b =? 143360) eqn:L; cbn [negb]; [|discriminate]. apply Z.eqb_eq in L.
  unfold get_metadata3. destruct (boot_info _); [|discriminate].
  unfold get_vtoc3. cbn [i_hdr i_bytes]. rewrite raw3_0 by (assumption || lia). cbv zeta. cbn [i_files i_sane].
  set (v := slice b (272 * 256) (272 * 256 + 256)). set (h := mkH33 _ _ _).
  assert (EM : h_max3 h = vtoc_sectors b).
  { unfold h, vtoc_sectors, v. cbn [h_max3]. rewrite !getb_slice by lia. reflexivity. }
  clearbody h. destruct (assert_valid3 _ _); [|discriminate]. unfold get_directory3, get_directory_fuel. cbn [i_hdr i_bytes i_files].
  destruct (cat_loop _ _ _ _) as [ds [e|]]; [discriminate|]. destruct (i_sane _); [|discriminate].
  intros H. injection H as <-. auto.
Qed.
Lemma get_file3_no_unsupported im d : get_file3 im d <> Err (EAtr UnsupportedDiskImage).
Proof.
  unfold get_file3, get_file_fuel3. destruct (negb _); [discriminate|].
  assert (R : forall f n, ts_loop f (i_hdr im) (i_bytes im) n <> Err (EAtr UnsupportedDiskImage)).
  { induction f as [|f IH]; intros n; cbn [ts_loop]; destruct (0 <? n); try discriminate.
    unfold assert_valid3. destruct (valid3 _ _) eqn:V; cbn [rbind]; [|discriminate]. unfold get_raw3, get_pos3. rewrite V. cbn [negb rbind].
    match goal with |- context [ts_loop f ?a ?b ?m] => specialize (IH m); destruct (ts_loop f a b m) as [[tl m']|] end; cbn [rbind]; congruence. }
  assert (Q : forall m, read_map (i_hdr im) (i_bytes im) m <> Err (EAtr UnsupportedDiskImage)).
  { induction m as [|n m IH]; cbn [read_map]; [discriminate|]. unfold get_raw3, get_pos3. destruct (negb _); cbn [rbind]; [discriminate|].
    destruct (read_map _ _ m); cbn [rbind]; congruence. }
  unfold get_tslist. match goal with |- context [ts_loop ?f ?a ?b ?m] => specialize (R f m); destruct (ts_loop f a b m) as [[tl m']|] end; cbn [rbind]; [|congruence].
  destruct (pyslice0 _ _) as [|n0 r]; [discriminate|]. specialize (Q (n0 :: r)). destruct (read_map _ _ (n0 :: r)); cbn [rbind]; [|congruence].
  destruct (forallb _ _); [discriminate|]. destruct (_ =? 4); cbn [rbind]; [|discriminate].
  unfold get_raw3, get_pos3. destruct (negb _); cbn [rbind]; [discriminate|]. destruct (_ <? 2); cbn [rbind]; discriminate.
Qed.
Lemma slices3_ok h a b : 272 < h_max3 h -> 0 <= a -> a <= b -> b < h_max3 h -> sector_slice3 h a b = Ok tt.
Proof.
  intros M A B C. unfold sector_slice3. assert (P : forall n, 0 <= n < h_max3 h -> get_pos3 h n = Ok (n * 256, 256)).
  { intros n Hn. unfold get_pos3, valid3. replace (negb _) with false by lia. reflexivity. }
  rewrite P by lia. cbn [rbind]. remember (Z.to_nat (b - a)) as k eqn:K.
  assert (L : a + Z.of_nat k < h_max3 h) by lia. clear K. revert a A B L. induction k as [|k IH]; intros a A B L; cbn [more_sectors3]; [reflexivity|].
  rewrite P by lia. cbn [rbind]. destruct (Z.le_gt_cases (a + 1) b) as [Q|Q].
  - apply IH; lia.
  - clear IH B. assert (L' : a + 1 + Z.of_nat k < h_max3 h) by lia. assert (A' : 0 <= a + 1) by lia. revert A' L'. generalize (a + 1). clear - P.
    induction k as [|k IH]; intros z A' L'; cbn [more_sectors3]; [reflexivity|]. rewrite P by lia. cbn [rbind]. apply IH; lia.
Qed.
Lemma dos33_parse_err e s b x : bytes_ok b -> 272 < vtoc_sectors b <= 560 -> parse e s PDos33 b = Err x ->
  x = EAtr InvalidSegmentParser \/ (x = EFuel /\ open33 b = Err EFuel) \/
  exists im d, open33 b = Ok im /\ In d (i_files im) /\ get_file3 im d = Err x /\ is_atr x = false.
Proof.
  intros Hb M P. unfold parse in P. cbn [parse_image] in P.
  destruct (open33 b) as [im|y] eqn:O; cbn [rbind] in P.
  2:{ destruct (open33_err b y Hb ltac:(lia) O) as [K| ->].
      - left. pose proof (as_parser_clean (@Err image y) K) as X. rewrite P in X. exact X.
      - cbn [as_parser] in P. injection P as <-. right. left. auto. }
  destruct (open33_hdr b im O) as (L & B & EM). unfold dos33_segments in P. cbv zeta in P.
  rewrite !slices3_ok in P by (rewrite ?EM; lia). cbn [rbind] in P.
  unfold get_pos3, valid3 in P. rewrite EM in P. replace (negb _) with false in P by lia. cbn [rbind] in P.
  destruct (file_segments (get_file3 im) (i_files im)) as [u|y] eqn:F; cbn [rbind] in P; [discriminate|].
  destruct (file_segments_err _ _ _ F) as (d & Hin & G & K).
  destruct (is_atr y) eqn:A.
  - left. destruct y as [a| | | | | | | | | | | |]; try discriminate A. destruct a; cbn [as_parser] in P; injection P as <-; try reflexivity.
    exfalso. exact (get_file3_no_unsupported im d G).
  - right. right. assert (x = y). { destruct y; try discriminate A; cbn [as_parser] in P; congruence. } subst y.
    exists im, d. auto.
Qed.
Lemma dos33_other_size e s b : zlen b <> 143360 -> refuses (parse e s PDos33 b) /\ refuses (parse e s PProdos b).
Proof.
  intros L. unfold refuses, parse. cbn [parse_image]. unfold open33, prodos_image. replace (negb (zlen b =? 143360)) with true by lia. split; reflexivity.
Qed.
