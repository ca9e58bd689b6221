(** Which exceptions DOS 3.3 disks of any number of sectors can raise. *)
From Verif Require Import Base BaseLemmas DiskModel ExecModel DirLemmas AtariModel AtariSpec AtariGeom DetectModel DetectSpec DetectProofs DetectErrors DetectErrors2 DetectErrors3 DetectErrors4 Dos33Model.
From Verif Require Properties_Dos33.

(** A catalog, or a list of sectors of a listed file, that goes in a circle *)
Definition dos33_circle (b : list Z) : Prop :=
  open33 b = Err EFuel \/
  exists im d, open33 b = Ok im /\ In d (i_files im) /\ forall fuel, get_file_fuel3 fuel im d = Err EFuel.
(** Why a disk of 143360 bytes leads to another exception than the library's; the number of
    sectors is the one that the VTOC says. *)
Inductive dos33_cause (b : list Z) : exn -> Prop :=
| DC_small : vtoc_sectors b <= 272 -> dos33_cause b EName                (* the VTOC itself is not on the disk *)
| DC_empty im d tl : open33 b = Ok im -> In d (i_files im) ->             (* a file without sectors *)
    get_tslist (fuel33 (i_hdr im)) (i_hdr im) b d = Ok (tl, []) -> dos33_cause b EName
| DC_outside im d tl m n : open33 b = Ok im -> In d (i_files im) ->      (* a file with a sector that is not on the disk *)
    get_tslist (fuel33 (i_hdr im)) (i_hdr im) b d = Ok (tl, m) -> In n m -> vtoc_sectors b <= n -> dos33_cause b EName
| DC_large : 560 < vtoc_sectors b -> dos33_cause b EIndex                (* sectors that the data does not have *)
| DC_circle : dos33_circle b -> dos33_cause b EFuel.

Lemma max_pos b im : bytes_ok b -> open33 b = Ok im -> 0 <= h_max3 (i_hdr im).
Proof.
  intros Hb O. destruct (open33_hdr b im O) as (_ & _ & EM).
  rewrite EM. unfold vtoc_sectors. pose proof (bytes_ok_getb _ (272 * 256 + 0x34) Hb). pose proof (bytes_ok_getb _ (272 * 256 + 0x35) Hb). unfold is_byte in *. nia.
Qed.
Lemma short_sector h b n raw p : zlen b = 143360 -> 0 <= h_max3 h -> get_raw3 h b n = Ok (raw, p) -> zlen raw < 256 -> 560 < h_max3 h.
Proof.
  intros L P G S0. unfold get_raw3, get_pos3 in G. destruct (valid3 h n) eqn:V; cbn [negb rbind] in G; [|discriminate]. injection G as <- <-.
  unfold valid3 in V. apply orb_true_iff in V. destruct V as [V|V]; [lia|]. apply andb_prop in V. destruct V as [V1 V2].
  destruct (Z.le_gt_cases 560 n) as [K|K]; [lia|]. rewrite zlen_slice in S0 by lia. lia.
Qed.
Lemma cat_loop_any f h b s : zlen b = 143360 -> 0 <= h_max3 h ->
  match snd (cat_loop f h b s) with Some e => refusal e = true \/ e = EFuel \/ (e = EIndex /\ 560 < h_max3 h) | None => True end.
Proof.
  intros L P. revert s. induction f as [|f IH]; intros s; cbn [cat_loop]; destruct (0 <? s); cbn [snd]; auto.
  unfold assert_valid3. destruct (valid3 h s) eqn:V; cbn [snd]; [|left; reflexivity].
  destruct (get_raw3 h b s) as [[raw p]|y] eqn:G; cbn [rbind].
  - unfold link_of. destruct (zlen raw <? 3) eqn:Z3; cbn [rbind snd].
    + right. right. split; [reflexivity|]. apply (short_sector h b s raw p L P G). lia.
    + specialize (IH (from_ts (getb raw 1) (getb raw 2))). destruct (cat_loop f h b _) as [ds e]. exact IH.
  - exfalso. unfold get_raw3, get_pos3 in G. rewrite V in G. discriminate G.
Qed.
Lemma open33_any b x : bytes_ok b -> open33 b = Err x -> refusal x = true \/ x = EFuel \/ (x = EIndex /\ 560 < vtoc_sectors b).
Proof.
  intros Hb. unfold open33. destruct (zlen b =? 143360) eqn:L; cbn [negb]; [|intros H; injection H as <-; left; reflexivity].
  apply Z.eqb_eq in L. unfold get_metadata3.
  assert (C : clean (boot_info (mkI b hdr33_0 [] true))).
  { unfold boot_info. cbv zeta. cbn [i_hdr i_bytes]. rewrite !raw3_0 by (assumption || lia). cbn [rbind].
    destruct (zlist_eqb _ _); [reflexivity|]. destruct (_ =? 3); [|exact I]. destruct (_ && _); exact I || reflexivity. }
  destruct (boot_info _) as [u|y]; [|intros H; injection H as <-; left; exact C].
  unfold get_vtoc3. cbn [i_hdr i_bytes]. rewrite raw3_0 by (assumption || lia). cbv zeta. cbn [i_files i_sane].
  set (v := slice b (272 * 256) (272 * 256 + 256)). set (h := mkH33 _ _ _).
  assert (EM : h_max3 h = vtoc_sectors b).
  { unfold h, vtoc_sectors, v. cbn [h_max3]. rewrite !getb_slice by lia. reflexivity. }
  assert (P : 0 <= h_max3 h).
  { rewrite EM. unfold vtoc_sectors. pose proof (bytes_ok_getb _ (272 * 256 + 0x34) Hb). pose proof (bytes_ok_getb _ (272 * 256 + 0x35) Hb).
    unfold is_byte in *. nia. }
  unfold assert_valid3. destruct (valid3 h (h_fdir h)); [|intros H; injection H as <-; left; reflexivity].
  unfold get_directory3, get_directory_fuel. cbn [i_hdr i_bytes].
  pose proof (cat_loop_any (fuel33 h) h b (h_fdir h) L P) as K. rewrite EM in K.
  destruct (cat_loop _ _ _ _) as [ds [e|]]; cbn [snd] in K.
  - intros H. injection H as <-. exact K.
  - destruct (i_sane _); [discriminate|]. intros H. injection H as <-. left. reflexivity.
Qed.
Lemma ts_loop_err h b f n y : ts_loop f h b n = Err y -> is_atr y = true \/ y = EFuel.
Proof.
  revert n. induction f as [|f IH]; intros n; cbn [ts_loop]; destruct (0 <? n); try discriminate; [intros H; injection H as <-; auto|].
  unfold assert_valid3. destruct (valid3 _ _) eqn:V; cbn [rbind]; [|intros H; injection H as <-; left; reflexivity].
  unfold get_raw3, get_pos3. rewrite V. cbn [negb rbind].
  match goal with |- context [ts_loop f ?a ?b ?m] => specialize (IH m); destruct (ts_loop f a b m) as [[tl m']|] end; cbn [rbind]; [discriminate|exact IH].
Qed.
Lemma read_map_err h b m y : 0 <= h_max3 h -> read_map h b m = Err y -> y = EName /\ exists n, In n m /\ ~ (0 <= n < h_max3 h).
Proof.
  intros P. induction m as [|n m IH]; cbn [read_map]; [discriminate|].
  unfold get_raw3, get_pos3. destruct (valid3 h n) eqn:V; cbn [negb rbind].
  - destruct (read_map h b m) as [r|z]; cbn [rbind]; [discriminate|]. intros H. destruct (IH H) as (-> & k & Hk & N). split; [reflexivity|]. exists k. split; [right; exact Hk|exact N].
  - intros H. injection H as <-. split; [reflexivity|]. exists n. split; [left; reflexivity|]. unfold valid3 in V. lia.
Qed.
Lemma ts_loop_pos h b : bytes_ok b -> forall f n tl m, ts_loop f h b n = Ok (tl, m) -> Forall (fun k => 0 <= k) m.
Proof.
  intros Hb. induction f as [|f IH]; intros n tl m; cbn [ts_loop]; destruct (0 <? n); try discriminate; try (intros H; injection H as <- <-; constructor).
  unfold assert_valid3. destruct (valid3 _ _) eqn:V; cbn [rbind]; [|discriminate]. unfold get_raw3, get_pos3. rewrite V. cbn [negb rbind].
  set (raw := slice b (n * 256) (n * 256 + 256)). assert (Hr : bytes_ok raw) by (apply bytes_ok_slice; exact Hb).
  match goal with |- context [ts_loop f ?a ?b ?m] => specialize (IH m); destruct (ts_loop f a b m) as [[tl' m']|] end; cbn [rbind]; [|discriminate].
  intros H. apply (f_equal (fun r => match r with Ok (_, q) => q | Err _ => [] end)) in H. cbv beta iota in H. rewrite <- H. apply Forall_app. split; [|exact (IH _ _ eq_refl)].
  unfold ts_entries. apply Forall_forall. intros k Hk. apply in_map_iff in Hk. destruct Hk as (i & <- & _).
  pose proof (bytes_ok_getb raw (12 + 2 * i) Hr). pose proof (bytes_ok_getb raw (13 + 2 * i) Hr). unfold is_byte, from_ts in *. lia.
Qed.
Lemma tslist_pos h b f d tl m : bytes_ok b -> get_tslist f h b d = Ok (tl, m) -> Forall (fun k => 0 <= k) m.
Proof.
  intros Hb. unfold get_tslist. destruct (ts_loop f h b _) as [[tl' m']|] eqn:T; cbn [rbind]; [|discriminate]. intros H. injection H as <- <-.
  unfold pyslice0, slice. apply Forall_firstn', Forall_skipn'. exact (ts_loop_pos h b Hb _ _ _ _ T).
Qed.
Lemma dos33_file_any b im d x : bytes_ok b -> open33 b = Ok im -> In d (i_files im) -> get_file3 im d = Err x -> is_atr x = true \/ dos33_cause b x.
Proof.
  intros Hb O Hd G. pose proof G as G0. destruct (open33_hdr b im O) as (L & Bm & EM). pose proof (max_pos b im Hb O) as P.
  assert (FU : x = EFuel -> dos33_cause b x).
  { intros ->. apply DC_circle. right. exists im, d. split; [exact O|]. split; [exact Hd|].
    destruct (Properties_Dos33.C10_dos33_read_ends_or_never_does im d P) as [(N & _)|N]; [congruence|exact N]. }
  unfold get_file3, get_file_fuel3 in G. destruct (negb _); [injection G as <-; left; reflexivity|]. rewrite Bm in G.
  destruct (get_tslist (fuel33 (i_hdr im)) (i_hdr im) b d) as [[tl m]|y] eqn:T; cbn [rbind] in G.
  2:{ injection G as <-. unfold get_tslist in T. destruct (ts_loop _ _ _ _) as [[tl m]|z] eqn:TL; cbn [rbind] in T; [discriminate|]. injection T as <-.
      destruct (ts_loop_err _ _ _ _ _ TL) as [K|K]; auto. }
  destruct m as [|n0 r] eqn:Em; [injection G as <-; right; exact (DC_empty b im d tl O Hd T)|]. rewrite <- Em in *.
  destruct (read_map (i_hdr im) b m) as [runs|y] eqn:R; cbn [rbind] in G.
  2:{ injection G as <-. destruct (read_map_err _ _ _ _ P R) as (-> & n & Hn & N). right. apply (DC_outside b im d tl m n O Hd T Hn).
      pose proof (tslist_pos _ _ _ _ _ _ Hb T) as F. rewrite Forall_forall in F. specialize (F n Hn). lia. }
  destruct (forallb _ runs); [discriminate|]. destruct (_ =? 4); cbn [rbind] in G; [|discriminate].
  destruct (get_raw3 (i_hdr im) b n0) as [[raw p]|y] eqn:G1; cbn [rbind] in G.
  - destruct (zlen raw <? 2) eqn:Z2; cbn [rbind] in G; [|discriminate]. injection G as <-. right. apply DC_large. rewrite <- EM. apply (short_sector (i_hdr im) b n0 raw p L P G1). lia.
  - injection G as <-. right. subst m. cbn [read_map] in R. rewrite G1 in R. discriminate R.
Qed.
Lemma slice3_err h a b y : sector_slice3 h a b = Err y -> y = EName.
Proof.
  assert (M : forall k n, more_sectors3 h k n = Err y -> y = EName).
  { induction k as [|k IH]; intros n; cbn [more_sectors3]; [discriminate|]. unfold get_pos3. destruct (negb _); cbn [rbind]; [congruence|apply IH]. }
  unfold sector_slice3, get_pos3. destruct (negb _); cbn [rbind]; [congruence|apply M].
Qed.
(** Every exception has a cause *)
Theorem dos33_any e s b x : bytes_ok b -> parse e s PDos33 b = Err x -> x = EAtr InvalidSegmentParser \/ is_atr x = true \/ dos33_cause b x.
Proof.
  intros Hb P. unfold parse in P. cbn [parse_image] in P.
  destruct (open33 b) as [im|y] eqn:O; cbn [rbind] in P.
  2:{ destruct (open33_any b y Hb O) as [K|[->|(-> & K)]].
      - left. pose proof (as_parser_clean (@Err image y) K) as X. rewrite P in X. exact X.
      - cbn [as_parser] in P. injection P as <-. right. right. apply DC_circle. left. exact O.
      - cbn [as_parser] in P. injection P as <-. right. right. apply DC_large. exact K. }
  destruct (open33_hdr b im O) as (L & B & EM). pose proof (max_pos b im Hb O) as P0.
  assert (NM : forall y, vtoc_sectors b <= 272 -> y = EName -> @as_parser image (Err y) = Err x -> dos33_cause b x).
  { intros y M -> H. cbn [as_parser] in H. injection H as <-. apply DC_small. exact M. }
  assert (SL : forall a c y, 0 <= a -> a <= c -> c <= 272 -> sector_slice3 (i_hdr im) a c = Err y -> vtoc_sectors b <= 272).
  { intros a c y A1 A2 A3 H. destruct (Z.le_gt_cases (vtoc_sectors b) 272) as [M|M]; [exact M|]. rewrite slices3_ok in H by lia. discriminate H. }
  unfold dos33_segments in P. cbv zeta in P.
  destruct (sector_slice3 _ 0 0) as [?|y] eqn:S1; cbn [rbind] in P; [|right; right; refine (NM y _ (slice3_err _ _ _ _ S1) P); apply SL in S1; lia].
  destruct (sector_slice3 _ 1 9) as [?|y] eqn:S2; cbn [rbind] in P; [|right; right; refine (NM y _ (slice3_err _ _ _ _ S2) P); apply SL in S2; lia].
  destruct (sector_slice3 _ 10 11) as [?|y] eqn:S3; cbn [rbind] in P; [|right; right; refine (NM y _ (slice3_err _ _ _ _ S3) P); apply SL in S3; lia].
  destruct (sector_slice3 _ 12 (12 + 25)) as [?|y] eqn:S4; cbn [rbind] in P; [|right; right; refine (NM y _ (slice3_err _ _ _ _ S4) P); apply SL in S4; lia].
  unfold get_pos3 at 1, valid3 in P. destruct (negb _) eqn:V in P; cbn [rbind] in P; [right; right; refine (NM EName _ eq_refl P); rewrite <- EM; lia|].
  destruct (file_segments (get_file3 im) (i_files im)) as [u|y] eqn:F; cbn [rbind] in P; [discriminate|].
  destruct (file_segments_err _ _ _ F) as (d & Hin & G & K). pose proof (dos33_file_any b im d y Hb O Hin G) as Q.
  destruct (is_atr y) eqn:A.
  - left. destruct y as [ae| | | | | | | | | | | |]; try discriminate A. destruct ae; cbn [as_parser] in P; injection P as <-; try reflexivity.
    exfalso. exact (get_file3_no_unsupported im d G).
  - right. right. assert (x = y). { destruct y; try discriminate A; cbn [as_parser] in P; congruence. } subst y.
    destruct Q as [Q|Q]; [congruence|exact Q].
Qed.
