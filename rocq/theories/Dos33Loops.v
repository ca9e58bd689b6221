(** The two loops of the DOS 3.3 reader that follow links on the disk: the
    track/sector list of a file and the catalog.  The fuel of the model is
    exact: running out of it means that the loop never ends. *)
From Verif Require Import Base BaseLemmas DiskModel Dos33Model Loops.

Section L.
  Variables (h : hdr33) (b : list Z).
  Hypothesis Hmax : 0 <= h_max3 h.

  Definition here3 (n : Z) : list Z := slice b (n * 256) (n * 256 + 256).
  Definition next3 (n : Z) : Z := from_ts (getb (here3 n) 1) (getb (here3 n) 2).
  (** A sector number the walk goes on from. *)
  Definition good3 (n : Z) : bool := (0 <? n) && (n <? h_max3 h).

  Lemma valid3_good n : 0 < n -> valid3 h n = good3 n.
  Proof.
    intros Hn. unfold valid3, good3. replace (h_max3 h <? 0) with false by lia.
    replace (0 <=? n) with true by lia. replace (0 <? n) with true by lia. reflexivity.
  Qed.
  Lemma get_raw3_good n : good3 n = true -> get_raw3 h b n = Ok (here3 n, n * 256).
  Proof.
    intros G. assert (Hn : 0 < n) by (unfold good3 in G; lia).
    unfold get_raw3, get_pos3. rewrite valid3_good, G by assumption. reflexivity.
  Qed.

  Lemma ts_loop_fuel m n : ts_loop m h b n = Err EFuel <->
    alive next3 good3 m n = true /\ 0 < at_ next3 m n.
  Proof.
    revert n. induction m as [|m IH]; intros n; cbn [ts_loop alive at_].
    - destruct (Z.ltb_spec 0 n); [tauto|]. split; [discriminate|]. intros [_ X]. lia.
    - destruct (Z.ltb_spec 0 n) as [Hn|Hn].
      + unfold assert_valid3. rewrite valid3_good by assumption. destruct (good3 n) eqn:G; cbn [rbind andb].
        * rewrite get_raw3_good by assumption. cbn [rbind]. fold (next3 n). rewrite <- IH.
          destruct (ts_loop m h b (next3 n)) as [[tl r]|e]; cbn [rbind]; [split; discriminate|]. tauto.
        * split; [discriminate|]. intros [X _]. discriminate.
      + split; [discriminate|]. intros [X _]. unfold good3 in X. lia.
  Qed.
  Lemma good3_range n : good3 n = true -> 0 < n < Z.of_nat (Z.to_nat (h_max3 h)).
  Proof. unfold good3. lia. Qed.

  Lemma ts_loop_exact n : ts_loop (fuel33 h) h b n = Err EFuel -> forall m, ts_loop m h b n = Err EFuel.
  Proof.
    intros H m. apply ts_loop_fuel in H. destruct H as [H _]. unfold fuel33 in H.
    pose proof (alive_forever next3 good3 _ good3_range n H) as A. apply ts_loop_fuel.
    split; [apply A|]. specialize (A (S m)). rewrite alive_at in A. specialize (A m ltac:(lia)). unfold good3 in A. lia.
  Qed.
  (** More fuel does not change a result. *)
  Lemma ts_loop_more m m' n : (m <= m')%nat -> ts_loop m h b n <> Err EFuel -> ts_loop m' h b n = ts_loop m h b n.
  Proof.
    revert m' n. induction m as [|m IH]; intros m' n Hm.
    - cbn [ts_loop]. destruct m' as [|m']; [reflexivity|]. cbn [ts_loop]. destruct (0 <? n); [congruence|reflexivity].
    - destruct m' as [|m']; [lia|]. cbn [ts_loop]. destruct (0 <? n); [|reflexivity].
      destruct (assert_valid3 h n); cbn [rbind]; [|reflexivity]. destruct (get_raw3 h b n) as [[raw p]|]; cbn [rbind]; [|reflexivity].
      intros X. rewrite IH; [reflexivity|lia|]. intros E. apply X. rewrite E. reflexivity.
  Qed.

  Lemma cat_loop_fuel m n : snd (cat_loop m h b n) = Some EFuel -> alive next3 good3 m n = true.
  Proof.
    revert n. induction m as [|m IH]; intros n; cbn [cat_loop alive]; [reflexivity|].
    destruct (Z.ltb_spec 0 n) as [Hn|Hn]; [|discriminate].
    unfold assert_valid3. rewrite valid3_good by assumption. destruct (good3 n) eqn:G; [|discriminate].
    rewrite get_raw3_good by assumption. cbn [rbind]. unfold link_of. destruct (zlen (here3 n) <? 3); [discriminate|].
    cbn [rbind]. fold (next3 n). pose proof (IH (next3 n)) as X. destruct (cat_loop m h b (next3 n)) as [ds e]. exact X.
  Qed.
  Definition long3 (n : Z) : bool := negb (zlen (here3 n) <? 3).
  Lemma cat_loop_ok m n : snd (cat_loop m h b n) = Some EFuel <->
    alive next3 (fun n => good3 n && long3 n) m n = true /\ 0 < at_ next3 m n.
  Proof.
    revert n. induction m as [|m IH]; intros n; cbn [cat_loop alive at_].
    - destruct (Z.ltb_spec 0 n); cbn [snd]; [tauto|]. split; [discriminate|]. intros [_ X]. lia.
    - destruct (Z.ltb_spec 0 n) as [Hn|Hn].
      2:{ split; [discriminate|]. intros [X _]. unfold good3 in X. lia. }
      unfold assert_valid3. rewrite valid3_good by assumption. destruct (good3 n) eqn:G; cbn [andb].
      2:{ split; [discriminate|]. intros [X _]. discriminate. }
      rewrite get_raw3_good by assumption. cbn [rbind]. unfold link_of, long3. destruct (zlen (here3 n) <? 3); cbn [negb andb].
      + split; [discriminate|]. intros [X _]. discriminate.
      + cbn [rbind]. fold (next3 n). rewrite <- (IH (next3 n)). destruct (cat_loop m h b (next3 n)) as [ds e]. tauto.
  Qed.
  Lemma cat_loop_exact n : snd (cat_loop (fuel33 h) h b n) = Some EFuel ->
    forall m, snd (cat_loop m h b n) = Some EFuel.
  Proof.
    intros H m. apply cat_loop_ok in H. destruct H as [H _]. unfold fuel33 in H.
    assert (R : forall x, good3 x && long3 x = true -> 0 < x < Z.of_nat (Z.to_nat (h_max3 h))).
    { intros x X. apply andb_prop in X. apply good3_range. apply X. }
    pose proof (alive_forever next3 _ _ R n H) as A. apply cat_loop_ok.
    split; [apply A|]. specialize (A (S m)). rewrite alive_at in A. specialize (A m ltac:(lia)). unfold good3 in A. lia.
  Qed.
End L.

(** Reading a file: the result for enough fuel, or no result for any. *)
Lemma get_file3_dichotomy im d : 0 <= h_max3 (i_hdr im) ->
  (get_file3 im d <> Err EFuel /\
   forall fuel, (fuel33 (i_hdr im) <= fuel)%nat -> get_file_fuel3 fuel im d = get_file3 im d) \/
  (forall fuel, get_file_fuel3 fuel im d = Err EFuel).
Proof.
  intros Hm. unfold get_file3. set (h := i_hdr im) in *. set (b := i_bytes im).
  destruct (d3_sane d) eqn:Es.
  2:{ left. unfold get_file_fuel3. rewrite Es. cbn [negb]. split; [discriminate|reflexivity]. }
  set (n := from_ts (d3_track d) (d3_sector d)).
  assert (Dec : ts_loop (fuel33 h) h b n = Err EFuel \/ ts_loop (fuel33 h) h b n <> Err EFuel).
  { destruct (ts_loop (fuel33 h) h b n) as [r|e]; [right; discriminate|]. destruct e; (left; reflexivity) || (right; discriminate) || idtac.
    all: right; intros X; discriminate X. }
  destruct Dec as [F|F].
  - right. intros fuel. unfold get_file_fuel3. rewrite Es. cbn [negb]. fold h b. unfold get_tslist. fold n.
    rewrite (ts_loop_exact h b Hm n F fuel). reflexivity.
  - left. split.
    + unfold get_file_fuel3. rewrite Es. cbn [negb]. fold h b. unfold get_tslist. fold n.
      destruct (ts_loop (fuel33 h) h b n) as [[tl m]|e]; cbn [rbind]; [|congruence].
      destruct (pyslice0 m _) as [|n0 r]; [discriminate|].
      assert (RM : forall l, read_map h b l <> Err EFuel).
      { induction l as [|x l IH]; [discriminate|]. cbn [read_map]. unfold get_raw3, get_pos3.
        destruct (negb (valid3 h x)); cbn [rbind]; [discriminate|]. destruct (read_map h b l); cbn [rbind]; congruence. }
      pose proof (RM (n0 :: r)) as RM0. destruct (read_map h b (n0 :: r)) as [runs|e]; cbn [rbind]; [|congruence].
      destruct (forallb _ runs); [discriminate|]. destruct (d3_type d =? 4); cbn [rbind]; [|discriminate].
      unfold get_raw3, get_pos3. destruct (negb (valid3 h n0)); cbn [rbind]; [discriminate|].
      destruct (zlen _ <? 2); cbn [rbind]; discriminate.
    + intros fuel Hf. unfold get_file_fuel3. rewrite Es. cbn [negb]. fold h b. unfold get_tslist. fold n.
      rewrite (ts_loop_more h b (fuel33 h) fuel n Hf F). reflexivity.
Qed.

(** Reading the catalog. *)
Lemma get_directory3_dichotomy im : 0 <= h_max3 (i_hdr im) ->
  snd (get_directory3 im) <> Err EFuel \/ (forall fuel, snd (get_directory_fuel fuel im) = Err EFuel).
Proof.
  intros Hm. unfold get_directory3, get_directory_fuel.
  pose proof (cat_loop_exact (i_hdr im) (i_bytes im) Hm (h_fdir (i_hdr im))) as X.
  destruct (cat_loop (fuel33 (i_hdr im)) (i_hdr im) (i_bytes im) (h_fdir (i_hdr im))) as [ds [e|]]; cbn [snd] in *.
  - assert (Dec : e = EFuel \/ e <> EFuel) by (destruct e; (left; reflexivity) || (right; discriminate)).
    destruct Dec as [->|Hne].
    + right. intros fuel. specialize (X eq_refl fuel).
      destruct (cat_loop fuel (i_hdr im) (i_bytes im) (h_fdir (i_hdr im))) as [ds' e']. cbn [snd] in X. subst e'. reflexivity.
    + left. congruence.
  - left. discriminate.
Qed.
