(** Proofs about windows: reading, slicing, selecting, writing, copying. *)
From Verif Require Import Base BaseLemmas SegModel SegSpec.

(** * Lists *)
Lemma nth_zseq n : forall a k d, (k < n)%nat -> nth k (zseq_nat a n) d = a + Z.of_nat k.
Proof. induction n as [|n IH]; intros a [|k] d H; cbn [zseq_nat nth]; try lia. rewrite IH by lia. lia. Qed.
Lemma getb_zrange lo hi i : 0 <= i < hi - lo -> getb (zrange lo hi) i = lo + i.
Proof. intros H. unfold getb, zrange. rewrite nth_zseq by lia. lia. Qed.
Lemma zlen_zrange' lo hi : zlen (zrange lo hi) = Z.max 0 (hi - lo).
Proof. unfold zlen, zrange. rewrite length_zseq_nat. lia. Qed.
Lemma zlen_map {A B} (f : A -> B) l : zlen (map f l) = zlen l.
Proof. unfold zlen. rewrite map_length. reflexivity. Qed.
Lemma getb_map (f : Z -> Z) l i : 0 <= i < zlen l -> getb (map f l) i = f (getb l i).
Proof.
  intros H. unfold getb. rewrite (nth_indep _ 0 (f 0)) by (rewrite map_length; unfold zlen in H; lia). apply map_nth.
Qed.
Lemma getb_In l i : 0 <= i < zlen l -> In (getb l i) l.
Proof. intros H. unfold getb. apply nth_In. unfold zlen in H. lia. Qed.
Lemma In_getb x l : In x l -> exists i, 0 <= i < zlen l /\ getb l i = x.
Proof.
  intros H. destruct (In_nth _ _ 0 H) as (k & Hk & E). exists (Z.of_nat k). unfold zlen, getb. rewrite Nat2Z.id. split; [lia|exact E].
Qed.
Lemma slice_zrange lo hi a b : 0 <= a -> a <= b -> b <= hi - lo -> slice (zrange lo hi) a b = zrange (lo + a) (lo + b).
Proof.
  intros H1 H2 H3. apply list_ext_getb.
  - rewrite zlen_slice by (rewrite ?zlen_zrange'; lia). rewrite zlen_zrange'. lia.
  - intros i Hi. rewrite zlen_slice in Hi by (rewrite ?zlen_zrange'; lia).
    rewrite getb_slice by (rewrite ?zlen_zrange'; lia). rewrite !getb_zrange by lia. lia.
Qed.
Lemma slice_map_range (l : list Z) a b : 0 <= a -> a <= b -> b <= zlen l -> slice l a b = map (getb l) (zrange a b).
Proof.
  intros H1 H2 H3. apply list_ext_getb.
  - rewrite zlen_slice, zlen_map, zlen_zrange' by lia. lia.
  - intros i Hi. rewrite zlen_slice in Hi by lia. rewrite getb_map by (rewrite zlen_zrange'; lia). rewrite getb_slice by lia. rewrite getb_zrange by lia. reflexivity.
Qed.
Lemma map_range (l : list Z) : map (getb l) (zrange 0 (zlen l)) = l.
Proof. rewrite <- slice_map_range by (pose proof (zlen_nonneg l); lia). apply slice_full. Qed.
Lemma In_slice {A} (l : list A) a b x : In x (slice l a b) -> In x l.
Proof.
  unfold slice. intros H. rewrite <- (firstn_skipn (Z.to_nat a) l). apply in_or_app. right.
  rewrite <- (firstn_skipn (Z.to_nat (b - a)) (skipn (Z.to_nat a) l)). apply in_or_app. left. exact H.
Qed.
Lemma length_replace {A} n (x : A) : forall l, length (replace n x l) = length l.
Proof. induction n as [|n IH]; intros [|y l]; cbn [replace length]; auto. Qed.
Lemma nth_replace_eq {A} n (x d : A) : forall l, (n < length l)%nat -> nth n (replace n x l) d = x.
Proof. induction n as [|n IH]; intros [|y l] H; cbn [replace nth length] in *; try lia; auto. apply IH. lia. Qed.
Lemma nth_replace_neq {A} n (x d : A) : forall m l, n <> m -> nth m (replace n x l) d = nth m l d.
Proof.
  induction n as [|n IH]; intros [|m] [|y l] H; cbn [replace nth]; try reflexivity; try congruence. apply IH. congruence.
Qed.
Lemma arr_set_eq h n a : (n < length (hp_arr h))%nat -> arr (set_arr h n a) n = a.
Proof. intros. unfold arr, set_arr. cbn [hp_arr]. apply nth_replace_eq. assumption. Qed.
Lemma arr_set_neq h n a m : n <> m -> arr (set_arr h n a) m = arr h m.
Proof. intros. unfold arr, set_arr. cbn [hp_arr]. apply nth_replace_neq. assumption. Qed.
Lemma ext_set_arr h n a m : ext (set_arr h n a) m = ext h m.
Proof. reflexivity. Qed.
Lemma arr_set_ext h n e m : arr (set_ext h n e) m = arr h m.
Proof. reflexivity. Qed.
Lemma ext_set_eq h n e : (n < length (hp_ext h))%nat -> ext (set_ext h n e) n = e.
Proof. intros. unfold ext, set_ext. cbn [hp_ext]. apply nth_replace_eq. assumption. Qed.
Lemma ext_set_neq h n e m : n <> m -> ext (set_ext h n e) m = ext h m.
Proof. intros. unfold ext, set_ext. cbn [hp_ext]. apply nth_replace_neq. assumption. Qed.

(** * Writing to positions *)
Lemma npos_id n p : 0 <= p -> npos n p = p.
Proof. intros. unfold npos. replace (p <? 0) with false by lia. reflexivity. Qed.
Lemma zlen_setn a p v : 0 <= p < zlen a -> zlen (setn a p v) = zlen a.
Proof. intros. unfold setn. apply zlen_setslice; [lia|]. change (zlen [v]) with 1. lia. Qed.
Lemma getb_setn a p v i : 0 <= p < zlen a -> 0 <= i -> getb (setn a p v) i = if p =? i then v else getb a i.
Proof.
  intros Hp Hi. unfold setn. rewrite getb_setslice by (change (zlen [v]) with 1; lia). change (zlen [v]) with 1.
  destruct (Z.eqb_spec p i) as [-> |N].
  - replace (i <=? i) with true by lia. replace (i <? i + 1) with true by lia. cbn [andb]. rewrite Z.sub_diag. reflexivity.
  - destruct (p <=? i) eqn:E; cbn [andb]; [|reflexivity]. replace (i <? p + 1) with false by lia. reflexivity.
Qed.
Lemma zlen_scatter ps : forall a vals, Forall (fun p => 0 <= p < zlen a) ps -> zlen (scatter a ps vals) = zlen a.
Proof.
  induction ps as [|p ps IH]; intros a [|v vals] H; cbn [scatter]; try reflexivity.
  inversion H as [|? ? H1 H2]; subst. rewrite npos_id by lia. assert (Z1 : zlen (setn a p v) = zlen a) by (apply zlen_setn; lia).
  rewrite IH by (rewrite Z1; exact H2). exact Z1.
Qed.
Lemma getb_scatter ps : forall a vals i, Forall (fun p => 0 <= p < zlen a) ps -> 0 <= i ->
  getb (scatter a ps vals) i = match last_write i ps vals with Some v => v | None => getb a i end.
Proof.
  induction ps as [|p ps IH]; intros a [|v vals] i H Hi; cbn [scatter last_write]; try reflexivity.
  inversion H as [|? ? H1 H2]; subst. rewrite npos_id by lia. assert (Z1 : zlen (setn a p v) = zlen a) by (apply zlen_setn; lia).
  rewrite IH by (first [rewrite Z1; exact H2|lia]). destruct (last_write i ps vals); [reflexivity|].
  rewrite getb_setn by lia. destruct (p =? i); reflexivity.
Qed.
Lemma last_write_none p ps : forall vals, ~ In p ps -> last_write p ps vals = None.
Proof.
  induction ps as [|q ps IH]; intros [|v vals] H; cbn [last_write]; try reflexivity. cbn [In] in H.
  rewrite IH by tauto. replace (q =? p) with false by lia. reflexivity.
Qed.
Lemma last_write_some p ps : forall vals, In p ps -> length ps = length vals -> exists v, last_write p ps vals = Some v.
Proof.
  induction ps as [|q ps IH]; intros [|v vals] H L; cbn [length] in L; try lia; [destruct H|]. cbn [last_write].
  destruct (last_write p ps vals) as [x|] eqn:E; [eauto|]. destruct H as [-> |H]; [rewrite Z.eqb_refl; eauto|].
  destruct (IH vals H ltac:(lia)) as (x & Ex). congruence.
Qed.
Lemma last_write_map f p ps : last_write p ps (map f ps) = if zmem p ps then Some (f p) else None.
Proof.
  induction ps as [|q ps IH]; [reflexivity|]. cbn [map last_write]. rewrite IH. unfold zmem. cbn [existsb].
  destruct (existsb (Z.eqb p) ps) eqn:E; [rewrite orb_true_r; reflexivity|]. rewrite orb_false_r, Z.eqb_sym.
  destruct (Z.eqb_spec p q) as [-> |N]; reflexivity.
Qed.
Lemma zmem_In p l : zmem p l = true <-> In p l.
Proof.
  unfold zmem. rewrite existsb_exists. split; [intros (x & H & E); replace p with x by lia; exact H|]. intros H. exists p. split; [exact H|lia].
Qed.
Lemma gather_map a ps : Forall (fun p => 0 <= p < zlen a) ps -> gather a ps = map (getb a) ps.
Proof.
  intros H. unfold gather. apply map_ext_in. intros p Hp. rewrite Forall_forall in H. specialize (H p Hp). rewrite npos_id by lia. reflexivity.
Qed.
Lemma zlen_update f a ps : Forall (fun p => 0 <= p < zlen a) ps -> zlen (update f a ps) = zlen a.
Proof. intros. unfold update. apply zlen_scatter. assumption. Qed.
Lemma getb_update f a ps i : Forall (fun p => 0 <= p < zlen a) ps -> 0 <= i ->
  getb (update f a ps) i = if zmem i ps then f (getb a i) else getb a i.
Proof.
  intros H Hi. unfold update. rewrite getb_scatter by assumption. rewrite gather_map by exact H.
  rewrite map_map. rewrite (last_write_map (fun p => f (getb a p))). destruct (zmem i ps); reflexivity.
Qed.

(** * Slices and selections *)
Lemma nslice_bound n a b : 0 <= n ->
  let st := bound n 0 a in let en := bound n n b in
  nslice n a b = if en <=? st then (0, 0) else (st, en).
Proof.
  intros Hn. cbn zeta. unfold nslice.
  replace (match a with Some x => nbound n x | None => 0 end) with (bound n 0 a).
  replace (match b with Some x => nbound n x | None => n end) with (bound n n b); [reflexivity|].
  - destruct b as [x|]; [|reflexivity]. unfold bound, nbound. destruct (Z.ltb_spec x 0).
    + destruct (Z.ltb_spec (x + n) 0); [lia|]. destruct (Z.ltb_spec n (x + n)); lia.
    + destruct (Z.ltb_spec x 0); [lia|]. destruct (Z.ltb_spec n x); lia.
  - destruct a as [x|]; [|reflexivity]. unfold bound, nbound. destruct (Z.ltb_spec x 0).
    + destruct (Z.ltb_spec (x + n) 0); [lia|]. destruct (Z.ltb_spec n (x + n)); lia.
    + destruct (Z.ltb_spec x 0); [lia|]. destruct (Z.ltb_spec n x); lia.
Qed.
Lemma bound_range n d i : 0 <= d <= n -> 0 <= bound n d i <= n.
Proof. intros. unfold bound. destruct i as [i|]; [|lia]. destruct (i <? 0); lia. Qed.
Lemma nslice_range n a b st en : 0 <= n -> nslice n a b = (st, en) -> 0 <= st <= en /\ en <= n.
Proof.
  intros Hn E. rewrite nslice_bound in E by lia. pose proof (bound_range n 0 a ltac:(lia)). pose proof (bound_range n n b ltac:(lia)).
  destruct (Z.leb_spec (bound n n b) (bound n 0 a)); injection E as <- <-; lia.
Qed.
Lemma pyslice_nslice (l : list Z) a b st en : nslice (zlen l) a b = (st, en) -> pyslice l a b = slice l st en.
Proof.
  intros E. pose proof (zlen_nonneg l). rewrite nslice_bound in E by lia. unfold pyslice.
  destruct (Z.leb_spec (bound (zlen l) (zlen l) b) (bound (zlen l) 0 a)); injection E as <- <-; [rewrite !slice_empty by lia; reflexivity|reflexivity].
Qed.

Section WIN.
Variable h : heap.
Lemma zlen_shows r : raw_ok h r -> zlen (shows h r) = raw_len h r.
Proof.
  intros (_ & _ & _ & _ & _ & W). unfold shows, raw_len. destruct (r_win r) as [|a b|o]; cbn [positions win_ok] in *; rewrite ?zlen_zrange'; pose proof (zlen_nonneg (arr h (r_data r))); lia.
Qed.
Lemma shows_range r : raw_ok h r -> Forall (fun p => 0 <= p < zlen (arr h (r_data r))) (shows h r).
Proof.
  intros (_ & _ & _ & _ & _ & W). unfold shows. destruct (r_win r) as [|a b|o]; cbn [positions win_ok] in *; [| |exact W];
    apply Forall_forall; intros p Hp; apply In_zrange in Hp; lia.
Qed.
Lemma win_read_positions a w : win_ok (zlen a) w -> win_read a w = map (getb a) (positions (zlen a) w).
Proof.
  intros W. destruct w as [|x y|o]; cbn [win_read positions win_ok] in *.
  - symmetry. apply map_range.
  - apply slice_map_range; lia.
  - apply gather_map. exact W.
Qed.
Lemma read_data_shows r : raw_ok h r -> read_data h r = map (getb (arr h (r_data r))) (shows h r).
Proof. intros (_ & _ & _ & _ & _ & W). apply win_read_positions. exact W. Qed.
Lemma read_style_shows r : raw_ok h r -> read_style h r = map (getb (arr h (r_style r))) (shows h r).
Proof. intros (_ & _ & _ & _ & L & W). unfold read_style, shows. rewrite <- L in W |- *. apply win_read_positions. exact W. Qed.
Lemma raw_index_shows r i : raw_ok h r -> 0 <= i < raw_len h r -> raw_index r i = Ok (getb (shows h r) i).
Proof.
  intros (_ & _ & _ & _ & _ & W) Hi. unfold raw_index, shows, raw_len in *. destruct (r_win r) as [|a b|o]; cbn [positions win_ok] in *.
  - rewrite getb_zrange by lia. reflexivity.
  - rewrite getb_zrange by lia. reflexivity.
  - unfold nindex. replace ((- zlen o <=? i) && (i <? zlen o)) with true by lia. replace (i <? 0) with false by lia. reflexivity.
Qed.
Lemma win_slice_shows r a b : raw_ok h r -> win_slice (raw_len h r) (r_win r) a b = pyslice (shows h r) a b.
Proof.
  intros R. pose proof (zlen_shows r R) as L. pose proof (zlen_nonneg (shows h r)).
  unfold win_slice. destruct (nslice (raw_len h r) a b) as [st en] eqn:E.
  pose proof (nslice_range (raw_len h r) a b st en ltac:(lia) E) as Hr. rewrite <- L in E. rewrite (pyslice_nslice _ _ _ _ _ E).
  destruct R as (_ & _ & _ & _ & _ & W). unfold shows, raw_len in *. destruct (r_win r) as [|x y|o]; cbn [positions win_ok] in *; [| |reflexivity].
  - rewrite slice_zrange by lia. f_equal; lia.
  - rewrite slice_zrange by lia. f_equal; lia.
Qed.
Lemma raw_slice_shows r a b : raw_ok h r -> raw_ok h (raw_slice h r a b) /\ shows h (raw_slice h r a b) = pyslice (shows h r) a b /\
  r_data (raw_slice h r a b) = r_data r /\ r_style (raw_slice h r a b) = r_style r /\ r_extra (raw_slice h r a b) = r_extra r.
Proof.
  intros R. pose proof (zlen_shows r R) as L. pose proof (zlen_nonneg (shows h r)). pose proof (win_slice_shows r a b R) as WS.
  pose proof (shows_range r R) as SR.
  destruct R as (R1 & R2 & R3 & R4 & R5 & W). unfold raw_slice, win_slice in *. destruct (nslice (raw_len h r) a b) as [st en] eqn:E.
  pose proof (nslice_range (raw_len h r) a b st en ltac:(lia) E) as Hr.
  unfold raw_ok, shows in *. cbn [r_data r_style r_extra r_win].
  rewrite <- WS. unfold raw_len in *.
  destruct (r_win r) as [|x y|o]; cbn [positions win_ok] in *; (split; [|auto]); repeat (split; [assumption|]).
  - lia.
  - lia.
  - apply Forall_forall. intros p Hp. rewrite Forall_forall in W. apply W. exact (In_slice _ _ _ _ Hp).
Qed.

Lemma nindexes_ok n idx : Forall (fun i => 0 <= i < n) idx -> nindexes n idx = Ok idx.
Proof.
  induction idx as [|i idx IH]; intros H; [reflexivity|]. inversion H as [|? ? H1 H2]; subst. cbn [nindexes]. unfold nindex.
  replace ((- n <=? i) && (i <? n)) with true by lia. replace (i <? 0) with false by lia. cbn [rbind]. rewrite IH by exact H2. reflexivity.
Qed.
Lemma nindexes_err n idx : Forall (fun i => 0 <= i) idx -> ~ Forall (fun i => 0 <= i < n) idx -> nindexes n idx = Err EIndex.
Proof.
  induction idx as [|i idx IH]; intros H0 H; [exfalso; apply H; constructor|]. inversion H0 as [|? ? H1 H2]; subst. cbn [nindexes]. unfold nindex.
  destruct (Z.ltb_spec i n).
  - replace ((- n <=? i) && true) with true by lia. replace (i <? 0) with false by lia. cbn [rbind]. rewrite IH; [reflexivity|exact H2|].
    intros G. apply H. constructor; [lia|exact G].
  - rewrite andb_false_r. reflexivity.
Qed.
Lemma nindexes_range n idx js : nindexes n idx = Ok js -> Forall (fun j => 0 <= j < n) js /\ length js = length idx.
Proof.
  revert js. induction idx as [|i idx IH]; intros js E; cbn [nindexes] in E; [injection E as <-; split; [constructor|reflexivity]|].
  unfold nindex in E. destruct ((- n <=? i) && (i <? n)) eqn:E1; [|discriminate]. cbn [rbind] in E.
  destruct (nindexes n idx) as [js'|]; [|discriminate]. injection E as <-. destruct (IH js' eq_refl) as [I1 I2].
  split; [constructor; [|exact I1]|cbn [length]; lia]. destruct (Z.ltb_spec i 0); lia.
Qed.
Lemma win_pick_shows r idx js : raw_ok h r -> nindexes (raw_len h r) idx = Ok js ->
  win_pick (raw_len h r) (r_win r) idx = Ok (map (getb (shows h r)) js).
Proof.
  intros R E. pose proof (zlen_shows r R) as L. destruct (nindexes_range _ _ _ E) as [J _]. unfold win_pick. rewrite E. cbn [rbind]. f_equal.
  destruct R as (_ & _ & _ & _ & _ & W). unfold shows, raw_len in *. rewrite Forall_forall in J.
  destruct (r_win r) as [|x y|o]; cbn [positions win_ok] in *.
  - rewrite <- (map_id js) at 1. apply map_ext_in. intros j Hj. specialize (J j Hj). rewrite getb_zrange by lia. lia.
  - apply map_ext_in. intros j Hj. specialize (J j Hj). rewrite getb_zrange by lia. reflexivity.
  - apply gather_map. apply Forall_forall. exact J.
Qed.
Lemma raw_indexed_shows r idx : raw_ok h r -> Forall (fun i => 0 <= i) idx ->
  match pyselect (shows h r) idx with
  | Some ps => exists r', raw_indexed h r idx = Ok r' /\ raw_ok h r' /\ shows h r' = ps /\
      r_data r' = r_data r /\ r_style r' = r_style r /\ r_extra r' = r_extra r
  | None => raw_indexed h r idx = Err EIndex
  end.
Proof.
  intros R H0. pose proof (zlen_shows r R) as L. pose proof (shows_range r R) as SR. unfold pyselect.
  destruct (forallb (fun i => (0 <=? i) && (i <? zlen (shows h r))) idx) eqn:F.
  - assert (J : Forall (fun i => 0 <= i < raw_len h r) idx).
    { apply Forall_forall. intros i Hi. rewrite forallb_forall in F. specialize (F i Hi). lia. }
    pose proof (nindexes_ok _ _ J) as E. pose proof (win_pick_shows r idx idx R E) as WP.
    assert (Hsel : Forall (fun p => 0 <= p < zlen (arr h (r_data r))) (map (getb (shows h r)) idx)).
    { apply Forall_forall. intros p Hp. apply in_map_iff in Hp. destruct Hp as (j & <- & Hj). rewrite Forall_forall in SR, J. apply SR, getb_In.
      rewrite L. apply J. exact Hj. }
    unfold win_pick in WP. rewrite E in WP. cbn [rbind] in WP. injection WP as WP.
    destruct R as (R1 & R2 & R3 & R4 & R5 & W). unfold raw_indexed, raw_len in *.
    destruct (r_win r) as [|x y|o] eqn:Ew; rewrite E; cbn [rbind]; eexists; (split; [reflexivity|]);
      unfold raw_ok, shows; cbn [r_data r_style r_extra r_win positions win_ok]; rewrite Ew in *; cbn [positions] in *.
    + replace (map (fun i => i + 0) idx) with idx by (rewrite <- (map_id idx) at 1; apply map_ext; intros; lia).
      unfold shows in *. rewrite Ew in *. cbn [positions] in *. rewrite <- WP in *. auto 10.
    + replace (map (fun i => i + x) idx) with (map (fun j => x + j) idx) by (apply map_ext; intros; lia).
      unfold shows in *. rewrite Ew in *. cbn [positions] in *. rewrite <- WP in *. auto 10.
    + unfold shows in *. rewrite Ew in *. cbn [positions] in *. rewrite WP in *. auto 10.
  - assert (J : ~ Forall (fun i => 0 <= i < raw_len h r) idx).
    { intros J. rewrite <- L in J. assert (T : forallb (fun i => (0 <=? i) && (i <? zlen (shows h r))) idx = true); [|congruence].
      apply forallb_forall. intros i Hi. rewrite Forall_forall in J. specialize (J i Hi). lia. }
    pose proof (nindexes_err _ _ H0 J) as E. unfold raw_indexed, raw_len in *. destruct (r_win r); rewrite E; reflexivity.
Qed.
End WIN.

(** * Reverse lookup *)
Lemma last_write_index p l : forall i hi, hi = i + zlen l -> last_write p l (zrange i hi) = last_index p l i.
Proof.
  induction l as [|q l IH]; intros i hi ->; [reflexivity|]. rewrite zlen_cons. pose proof (zlen_nonneg l).
  replace (zrange i (i + (1 + zlen l))) with (i :: zrange (i + 1) (i + (1 + zlen l))).
  - cbn [last_write last_index]. rewrite (IH (i + 1)) by lia. reflexivity.
  - unfold zrange. replace (Z.to_nat (i + (1 + zlen l) - i)) with (S (Z.to_nat (i + (1 + zlen l) - (i + 1)))) by lia. reflexivity.
Qed.
Lemma last_index_range p l : forall i j, last_index p l i = Some j -> i <= j < i + zlen l /\ getb l (j - i) = p /\
  forall k, j < k < i + zlen l -> getb l (k - i) <> p.
Proof.
  induction l as [|q l IH]; intros i j E; cbn [last_index] in E; [discriminate|]. rewrite zlen_cons. pose proof (zlen_nonneg l).
  assert (G : forall k, i < k -> getb (q :: l) (k - i) = getb l (k - (i + 1))).
  { intros k Hk. unfold getb. replace (Z.to_nat (k - i)) with (S (Z.to_nat (k - (i + 1)))) by lia. reflexivity. }
  destruct (last_index p l (i + 1)) as [j'|] eqn:E1.
  - injection E as <-. destruct (IH _ _ E1) as (I1 & I2 & I3). split; [lia|]. split; [rewrite G by lia; exact I2|].
    intros k Hk. rewrite G by lia. apply I3. lia.
  - destruct (Z.eqb_spec q p) as [-> |N]; [|discriminate]. injection E as <-. split; [lia|]. split; [rewrite Z.sub_diag; reflexivity|].
    intros k Hk. rewrite G by lia. intros Ek. clear IH G.
    assert (In p l) by (rewrite <- Ek; apply getb_In; lia).
    revert E1 H0. clear. revert i. induction l as [|q l IH]; intros i E1 Hin; [destruct Hin|]. cbn [last_index] in E1.
    destruct (last_index p l (i + 1 + 1)) eqn:E2; [discriminate|]. destruct (Z.eqb_spec q p); [discriminate|].
    destruct Hin as [Hin|Hin]; [congruence|]. exact (IH _ E2 Hin).
Qed.
Lemma last_index_none p l : forall i, last_index p l i = None -> ~ In p l.
Proof.
  induction l as [|q l IH]; intros i E Hin; [destruct Hin|]. cbn [last_index] in E.
  destruct (last_index p l (i + 1)) eqn:E2; [discriminate|]. destruct (Z.eqb_spec q p); [discriminate|].
  destruct Hin as [Hin|Hin]; [congruence|]. exact (IH _ E2 Hin).
Qed.
Lemma last_index_zrange p a : forall n i, a <= p < a + Z.of_nat n -> last_index p (zseq_nat a n) i = Some (i + (p - a)).
Proof.
  intros n. revert a. induction n as [|n IH]; intros a i H; [lia|]. cbn [zseq_nat last_index].
  destruct (Z.eqb_spec a p) as [-> |N].
  - replace (last_index p (zseq_nat (p + 1) n) (i + 1)) with (@None Z); [f_equal; lia|].
    symmetry. clear. assert (G : forall m b k, p < b -> last_index p (zseq_nat b m) k = None).
    { induction m as [|m IH]; intros b k Hb; [reflexivity|]. cbn [zseq_nat last_index]. rewrite IH by lia. replace (b =? p) with false by lia. reflexivity. }
    apply G. lia.
  - rewrite IH by lia. f_equal. lia.
Qed.
Lemma last_index_nodup l i k : NoDup l -> 0 <= k < zlen l -> last_index (getb l k) l i = Some (i + k).
Proof.
  intros N Hk. destruct (last_index (getb l k) l i) as [j|] eqn:E.
  - destruct (last_index_range _ _ _ _ E) as (I1 & I2 & _). f_equal.
    enough (j - i = k) by lia. unfold getb in I2. rewrite (NoDup_nth l 0) in N. unfold zlen in *.
    specialize (N (Z.to_nat (j - i)) (Z.to_nat k) ltac:(lia) ltac:(lia) I2). lia.
  - exfalso. eapply last_index_none; [exact E|]. apply getb_In. exact Hk.
Qed.
(** What the reverse lookup finds: the last index showing that position. *)
Lemma reverse_index_spec h r p : raw_ok h r -> 0 <= p < zlen (arr h (r_data r)) ->
  reverse_index h r p = match last_index p (shows h r) 0 with Some i => Ok i | None => Err EIndex end.
Proof.
  intros R Hp. pose proof (zlen_shows h r R) as L. destruct R as (_ & _ & _ & _ & _ & W). unfold reverse_index, reverse_map, shows, raw_len in *.
  set (n := zlen (arr h (r_data r))) in *.
  assert (Zr : zlen (zrepeat (-1) n) = n) by (apply zlen_zrepeat; lia).
  destruct (r_win r) as [|a b|o]; cbn [positions win_ok] in *.
  - rewrite zlen_zrange by lia. unfold nindex. replace ((- (n - 0) <=? p) && (p <? n - 0)) with true by lia. replace (p <? 0) with false by lia. cbn [rbind].
    rewrite getb_zrange by lia. replace (0 + p <? 0) with false by lia. unfold zrange. rewrite last_index_zrange by lia. f_equal. lia.
  - rewrite zlen_setslice by (rewrite ?zlen_zrange', ?Zr; lia). rewrite Zr. unfold nindex. replace ((- n <=? p) && (p <? n)) with true by lia.
    replace (p <? 0) with false by lia. cbn [rbind]. rewrite getb_setslice by (rewrite ?zlen_zrange', ?Zr; lia). rewrite zlen_zrange'.
    destruct ((a <=? p) && (p <? a + Z.max 0 (b - a - 0))) eqn:E.
    + rewrite getb_zrange by lia. replace (0 + (p - a) <? 0) with false by lia. unfold zrange. rewrite last_index_zrange by lia. f_equal.
    + rewrite getb_zrepeat by lia. cbn [Z.ltb Z.compare]. destruct (last_index p (zrange a b) 0) as [i|] eqn:E2; [|reflexivity].
      destruct (last_index_range _ _ _ _ E2) as (I1 & I2 & _). rewrite zlen_zrange' in I1. rewrite getb_zrange in I2 by lia. lia.
  - assert (Wz : Forall (fun q => 0 <= q < zlen (zrepeat (-1) n)) o) by (rewrite Zr; exact W).
    rewrite zlen_scatter by exact Wz. rewrite Zr. unfold nindex. replace ((- n <=? p) && (p <? n)) with true by lia. replace (p <? 0) with false by lia. cbn [rbind].
    rewrite getb_scatter by (first [exact Wz|lia]). rewrite last_write_index by lia.
    destruct (last_index p o 0) as [i|] eqn:E.
    + destruct (last_index_range _ _ _ _ E) as (I1 & _). replace (i <? 0) with false by lia. reflexivity.
    + rewrite getb_zrepeat by lia. reflexivity.
Qed.

(** * Chains of slices and selections *)
Lemma u32_nonneg i : 0 <= u32 i.
Proof. unfold u32. apply Z.mod_pos_bound. lia. Qed.
Lemma pyselect_u32 l idx : zlen l <= 2147483648 -> Forall (fun i => - 2147483648 <= i < 4294967296) idx ->
  pyselect l (to_numpy_list idx) = pyselect l idx.
Proof.
  intros Hl H. unfold pyselect, to_numpy_list.
  assert (G : forall i, - 2147483648 <= i < 4294967296 -> (0 <= i < zlen l <-> 0 <= u32 i < zlen l)).
  { intros i Hi. destruct (Z_lt_ge_dec i 0).
    - assert (u32 i = i + 4294967296) by (unfold u32; symmetry; apply (Z.mod_unique _ _ (-1)); lia). lia.
    - assert (u32 i = i) by (unfold u32; apply Z.mod_small; lia). lia. }
  destruct (forallb (fun i => (0 <=? i) && (i <? zlen l)) idx) eqn:F.
  - assert (E : map u32 idx = idx).
    { rewrite <- (map_id idx) at 2. apply map_ext_in. intros i Hi. rewrite forallb_forall in F. specialize (F i Hi). rewrite Forall_forall in H. specialize (H i Hi).
      unfold u32. apply Z.mod_small. lia. }
    rewrite E, F. reflexivity.
  - replace (forallb (fun i => (0 <=? i) && (i <? zlen l)) (map u32 idx)) with false; [reflexivity|].
    symmetry. apply not_true_is_false. intros T. apply (eq_true_false_abs _ (eq_refl true)). rewrite <- F. symmetry. apply forallb_forall. intros i Hi.
    rewrite forallb_forall in T. specialize (T (u32 i) (in_map u32 _ _ Hi)). rewrite Forall_forall in H. specialize (G i (H i Hi)). lia.
Qed.
Lemma zlen_pyslice l a b : zlen (pyslice l a b) <= zlen l.
Proof.
  pose proof (zlen_nonneg l). unfold pyslice. pose proof (bound_range (zlen l) 0 a ltac:(lia)). pose proof (bound_range (zlen l) (zlen l) b ltac:(lia)).
  destruct (Z_le_gt_dec (bound (zlen l) (zlen l) b) (bound (zlen l) 0 a)); [rewrite slice_empty by lia; cbn; lia|]. rewrite zlen_slice by lia. lia.
Qed.
Lemma take_all_shows h c : forall r, raw_ok h r -> zlen (shows h r) <= 2147483648 -> Forall sel_ok c ->
  match choose_all (shows h r) c with
  | Some ps => exists r', take_all h r c = Ok r' /\ raw_ok h r' /\ shows h r' = ps /\
      r_data r' = r_data r /\ r_style r' = r_style r /\ r_extra r' = r_extra r
  | None => take_all h r c = Err EIndex
  end.
Proof.
  induction c as [|s c IH]; intros r R Hl Hc; cbn [choose_all take_all].
  - exists r. auto 10.
  - inversion Hc as [|? ? Hs Hc']; subst. destruct s as [a b|idx]; cbn [choose take].
    + destruct (raw_slice_shows h r a b R) as (R' & S' & D1 & D2 & D3). cbn [rbind]. rewrite <- S', <- D1, <- D2, <- D3. apply IH; [exact R'| |exact Hc'].
      rewrite S'. pose proof (zlen_pyslice (shows h r) a b). lia.
    + destruct Hs as [Hs1 Hs2]. rewrite <- (pyselect_u32 (shows h r) idx Hl Hs1).
      assert (H0 : Forall (fun i => 0 <= i) (to_numpy_list idx)).
      { apply Forall_forall. intros i Hi. apply in_map_iff in Hi. destruct Hi as (j & <- & _). apply u32_nonneg. }
      pose proof (raw_indexed_shows h r (to_numpy_list idx) R H0) as RI.
      destruct (pyselect (shows h r) (to_numpy_list idx)) as [ps|] eqn:EP.
      * destruct RI as (r' & E & R' & S' & D1 & D2 & D3). rewrite E. cbn [rbind]. rewrite <- S', <- D1, <- D2, <- D3. apply IH; [exact R'| |exact Hc'].
        rewrite S'. unfold pyselect in EP. destruct (forallb _ _); [|discriminate]. injection EP as <-. unfold to_numpy_list. rewrite !zlen_map. exact Hs2.
      * rewrite RI. reflexivity.
Qed.
