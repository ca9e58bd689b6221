(** Proofs about editing, copying, saving and interleaving windows. *)
From Verif Require Import Base BaseLemmas SegModel SegSpec SegProofs.

(** * Editing *)
Lemma raw_ok_set_arr h n a r : raw_ok h r -> zlen a = zlen (arr h n) -> raw_ok (set_arr h n a) r.
Proof.
  intros (R1 & R2 & R3 & R4 & R5 & W) Z.
  assert (G : forall m, zlen (arr (set_arr h n a) m) = zlen (arr h m)).
  { intros m. destruct (Nat.eq_dec n m) as [<- |N]; [|rewrite arr_set_neq by exact N; reflexivity].
    destruct (Nat.lt_ge_cases n (length (hp_arr h))) as [L|L]; [rewrite arr_set_eq by exact L; exact Z|].
    unfold arr, set_arr. cbn [hp_arr]. rewrite !nth_overflow by (rewrite ?length_replace; lia). reflexivity. }
  unfold raw_ok. rewrite !G. unfold set_arr. cbn [hp_arr hp_ext]. rewrite length_replace. auto 10.
Qed.
Lemma raw_ok_set_ext h n e r : raw_ok h r -> raw_ok (set_ext h n e) r.
Proof. intros (R1 & R2 & R3 & R4 & R5 & W). unfold raw_ok. rewrite !arr_set_ext. unfold set_ext. cbn [hp_arr hp_ext]. rewrite length_replace. auto 10. Qed.
Lemma shows_same h h' r : zlen (arr h' (r_data r)) = zlen (arr h (r_data r)) -> shows h' r = shows h r.
Proof. intros E. unfold shows. rewrite E. reflexivity. Qed.

(** The effect of writing [vals] at base positions [ps] through [r]. *)
Definition wrote (h : heap) (r : raw) (ps vals : list Z) (h' : heap) : Prop :=
  (forall p, 0 <= p -> getb (arr h' (r_data r)) p =
     match last_write p ps vals with Some v => v | None => getb (arr h (r_data r)) p end) /\
  zlen (arr h' (r_data r)) = zlen (arr h (r_data r)) /\
  (forall n, n <> r_data r -> arr h' n = arr h n) /\ hp_ext h' = hp_ext h.
Lemma wrote_scatter h r ps vals : raw_ok h r -> Forall (fun p => 0 <= p < zlen (arr h (r_data r))) ps ->
  wrote h r ps vals (set_arr h (r_data r) (scatter (arr h (r_data r)) ps vals)).
Proof.
  intros (R1 & _) P. unfold wrote. rewrite arr_set_eq by exact R1. split; [intros p Hp; apply getb_scatter; assumption|].
  split; [apply zlen_scatter; exact P|]. split; [intros n Hn; apply arr_set_neq; congruence|reflexivity].
Qed.
Lemma broadcast_same vals n : zlen vals = n -> bytes_ok vals -> broadcast n vals = Ok vals.
Proof.
  intros E B. unfold broadcast. rewrite E, Z.eqb_refl. f_equal. rewrite <- (map_id vals) at 2. apply map_ext_in. intros v Hv.
  unfold bytes_ok in B. rewrite Forall_forall in B. specialize (B v Hv). unfold u8, is_byte in *. apply Z.mod_small. lia.
Qed.
Lemma Forall_sel (P : Z -> Prop) l idx : Forall P l -> Forall (fun i => 0 <= i < zlen l) idx -> Forall P (map (getb l) idx).
Proof.
  intros H J. apply Forall_forall. intros p Hp. apply in_map_iff in Hp. destruct Hp as (i & <- & Hi). rewrite Forall_forall in H, J. apply H, getb_In, J, Hi.
Qed.
Lemma set_indexes_wrote h r idx vals : raw_ok h r -> Forall (fun i => 0 <= i < raw_len h r) idx -> zlen vals = zlen idx -> bytes_ok vals ->
  exists h', set_indexes h r idx vals = (h', Ok tt) /\ wrote h r (map (getb (shows h r)) idx) vals h'.
Proof.
  intros R J E B. unfold set_indexes. rewrite (win_pick_shows h r idx idx R (nindexes_ok _ _ J)). rewrite zlen_map, (broadcast_same vals) by assumption.
  eexists. split; [reflexivity|]. apply wrote_scatter; [exact R|]. apply Forall_sel; [apply shows_range; exact R|]. rewrite zlen_shows by exact R. exact J.
Qed.
Lemma set_index_wrote h r i v : raw_ok h r -> 0 <= i < raw_len h r -> is_byte v ->
  exists h', set_index h r i v = (h', Ok tt) /\ wrote h r [getb (shows h r) i] [v] h'.
Proof.
  intros R J B. unfold set_index. rewrite (win_pick_shows h r [i] [i] R) by (apply nindexes_ok; constructor; [exact J|constructor]).
  replace (u8 v) with v by (unfold u8; symmetry; apply Z.mod_small; exact B).
  eexists. split; [reflexivity|]. apply (wrote_scatter h r (map (getb (shows h r)) [i]) [v]); [exact R|]. apply Forall_sel; [apply shows_range; exact R|].
  rewrite zlen_shows by exact R. constructor; [exact J|constructor].
Qed.
Lemma pyslice_Forall (P : Z -> Prop) l a b : Forall P l -> Forall P (pyslice l a b).
Proof. intros H. apply Forall_forall. intros p Hp. rewrite Forall_forall in H. apply H. exact (In_slice _ _ _ _ Hp). Qed.
Lemma set_slice_wrote h r a b vals : raw_ok h r -> zlen vals = zlen (pyslice (shows h r) a b) -> bytes_ok vals ->
  exists h', set_slice h r a b vals = (h', Ok tt) /\ wrote h r (pyslice (shows h r) a b) vals h'.
Proof.
  intros R E B. unfold set_slice. rewrite (win_slice_shows h r a b R). rewrite (broadcast_same vals) by assumption.
  eexists. split; [reflexivity|]. apply wrote_scatter; [exact R|]. apply pyslice_Forall, shows_range, R.
Qed.
Lemma last_write_at ps vals i : NoDup ps -> length ps = length vals -> 0 <= i < zlen ps -> last_write (getb ps i) ps vals = Some (getb vals i).
Proof.
  revert vals i. induction ps as [|p ps IH]; intros [|v vals] i N L Hi; cbn [length] in *; try lia; [cbn in Hi; lia|].
  inversion N as [|? ? N1 N2]; subst. rewrite zlen_cons in Hi. cbn [last_write].
  destruct (Z.eq_dec i 0) as [-> |Ni].
  - change (getb (p :: ps) 0) with p. rewrite last_write_none by exact N1. rewrite Z.eqb_refl. reflexivity.
  - replace (getb (p :: ps) i) with (getb ps (i - 1)) by (unfold getb; replace (Z.to_nat i) with (S (Z.to_nat (i - 1))) by lia; reflexivity).
    replace (getb (v :: vals) i) with (getb vals (i - 1)) by (unfold getb; replace (Z.to_nat i) with (S (Z.to_nat (i - 1))) by lia; reflexivity).
    rewrite IH by (try assumption; lia). reflexivity.
Qed.

(** Any sequence of edits, whatever their results, leaves the arrays they do not go
    through alone. *)
Inductive edit := EOne (r : raw) (i v : Z) | EMany (r : raw) (idx vals : list Z) | EPart (r : raw) (a b : option Z) (vals : list Z).
Definition edit_raw (e : edit) : raw := match e with EOne r _ _ => r | EMany r _ _ => r | EPart r _ _ _ => r end.
Definition do_edit (h : heap) (e : edit) : heap :=
  match e with
  | EOne r i v => fst (set_index h r i v)
  | EMany r idx vals => fst (set_indexes h r idx vals)
  | EPart r a b vals => fst (set_slice h r a b vals)
  end.
Lemma do_edit_other h e n : r_data (edit_raw e) <> n -> arr (do_edit h e) n = arr h n /\ hp_ext (do_edit h e) = hp_ext h /\
  length (hp_arr (do_edit h e)) = length (hp_arr h).
Proof.
  intros N. assert (G : forall a, arr (set_arr h (r_data (edit_raw e)) a) n = arr h n /\ hp_ext (set_arr h (r_data (edit_raw e)) a) = hp_ext h /\
     length (hp_arr (set_arr h (r_data (edit_raw e)) a)) = length (hp_arr h)).
  { intros a. split; [apply arr_set_neq; exact N|]. split; [reflexivity|]. apply length_replace. }
  destruct e as [r i v|r idx vals|r a b vals]; cbn [do_edit edit_raw] in *; unfold set_index, set_indexes, set_slice.
  - destruct (win_pick _ _ _); cbn [fst]; auto.
  - destruct (win_pick _ _ _); cbn [fst]; [|auto]. destruct (broadcast _ _); cbn [fst]; auto.
  - destruct (broadcast _ _); cbn [fst]; auto.
Qed.
Lemma edits_other l : forall h n, Forall (fun e => r_data (edit_raw e) <> n) l -> arr (fold_left do_edit l h) n = arr h n.
Proof.
  induction l as [|e l IH]; intros h n H; [reflexivity|]. inversion H as [|? ? H1 H2]; subst. cbn [fold_left]. rewrite IH by exact H2. apply do_edit_other. exact H1.
Qed.

(** * Copies *)
Lemma arr_app_l h l e n : (n < length (hp_arr h))%nat -> arr (mkHp (hp_arr h ++ l) e) n = arr h n.
Proof. intros. unfold arr. cbn [hp_arr]. apply app_nth1. assumption. Qed.
Lemma arr_app_0 h a b e : arr (mkHp (hp_arr h ++ [a; b]) e) (length (hp_arr h)) = a.
Proof. unfold arr. cbn [hp_arr]. rewrite app_nth2 by lia. rewrite Nat.sub_diag. reflexivity. Qed.
Lemma arr_app_1 h a b e : arr (mkHp (hp_arr h ++ [a; b]) e) (S (length (hp_arr h))) = b.
Proof. unfold arr. cbn [hp_arr]. rewrite app_nth2 by lia. replace (S (length (hp_arr h)) - length (hp_arr h))%nat with 1%nat by lia. reflexivity. Qed.
Lemma raw_copy_spec h r h' c : raw_ok h r -> raw_copy h r = (h', c) ->
  raw_ok h' c /\ read_data h' c = read_data h r /\ read_style h' c = read_style h r /\ shows h' c = shows h r /\
  forall x, raw_ok h x -> raw_ok h' x /\ read_data h' x = read_data h x /\ read_style h' x = read_style h x /\ shows h' x = shows h x /\
    ext h' (r_extra x) = ext h (r_extra x) /\
    r_data x <> r_data c /\ r_data x <> r_style c /\ r_style x <> r_data c /\ r_style x <> r_style c /\ r_extra x <> r_extra c.
Proof.
  intros R E. pose proof R as (R1 & R2 & R3 & R4 & R5 & W). unfold raw_copy in E. injection E as <- <-.
  unfold read_data, read_style, shows, raw_ok. cbn [r_data r_style r_extra r_win]. rewrite !arr_app_0, !arr_app_1. cbn [hp_arr hp_ext]. rewrite !app_length. cbn [length].
  split; [repeat split; try lia; assumption|]. split; [reflexivity|]. split; [reflexivity|]. split; [reflexivity|].
  intros x (X1 & X2 & X3 & X4 & X5 & X6). rewrite !arr_app_l by assumption. split; [repeat split; try lia; assumption|].
  repeat (split; [reflexivity|]). split; [unfold ext; cbn [hp_ext]; apply app_nth1; exact X4|]. repeat split; lia.
Qed.

(** * Saving and rebuilding *)
Lemma pyslice_whole a b n : 0 <= a <= b -> b <= n -> pyslice (zrange 0 n) (Some a) (Some b) = zrange a b.
Proof.
  intros H1 H2. unfold pyslice. rewrite zlen_zrange by lia. unfold bound. replace (a <? 0) with false by lia. replace (b <? 0) with false by lia.
  replace (Z.max 0 (Z.min (n - 0) a)) with a by lia. replace (Z.max 0 (Z.min (n - 0) b)) with b by lia. rewrite slice_zrange by lia. reflexivity.
Qed.
Lemma pyselect_whole o n : Forall (fun p => 0 <= p < n) o -> pyselect (zrange 0 n) o = Some o.
Proof.
  intros H. unfold pyselect. replace (forallb _ o) with true.
  - f_equal. rewrite <- (map_id o) at 2. apply map_ext_in. intros p Hp. rewrite Forall_forall in H. specialize (H p Hp). rewrite getb_zrange by lia. lia.
  - symmetry. apply forallb_forall. intros p Hp. rewrite Forall_forall in H. specialize (H p Hp). rewrite zlen_zrange by lia. lia.
Qed.
Lemma reconstruct_spec h r base : raw_ok h r -> raw_ok h base -> r_win base = WAll -> r_data base = r_data r -> r_style base = r_style r ->
  zlen (arr h (r_data r)) <= 2147483648 -> r_win r <> WOrder [] ->
  exists r', reconstruct h base (get_state h r) = Ok r' /\ raw_ok h r' /\ shows h r' = shows h r /\ r_data r' = r_data r /\ r_style r' = r_style r.
Proof.
  intros R B Bw Bd Bs Hl Ne. unfold reconstruct, get_state. cbn [st_bounds st_order].
  destruct (byte_bounds h r) as [s e] eqn:Eb. cbn [fst snd].
  destruct (raw_slice_shows h base (Some s) (Some e) B) as (R' & S' & D1 & D2 & D3). set (r1 := raw_slice h base (Some s) (Some e)) in *.
  assert (Sb : shows h base = zrange 0 (zlen (arr h (r_data r)))) by (unfold shows; rewrite Bw, Bd; reflexivity). rewrite Sb in S'.
  pose proof R as (_ & _ & _ & _ & _ & W). unfold byte_bounds in Eb. pose proof (zlen_nonneg (arr h (r_data r))).
  destruct (r_win r) as [|a b|o] eqn:Ew; cbn [win_ok] in W.
  - injection Eb as <- <-. exists r1. split; [reflexivity|]. split; [exact R'|]. split; [|split; congruence].
    rewrite S', pyslice_whole by lia. unfold shows. rewrite Ew. reflexivity.
  - injection Eb as <- <-. exists r1. split; [reflexivity|]. split; [exact R'|]. split; [|split; congruence].
    rewrite S', pyslice_whole by lia. unfold shows. rewrite Ew. reflexivity.
  - injection Eb as <- <-. rewrite pyslice_whole in S' by lia. destruct o as [|p o]; [congruence|].
    assert (Et : to_numpy_list (p :: o) = p :: o).
    { unfold to_numpy_list. rewrite <- (map_id (p :: o)) at 2. apply map_ext_in. intros q Hq. rewrite Forall_forall in W. specialize (W q Hq). unfold u32. apply Z.mod_small. lia. }
    rewrite Et. assert (H0 : Forall (fun i => 0 <= i) (p :: o)) by (eapply Forall_impl; [|exact W]; cbn; intros; lia).
    pose proof (raw_indexed_shows h r1 (p :: o) R' H0) as RI. rewrite S', pyselect_whole in RI by exact W.
    destruct RI as (r' & E & R2 & S2 & F1 & F2 & F3). exists r'. split; [exact E|]. split; [exact R2|]. split; [|split; congruence].
    rewrite S2. unfold shows. rewrite Ew. reflexivity.
Qed.

(** * Interleaving *)
Lemma indexes_from_base_shows h r : raw_ok h r -> (forall o, r_win r <> WOrder o) -> indexes_from_base h r = Ok (shows h r).
Proof.
  intros (_ & _ & _ & _ & _ & W) N. unfold indexes_from_base, shows, raw_len. destruct (r_win r) as [|a b|o]; cbn [positions win_ok] in *.
  - reflexivity.
  - do 2 f_equal; lia.
  - destruct (N o eq_refl).
Qed.
Lemma min_len_spec h l : forall size, min_len h size l <= size /\ (forall s, In s l -> min_len h size l <= raw_len h s) /\
  (min_len h size l = size \/ exists s, In s l /\ min_len h size l = raw_len h s).
Proof.
  induction l as [|s l IH]; intros size; cbn [min_len]; [split; [lia|]; split; [intros s []|left; reflexivity]|].
  destruct (IH (if raw_len h s <? size then raw_len h s else size)) as (I1 & I2 & I3). split; [destruct (Z.ltb_spec (raw_len h s) size); lia|].
  split.
  - intros t [<- |Ht]; [destruct (Z.ltb_spec (raw_len h s) size); lia|apply I2; exact Ht].
  - destruct I3 as [I3|(t & Ht & I3)]; [|right; exists t; split; [right; exact Ht|exact I3]].
    destruct (Z.ltb_spec (raw_len h s) size); [right; exists s; split; [left; reflexivity|exact I3]|left; exact I3].
Qed.
Lemma getb_set_step l start step vals q : 0 < step -> 0 <= start -> 0 <= q -> (zlen vals = 0 \/ start + step * (zlen vals - 1) < zlen l) ->
  getb (set_step l start step vals) q =
  if (start <=? q) && ((q - start) mod step =? 0) && ((q - start) / step <? zlen vals) then getb vals ((q - start) / step) else getb l q.
Proof.
  intros Hs H0 Hq Hl. unfold set_step. pose proof (zlen_nonneg vals) as Hv. set (ps := map (fun j => start + step * j) (zrange 0 (zlen vals))).
  assert (P : Forall (fun p => 0 <= p < zlen l) ps).
  { apply Forall_forall. intros p Hp. apply in_map_iff in Hp. destruct Hp as (j & <- & Hj). apply In_zrange in Hj. nia. }
  assert (N : NoDup ps).
  { unfold ps, zrange. generalize (Z.to_nat (zlen vals - 0)) as k. intros k. generalize 0 as a.
    induction k as [|k IH]; intros a; cbn [zseq_nat map]; constructor; [|apply IH].
    intros Hin. apply in_map_iff in Hin. destruct Hin as (j & E & Hj). apply In_zseq_nat in Hj. nia. }
  assert (Zp : zlen ps = zlen vals) by (unfold ps; rewrite zlen_map, zlen_zrange by lia; lia).
  rewrite getb_scatter by assumption.
  destruct ((start <=? q) && ((q - start) mod step =? 0) && ((q - start) / step <? zlen vals)) eqn:E.
  - set (j := (q - start) / step) in *. assert (Hj : 0 <= j) by (apply Z.div_pos; lia).
    assert (Ej : q = start + step * j) by (pose proof (Z.div_mod (q - start) step ltac:(lia)); unfold j; lia).
    assert (Eq : q = getb ps j) by (unfold ps; rewrite getb_map by (rewrite zlen_zrange by lia; lia); rewrite getb_zrange by lia; lia).
    rewrite Eq at 1. rewrite last_write_at by (first [assumption|lia|unfold zlen in Zp; lia]). reflexivity.
  - rewrite last_write_none; [reflexivity|]. intros Hin. apply in_map_iff in Hin. destruct Hin as (j & Ej & Hj). apply In_zrange in Hj.
    assert (E1 : (q - start) / step = j) by (subst q; replace (start + step * j - start) with (j * step) by lia; apply Z.div_mul; lia).
    assert (E2 : (q - start) mod step = 0) by (subst q; replace (start + step * j - start) with (j * step) by lia; apply Z.mod_mul; lia).
    rewrite E1, E2 in E. cbn [Z.eqb] in E. nia.
Qed.
Lemma zlen_set_step l start step vals : 0 < step -> 0 <= start -> (zlen vals = 0 \/ start + step * (zlen vals - 1) < zlen l) ->
  zlen (set_step l start step vals) = zlen l.
Proof.
  intros Hs H0 Hl. unfold set_step. pose proof (zlen_nonneg vals). apply zlen_scatter. apply Forall_forall. intros p Hp. apply in_map_iff in Hp.
  destruct Hp as (j & <- & Hj). apply In_zrange in Hj. nia.
Qed.

Section INTER.
Variables (n k B : Z).
Hypothesis Hn : 1 <= n.
Hypothesis Hk : 1 <= k.
Hypothesis HB : 0 <= B.
Let factor := n * k.
Let size := n * B.
Lemma factor_pos : 0 < factor. Proof. unfold factor. nia. Qed.
Lemma get_step_len order m : 0 <= m < n -> zlen (get_step order m size n) = B.
Proof.
  intros Hm. unfold get_step. rewrite zlen_map, zlen_zrange'. replace ((size - m + n - 1) / n) with B; [lia|].
  unfold size. apply (Z.div_unique_pos _ _ _ (n - 1 - m)); lia.
Qed.
Lemma get_step_at order m j : 0 <= m < n -> 0 <= j < B -> getb (get_step order m size n) j = getb order (m + n * j).
Proof.
  intros Hm Hj. pose proof (get_step_len order m Hm) as L. unfold get_step in *. rewrite zlen_map in L. rewrite getb_map by lia. rewrite zlen_zrange' in L.
  rewrite getb_zrange by lia. reflexivity.
Qed.
(** column [c] of the result holds byte [c mod n] of segment [c / n] *)
Definition col_ok (order : list Z) (c m : Z) (acc : list Z) : Prop :=
  forall j, 0 <= j < B -> getb acc (factor * j + c) = getb order (m + n * j).
Lemma inter_step acc c m order : zlen acc = factor * B -> 0 <= c < factor -> 0 <= m < n ->
  let acc' := set_step acc c factor (get_step order m size n) in
  zlen acc' = factor * B /\ col_ok order c m acc' /\ (forall q, 0 <= q < factor * B -> q mod factor <> c -> getb acc' q = getb acc q).
Proof.
  intros Za Hc Hm. cbn zeta. pose proof factor_pos as Fp. pose proof (get_step_len order m Hm) as L.
  assert (C : zlen (get_step order m size n) = 0 \/ c + factor * (zlen (get_step order m size n) - 1) < zlen acc) by (rewrite L, Za; nia).
  split; [rewrite zlen_set_step by (try assumption; lia); exact Za|]. split.
  - intros j Hj. rewrite getb_set_step by (try assumption; nia). rewrite L.
    replace (factor * j + c - c) with (j * factor) by lia. rewrite Z.div_mul, Z.mod_mul by lia. cbn [Z.eqb].
    replace (c <=? factor * j + c) with true by nia. replace (j <? B) with true by lia. cbn [andb]. apply get_step_at; assumption.
  - intros q Hq Hne. rewrite getb_set_step by (try assumption; lia). destruct ((c <=? q) && ((q - c) mod factor =? 0) && _) eqn:E; [|reflexivity].
    exfalso. apply Hne. assert (E2 : (q - c) mod factor = 0) by lia. apply Z.mod_divide in E2; [|lia]. destruct E2 as (z & Ez).
    replace q with (c + z * factor) by lia. rewrite Z.mod_add by lia. apply Z.mod_small. lia.
Qed.
Lemma inter_bytes_spec order : forall m acc start, 0 <= m <= n -> 0 <= start -> start + (n - m) <= factor -> zlen acc = factor * B ->
  let r := inter_bytes order size n factor (zrange m n) start acc in
  snd r = start + (n - m) /\ zlen (fst r) = factor * B /\
  (forall i, 0 <= i < n - m -> col_ok order (start + i) (m + i) (fst r)) /\
  (forall q, 0 <= q < factor * B -> ~ (start <= q mod factor < start + (n - m)) -> getb (fst r) q = getb acc q).
Proof.
  intros m. remember (Z.to_nat (n - m)) as d. revert m Heqd. induction d as [|d IH]; intros m Hd acc start Hm Hs Hf Za; cbn zeta.
  - assert (m = n) by lia. subst m. rewrite zrange_nil by lia. cbn [inter_bytes fst snd]. split; [lia|]. split; [exact Za|]. split; [intros; lia|reflexivity].
  - replace (zrange m n) with (m :: zrange (m + 1) n) by (unfold zrange; replace (Z.to_nat (n - m)) with (S (Z.to_nat (n - (m + 1)))) by lia; reflexivity).
    cbn [inter_bytes]. destruct (inter_step acc start m order Za ltac:(lia) ltac:(lia)) as (S1 & S2 & S3).
    destruct (IH (m + 1) ltac:(lia) (set_step acc start factor (get_step order m size n)) (start + 1) ltac:(lia) ltac:(lia) ltac:(lia) S1) as (I1 & I2 & I3 & I4).
    pose proof factor_pos as Fp.
    assert (Hq : forall j c, 0 <= j < B -> 0 <= c < factor -> 0 <= factor * j + c < factor * B /\ (factor * j + c) mod factor = c).
    { intros j c Hj Hc. split; [nia|]. replace (factor * j + c) with (c + j * factor) by lia. rewrite Z.mod_add by lia. apply Z.mod_small. lia. }
    split; [lia|]. split; [exact I2|]. split.
    + intros i Hi. destruct (Z.eq_dec i 0) as [-> |Ni].
      * rewrite !Z.add_0_r. intros j Hj. destruct (Hq j start Hj ltac:(lia)) as [Q1 Q2]. rewrite I4 by (first [exact Q1|rewrite Q2; lia]). apply S2. exact Hj.
      * specialize (I3 (i - 1) ltac:(lia)). replace (start + 1 + (i - 1)) with (start + i) in I3 by lia. replace (m + 1 + (i - 1)) with (m + i) in I3 by lia. exact I3.
    + intros q Hq1 Hne. rewrite I4 by (try assumption; lia). apply S3; [exact Hq1|lia].
Qed.
Lemma inter_loop_spec h : forall segs t acc, Forall (raw_ok h) segs -> Forall (fun s => forall o, r_win s <> WOrder o) segs ->
  0 <= t -> t + zlen segs = k -> zlen acc = factor * B ->
  exists acc', inter_loop h segs size n factor (t * n) acc = Ok acc' /\ zlen acc' = factor * B /\
   (forall i m, 0 <= i < zlen segs -> 0 <= m < n -> col_ok (shows h (nth (Z.to_nat i) segs (mkR 0 0 0 WAll))) ((t + i) * n + m) m acc') /\
   (forall q, 0 <= q < factor * B -> q mod factor < t * n -> getb acc' q = getb acc q).
Proof.
  induction segs as [|s segs IH]; intros t acc F1 F2 Ht Hk' Za; cbn [inter_loop].
  - exists acc. split; [reflexivity|]. split; [exact Za|]. split; [intros i m Hi; cbn in Hi; lia|reflexivity].
  - inversion F1 as [|? ? R F1']; subst. inversion F2 as [|? ? N F2']; subst. rewrite zlen_cons in *. pose proof (zlen_nonneg segs) as Zs.
    rewrite (indexes_from_base_shows h s R N). cbn [rbind].
    assert (Hf : t * n + (n - 0) <= factor) by (unfold factor; nia).
    pose proof (inter_bytes_spec (shows h s) 0 acc (t * n) ltac:(lia) ltac:(nia) Hf Za) as IB. cbn zeta in IB.
    destruct (inter_bytes (shows h s) size n factor (zrange 0 n) (t * n) acc) as [a' s'] eqn:E. cbn [fst snd] in IB.
    destruct IB as (I1 & I2 & I3 & I4).
    destruct (IH (t + 1) a' F1' F2' ltac:(lia) ltac:(lia) I2) as (acc' & J1 & J2 & J3 & J4).
    replace s' with ((t + 1) * n) by lia. exists acc'. split; [exact J1|]. split; [exact J2|]. pose proof factor_pos as Fp. split.
    + intros i m Hi Hm. destruct (Z.eq_dec i 0) as [-> |Ni].
      * cbn [Z.to_nat nth]. rewrite Z.add_0_r. intros j Hj. rewrite J4.
        -- specialize (I3 m ltac:(lia) j Hj). rewrite Z.add_0_l in I3. exact I3.
        -- assert (t * n + m < factor) by nia. nia.
        -- replace (factor * j + (t * n + m)) with (t * n + m + j * factor) by lia. rewrite Z.mod_add by lia. rewrite Z.mod_small by nia. nia.
      * specialize (J3 (i - 1) m ltac:(lia) Hm). replace (t + 1 + (i - 1)) with (t + i) in J3 by lia.
        replace (nth (Z.to_nat i) (s :: segs) (mkR 0 0 0 WAll)) with (nth (Z.to_nat (i - 1)) segs (mkR 0 0 0 WAll)); [exact J3|].
        replace (Z.to_nat i) with (S (Z.to_nat (i - 1))) by lia. reflexivity.
    + intros q Hq1 Hq2. rewrite J4 by (try assumption; nia). apply I4; [exact Hq1|]. lia.
Qed.
End INTER.

Lemma interleave_spec h segs n : segs <> [] -> Forall (raw_ok h) segs -> Forall (fun s => forall o, r_win s <> WOrder o) segs -> 1 <= n ->
  exists B o, 0 <= B /\ interleave_indexes h segs n = Ok o /\ zlen o = n * zlen segs * B /\
   (forall s, In s segs -> n * B <= raw_len h s) /\ (exists s, In s segs /\ raw_len h s < n * B + n) /\
   forall t j m, 0 <= t < zlen segs -> 0 <= j < B -> 0 <= m < n ->
     getb o (n * zlen segs * j + (n * t + m)) = getb (shows h (nth (Z.to_nat t) segs (mkR 0 0 0 WAll))) (n * j + m).
Proof.
  intros Ne F1 F2 Hn. destruct segs as [|s0 rest]; [congruence|]. unfold interleave_indexes. replace (n =? 0) with false by lia.
  set (size0 := min_len h (raw_len h s0) rest). destruct (min_len_spec h rest (raw_len h s0)) as (M1 & M2 & M3). fold size0 in M1, M2, M3.
  assert (Hlen : forall s, In s (s0 :: rest) -> 0 <= raw_len h s).
  { intros s Hs. rewrite Forall_forall in F1. rewrite <- (zlen_shows h s (F1 s Hs)). apply zlen_nonneg. }
  assert (H0 : 0 <= size0).
  { destruct M3 as [-> |(s & Hs & ->)]; apply Hlen; [left; reflexivity|right; exact Hs]. }
  set (B := size0 / n). pose proof (Z.div_mod size0 n ltac:(lia)) as DM. pose proof (Z.mod_pos_bound size0 n ltac:(lia)) as MB. fold B in DM.
  assert (HB : 0 <= B) by (apply Z.div_pos; lia).
  replace (size0 - size0 mod n) with (n * B) by lia.
  assert (Hk : 1 <= zlen (s0 :: rest)) by (rewrite zlen_cons; pose proof (zlen_nonneg rest); lia).
  set (k := zlen (s0 :: rest)) in *.
  assert (Hall : forall s, In s (s0 :: rest) -> n * B <= raw_len h s).
  { intros s [<- |Hs]; [lia|]. specialize (M2 s Hs). lia. }
  assert (Hsome : exists s, In s (s0 :: rest) /\ raw_len h s < n * B + n).
  { destruct M3 as [E|(s & Hs & E)]; [exists s0; split; [left; reflexivity|lia]|exists s; split; [right; exact Hs|lia]]. }
  exists B. destruct (Z.ltb_spec 0 (n * B)) as [Hpos|Hpos].
  - assert (Za : zlen (zrepeat 0 (n * B * k)) = n * k * B) by (rewrite zlen_zrepeat by nia; nia).
    destruct (inter_loop_spec n k B Hn Hk HB h (s0 :: rest) 0 (zrepeat 0 (n * B * k)) F1 F2 ltac:(lia) ltac:(lia) Za) as (o & O1 & O2 & O3 & _).
    rewrite Z.mul_0_l in O1. exists o. split; [exact HB|]. split; [exact O1|]. split; [exact O2|]. split; [exact Hall|]. split; [exact Hsome|].
    intros t j m Ht Hj Hm. specialize (O3 t m Ht Hm j Hj). rewrite Z.add_0_l in O3. replace (n * t + m) with (t * n + m) by lia. rewrite O3. f_equal. lia.
  - assert (B = 0) by nia. exists (zrepeat 0 (n * B * k)). split; [exact HB|]. split; [reflexivity|].
    split; [rewrite zlen_zrepeat by nia; nia|]. split; [exact Hall|]. split; [exact Hsome|]. intros. lia.
Qed.
