(** C28-C37, C46, C54-C58: segments, styles, comments, sessions. *)
From Verif Require Import Base BaseLemmas SegModel SegSpec SegProofs SegProofs2 SegProofs3 SegProofs4 SegProofs5 SegProofs6.

(** A small heap for the examples: eight bytes, their styles and two comments. *)
Definition xh : heap :=
  mkHp [[10; 11; 12; 13; 14; 15; 16; 17]; [0; 64; 64; 0; 3; 3; 65; 0]]
       [mkE [(1, [97]); (6, [98; 99])] [[]; []; []; []; []; []; []]].
Definition xw : raw := mkR 0 1 0 WAll.
Ltac okr := repeat split; try (cbn; lia); try (cbv; congruence); repeat (apply Forall_cons || apply Forall_nil); cbv; repeat split; congruence.
Lemma xw_ok : raw_ok xh xw. Proof. okr. Qed.

(** * C28: windows *)
(** What a chain of slices and selections shows is what the same chain shows of the
    list of base positions; it fails exactly when the selection is out of range. *)
Theorem C28_windows h data c :
  zlen data <= 2147483648 -> Forall sel_ok c ->
  let (h1, base) := new_raw h data in
  match choose_all (zrange 0 (zlen data)) c with
  | Some ps => exists r, take_all h1 base c = Ok r /\ raw_ok h1 r /\ raw_len h1 r = zlen ps /\
      read_data h1 r = map (getb data) ps /\
      (forall i, 0 <= i < zlen ps -> raw_index r i = Ok (getb ps i)) /\
      (NoDup ps -> forall i, 0 <= i < zlen ps -> reverse_index h1 r (getb ps i) = Ok i) /\
      (forall p, 0 <= p < zlen data -> ~ In p ps -> reverse_index h1 r p = Err EIndex)
  | None => take_all h1 base c = Err EIndex
  end.
Proof.
  intros Hl Hc. destruct (new_raw h data) as [h1 base] eqn:E. unfold new_raw in E. injection E as E1 E2.
  assert (R : raw_ok h1 base /\ arr h1 (r_data base) = data /\ r_win base = WAll).
  { subst h1 base. unfold raw_ok. cbn [r_data r_style r_extra r_win hp_arr hp_ext]. rewrite arr_app_0, arr_app_1, !app_length. cbn [length win_ok].
    rewrite zlen_zrepeat by apply zlen_nonneg. repeat split; lia. }
  destruct R as (R & Ed & Ew). clear E1 E2.
  assert (Sb : shows h1 base = zrange 0 (zlen data)) by (unfold shows; rewrite Ew, Ed; reflexivity).
  pose proof (take_all_shows h1 c base R) as T. rewrite Sb in T. rewrite zlen_zrange' in T. specialize (T ltac:(lia) Hc).
  destruct (choose_all (zrange 0 (zlen data)) c) as [ps|]; [|exact T]. destruct T as (r & T1 & R' & Sr & D1 & D2 & D3).
  exists r. split; [exact T1|]. split; [exact R'|]. split; [rewrite <- Sr; symmetry; apply zlen_shows; exact R'|].
  split; [rewrite read_data_shows by exact R'; rewrite Sr, D1, Ed; reflexivity|]. split; [|split].
  - intros i Hi. rewrite <- Sr. apply raw_index_shows; [exact R'|]. rewrite <- (zlen_shows h1 r R'), Sr. exact Hi.
  - intros N i Hi. pose proof (shows_range h1 r R') as F. rewrite Sr in F. rewrite Forall_forall in F. specialize (F _ (getb_In _ _ Hi)).
    rewrite reverse_index_spec by assumption. rewrite Sr, last_index_nodup by assumption. reflexivity.
  - intros p Hp Hn. rewrite reverse_index_spec by (first [exact R'|rewrite D1, Ed; exact Hp]). rewrite Sr.
    destruct (last_index p ps 0) as [j|] eqn:El; [|reflexivity]. destruct Hn. destruct (last_index_range _ _ _ _ El) as (L1 & L2 & _). rewrite <- L2. apply getb_In. lia.
Qed.
Print Assumptions C28_windows.
Example C28_case : let (h1, base) := new_raw (mkHp [] []) [10; 11; 12; 13; 14; 15; 16; 17] in
  choose_all (zrange 0 8) [Sl (Some 1) (Some (-1)); Ix [5; 0; 3]; Sl None (Some 2)] = Some [6; 1] /\
  (exists r, take_all h1 base [Sl (Some 1) (Some (-1)); Ix [5; 0; 3]; Sl None (Some 2)] = Ok r /\ read_data h1 r = [16; 11] /\ reverse_index h1 r 1 = Ok 1) /\
  take_all h1 base [Ix [3; 8]] = Err EIndex.
Proof. cbn zeta iota beta. split; [reflexivity|]. split; [eexists; split; [reflexivity|]; split; reflexivity|reflexivity]. Qed.
(** Where a position is selected twice the reverse lookup gives the later index. *)
Theorem C28_reverse_refuted : exists h r i p, raw_ok h r /\ raw_index r i = Ok p /\ reverse_index h r p <> Ok i.
Proof.
  exists xh, (mkR 0 1 0 (WOrder [2; 5; 2])), 0, 2. split; [okr|]. split; [reflexivity|]. vm_compute. discriminate.
Qed.

(** Negative indexes in an index array count from the end, as in Python, if the whole of the data
    or a selection is indexed ... *)
Theorem C28_negative_partial h r idx : raw_ok h r -> (forall a b, r_win r <> WRange a b) ->
  Forall (fun i => - raw_len h r <= i < raw_len h r) idx ->
  exists r', raw_indexed h r idx = Ok r' /\ read_data h r' = map (fun i => getb (read_data h r) (if i <? 0 then i + raw_len h r else i)) idx.
Proof.
  intros R W F. unfold raw_len in F |- *.
  assert (NI : forall n l, Forall (fun i => - n <= i < n) l -> nindexes n l = Ok (map (npos n) l)).
  { intros n l H. induction H as [|i l Hi _ IH]; [reflexivity|]. cbn [nindexes map]. unfold nindex. replace ((- n <=? i) && (i <? n)) with true by lia. cbn [rbind]. rewrite IH. reflexivity. }
  unfold raw_indexed, raw_len, read_data, win_read. destruct (r_win r) as [|a b|o] eqn:E; [|destruct (W a b eq_refl)|].
  - rewrite NI by exact F. cbn [rbind]. eexists. split; [reflexivity|]. cbn [r_data r_win]. unfold gather. rewrite map_map. apply map_ext. intros i. rewrite Z.add_0_r. reflexivity.
  - rewrite NI by exact F. cbn [rbind]. eexists. split; [reflexivity|]. cbn [r_data r_win]. unfold gather. rewrite !map_map. apply map_ext_in. intros i Hi.
    rewrite Forall_forall in F. specialize (F i Hi). unfold npos at 2 3. assert (J : 0 <= (if i <? 0 then i + zlen o else i) < zlen o) by (destruct (i <? 0) eqn:?; lia).
    set (j := if i <? 0 then i + zlen o else i) in *. replace (j <? 0) with false by lia. symmetry. exact (getb_map (fun p => getb (arr h (r_data r)) (npos (zlen (arr h (r_data r))) p)) o j J).
Qed.
(** ... but if a part of the data is, they count from the start of this part, and show bytes in
    front of it. *)
Theorem C28_negative_refuted h r a b i : raw_ok h r -> r_win r = WRange a b -> - (b - a) <= i < 0 -> 0 <= a + i ->
  exists r', raw_indexed h r [i] = Ok r' /\ read_data h r' = [getb (arr h (r_data r)) (a + i)] /\ raw_index r' 0 = Ok (a + i) /\ ~ In (a + i) (shows h r).
Proof.
  intros R E Hi Ha. unfold raw_indexed, raw_len. rewrite E. cbn [nindexes]. unfold nindex. replace ((- (b - a) <=? i) && (i <? b - a)) with true by lia. cbn [rbind].
  eexists. split; [reflexivity|]. unfold read_data, win_read, gather, npos. cbn [r_data r_win map]. replace (i + a <? 0) with false by lia. replace (i + a) with (a + i) by lia. split; [reflexivity|]. split; [reflexivity|].
  unfold shows, positions. rewrite E. intros X. apply In_zrange in X. lia.
Qed.
Example C28_negative_case : raw_ok xh (mkR 0 1 0 (WRange 3 6)) /\ raw_indexed xh (mkR 0 1 0 (WRange 3 6)) [-1] = Ok (mkR 0 1 0 (WOrder [2])) /\
  raw_indexed xh (mkR 0 1 0 (WOrder [5; 3])) [-1] = Ok (mkR 0 1 0 (WOrder [3])).
Proof. split; [okr|]. split; reflexivity. Qed.
Print Assumptions C28_negative_refuted.

(** * C29: edits and copies *)
Theorem C29_edit_indexes h r idx vals : raw_ok h r -> Forall (fun i => 0 <= i < raw_len h r) idx -> zlen vals = zlen idx -> bytes_ok vals ->
  exists h', set_indexes h r idx vals = (h', Ok tt) /\ wrote h r (map (getb (shows h r)) idx) vals h'.
Proof. apply set_indexes_wrote. Qed.
Theorem C29_edit_index h r i v : raw_ok h r -> 0 <= i < raw_len h r -> is_byte v ->
  exists h', set_index h r i v = (h', Ok tt) /\ wrote h r [getb (shows h r) i] [v] h'.
Proof. apply set_index_wrote. Qed.
Theorem C29_edit_slice h r a b vals : raw_ok h r -> zlen vals = zlen (pyslice (shows h r) a b) -> bytes_ok vals ->
  exists h', set_slice h r a b vals = (h', Ok tt) /\ wrote h r (pyslice (shows h r) a b) vals h'.
Proof. apply set_slice_wrote. Qed.
Print Assumptions C29_edit_indexes.
(** Hence every view [x] of the same array sees the new value where it shows an edited
    position, and its old value elsewhere; the windows themselves do not move. *)
Theorem C29_edit_seen_by_views h r ps vals h' x i : raw_ok h r -> raw_ok h x -> r_data x = r_data r ->
  wrote h r ps vals h' -> 0 <= i < raw_len h x ->
  raw_len h' x = raw_len h x /\ shows h' x = shows h x /\
  getb (read_data h' x) i = match last_write (getb (shows h x) i) ps vals with Some v => v | None => getb (read_data h x) i end.
Proof.
  intros R X D (W1 & W2 & W3 & W4) Hi. assert (Z : forall m, zlen (arr h' m) = zlen (arr h m)).
  { intros m. destruct (Nat.eq_dec m (r_data r)) as [-> |N]; [exact W2|rewrite W3 by exact N; reflexivity]. }
  assert (Sx : shows h' x = shows h x) by (apply shows_same, Z). split; [unfold raw_len; rewrite Z; reflexivity|]. split; [exact Sx|].
  rewrite (read_data_shows h x X). unfold read_data. pose proof X as (_ & _ & _ & _ & _ & Wx). rewrite win_read_positions by (rewrite Z; exact Wx).
  rewrite Z. fold (shows h x). rewrite <- (zlen_shows h x X) in Hi. rewrite !getb_map by exact Hi. rewrite D. apply W1.
  pose proof (shows_range h x X) as F. rewrite Forall_forall in F. specialize (F _ (getb_In _ _ Hi)). lia.
Qed.
(** A repeated index takes the last value; other indexes keep theirs. *)
Theorem C29_last_write p ps vals i : NoDup ps -> length ps = length vals -> 0 <= i < zlen ps -> p = getb ps i ->
  last_write p ps vals = Some (getb vals i).
Proof. intros N L Hi ->. apply last_write_at; assumption. Qed.
Example C29_case : let r := mkR 0 1 0 (WOrder [6; 1; 3]) in
  raw_ok xh r /\ fst (set_indexes xh r [2; 0] [77; 78]) = mkHp [[10; 11; 12; 77; 14; 15; 78; 17]; [0; 64; 64; 0; 3; 3; 65; 0]] (hp_ext xh) /\
  read_data (fst (set_indexes xh r [2; 0] [77; 78])) (mkR 0 1 0 (WRange 3 7)) = [77; 14; 15; 78].
Proof. cbn zeta. split; [okr|]. split; reflexivity. Qed.
(** A copy has the same contents, and no series of edits through views of the old
    arrays changes it, nor the other way round. *)
Theorem C29_copies_independent h r h1 c edits x :
  raw_ok h r -> raw_copy h r = (h1, c) -> raw_ok h x ->
  read_data h1 c = read_data h r /\ read_style h1 c = read_style h r /\ read_data h1 x = read_data h x /\
  (Forall (fun e => r_data (edit_raw e) <> r_data c /\ r_data (edit_raw e) <> r_style c) edits ->
     read_data (fold_left do_edit edits h1) c = read_data h r /\ read_style (fold_left do_edit edits h1) c = read_style h r) /\
  (Forall (fun e => r_data (edit_raw e) = r_data c) edits ->
     read_data (fold_left do_edit edits h1) x = read_data h x /\ read_style (fold_left do_edit edits h1) x = read_style h x) /\
  (forall y, raw_ok h y -> r_data y <> r_data c /\ r_data y <> r_style c /\ r_style y <> r_data c /\ r_extra y <> r_extra c).
Proof.
  intros R E X. destruct (raw_copy_spec h r h1 c R E) as (Rc & C1 & C2 & _ & C3). destruct (C3 x X) as (_ & X1 & X2 & _ & _ & N1 & N2 & N3 & N4 & _).
  split; [exact C1|]. split; [exact C2|]. split; [exact X1|]. split; [|split].
  - intros F. rewrite <- C1, <- C2. unfold read_data, read_style. rewrite !edits_other; [split; reflexivity| |]; (eapply Forall_impl; [|exact F]; cbn; tauto).
  - intros F. rewrite <- X1, <- X2. unfold read_data, read_style. rewrite !edits_other; [split; reflexivity| |]; (eapply Forall_impl; [|exact F]; cbn; intros; congruence).
  - intros y Y. destruct (C3 y Y) as (_ & _ & _ & _ & _ & A & B & C & _ & D). auto.
Qed.
Print Assumptions C29_copies_independent.
Example C29_copy_case : let (h1, c) := raw_copy xh (mkR 0 1 0 (WRange 2 6)) in
  read_data h1 c = [12; 13; 14; 15] /\
  read_data (fold_left do_edit [EOne xw 3 99; EPart xw (Some 0) None [1]] h1) c = [12; 13; 14; 15] /\
  read_data (fold_left do_edit [EOne c 3 99] h1) c = [12; 13; 14; 99] /\ read_data (fold_left do_edit [EOne c 3 99] h1) xw = read_data xh xw.
Proof. cbn iota. repeat split. Qed.

(** * C30: style ranges *)
Theorem C30_ranges_exact h r k : raw_ok h r ->
  exact_runs (raw_len h r) (fun i => Z.land (getb (read_style h r) i) (style_bits k) = style_bits k) (get_style_ranges h r k).
Proof.
  intros R. unfold get_style_ranges. pose proof (ranges_of_exact (style_bits k) (read_style h r)) as H.
  replace (zlen (read_style h r)) with (raw_len h r) in H; [exact H|]. rewrite read_style_shows by exact R. rewrite zlen_map. symmetry. apply zlen_shows. exact R.
Qed.
Print Assumptions C30_ranges_exact.
Example C30_case : get_style_ranges xh xw k_comment = [(1, 3); (6, 7)] /\ get_style_ranges xh xw (k_user 3) = [(4, 6)] /\
  get_style_ranges xh xw k_diff = [].
Proof. repeat split. Qed.
(** The bits a request stands for. *)
Theorem C30_bits k i : 0 <= s_user k < 8 -> 0 <= i ->
  Z.testbit (style_bits k) i =
  if i <? 3 then Z.testbit (s_user k) i || (s_data k && (i =? 0))
  else (s_diff k && (i =? 4)) || (s_match k && (i =? 5)) || (s_comment k && (i =? 6)) || (s_selected k && (i =? 7)).
Proof.
  intros Hu Hi. destruct k as [m c s d f u]. cbn [s_user s_diff s_match s_comment s_data s_selected] in *.
  assert (Cu : u = 0 \/ u = 1 \/ u = 2 \/ u = 3 \/ u = 4 \/ u = 5 \/ u = 6 \/ u = 7) by lia.
  destruct (Z.lt_ge_cases i 8) as [L|L].
  - assert (Ci : i = 0 \/ i = 1 \/ i = 2 \/ i = 3 \/ i = 4 \/ i = 5 \/ i = 6 \/ i = 7) by lia.
    destruct Ci as [-> |[-> |[-> |[-> |[-> |[-> |[-> | ->]]]]]]]; destruct Cu as [-> |[-> |[-> |[-> |[-> |[-> |[-> | ->]]]]]]];
      destruct m, c, s, d, f; reflexivity.
  - replace (i <? 3) with false by lia. replace (i =? 4) with false by lia. replace (i =? 5) with false by lia. replace (i =? 6) with false by lia. replace (i =? 7) with false by lia.
    rewrite !andb_false_r. cbn [orb].
    assert (B : 0 <= style_bits (mkSty m c s d f u) < 256).
    { destruct Cu as [-> |[-> |[-> |[-> |[-> |[-> |[-> | ->]]]]]]]; destruct m, c, s, d, f; cbv; split; congruence. }
    set (b := style_bits _) in *. destruct (Z.eq_dec b 0) as [-> |N]; [apply Z.bits_0|]. apply Z.bits_above_log2; [lia|].
    apply Z.log2_lt_pow2; [lia|]. apply Z.lt_le_trans with (2 ^ 8); [cbn; lia|apply Z.pow_le_mono_r; lia].
Qed.
(** Setting adds exactly the requested bits at exactly the requested places. *)
Theorem C30_set_exact h r ranges k : raw_ok h r ->
  let h' := set_style_ranges h r ranges k in
  (forall p, 0 <= p -> covered (shows h r) ranges p -> getb (arr h' (r_style r)) p = Z.lor (getb (arr h (r_style r)) p) (style_bits k)) /\
  (forall p, 0 <= p -> ~ covered (shows h r) ranges p -> getb (arr h' (r_style r)) p = getb (arr h (r_style r)) p) /\
  (forall n, n <> r_style r -> arr h' n = arr h n) /\ hp_ext h' = hp_ext h.
Proof.
  intros R. destruct (on_ranges_spec (fun x => Z.lor x (style_bits k)) r (lor_idem _) ranges h R) as (A & B & C & D & _). auto.
Qed.
(** Clearing removes exactly the requested bits, for requests without user or data. *)
Theorem C30_clear_exact_partial h r ranges k : raw_ok h r -> bytes_ok (arr h (r_style r)) -> s_user k = 0 -> s_data k = false ->
  let h' := clear_style_ranges h r ranges k in
  (forall p, 0 <= p -> covered (shows h r) ranges p -> getb (arr h' (r_style r)) p = Z.ldiff (getb (arr h (r_style r)) p) (style_bits k)) /\
  (forall p, 0 <= p -> ~ covered (shows h r) ranges p -> getb (arr h' (r_style r)) p = getb (arr h (r_style r)) p) /\
  (forall n, n <> r_style r -> arr h' n = arr h n) /\ hp_ext h' = hp_ext h.
Proof.
  intros R B Hu Hd. destruct (on_ranges_spec (fun x => Z.land x (style_mask k)) r (land_idem _) ranges h R) as (A1 & A2 & A3 & A4 & _). cbn zeta in *.
  split; [|auto]. intros p Hp C. unfold clear_style_ranges. rewrite A1 by assumption. rewrite <- land_mask by (apply bytes_ok_getb; exact B). f_equal.
  unfold style_mask. rewrite Hu. cbn [Z.eqb negb]. destruct k as [m c s d f u]. cbn [s_user s_data] in Hu, Hd. subst. destruct m, c, s, f; reflexivity.
Qed.
Theorem C30_clear_all_partial h r k : raw_ok h r -> bytes_ok (arr h (r_style r)) -> s_user k = 0 -> s_data k = false ->
  let h' := clear_style_bits h r k in
  (forall p, In p (shows h r) -> getb (arr h' (r_style r)) p = Z.ldiff (getb (arr h (r_style r)) p) (style_bits k)) /\
  (forall p, 0 <= p -> ~ In p (shows h r) -> getb (arr h' (r_style r)) p = getb (arr h (r_style r)) p) /\
  (forall n, n <> r_style r -> arr h' n = arr h n) /\ hp_ext h' = hp_ext h.
Proof.
  intros R B Hu Hd. destruct (clear_bits_spec h r k R) as (A1 & A2 & A3 & _). cbn zeta in *. split; [|split; [|auto]].
  - intros p Hin. pose proof (shows_range h r R) as F. rewrite Forall_forall in F. pose proof (F p Hin). rewrite A1 by lia.
    replace (zmem p (shows h r)) with true by (symmetry; apply zmem_In; exact Hin). rewrite <- land_mask by (apply bytes_ok_getb; exact B). f_equal.
    unfold style_mask. rewrite Hu. cbn [Z.eqb negb]. destruct k as [m c s d f u]. cbn [s_user s_data] in Hu, Hd. subst. destruct m, c, s, f; reflexivity.
  - intros p Hp Hn. rewrite A1 by exact Hp. destruct (zmem p (shows h r)) eqn:E; [apply zmem_In in E; contradiction|reflexivity].
Qed.
Print Assumptions C30_clear_exact_partial.
Example C30_set_case : let r := mkR 0 1 0 (WRange 2 8) in
  read_style (set_style_ranges xh r [(4, 1); (-1, 100)] k_diff) xw = [0; 64; 64; 16; 19; 19; 65; 16] /\
  read_style (clear_style_ranges xh r [(0, 1)] k_comment) xw = [0; 64; 0; 0; 3; 3; 65; 0].
Proof. split; reflexivity. Qed.
(** Clearing data bits clears nothing; clearing one user style clears them all. *)
Theorem C30_clear_data_refuted : exists h r p, raw_ok h r /\ Z.testbit (getb (arr h (r_style r)) p) 0 = true /\
  In p (shows h r) /\ getb (arr (clear_style_bits h r k_data) (r_style r)) p = getb (arr h (r_style r)) p.
Proof. exists xh, xw, 4. split; [exact xw_ok|]. split; [reflexivity|]. split; [cbv; tauto|reflexivity]. Qed.
Theorem C30_clear_user_refuted : exists h r p, raw_ok h r /\ Z.testbit (getb (arr h (r_style r)) p) 0 = true /\
  Z.testbit (style_bits (k_user 2)) 0 = false /\ Z.testbit (getb (arr (clear_style_bits h r (k_user 2)) (r_style r)) p) 0 = false.
Proof. exists xh, xw, 6. split; [exact xw_ok|]. repeat split. Qed.

(** * C31: next and previous *)
Theorem C31_find_next h r i k : raw_ok h r -> next_start (get_style_ranges h r k) i (find_next h r i k).
Proof. intros R. apply next_in_spec. destruct (C30_ranges_exact h r k R) as [A _]. exact A. Qed.
(** The previous range is right unless a range starts exactly one byte before. *)
Theorem C31_find_previous_partial h r i k : raw_ok h r -> (forall e, ~ In (i - 1, e) (get_style_ranges h r k)) ->
  prev_start (get_style_ranges h r k) i (find_previous h r i k).
Proof.
  intros R N. destruct (C30_ranges_exact h r k R) as [A _]. pose proof (prev_in_spec (get_style_ranges h r k) i A) as P. unfold find_previous.
  destruct (prev_in (get_style_ranges h r k) i) as [v|]; [|exact P]. cbn [prev_start] in *. destruct P as [P1 P2]. split; [exact P1|]. destruct P2 as [[P2 P3]|[P2 P3]].
  - left. split; [lia|]. intros s e Hin Hs. destruct (Z.eq_dec s (i - 1)) as [-> |Ns]; [destruct (N e Hin)|]. apply (P3 s e Hin). lia.
  - right. split; [|exact P3]. intros s e Hin. pose proof (P2 s e Hin). destruct (Z.eq_dec s (i - 1)) as [-> |Ns]; [destruct (N e Hin)|lia].
Qed.
(** In every case it is the right answer for the index one lower. *)
Theorem C31_find_previous_shifted h r i k : raw_ok h r -> prev_start (get_style_ranges h r k) (i - 1) (find_previous h r i k).
Proof. intros R. apply prev_in_spec. destruct (C30_ranges_exact h r k R) as [A _]. exact A. Qed.
Print Assumptions C31_find_next.
Example C31_case : find_next xh xw 1 k_comment = Some 6 /\ find_next xh xw 6 k_comment = Some 1 /\ find_previous xh xw 5 k_comment = Some 1 /\
  find_previous xh xw 1 k_comment = Some 6 /\ find_next xh xw 0 k_diff = None.
Proof. repeat split. Qed.
Theorem C31_find_previous_refuted : exists h r i k, raw_ok h r /\ ~ prev_start (get_style_ranges h r k) i (find_previous h r i k).
Proof.
  exists xh, xw, 7, k_comment. split; [exact xw_ok|].
  change (find_previous xh xw 7 k_comment) with (Some 1). change (get_style_ranges xh xw k_comment) with [(1, 3); (6, 7)].
  cbn [prev_start]. intros (_ & [[_ H]|[H _]]).
  - specialize (H 6 7 ltac:(right; left; reflexivity) ltac:(lia)). lia.
  - specialize (H 1 3 ltac:(left; reflexivity)). lia.
Qed.

(** * C32: tilings *)
Lemma style_bits_nonneg k : 0 <= s_user k -> 0 <= style_bits k.
Proof.
  intros H. unfold style_bits. assert (A : 0 <= Z.lor 0 (Z.land (s_user k) 7)) by (apply Z.lor_nonneg; split; [lia|apply Z.land_nonneg; lia]).
  destruct k as [m c s d f u]. cbn [s_user s_diff s_match s_comment s_data s_selected] in *.
  destruct (u =? 0), f, m, c, d, s; repeat (apply Z.lor_nonneg; split); try (exact A); try (cbn; lia).
Qed.
Theorem C32_tiling h r split k : raw_ok h r -> 0 <= s_user k -> bytes_ok (arr h (r_style r)) ->
  Forall (fun p => 0 <= p < zlen (arr h (r_data r))) (map fst (comments h r)) ->
  match get_entire_style_ranges h r split k with
  | None => raw_len h r = 0
  | Some l => 0 < raw_len h r /\ tiles 0 (raw_len h r) l /\
      forall s e st, In ((s, e), st) l -> forall i, s <= i < e -> 0 <= i < raw_len h r ->
        st = Z.land (Z.lor (getb (read_style h r) i) (match dget (getb (shows h r) i) (comments h r) with Some _ => 0x40 | None => 0 end)) (style_bits k)
  end.
Proof.
  intros R Hu B F. destruct (comment_locations_spec h r k R F) as [L G]. pose proof (style_bits_nonneg k Hu) as Hb.
  unfold get_entire_style_ranges. set (m := comment_locations h r k) in *.
  assert (Gk : forall i, (if zmem (getb (shows h r) i) (map fst (comments h r)) then 64 else 0) = match dget (getb (shows h r) i) (comments h r) with Some _ => 0x40 | None => 0 end).
  { intros i. destruct (dget (getb (shows h r) i) (comments h r)) eqn:E.
    - replace (zmem _ _) with true; [reflexivity|]. symmetry. apply zmem_In. destruct (in_dec Z.eq_dec (getb (shows h r) i) (map fst (comments h r))) as [X|X]; [exact X|]. apply dget_None in X. congruence.
    - apply dget_None in E. destruct (zmem _ _) eqn:Ez; [apply zmem_In in Ez; contradiction|reflexivity]. }
  assert (Hm : Forall (fun x => 0 <= x) m).
  { apply Forall_forall. intros x Hx. destruct (In_getb _ _ Hx) as (i & Hi & <-). rewrite L in Hi. rewrite G by exact Hi. apply Z.lor_nonneg.
    split; [apply Z.land_nonneg; right; exact Hb|destruct (zmem _ _); lia]. }
  pose proof (entire_ranges_spec m (style_bits k) split Hb Hm) as E. destruct (entire_ranges m (style_bits k) split) as [l|].
  - destruct E as (E0 & E1 & E2 & _). rewrite L in E1. split; [rewrite <- L; destruct m; [congruence|rewrite zlen_cons; pose proof (zlen_nonneg m); lia]|]. split; [exact E1|].
    intros s e st Hin i Hi Hr. rewrite <- (E2 s e st Hin i Hi). rewrite G, Gk by exact Hr. rewrite !Z.land_lor_distr_l. rewrite <- Z.land_assoc, Z.land_diag. reflexivity.
  - rewrite <- L, E. reflexivity.
Qed.
Print Assumptions C32_tiling.
(** Two neighbouring ranges have the same style only where a comment that asks for it
    starts the second one. *)
Theorem C32_maximal h r split k l : raw_ok h r -> 0 <= s_user k -> bytes_ok (arr h (r_style r)) ->
  Forall (fun p => 0 <= p < zlen (arr h (r_data r))) (map fst (comments h r)) ->
  get_entire_style_ranges h r split k = Some l -> split_ok (comment_locations h r k) split (rev l).
Proof.
  intros R Hu B F E. destruct (comment_locations_spec h r k R F) as [L G]. pose proof (style_bits_nonneg k Hu) as Hb. unfold get_entire_style_ranges in E.
  assert (Hm : Forall (fun x => 0 <= x) (comment_locations h r k)).
  { apply Forall_forall. intros x Hx. destruct (In_getb _ _ Hx) as (i & Hi & <-). rewrite L in Hi. rewrite G by exact Hi. apply Z.lor_nonneg.
    split; [apply Z.land_nonneg; right; exact Hb|destruct (zmem _ _); lia]. }
  pose proof (entire_ranges_spec _ (style_bits k) split Hb Hm) as X. rewrite E in X. apply X.
Qed.
Example C32_case : get_entire_style_ranges xh xw [0] (mkSty false false false false false 7) =
   Some [((0, 1), 0); ((1, 4), 0); ((4, 6), 3); ((6, 7), 1); ((7, 8), 0)] /\
  get_entire_style_ranges xh (mkR 0 1 0 (WRange 3 3)) [0] (mkSty false false false false false 7) = None.
Proof. split; reflexivity. Qed.

(** * C33: rectangles *)
Theorem C33_rectangle h r a b w k : raw_ok h r -> 1 <= w -> 0 <= a -> 0 <= b ->
  let '(r1, c1, r2, c2) := rect_of a b w in
  0 <= r1 < r2 /\ 0 <= c1 < c2 /\ c2 <= w /\
  exists l h', rect_positions (raw_len h r) a b w = Ok l /\
    (forall i, In i l <-> 0 <= i < raw_len h r /\ in_rect w r1 c1 r2 c2 i) /\
    set_rect h r a b w k = (h', Ok tt) /\
    (forall p, 0 <= p -> getb (arr h' (r_style r)) p =
       if zmem p (map (getb (shows h r)) l) then Z.lor (getb (arr h (r_style r)) p) (style_bits k) else getb (arr h (r_style r)) p) /\
    (forall n, n <> r_style r -> arr h' n = arr h n).
Proof.
  intros R Hw Ha Hb. pose proof (rect_indexes_spec a b w Hw Ha Hb) as X. pose proof (rect_positions_spec (raw_len h r) a b w Hw Ha Hb) as Y.
  destruct (rect_of a b w) as [[[r1 c1] r2] c2]. destruct X as (_ & X1 & X2 & X3). destruct Y as (l & Y1 & Y2). split; [exact X1|]. split; [exact X2|]. split; [exact X3|].
  assert (J : forall i, In i l <-> 0 <= i < raw_len h r /\ in_rect w r1 c1 r2 c2 i) by (intros i; rewrite Y2; tauto).
  assert (F : Forall (fun i => 0 <= i < raw_len h r) l) by (apply Forall_forall; intros i Hi; apply J in Hi; tauto).
  assert (P : Forall (fun p => 0 <= p < zlen (arr h (r_data r))) (map (getb (shows h r)) l)).
  { apply Forall_sel; [apply shows_range; exact R|]. rewrite zlen_shows by exact R. exact F. }
  exists l. destruct (upd_style_facts (fun x => Z.lor x (style_bits k)) h r _ R P) as (U1 & U2 & _).
  eexists. split; [exact Y1|]. split; [exact J|]. split; [|split; [exact U1|exact U2]].
  unfold set_rect, set_style_at. rewrite Y1. rewrite (win_pick_shows h r l l R (nindexes_ok _ _ F)). reflexivity.
Qed.
Print Assumptions C33_rectangle.
(** The start and end reported for a rectangle describe the same rectangle. *)
Theorem C33_rect_to_range a b w : 1 <= w -> 0 <= a -> 0 <= b ->
  exists s e rc1 rc2, rect_indexes a b w = Ok (s, e, rc1, rc2) /\ rect_to_range (rc1, rc2) w = (s, e).
Proof.
  intros Hw Ha Hb. pose proof (rect_indexes_spec a b w Hw Ha Hb) as X. destruct (rect_of a b w) as [[[r1 c1] r2] c2]. destruct X as (X & _).
  do 4 eexists. split; [exact X|]. reflexivity.
Qed.
Example C33_case : rect_positions 8 1 7 4 = Ok [1; 2; 5; 6] /\ rect_of 1 7 4 = (0, 1, 2, 3).
Proof. split; reflexivity. Qed.
(** The corner given second is included only when the selection ran leftwards, so
    exchanging the corners changes the selection. *)
Theorem C33_corner_order_refuted : exists n a b w, rect_positions n a b w <> rect_positions n b a w.
Proof. exists 8, 1, 7, 4. vm_compute. discriminate. Qed.

(** * C34: comments *)
Theorem C34_comment_map h d x ops v i :
  Forall (cop_ok h d x) ops -> NoDup (map fst (e_comments (ext h x))) ->
  raw_ok h v -> r_data v = d -> r_extra v = x -> 0 <= i < raw_len h v ->
  exists h', each do_cop ops h = (h', Ok tt) /\ raw_ok h' v /\ arr h' d = arr h d /\
   get_comment h' v i = Ok (match fold_left (fun m o => after (zlen (arr h d)) o m) ops (fun q => dget q (e_comments (ext h x))) (getb (shows h v) i) with
                            | Some t => t | None => [] end).
Proof.
  intros F N V Ed Ex Hi. destruct (do_cops_spec d x ops h F N) as (h' & E & S & N' & G & A). exists h'. split; [exact E|].
  pose proof (shape_raw_ok _ _ _ S V) as V'. split; [exact V'|]. split.
  - apply A. eapply Forall_impl; [|exact F]. intros o (R & Ro & _). destruct R as (_ & _ & Ne & _). rewrite <- Ro. exact Ne.
  - rewrite get_comment_eq by (first [exact V'|rewrite (shape_raw_len h h' v S); exact Hi]). rewrite (shape_shows h h' v S). unfold comments. rewrite Ex, G. reflexivity.
Qed.
Print Assumptions C34_comment_map.
Example C34_case : let v := mkR 0 1 0 (WOrder [6; 1; 3]) in let ops := [CAt v 2 [120]; CRanges xw [(1, 2); (5, 8)] [121]; CRemove xw 6; CClear v [(2, 3)]; CAt xw 3 [122]] in
  Forall (cop_ok xh 0 0) ops /\ get_comment (fst (each do_cop ops xh)) v 0 = Ok [] /\ get_comment (fst (each do_cop ops xh)) v 1 = Ok [121] /\
  get_comment (fst (each do_cop ops xh)) v 2 = Ok [122] /\ get_comment (fst (each do_cop ops xh)) (mkR 0 1 0 (WRange 5 8)) 0 = Ok [121].
Proof. cbn zeta. split; [repeat constructor; cbv; repeat split; try congruence; try (repeat constructor; congruence); repeat constructor; cbv; intuition congruence|]. repeat split. Qed.
(** Saved restore data puts back styles and comments of the saved ranges, and nothing
    else, whatever happened in between. *)
Theorem C34_restore h0 r ranges h : raw_ok h0 r -> bytes_ok (arr h0 (r_style r)) ->
  Forall (fun se => 0 <= fst se <= snd se /\ snd se <= raw_len h0 r) ranges ->
  same_shape h0 h -> NoDup (map fst (comments h r)) ->
  exists sv h', restore_data h0 r ranges = Ok sv /\ restore_comments h r sv = (h', Ok tt) /\ raw_ok h' r /\
   (forall p, 0 <= p -> in_ranges (shows h0 r) ranges p ->
      getb (arr h' (r_style r)) p = getb (arr h0 (r_style r)) p /\ dget p (comments h' r) = norm (dget p (comments h0 r))) /\
   (forall p, 0 <= p -> ~ in_ranges (shows h0 r) ranges p ->
      getb (arr h' (r_style r)) p = getb (arr h (r_style r)) p /\ dget p (comments h' r) = dget p (comments h r)) /\
   (forall n, n <> r_style r -> arr h' n = arr h n) /\ (forall y, y <> r_extra r -> ext h' y = ext h y) /\
   (forall s e i, In (s, e) ranges -> s <= i < e -> get_comment h' r i = get_comment h0 r i).
Proof.
  intros R B F S N. exists (map (saved_of h0 r) ranges). destruct (restore_comments_spec h0 r R B ranges h S N F) as (h' & E & S' & N' & I1 & I2 & I3 & I4).
  exists h'. split; [apply restore_data_eq; assumption|]. split; [exact E|]. assert (S0 : same_shape h0 h') by (eapply shape_trans; eassumption).
  pose proof (shape_raw_ok _ _ _ S0 R) as R'. split; [exact R'|]. split; [exact I1|]. split; [exact I2|]. split; [exact I3|]. split; [exact I4|].
  intros s e i Hin Hi. rewrite Forall_forall in F. specialize (F _ Hin). cbn [fst snd] in F.
  assert (Hr : 0 <= i < raw_len h0 r) by lia. rewrite !get_comment_eq by (first [assumption|rewrite (shape_raw_len h0 h' r S0); exact Hr]).
  rewrite (shape_shows h0 h' r S0). pose proof (shows_range h0 r R) as Fr. rewrite Forall_forall in Fr. rewrite <- (zlen_shows h0 r R) in Hr.
  pose proof (Fr _ (getb_In _ _ Hr)) as Hp. destruct (I1 (getb (shows h0 r) i) ltac:(lia)) as [_ J].
  { exists s, e, i. split; [exact Hin|]. split; [exact Hi|reflexivity]. }
  rewrite J. destruct (dget _ (comments h0 r)) as [[|a t]|]; reflexivity.
Qed.
Print Assumptions C34_restore.
Example C34_restore_case :
  let h := fst (each do_cop [CClear xw [(0, 8)]; CAt xw 2 [120]] xh) in
  match restore_data xh xw [(1, 3); (2, 7)] with
  | Ok sv => let h' := fst (restore_comments h xw sv) in read_style h' xw = read_style xh xw /\ comments h' xw = [(1, [97]); (6, [98; 99])]
  | Err _ => False
  end.
Proof. vm_compute. split; reflexivity. Qed.

(** * C35: sessions *)
(** A fresh segment gets back every comment, and the comment and user bits of every
    style; bits set for matches, selections and differences are not part of a session. *)
Theorem C35_session h r h' data : raw_ok h r -> bytes_ok (arr h (r_style r)) -> NoDup (map fst (comments h r)) ->
  zlen data = zlen (arr h (r_data r)) ->
  let (h1, base) := new_raw h' data in
  let v := mkR (r_data base) (r_style base) (r_extra base) (r_win r) in
  let h2 := restore_session h1 v (serialize_session h r) in
  raw_ok h1 v /\
  (forall i, 0 <= i < raw_len h r -> getb (read_style h2 v) i = Z.land (getb (read_style h r) i) 0x47) /\
  (forall p, dget p (comments h2 v) = dget p (comments h r)) /\
  (forall i, 0 <= i < raw_len h r -> get_comment h2 v i = get_comment h r i) /\ read_data h2 v = read_data h1 v.
Proof.
  intros R B N Zd. destruct (new_raw h' data) as [h1 base] eqn:E. unfold new_raw in E. injection E as E1 E2. cbn zeta.
  set (v := mkR (r_data base) (r_style base) (r_extra base) (r_win r)).
  pose proof R as (_ & _ & _ & _ & _ & W).
  assert (V : raw_ok h1 v /\ zlen (arr h1 (r_data v)) = zlen (arr h (r_data r)) /\ arr h1 (r_style v) = zrepeat 0 (zlen data) /\ comments h1 v = []).
  { unfold v. subst h1 base. unfold raw_ok, comments, ext. cbn [r_data r_style r_extra r_win hp_arr hp_ext]. rewrite arr_app_0, arr_app_1, !app_length. cbn [length].
    rewrite zlen_zrepeat by apply zlen_nonneg. rewrite app_nth2 by lia. rewrite Nat.sub_diag. cbn [nth extra0 e_comments]. rewrite Zd. repeat split; try lia. exact W. }
  destruct V as (V & Zv & Sv & Cv). clear E1 E2.
  assert (Sh : shows h1 v = shows h r) by (unfold shows; rewrite Zv; reflexivity).
  destruct (restore_session_spec h r h1 v R V Sh B N ltac:(rewrite Cv; constructor)) as (P & Q & O & S & C). cbn zeta in *.
  set (h2 := restore_session h1 v (serialize_session h r)) in *. pose proof (shape_raw_ok _ _ _ S V) as V2.
  assert (Cd : forall p, dget p (comments h2 v) = dget p (comments h r)) by (intros p; rewrite C, Cv; cbn [dget]; destruct (dget p (comments h r)); reflexivity).
  split; [exact V|]. split; [|split; [exact Cd|split]].
  - intros i Hi. rewrite !read_style_shows by assumption. rewrite (shape_shows h1 h2 v S), Sh. rewrite <- (zlen_shows h r R) in Hi. rewrite !getb_map by exact Hi.
    rewrite P by (apply getb_In; exact Hi). rewrite Sv. pose proof (shows_range h r R) as F. rewrite Forall_forall in F. specialize (F _ (getb_In _ _ Hi)).
    rewrite getb_zrepeat by lia. reflexivity.
  - intros i Hi. assert (L : raw_len h2 v = raw_len h r) by (rewrite (shape_raw_len h1 h2 v S), <- (zlen_shows h1 v V), Sh; apply zlen_shows; exact R).
    rewrite !get_comment_eq by (first [assumption|rewrite L; exact Hi]). rewrite (shape_shows h1 h2 v S), Sh, Cd. reflexivity.
  - unfold read_data. rewrite O; [reflexivity|]. destruct V as (_ & _ & Ne & _). exact Ne.
Qed.
Print Assumptions C35_session.
Example C35_case : let (h1, v) := new_raw (mkHp [] []) [10; 11; 12; 13; 14; 15; 16; 17] in
  let h2 := restore_session h1 v (serialize_session xh xw) in
  read_style h2 v = [0; 64; 64; 0; 3; 3; 65; 0] /\ comments h2 v = [(1, [97]); (6, [98; 99])].
Proof. vm_compute. split; reflexivity. Qed.
(** User data is not saved. *)
Theorem C35_user_data_refuted : exists h r i u, raw_ok h r /\ get_user_data h r i u = Ok 5 /\
  let (h1, v) := new_raw h (read_data h r) in get_user_data (restore_session h1 v (serialize_session h r)) v i u = Ok 0.
Proof.
  exists (fst (set_user_data xh xw [(2, 4)] 1 5)), xw, 3, 1. split; [vm_compute; repeat split; first [lia|congruence]|]. split; reflexivity.
Qed.

(** * C36: saved state *)
Theorem C36_rebuilt_partial h r base : raw_ok h r -> raw_ok h base -> r_win base = WAll -> r_data base = r_data r -> r_style base = r_style r ->
  zlen (arr h (r_data r)) <= 2147483648 -> r_win r <> WOrder [] ->
  exists r', reconstruct h base (get_state h r) = Ok r' /\ raw_ok h r' /\ shows h r' = shows h r /\ read_data h r' = read_data h r /\ read_style h r' = read_style h r.
Proof.
  intros R Bo Bw Bd Bs Hl Ne. destruct (reconstruct_spec h r base R Bo Bw Bd Bs Hl Ne) as (r' & E & R' & S & D1 & D2). exists r'. split; [exact E|]. split; [exact R'|]. split; [exact S|].
  rewrite !read_data_shows, !read_style_shows, S, D1, D2 by assumption. split; reflexivity.
Qed.
Print Assumptions C36_rebuilt_partial.
Example C36_case : exists r', reconstruct xh xw (get_state xh (mkR 0 1 0 (WOrder [6; 1; 6]))) = Ok r' /\ read_data xh r' = [16; 11; 16].
Proof. eexists. split; reflexivity. Qed.
(** An empty index selection comes back as the whole data. *)
Theorem C36_empty_refuted : exists h r base r', raw_ok h r /\ reconstruct h base (get_state h r) = Ok r' /\ read_data h r = [] /\ read_data h r' = arr h (r_data r) /\ read_data h r' <> [].
Proof. exists xh, (mkR 0 1 0 (WOrder [])), xw, (mkR 0 1 0 (WRange 0 8)). split; [okr|]. repeat split. discriminate. Qed.

(** * C37: interleaving *)
Theorem C37_interleave h segs n : segs <> [] -> Forall (raw_ok h) segs -> Forall (fun s => forall o, r_win s <> WOrder o) segs -> 1 <= n ->
  (forall s t, In s segs -> In t segs -> r_data s = r_data t /\ r_style s = r_style t) ->
  exists B r, 0 <= B /\ interleave_segments h segs n = Ok r /\ raw_ok h r /\ raw_len h r = n * zlen segs * B /\
   (forall s, In s segs -> n * B <= raw_len h s) /\ (exists s, In s segs /\ raw_len h s < n * B + n) /\
   forall t j m, 0 <= t < zlen segs -> 0 <= j < B -> 0 <= m < n ->
     getb (read_data h r) (n * zlen segs * j + (n * t + m)) = getb (read_data h (nth (Z.to_nat t) segs (mkR 0 0 0 WAll))) (n * j + m) /\
     getb (shows h r) (n * zlen segs * j + (n * t + m)) = getb (shows h (nth (Z.to_nat t) segs (mkR 0 0 0 WAll))) (n * j + m).
Proof.
  intros Ne F1 F2 Hn Sm. destruct (interleave_spec h segs n Ne F1 F2 Hn) as (B & o & HB & E & Zo & Lall & Lsome & G).
  destruct segs as [|s0 rest]; [congruence|]. exists B, (mkR (r_data s0) (r_style s0) (r_extra s0) (WOrder o)). split; [exact HB|].
  assert (EI : interleave_segments h (s0 :: rest) n = Ok (mkR (r_data s0) (r_style s0) (r_extra s0) (WOrder o))).
  { unfold interleave_segments. rewrite E. cbn [rbind]. replace (forallb _ rest) with true; [reflexivity|]. symmetry. apply forallb_forall. intros s Hs.
    destruct (Sm s s0 (or_intror Hs) (or_introl eq_refl)) as [-> ->]. rewrite !Nat.eqb_refl. reflexivity. }
  set (k := zlen (s0 :: rest)) in *. assert (Hk : 1 <= k) by (unfold k; rewrite zlen_cons; pose proof (zlen_nonneg rest); lia).
  assert (Hseg : forall t, 0 <= t < k -> In (nth (Z.to_nat t) (s0 :: rest) (mkR 0 0 0 WAll)) (s0 :: rest)) by (intros t Ht; apply nth_In; unfold k, zlen in Ht; lia).
  assert (Gd : forall t j m, 0 <= t < k -> 0 <= j < B -> 0 <= m < n -> 0 <= n * j + m < raw_len h (nth (Z.to_nat t) (s0 :: rest) (mkR 0 0 0 WAll))).
  { intros t j m Ht Hj Hm. pose proof (Lall _ (Hseg t Ht)). nia. }
  assert (Dec : forall q, 0 <= q < n * k * B -> exists t j m, 0 <= t < k /\ 0 <= j < B /\ 0 <= m < n /\ q = n * k * j + (n * t + m)).
  { intros q Hq. assert (Hf : 0 < n * k) by nia. exists ((q mod (n * k)) / n), (q / (n * k)), ((q mod (n * k)) mod n).
    pose proof (Z.mod_pos_bound q (n * k) Hf) as M1. pose proof (Z.div_mod q (n * k) ltac:(lia)) as D1.
    pose proof (Z.mod_pos_bound (q mod (n * k)) n ltac:(lia)) as M2. pose proof (Z.div_mod (q mod (n * k)) n ltac:(lia)) as D2.
    split; [split; [apply Z.div_pos; lia|apply Z.div_lt_upper_bound; lia]|]. split; [split; [apply Z.div_pos; lia|apply Z.div_lt_upper_bound; lia]|]. split; [lia|lia]. }
  assert (Wo : Forall (fun p => 0 <= p < zlen (arr h (r_data s0))) o).
  { apply Forall_forall. intros p Hp. destruct (In_getb _ _ Hp) as (q & Hq & <-). rewrite Zo in Hq. destruct (Dec q Hq) as (t & j & m & Ht & Hj & Hm & ->).
    rewrite G by assumption. rewrite Forall_forall in F1. pose proof (F1 _ (Hseg t Ht)) as Rt. pose proof (shows_range h _ Rt) as SR. rewrite Forall_forall in SR.
    destruct (Sm _ s0 (Hseg t Ht) (or_introl eq_refl)) as [E1 _]. rewrite <- E1. apply SR, getb_In. rewrite zlen_shows by exact Rt. apply Gd; assumption. }
  assert (Ro : raw_ok h (mkR (r_data s0) (r_style s0) (r_extra s0) (WOrder o))).
  { inversion F1 as [|? ? R0 _]; subst. destruct R0 as (R1 & R2 & R3 & R4 & R5 & _). unfold raw_ok. cbn [r_data r_style r_extra r_win win_ok]. auto 10. }
  split; [exact EI|]. split; [exact Ro|]. split; [exact Zo|]. split; [exact Lall|]. split; [exact Lsome|].
  intros t j m Ht Hj Hm. split; [|apply G; assumption].
  rewrite Forall_forall in F1. pose proof (F1 _ (Hseg t Ht)) as Rt. rewrite !read_data_shows by assumption.
  change (shows h (mkR (r_data s0) (r_style s0) (r_extra s0) (WOrder o))) with o.
  rewrite (getb_map _ (shows h (nth (Z.to_nat t) (s0 :: rest) (mkR 0 0 0 WAll)))) by (rewrite zlen_shows by exact Rt; apply Gd; assumption).
  assert (Bq : 0 <= n * k * j + (n * t + m) < n * k * B).
  { assert (A1 : 0 <= n * t + m < n * k) by nia. assert (A2 : n * k * (j + 1) <= n * k * B) by (apply Z.mul_le_mono_nonneg_l; nia). assert (A3 : 0 <= n * k * j) by (apply Z.mul_nonneg_nonneg; nia). lia. }
  rewrite getb_map by (rewrite Zo; exact Bq). rewrite G by assumption. cbn [r_data]. destruct (Sm _ s0 (Hseg t Ht) (or_introl eq_refl)) as [-> _]. reflexivity.
Qed.
Print Assumptions C37_interleave.
(** Two places of the result never come from the same place of the same input. *)
Theorem C37_each_byte_once n k t j m t' j' m' : 1 <= n -> 1 <= k -> 0 <= t < k -> 0 <= t' < k -> 0 <= m < n -> 0 <= m' < n -> 0 <= j -> 0 <= j' ->
  (n * k * j + (n * t + m) = n * k * j' + (n * t' + m') <-> t = t' /\ n * j + m = n * j' + m').
Proof.
  intros Hn Hk Ht Ht' Hm Hm' Hj Hj'.
  assert (U : forall a b q1 q2, 0 <= a < n -> 0 <= b < n -> n * q1 + a = n * q2 + b -> q1 = q2 /\ a = b)
    by (intros a b q1 q2 Ha Hb E; apply (Z.div_mod_unique n); [left; lia|left; lia|exact E]).
  split; [|intros [-> E]; destruct (U _ _ _ _ Hm Hm' E) as [-> ->]; reflexivity].
  intros E. assert (B1 : 0 <= n * t + m < n * k) by nia. assert (B2 : 0 <= n * t' + m' < n * k) by nia.
  destruct (Z.div_mod_unique (n * k) j j' _ _ (or_introl B1) (or_introl B2) E) as [-> E']. destruct (U _ _ _ _ Hm Hm' E') as [-> ->]. split; reflexivity.
Qed.
Example C37_case : exists r, interleave_segments xh [mkR 0 1 0 (WRange 0 4); mkR 0 1 0 (WRange 3 8)] 2 = Ok r /\
  read_data xh r = [10; 11; 13; 14; 12; 13; 15; 16].
Proof. eexists. split; reflexivity. Qed.
Theorem C37_indexed_refuted : exists h s t, raw_ok h s /\ raw_ok h t /\ 0 < raw_len h s /\ 0 < raw_len h t /\ interleave_segments h [s; t] 1 = Err EUnbound.
Proof. exists xh, (mkR 0 1 0 (WOrder [1; 3])), xw. split; [okr|]. split; [exact xw_ok|]. repeat split. Qed.

(** * C46: labels *)
(** For a view that starts at sector [first], has [nboot] boot sectors of [bsize] bytes on
    the disk and others of [psize]: the labelled sector contains the byte. *)
Theorem C46_label_partial first nboot bsize psize i : 1 <= first -> 0 <= nboot -> 1 <= psize -> 0 <= i -> (nboot = 0 \/ 1 <= bsize) ->
  first = 1 \/ nboot = 0 \/ bsize = psize ->
  exists s b, sector_label first nboot bsize psize i = Ok (s, b) /\ first <= s /\
    0 <= b < sec_size nboot bsize psize s /\ i = extent nboot bsize psize first s + b.
Proof.
  intros Hf Hn Hp Hi Hb G. unfold sector_label. destruct (Z.leb_spec (nboot * bsize) i) as [L|L].
  - replace (psize =? 0) with false by lia. pose proof (Z.div_mod (i - nboot * bsize) psize ltac:(lia)) as D. pose proof (Z.mod_pos_bound (i - nboot * bsize) psize ltac:(lia)) as M.
    assert (Q : 0 <= (i - nboot * bsize) / psize) by (apply Z.div_pos; lia). set (q := (i - nboot * bsize) / psize) in *. set (b := (i - nboot * bsize) mod psize) in *.
    exists (q + nboot + first), b. split; [reflexivity|]. split; [lia|]. split; [unfold sec_size; destruct (Z.leb_spec (q + nboot + first) nboot); lia|].
    destruct G as [-> |[-> | ->]].
    + assert (Ex : extent nboot bsize psize 1 (q + nboot + 1) = bsize * nboot + psize * q); [|lia].
      unfold extent, zrange. replace (Z.to_nat (q + nboot + 1 - 1)) with (Z.to_nat nboot + Z.to_nat q)%nat by lia.
      rewrite zseq_nat_app, map_app. unfold total. rewrite fold_right_app. fold (total (map (sec_size nboot bsize psize) (zseq_nat (1 + Z.of_nat (Z.to_nat nboot)) (Z.to_nat q)))).
      rewrite (total_const _ psize) by (intros x Hx; unfold sec_size; replace (x <=? nboot) with false by lia; reflexivity).
      assert (Fr : forall l c, fold_right Z.add c l = total l + c) by (induction l as [|a l IH]; intros c; unfold total in *; cbn [fold_right]; [lia|rewrite IH; lia]).
      rewrite Fr, (total_const _ bsize) by (intros x Hx; unfold sec_size; replace (x <=? nboot) with true by lia; reflexivity). lia.
    + rewrite (extent_const _ _ _ _ _ psize); [lia|lia|]. intros x Hx. unfold sec_size. replace (x <=? 0) with false by lia. reflexivity.
    + rewrite (extent_const _ _ _ _ _ psize); [lia|lia|]. intros x Hx. unfold sec_size. destruct (x <=? nboot); reflexivity.
  - assert (B1 : 1 <= bsize) by nia. replace (bsize =? 0) with false by lia. pose proof (Z.div_mod i bsize ltac:(lia)) as D. pose proof (Z.mod_pos_bound i bsize ltac:(lia)) as M.
    assert (Q : 0 <= i / bsize < nboot) by (split; [apply Z.div_pos; lia|apply Z.div_lt_upper_bound; lia]). set (q := i / bsize) in *.
    exists (q + first), (i mod bsize). split; [reflexivity|]. split; [lia|].
    split; [unfold sec_size; destruct (Z.leb_spec (q + first) nboot); [lia|]; destruct G as [-> |[-> | ->]]; lia|].
    rewrite (extent_const _ _ _ _ _ bsize); [lia|lia|]. intros x Hx. unfold sec_size. destruct (Z.leb_spec x nboot); [reflexivity|]. destruct G as [-> |[-> | ->]]; lia.
Qed.
Print Assumptions C46_label_partial.
Example C46_case : sector_label 1 3 128 256 700 = Ok (5, 60) /\ sector_label 361 3 128 128 1000 = Ok (368, 104) /\ track_label 0x110 0 0 256 300 = Ok (17, 1, 44).
Proof. repeat split. Qed.
(** The VTOC and directory views of double density images are labelled wrongly. *)
Theorem C46_double_density_refuted : exists i s b, sector_label 361 3 128 256 i = Ok (s, b) /\ 0 <= i < 8 * 256 /\
  i <> extent 3 128 256 361 s + b.
Proof. exists 300, 363, 44. split; [reflexivity|]. split; [lia|]. vm_compute. discriminate. Qed.

(** * C54: fixing up comment styles *)
Theorem C54_fixup h r : raw_ok h r -> Forall (fun p => 0 <= p < zlen (arr h (r_data r))) (map fst (comments h r)) -> bytes_ok (arr h (r_style r)) ->
  let h' := fixup_comments h r in
  (forall p, 0 <= p < zlen (arr h (r_data r)) -> getb (arr h' (r_style r)) p =
     Z.lor (Z.ldiff (getb (arr h (r_style r)) p) 0x40) (match dget p (comments h r) with Some _ => 0x40 | None => 0 end)) /\
  (forall n, n <> r_style r -> arr h' n = arr h n) /\ hp_ext h' = hp_ext h.
Proof. intros R F B. destruct (fixup_spec h r R F B) as (A & C & D & _). auto. Qed.
Example C54_case : read_style (fixup_comments xh xw) xw = [0; 64; 0; 0; 3; 3; 65; 0].
Proof. reflexivity. Qed.

(** * C55: comparing segments *)
Theorem C55_compare_partial h r other : raw_ok h r -> raw_ok h other -> (forall o, r_win r <> WOrder o) -> r_style r <> r_data other ->
  raw_len h other = raw_len h r -> bytes_ok (arr h (r_style r)) ->
  exists h', compare_segment h r other = (h', Ok tt) /\
   (forall i, 0 <= i < raw_len h r -> getb (read_style h' r) i =
      Z.lor (Z.ldiff (getb (read_style h r) i) 0x10) (if getb (read_data h r) i =? getb (read_data h other) i then 0 else 0x10)) /\
   (forall p, 0 <= p -> ~ In p (shows h r) -> getb (arr h' (r_style r)) p = getb (arr h (r_style r)) p) /\
   (forall n, n <> r_style r -> arr h' n = arr h n) /\ hp_ext h' = hp_ext h.
Proof. intros R Ro W N L B. destruct (compare_spec h r other R Ro W N L B) as (h' & A & C & D & E & F & _). exists h'. auto. Qed.
Print Assumptions C55_compare_partial.
Example C55_case : let h := mkHp [[1; 2; 3]; [16; 16; 1]; [1; 9; 4; 3]; [0; 0; 0; 0]] [extra0] in
  let p := compare_segment h (mkR 0 1 0 WAll) (mkR 2 3 0 (WOrder [0; 1; 3])) in
  raw_ok h (mkR 0 1 0 WAll) /\ raw_ok h (mkR 2 3 0 (WOrder [0; 1; 3])) /\ snd p = Ok tt /\ read_style (fst p) (mkR 0 1 0 WAll) = [0; 16; 1].
Proof. cbn zeta. split; [okr|]. split; [okr|]. split; reflexivity. Qed.
(** Differences found through an indexed segment are not recorded. *)
Theorem C55_indexed_refuted : exists h r other, raw_ok h r /\ raw_ok h other /\ raw_len h other = raw_len h r /\ read_data h r <> read_data h other /\
  snd (compare_segment h r other) = Ok tt /\ fst (compare_segment h r other) = h.
Proof.
  exists xh, (mkR 0 1 0 (WOrder [0; 1])), (mkR 0 1 0 (WOrder [0; 2])). split; [okr|].
  split; [okr|]. repeat split. discriminate.
Qed.

(** * C56: user data *)
Theorem C56_user_map h r ranges u v x i : raw_ok h r -> 1 <= u <= 6 -> length (e_user (ext h (r_extra r))) = 7%nat ->
  Forall (fun se => 0 <= fst se /\ snd se <= raw_len h r) ranges ->
  raw_ok h x -> r_extra x = r_extra r -> 0 <= i < raw_len h x ->
  exists h', set_user_data h r ranges u v = (h', Ok tt) /\ raw_ok h' x /\ hp_arr h' = hp_arr h /\ comments h' r = comments h r /\
   get_user_data h' x i u = (if existsb (fun se => zmem (getb (shows h x) i) (map (getb (shows h r)) (zrange (fst se) (snd se)))) ranges then Ok v else get_user_data h x i u) /\
   forall w, 1 <= w <= 6 -> w <> u -> get_user_data h' x i w = get_user_data h x i w.
Proof.
  intros R Hu Le F X Ex Hi. destruct (set_user_spec r u v Hu ranges h R Le F) as (h' & E & S & A & G & _ & V & C & _). exists h'. split; [exact E|].
  pose proof (shape_raw_ok _ _ _ S X) as X'. split; [exact X'|]. split; [exact A|]. split; [exact C|].
  assert (U : forall hh w, user_dict hh x w = user_dict hh r w) by (intros; unfold user_dict; rewrite Ex; reflexivity).
  unfold get_user_data. rewrite (raw_index_shows h x i X Hi). cbn [rbind]. split.
  - replace ((u <? 1) || (6 <? u)) with false by lia. rewrite !U, G. destruct (existsb _ ranges); reflexivity.
  - intros w Hw Hwu. replace ((w <? 1) || (6 <? w)) with false by lia. rewrite !U, V by assumption. reflexivity.
Qed.
Print Assumptions C56_user_map.
Example C56_case : let h' := fst (set_user_data xh xw [(2, 4); (6, 7)] 2 5) in
  get_user_data h' (mkR 0 1 0 (WRange 3 8)) 0 2 = Ok 5 /\ get_user_data h' xw 4 2 = Ok 0 /\ sorted_user_data h' xw 2 = [((2, 4), 5); ((6, 7), 5)].
Proof. repeat split. Qed.
(** The sorted listing consists of the maximal runs of equal values. *)
Theorem C57_sorted_user_data h r u : NoDup (map fst (user_dict h r u)) -> Forall (fun k => 0 <= k) (map fst (user_dict h r u)) ->
  (forall p v, dget p (user_dict h r u) = Some v <-> exists s e, In ((s, e), v) (sorted_user_data h r u) /\ s <= p < e) /\
  value_runs 0 None (sorted_user_data h r u).
Proof. apply sorted_user_spec. Qed.
Print Assumptions C57_sorted_user_data.
(** * C58: listing the comments of a range *)
Theorem C58_comments_in_range h r s e i : raw_ok h r -> NoDup (shows h r) -> NoDup (map fst (comments h r)) ->
  Forall (fun p => 0 <= p < zlen (arr h (r_data r))) (map fst (comments h r)) ->
  dget i (comments_in_range h r s e) =
  if (s <=? i) && (i <? e) && (0 <=? i) && (i <? raw_len h r) then dget (getb (shows h r) i) (comments h r) else None.
Proof. apply comments_in_range_spec. Qed.
Print Assumptions C58_comments_in_range.
Example C58_case : comments_in_range xh (mkR 0 1 0 (WOrder [7; 6; 1])) 0 2 = [(1, [98; 99])] /\ comments_in_range xh (mkR 0 1 0 (WRange 1 7)) 0 6 = [(0, [97]); (5, [98; 99])].
Proof. split; reflexivity. Qed.
