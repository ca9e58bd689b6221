(** Proofs about user data, comparisons and comment listings. *)
From Verif Require Import Base BaseLemmas SegModel SegSpec SegProofs SegProofs2 SegProofs3 SegProofs5.
From Coq Require Import Permutation.

(** * fixup_comments *)
Lemma fixup_spec h r : raw_ok h r -> Forall (fun p => 0 <= p < zlen (arr h (r_data r))) (map fst (comments h r)) -> bytes_ok (arr h (r_style r)) ->
  let h' := fixup_comments h r in
  (forall p, 0 <= p < zlen (arr h (r_data r)) -> getb (arr h' (r_style r)) p =
     Z.lor (Z.ldiff (getb (arr h (r_style r)) p) 0x40) (match dget p (comments h r) with Some _ => 0x40 | None => 0 end)) /\
  (forall n, n <> r_style r -> arr h' n = arr h n) /\ hp_ext h' = hp_ext h /\ same_shape h h'.
Proof.
  intros R F B. cbn zeta. unfold fixup_comments. pose proof R as (R1 & R2 & R3 & R4 & R5 & W). rewrite <- R5 in *.
  set (base := map (fun s => Z.land s (style_mask k_comment)) (arr h (r_style r))). assert (Zb : zlen base = zlen (arr h (r_style r))) by apply zlen_map.
  assert (F' : Forall (fun p => 0 <= p < zlen base) (map fst (comments h r))) by (rewrite Zb; exact F).
  split; [|split; [intros n Hn; apply arr_set_neq; congruence|split; [reflexivity|]]].
  - intros p Hp. rewrite arr_set_eq by exact R2. rewrite getb_update by (first [exact F'|lia]). unfold base. rewrite getb_map by exact Hp.
    change (style_mask k_comment) with (Z.lxor 0xff 0x40). rewrite land_mask by (apply bytes_ok_getb; exact B).
    destruct (dget p (comments h r)) as [t|] eqn:E.
    + replace (zmem p (map fst (comments h r))) with true; [reflexivity|]. symmetry. apply zmem_In. destruct (in_dec Z.eq_dec p (map fst (comments h r))) as [X|X]; [exact X|].
      apply dget_None in X. congruence.
    + apply dget_None in E. destruct (zmem p (map fst (comments h r))) eqn:Ez; [apply zmem_In in Ez; contradiction|]. rewrite Z.lor_0_r. reflexivity.
  - apply shape_set_arr; [exact R2|]. rewrite zlen_update by exact F'. exact Zb.
Qed.

(** * comments_in_range *)
Lemma reverse_index_nodup h r p i : raw_ok h r -> NoDup (shows h r) -> 0 <= p < zlen (arr h (r_data r)) ->
  (reverse_index h r p = Ok i <-> 0 <= i < raw_len h r /\ getb (shows h r) i = p).
Proof.
  intros R N Hp. rewrite (reverse_index_spec h r p R Hp). rewrite <- (zlen_shows h r R). split.
  - destruct (last_index p (shows h r) 0) as [j|] eqn:E; [|discriminate]. intros X. injection X as <-. apply last_index_range in E. rewrite Z.sub_0_r in E. tauto.
  - intros [Hi <-]. rewrite last_index_nodup by assumption. reflexivity.
Qed.
Lemma comments_in_range_spec h r s e i : raw_ok h r -> NoDup (shows h r) -> NoDup (map fst (comments h r)) ->
  Forall (fun p => 0 <= p < zlen (arr h (r_data r))) (map fst (comments h r)) ->
  dget i (comments_in_range h r s e) =
  if (s <=? i) && (i <? e) && (0 <=? i) && (i <? raw_len h r) then dget (getb (shows h r) i) (comments h r) else None.
Proof.
  intros R N. unfold comments_in_range. generalize (comments h r) as l. intros l Nl F.
  assert (G : forall d : dict (list Z), dget i (fold_left (fun d kv => match reverse_index h r (fst kv) with
        | Ok j => if (s <=? j) && (j <? e) then dset j (snd kv) d else d | Err _ => d end) l d) =
     match (if (s <=? i) && (i <? e) && (0 <=? i) && (i <? raw_len h r) then dget (getb (shows h r) i) l else None) with
     | Some t => Some t | None => dget i d end).
  2:{ rewrite G. cbn [dget]. destruct (_ && _ && _ && _); [destruct (dget _ l)|]; reflexivity. }
  induction l as [|[p t] l IH]; intros d.
  - cbn [fold_left dget]. destruct (_ && _ && _ && _); reflexivity.
  - cbn [fold_left fst snd map] in *. inversion Nl as [|? ? N1 N2]; subst. inversion F as [|? ? F1 F2]; subst. specialize (IH N2 F2). rewrite IH. clear IH.
    pose proof (reverse_index_nodup h r p i R N F1) as Ri.
    destruct ((s <=? i) && (i <? e) && (0 <=? i) && (i <? raw_len h r)) eqn:C.
    + cbn [dget]. destruct (Z.eqb_spec (getb (shows h r) i) p) as [E|E].
      * assert (X : reverse_index h r p = Ok i) by (apply Ri; split; [lia|exact E]). rewrite X. replace ((s <=? i) && (i <? e)) with true by lia.
        rewrite E. assert (Y : dget p l = None) by (apply dget_None; exact N1). rewrite Y, dget_dset, Z.eqb_refl. reflexivity.
      * destruct (dget (getb (shows h r) i) l) eqn:Y; [reflexivity|]. destruct (reverse_index h r p) as [j|] eqn:X; [|reflexivity].
        destruct ((s <=? j) && (j <? e)); [|reflexivity]. rewrite dget_dset. destruct (Z.eqb_spec j i) as [-> |M]; [|reflexivity]. destruct E. apply Ri. reflexivity.
    + destruct (reverse_index h r p) as [j|] eqn:X; [|reflexivity]. destruct ((s <=? j) && (j <? e)) eqn:Y; [|reflexivity].
      rewrite dget_dset. destruct (Z.eqb_spec j i) as [-> |M]; [|reflexivity]. destruct (proj1 Ri eq_refl) as [Hi _]. lia.
Qed.

(** * User data *)
Lemma user_set h r u d x v : (r_extra r < length (hp_ext h))%nat -> r_extra x = r_extra r -> (Z.to_nat u < length (e_user (ext h (r_extra r))))%nat -> 1 <= u -> 0 <= v ->
  user_dict (set_user_dict h r u d) x v = if v =? u then d else user_dict h x v.
Proof.
  intros L E Lu Hu Hv. unfold user_dict, set_user_dict. rewrite E, ext_set_eq by exact L. cbn [e_user]. destruct (Z.eqb_spec v u) as [-> |N].
  - apply nth_replace_eq. exact Lu.
  - apply nth_replace_neq. lia.
Qed.
Definition udata := Z -> option Z.
Definition ustep (h : heap) (r : raw) (u : Z) (h' : heap) (f : udata -> udata) : Prop :=
  same_shape h h' /\ hp_arr h' = hp_arr h /\ (forall p, dget p (user_dict h' r u) = f (fun q => dget q (user_dict h r u)) p) /\
  (NoDup (map fst (user_dict h r u)) -> NoDup (map fst (user_dict h' r u))) /\
  (forall v, 1 <= v <= 6 -> v <> u -> user_dict h' r v = user_dict h r v) /\ comments h' r = comments h r /\
  (forall y, y <> r_extra r -> ext h' y = ext h y) /\ length (e_user (ext h' (r_extra r))) = length (e_user (ext h (r_extra r))).
Lemma ustep_refl h r u : ustep h r u h (fun m => m).
Proof. repeat split; auto. Qed.
Lemma set_user_loop r u v : 1 <= u <= 6 -> forall l h, raw_ok h r -> length (e_user (ext h (r_extra r))) = 7%nat -> Forall (fun i => 0 <= i < raw_len h r) l ->
  exists h', each (fun h i => match raw_index r i with
                              | Ok p => if (u <? 1) || (6 <? u) then (h, Err EKey)
                                        else (set_user_dict h r u (dset p v (user_dict h r u)), Ok tt)
                              | Err e => (h, Err e) end) l h = (h', Ok tt) /\
  ustep h r u h' (fun m p => if zmem p (map (getb (shows h r)) l) then Some v else m p).
Proof.
  intros Hu. assert (Eu : (u <? 1) || (6 <? u) = false) by lia. rewrite Eu. induction l as [|i l IH]; intros h R Le F.
  - exists h. split; [reflexivity|]. apply ustep_refl.
  - inversion F as [|? ? F1 F2]; subst. cbn [each map]. rewrite (raw_index_shows h r i R F1).
    pose proof R as (_ & _ & _ & Lx & _).
    set (h1 := set_user_dict h r u (dset (getb (shows h r) i) v (user_dict h r u))).
    assert (S1 : same_shape h h1) by (unfold h1, set_user_dict, set_ext; split; [intros m; reflexivity|]; split; [reflexivity|]; cbn [hp_ext]; apply length_replace).
    assert (Le1 : length (e_user (ext h1 (r_extra r))) = 7%nat) by (unfold h1, set_user_dict; rewrite ext_set_eq by exact Lx; cbn [e_user]; rewrite length_replace; exact Le).
    pose proof (shape_raw_ok _ _ _ S1 R) as R1. rewrite <- (shape_raw_len h h1 r S1) in F2.
    destruct (IH h1 R1 Le1 F2) as (h' & E & S' & A' & G' & N' & V' & C' & X' & L'). rewrite (shape_shows h h1 r S1) in G'.
    assert (Lu : (Z.to_nat u < length (e_user (ext h (r_extra r))))%nat) by lia.
    assert (Ud : forall w, 0 <= w -> user_dict h1 r w = if w =? u then dset (getb (shows h r) i) v (user_dict h r u) else user_dict h r w) by (intros w Hw; apply user_set; auto; lia).
    exists h'. split; [exact E|]. split; [eapply shape_trans; eassumption|]. split; [rewrite A'; reflexivity|]. split; [|split; [|split; [|split; [|split]]]].
    + intros p. rewrite G', Ud, Z.eqb_refl, dget_dset by lia. unfold zmem. cbn [existsb]. rewrite (Z.eqb_sym p (getb (shows h r) i)).
      destruct (getb (shows h r) i =? p); cbn [orb]; destruct (existsb _ _); reflexivity.
    + intros N. apply N'. rewrite Ud, Z.eqb_refl by lia. apply nodup_dset. exact N.
    + intros w Hw Hwu. rewrite V' by assumption. rewrite Ud by lia. replace (w =? u) with false by lia. reflexivity.
    + rewrite C'. unfold comments, h1, set_user_dict. rewrite ext_set_eq by exact Lx. reflexivity.
    + intros y Hy. rewrite X' by exact Hy. unfold h1, set_user_dict. apply ext_set_neq. congruence.
    + congruence.
Qed.
Lemma set_user_spec r u v : 1 <= u <= 6 -> forall ranges h, raw_ok h r -> length (e_user (ext h (r_extra r))) = 7%nat ->
  Forall (fun se => 0 <= fst se /\ snd se <= raw_len h r) ranges ->
  exists h', set_user_data h r ranges u v = (h', Ok tt) /\
  ustep h r u h' (fun m p => if existsb (fun se => zmem p (map (getb (shows h r)) (zrange (fst se) (snd se)))) ranges then Some v else m p).
Proof.
  intros Hu. unfold set_user_data. induction ranges as [|[s e] l IH]; intros h R Le F.
  - exists h. split; [reflexivity|]. apply ustep_refl.
  - inversion F as [|? ? F1 F2]; subst. cbn [fst snd] in F1. cbn [each fst snd].
    assert (Fr : Forall (fun i => 0 <= i < raw_len h r) (zrange s e)) by (apply Forall_forall; intros i Hi; apply In_zrange in Hi; lia).
    destruct (set_user_loop r u v Hu (zrange s e) h R Le Fr) as (h1 & E1 & S1 & A1 & G1 & N1 & V1 & C1 & X1 & L1). rewrite E1.
    pose proof (shape_raw_ok _ _ _ S1 R) as R1. rewrite <- (shape_raw_len h h1 r S1) in F2.
    destruct (IH h1 R1 ltac:(congruence) F2) as (h' & E & S' & A' & G' & N' & V' & C' & X' & L'). rewrite (shape_shows h h1 r S1) in G'.
    exists h'. split; [exact E|]. split; [eapply shape_trans; eassumption|]. split; [congruence|]. split; [|split; [|split; [|split; [|split]]]].
    + intros p. rewrite G', G1. cbn [existsb fst snd]. destruct (zmem p (map (getb (shows h r)) (zrange s e))); cbn [orb]; destruct (existsb _ l); reflexivity.
    + tauto.
    + intros w Hw Hwu. rewrite V', V1 by assumption. reflexivity.
    + congruence.
    + intros y Hy. rewrite X', X1 by exact Hy. reflexivity.
    + congruence.
Qed.

(** ** runs of equal user data *)
(** ordered, not empty, and neighbours that touch have different values *)
Fixpoint value_runs (from : Z) (last : option Z) (l : list ((Z * Z) * Z)) : Prop :=
  match l with
  | [] => True
  | ((s, e), v) :: r => from <= s < e /\ (s = from -> last <> Some v) /\ value_runs e (Some v) r
  end.
Lemma user_runs_spec l : forall s e v, s < e -> asc (e - 1) l ->
  let out := user_runs l (Some (s, e, v)) in
  (forall i x, (exists a b, In ((a, b), x) out /\ a <= i < b) <-> (s <= i < e /\ x = v) \/ In (i, x) l) /\
  (exists e' t, out = ((s, e'), v) :: t /\ s < e' /\ value_runs e' (Some v) t).
Proof.
  induction l as [|[k x] l IH]; intros s e v Hse A; cbn zeta; cbn [user_runs].
  - split.
    + intros i y. split; [intros (a & b & [E|[]] & Hi); injection E as <- <- <-; left; split; [exact Hi|reflexivity]|].
      intros [[Hi ->]|[]]. exists s, e. split; [left; reflexivity|exact Hi].
    + exists e, []. split; [reflexivity|]. split; [exact Hse|exact I].
  - cbn [asc] in A. destruct A as [A1 A2]. destruct (negb (x =? v) || negb (k =? e)) eqn:C.
    + destruct (IH k (k + 1) x ltac:(lia) ltac:(replace (k + 1 - 1) with k by lia; exact A2)) as (I1 & e' & t & I2 & I3 & I4). cbn zeta in *. split.
      * intros i y. split.
        -- intros (a & b & [E|Hin] & Hi); [injection E as <- <- <-; left; split; [exact Hi|reflexivity]|].
           right. destruct (proj1 (I1 i y) (ex_intro _ a (ex_intro _ b (conj Hin Hi)))) as [[X ->]|X]; [left; f_equal; lia|right; exact X].
        -- intros [[Hi ->]|[E|Hin]].
           ++ exists s, e. split; [left; reflexivity|exact Hi].
           ++ injection E as -> ->. destruct (proj2 (I1 i y)) as (a & b & X & Y); [left; split; [lia|reflexivity]|]. exists a, b. split; [right; exact X|exact Y].
           ++ destruct (proj2 (I1 i y)) as (a & b & X & Y); [right; exact Hin|]. exists a, b. split; [right; exact X|exact Y].
      * exists e, (user_runs l (Some (k, k + 1, x))). split; [reflexivity|]. split; [exact Hse|]. rewrite I2. cbn [value_runs]. split; [lia|]. split; [|exact I4].
        intros -> E. injection E as ->. rewrite !Z.eqb_refl in C. discriminate.
    + apply orb_false_iff in C. destruct C as [C1 C2]. apply negb_false_iff, Z.eqb_eq in C1, C2. subst x k.
      destruct (IH s (e + 1) v ltac:(lia) ltac:(replace (e + 1 - 1) with e by lia; exact A2)) as (I1 & I2). cbn zeta in *. split; [|exact I2].
      intros i y. rewrite I1. cbn [In]. split.
      * intros [[Hi ->]|X]; [|tauto]. destruct (Z.eq_dec i e) as [-> |N]; [tauto|left; split; [lia|reflexivity]].
      * intros [[Hi ->]|[E|X]]; [left; split; [lia|reflexivity]|injection E as <- <-; left; split; [lia|reflexivity]|tauto].
Qed.
Lemma sorted_user_spec d : NoDup (map fst d) -> Forall (fun k => 0 <= k) (map fst d) ->
  let out := user_runs (sort_dict d) None in
  (forall i v, dget i d = Some v <-> exists s e, In ((s, e), v) out /\ s <= i < e) /\ value_runs 0 None out.
Proof.
  intros N F. cbn zeta. pose proof (sort_dict_perm d) as P.
  assert (A : asc (-1) (sort_dict d)) by (apply sort_dict_asc; [exact N|]; eapply Forall_impl; [|exact F]; cbn; intros; lia).
  assert (I0 : forall i v, dget i d = Some v <-> In (i, v) (sort_dict d)).
  { intros i v. rewrite dget_In by exact N. split; intros X; [eapply Permutation_in; eassumption|eapply Permutation_in; [apply Permutation_sym; exact P|exact X]]. }
  destruct (sort_dict d) as [|[k x] l].
  - cbn [user_runs]. split; [|exact I]. intros i v. rewrite I0. cbn [In]. split; [intros []|intros (s & e & [] & _)].
  - cbn [user_runs]. cbn [asc] in A. destruct A as [A1 A2].
    destruct (user_runs_spec l k (k + 1) x ltac:(lia) ltac:(replace (k + 1 - 1) with k by lia; exact A2)) as (I1 & e' & t & I2 & I3 & I4). cbn zeta in *. split.
    + intros i v. rewrite I0, I1. cbn [In]. split; [intros [E|X]; [injection E as -> ->; left; split; [lia|reflexivity]|tauto]|].
      intros [[Hi ->]|X]; [left; f_equal; lia|tauto].
    + rewrite I2. cbn [value_runs]. split; [lia|]. split; [discriminate|exact I4].
Qed.

(** * Comparing two segments *)
Lemma getb_combine_map (f : Z * Z -> Z) : forall a b i, zlen a = zlen b -> 0 <= i < zlen a -> getb (map f (combine a b)) i = f (getb a i, getb b i).
Proof.
  induction a as [|x a IH]; intros [|y b] i E Hi; rewrite ?zlen_cons in *; change (@zlen Z []) with 0 in *; try lia; try (pose proof (zlen_nonneg a); lia).
  cbn [combine map]. destruct (Z.eq_dec i 0) as [-> |N]; [reflexivity|]. unfold getb. replace (Z.to_nat i) with (S (Z.to_nat (i - 1))) by lia. cbn [nth].
  apply (IH b (i - 1)); lia.
Qed.
Lemma zlen_combine_map (f : Z * Z -> Z) a b : zlen a = zlen b -> zlen (map f (combine a b)) = zlen a.
Proof. intros E. rewrite zlen_map. unfold zlen in *. rewrite combine_length. lia. Qed.
Lemma pyslice_none l : pyslice l None None = l.
Proof. unfold pyslice, bound. apply slice_full. Qed.
Lemma nodup_zrange a b : NoDup (zrange a b).
Proof.
  unfold zrange. generalize (Z.to_nat (b - a)) as n. intros n. revert a. induction n as [|n IH]; intros a; cbn [zseq_nat]; constructor; [|apply IH].
  intros H. apply In_zseq_nat in H. lia.
Qed.
Lemma clear_bits_spec h r k : raw_ok h r ->
  let h' := clear_style_bits h r k in
  (forall p, 0 <= p -> getb (arr h' (r_style r)) p = if zmem p (shows h r) then Z.land (getb (arr h (r_style r)) p) (style_mask k) else getb (arr h (r_style r)) p) /\
  (forall n, n <> r_style r -> arr h' n = arr h n) /\ hp_ext h' = hp_ext h /\ same_shape h h'.
Proof.
  intros R. cbn zeta. unfold clear_style_bits. rewrite win_slice_shows, pyslice_none by exact R.
  destruct (upd_style_facts (fun x => Z.land x (style_mask k)) h r (shows h r) R (shows_range h r R)) as (U1 & U2 & U3 & U4 & U5).
  split; [exact U1|]. split; [exact U2|]. split; [exact U3|]. split; [exact U4|]. split; [unfold upd_style, set_arr; apply length_replace|rewrite U3; reflexivity].
Qed.
Lemma compare_spec h r other : raw_ok h r -> raw_ok h other -> (forall o, r_win r <> WOrder o) -> r_style r <> r_data other -> raw_len h other = raw_len h r -> bytes_ok (arr h (r_style r)) ->
  exists h', compare_segment h r other = (h', Ok tt) /\
   (forall i, 0 <= i < raw_len h r -> getb (read_style h' r) i =
      Z.lor (Z.ldiff (getb (read_style h r) i) 0x10) (if getb (read_data h r) i =? getb (read_data h other) i then 0 else 0x10)) /\
   (forall p, 0 <= p -> ~ In p (shows h r) -> getb (arr h' (r_style r)) p = getb (arr h (r_style r)) p) /\
   (forall n, n <> r_style r -> arr h' n = arr h n) /\ hp_ext h' = hp_ext h /\ same_shape h h'.
Proof.
  intros R Ro Nw Nd El B. unfold compare_segment. destruct (clear_bits_spec h r k_diff R) as (C1 & C2 & C3 & S1). cbn zeta in *.
  set (h1 := clear_style_bits h r k_diff) in *. pose proof (shape_raw_ok _ _ _ S1 R) as R1. pose proof R1 as (_ & L2 & _ & _ & R5' & _). pose proof R as (_ & _ & _ & _ & R5 & _).
  assert (Za : zlen (read_data h r) = zlen (shows h r)) by (rewrite read_data_shows by exact R; apply zlen_map).
  assert (Zo : zlen (read_data h other) = zlen (shows h r)) by (rewrite read_data_shows by exact Ro; rewrite zlen_map, !zlen_shows by assumption; exact El).
  rewrite win_slice_shows, pyslice_none by exact R. rewrite Za, Zo, Z.eqb_refl.
  assert (N : NoDup (shows h r)) by (unfold shows; destruct (r_win r) as [|a b|o]; [apply nodup_zrange|apply nodup_zrange|destruct (Nw o eq_refl)]).
  set (marks := map (fun xy => if fst xy =? snd xy then 0 else 0x10) (combine (read_data h r) (read_data h other))).
  assert (Zm : zlen marks = zlen (shows h r)) by (unfold marks; rewrite zlen_combine_map by lia; exact Za).
  assert (P : Forall (fun p => 0 <= p < zlen (arr h1 (r_style r))) (shows h r)).
  { rewrite R5'. destruct S1 as (Z & _). rewrite Z. apply shows_range. exact R. }
  rewrite gather_map by exact P.
  set (vals := map (fun sm => Z.lor (fst sm) (snd sm)) (combine (map (getb (arr h1 (r_style r))) (shows h r)) marks)).
  assert (Zv : zlen vals = zlen (shows h r)) by (unfold vals; rewrite zlen_combine_map by (rewrite zlen_map; lia); apply zlen_map).
  set (h2 := set_arr h1 (r_style r) (scatter (arr h1 (r_style r)) (shows h r) vals)).
  assert (E2 : (match r_win r with WOrder _ => (h1, Ok tt) | _ => (h2, Ok tt) end) = (h2, Ok tt)) by (destruct (r_win r) as [|a b|o]; [reflexivity|reflexivity|destruct (Nw o eq_refl)]).
  exists h2. split; [exact E2|]. assert (S2 : same_shape h1 h2) by (apply shape_set_arr; [exact L2|apply zlen_scatter; exact P]).
  assert (A2 : forall p, 0 <= p -> getb (arr h2 (r_style r)) p = match last_write p (shows h r) vals with Some v => v | None => getb (arr h1 (r_style r)) p end).
  { intros p Hp. unfold h2. rewrite arr_set_eq by exact L2. apply getb_scatter; assumption. }
  split; [|split; [|split; [|split]]].
  - intros i Hi. pose proof (shape_raw_ok _ _ _ S2 R1) as R2. rewrite !read_style_shows by assumption.
    rewrite (shape_shows h1 h2 r S2), (shape_shows h h1 r S1). rewrite <- (zlen_shows h r R) in Hi. rewrite !getb_map by exact Hi.
    pose proof (shows_range h r R) as SR. rewrite Forall_forall in SR. pose proof (SR _ (getb_In _ _ Hi)) as Hp.
    rewrite A2 by lia. rewrite last_write_at; [|exact N|unfold zlen in Zv; lia|exact Hi].
    unfold vals. rewrite getb_combine_map by (first [rewrite zlen_map; lia|rewrite zlen_map; exact Hi]). cbn [fst snd]. rewrite getb_map by exact Hi.
    unfold marks. rewrite getb_combine_map by lia. cbn [fst snd]. f_equal. rewrite C1 by lia.
    replace (zmem (getb (shows h r) i) (shows h r)) with true by (symmetry; apply zmem_In, getb_In; exact Hi).
    change (style_mask k_diff) with (Z.lxor 0xff 0x10). apply land_mask. apply bytes_ok_getb. exact B.
  - intros p Hp Hn. rewrite A2 by exact Hp. rewrite last_write_none by exact Hn. rewrite C1 by exact Hp.
    destruct (zmem p (shows h r)) eqn:Ez; [apply zmem_In in Ez; contradiction|reflexivity].
  - intros n Hn. unfold h2. rewrite arr_set_neq by congruence. apply C2. exact Hn.
  - exact C3.
  - eapply shape_trans; eassumption.
Qed.
