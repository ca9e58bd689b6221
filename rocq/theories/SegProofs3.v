(** Proofs about styles: ranges, searches, tilings and rectangles. *)
From Verif Require Import Base BaseLemmas SegModel SegSpec SegProofs SegProofs2.

(** * np.split at the places where neighbours differ *)
Fixpoint grp (cut : Z -> bool) (l : list Z) : list (list Z) :=
  match l with
  | [] => [[]]
  | a :: r =>
      match r with
      | [] => [[a]]
      | b :: _ => match grp cut r with
                  | g :: gs => if cut (b - a) then [a] :: g :: gs else (a :: g) :: gs
                  | [] => []
                  end
      end
  end.
Lemma where_from_shift l : forall i, where_from (i + 1) l = map (fun x => x + 1) (where_from i l).
Proof.
  induction l as [|b l IH]; intros i; cbn [where_from map]; [reflexivity|]. rewrite map_app, IH. destruct b; reflexivity.
Qed.
Lemma where_from_ge l : forall i, Forall (fun x => i <= x) (where_from i l).
Proof.
  induction l as [|b l IH]; intros i; cbn [where_from]; [constructor|]. apply Forall_app. split; [destruct b; repeat constructor; lia|].
  eapply Forall_impl; [|apply IH]. cbn. intros; lia.
Qed.
Lemma slice_cons_shift {A} (a : A) l i j : 0 <= i -> slice (a :: l) (i + 1) (j + 1) = slice l i j.
Proof.
  intros H. unfold slice. replace (Z.to_nat (i + 1)) with (S (Z.to_nat i)) by lia. cbn [skipn]. f_equal. lia.
Qed.
Lemma split_from_shift a l cs : forall k, 0 <= k -> Forall (fun c => 0 <= c) cs ->
  split_from (a :: l) (k + 1) (map (fun x => x + 1) cs) = split_from l k cs.
Proof.
  induction cs as [|c cs IH]; intros k Hk F; cbn [split_from map].
  - f_equal. rewrite zlen_cons. replace (1 + zlen l) with (zlen l + 1) by lia. rewrite slice_cons_shift by lia. reflexivity.
  - inversion F; subst. rewrite slice_cons_shift, IH by assumption. reflexivity.
Qed.
Lemma slice_cons_0 {A} (a : A) l j : 0 <= j -> slice (a :: l) 0 (j + 1) = a :: slice l 0 j.
Proof. intros H. unfold slice. cbn [Z.to_nat skipn]. replace (Z.to_nat (j + 1 - 0)) with (S (Z.to_nat (j - 0))) by lia. reflexivity. Qed.
Lemma np_split_grp cut l : np_split l (map (fun i => i + 1) (np_where (map cut (np_diff l)))) = grp cut l.
Proof.
  unfold np_split, np_where. induction l as [|a l IH]; [reflexivity|].
  destruct l as [|b l]; [reflexivity|].
  change (np_diff (a :: b :: l)) with ((b - a) :: np_diff (b :: l)).
  change (grp cut (a :: b :: l)) with (match grp cut (b :: l) with g :: gs => if cut (b - a) then [a] :: g :: gs else (a :: g) :: gs | [] => [] end).
  cbn [map where_from]. rewrite where_from_shift.
  set (ws := where_from 0 (map cut (np_diff (b :: l)))) in *.
  assert (F : Forall (fun c => 0 <= c) (map (fun i => i + 1) ws)).
  { apply Forall_forall. intros x Hx. apply in_map_iff in Hx. destruct Hx as (y & <- & Hy). pose proof (where_from_ge (map cut (np_diff (b :: l))) 0) as G.
    rewrite Forall_forall in G. specialize (G y Hy). lia. }
  destruct (cut (b - a)); cbn [app map split_from].
  - rewrite <- IH. rewrite (split_from_shift a (b :: l) (map (fun i => i + 1) ws) 0) by (first [lia|exact F]).
    destruct (split_from (b :: l) 0 _) eqn:E; [destruct (map (fun i => i + 1) ws); discriminate E|]. reflexivity.
  - destruct ws as [|c cs]; cbn [map split_from] in *.
    + rewrite <- IH. f_equal. rewrite zlen_cons. replace (1 + zlen (b :: l)) with (zlen (b :: l) + 1) by lia. apply slice_cons_0. apply zlen_nonneg.
    + rewrite <- IH. inversion F; subst. rewrite slice_cons_0 by assumption. f_equal. apply split_from_shift; assumption.
Qed.
Lemma grp_concat cut l : concat (grp cut l) = l.
Proof.
  induction l as [|a [|b l] IH]; [reflexivity|reflexivity|].
  change (grp cut (a :: b :: l)) with (match grp cut (b :: l) with g :: gs => if cut (b - a) then [a] :: g :: gs else (a :: g) :: gs | [] => [] end).
  destruct (grp cut (b :: l)) as [|g gs]; [discriminate IH|]. destruct (cut (b - a)); cbn [concat app] in *; rewrite IH; reflexivity.
Qed.
Lemma grp_nonempty cut l : l <> [] -> Forall (fun g => g <> []) (grp cut l).
Proof.
  induction l as [|a [|b l] IH]; intros N; [congruence|repeat constructor; discriminate|].
  change (grp cut (a :: b :: l)) with (match grp cut (b :: l) with g :: gs => if cut (b - a) then [a] :: g :: gs else (a :: g) :: gs | [] => [] end).
  specialize (IH ltac:(discriminate)). destruct (grp cut (b :: l)) as [|g gs]; [constructor|]. inversion IH; subst.
  destruct (cut (b - a)); repeat constructor; try assumption; discriminate.
Qed.

(** * Runs *)
Fixpoint runs (w : list Z) : list (Z * Z) :=
  match w with
  | [] => []
  | a :: r => match r with
              | [] => [(a, a + 1)]
              | b :: _ => if b - a =? 1
                          then match runs r with (_, e) :: t => (a, e) :: t | [] => [] end
                          else (a, a + 1) :: runs r
              end
  end.
Definition ends (g : list Z) : list (Z * Z) := if 0 <? zlen g then [(getb g 0, getb g (zlen g - 1) + 1)] else [].
Lemma ends_cons a g : g <> [] -> ends (a :: g) = [(a, getb g (zlen g - 1) + 1)].
Proof.
  intros N. unfold ends. rewrite zlen_cons. pose proof (zlen_nonneg g). replace (0 <? 1 + zlen g) with true by lia. cbn [getb].
  replace (1 + zlen g - 1) with (zlen g) by lia.
  replace (getb (a :: g) (zlen g)) with (getb g (zlen g - 1)); [reflexivity|].
  destruct g as [|x g]; [congruence|]. rewrite zlen_cons. pose proof (zlen_nonneg g). unfold getb. replace (Z.to_nat (1 + zlen g)) with (S (Z.to_nat (1 + zlen g - 1))) by lia. reflexivity.
Qed.
Lemma ends_ne g : g <> [] -> ends g = [(getb g 0, getb g (zlen g - 1) + 1)].
Proof. intros N. unfold ends. destruct g as [|x g]; [congruence|]. rewrite zlen_cons. pose proof (zlen_nonneg g). replace (0 <? 1 + zlen g) with true by lia. reflexivity. Qed.
Lemma ends_grp_runs w : flat_map ends (grp (fun d => negb (d =? 1)) w) = runs w.
Proof.
  induction w as [|a [|b w] IH]; [reflexivity|reflexivity|].
  change (runs (a :: b :: w)) with (if b - a =? 1 then match runs (b :: w) with (_, e) :: t => (a, e) :: t | [] => [] end else (a, a + 1) :: runs (b :: w)).
  change (grp (fun d => negb (d =? 1)) (a :: b :: w)) with (match grp (fun d => negb (d =? 1)) (b :: w) with
     g :: gs => if negb (b - a =? 1) then [a] :: g :: gs else (a :: g) :: gs | [] => [] end).
  pose proof (grp_nonempty (fun d => negb (d =? 1)) (b :: w) ltac:(discriminate)) as N.
  pose proof (grp_concat (fun d => negb (d =? 1)) (b :: w)) as C.
  destruct (grp (fun d => negb (d =? 1)) (b :: w)) as [|g gs]; [discriminate C|]. inversion N as [|? ? Ng Ngs]; subst. rewrite <- IH.
  destruct (b - a =? 1); cbn [negb flat_map].
  - rewrite ends_cons by exact Ng. rewrite (ends_ne g) by exact Ng. reflexivity.
  - reflexivity.
Qed.
Lemma bool_to_ranges_runs l : bool_to_ranges l = runs (np_where l).
Proof.
  unfold bool_to_ranges. rewrite <- ends_grp_runs, <- (np_split_grp (fun d => negb (d =? 1))). reflexivity.
Qed.

(** strictly increasing lists *)
Fixpoint incr (from : Z) (l : list Z) : Prop :=
  match l with [] => True | a :: r => from < a /\ incr a r end.
Lemma incr_weak l : forall f g, g <= f -> incr f l -> incr g l.
Proof. destruct l; cbn [incr]; intros; [exact I|]. destruct H0. split; [lia|assumption]. Qed.
Lemma incr_In l : forall f x, incr f l -> In x l -> f < x.
Proof. induction l as [|a l IH]; intros f x H Hx; [destruct Hx|]. destruct H as [H1 H2], Hx as [-> |Hx]; [exact H1|]. specialize (IH a x H2 Hx). lia. Qed.
Lemma apart_weak l : forall f g, g <= f -> apart f l -> apart g l.
Proof. destruct l as [|[s e] l]; cbn [apart]; intros; [exact I|]. destruct H0. split; [lia|assumption]. Qed.
Lemma runs_spec w : forall f hi, incr f w -> Forall (fun x => x < hi) w ->
  apart f (runs w) /\ (forall s e, In (s, e) (runs w) -> e <= hi) /\
  (forall i, In i w <-> exists s e, In (s, e) (runs w) /\ s <= i < e) /\
  match w with [] => runs w = [] | a :: _ => exists e t, runs w = (a, e) :: t end.
Proof.
  induction w as [|a w IH]; intros f hi H F.
  - cbn. split; [exact I|]. split; [intros s e []|]. split; [intros i; split; [intros []|intros (s & e & [] & _)]|reflexivity].
  - destruct H as [H1 H2]. inversion F as [|? ? F1 F2]; subst. destruct w as [|b w].
    + cbn. split; [lia|]. split; [intros s e [E|[]]; injection E as <- <-; lia|]. split.
      * intros i. split; [intros [-> |[]]; exists i, (i + 1); split; [left; reflexivity|lia]|]. intros (s & e & [E|[]] & Hi). injection E as <- <-. left. lia.
      * exists (a + 1), []. reflexivity.
    + specialize (IH a hi H2 F2). destruct IH as (I1 & I2 & I3 & e0 & t & I4).
      change (runs (a :: b :: w)) with (if b - a =? 1 then match runs (b :: w) with (_, e) :: t => (a, e) :: t | [] => [] end else (a, a + 1) :: runs (b :: w)).
      destruct H2 as [Hb _].
      destruct (Z.eqb_spec (b - a) 1) as [E|E].
      * rewrite I4 in *. cbn [apart] in I1. destruct I1 as [I1 I1']. split; [cbn [apart]; split; [lia|exact I1']|]. split; [|split].
        -- intros s e [X|X]; [injection X as <- <-; apply (I2 b e0); left; reflexivity|apply (I2 s e); right; exact X].
        -- intros i. split.
           ++ intros [-> |Hi]; [exists i, e0; split; [left; reflexivity|lia]|]. apply I3 in Hi. destruct Hi as (s & e & [X|X] & Y).
              ** injection X as <- <-. exists a, e0. split; [left; reflexivity|lia].
              ** exists s, e. split; [right; exact X|exact Y].
           ++ intros (s & e & [X|X] & Y).
              ** injection X as <- <-. destruct (Z.eq_dec i a) as [-> |Ni]; [left; reflexivity|]. right. apply I3. exists b, e0. split; [left; reflexivity|lia].
              ** right. apply I3. exists s, e. split; [right; exact X|exact Y].
        -- eauto.
      * rewrite I4 in *. split; [|split; [|split]].
        -- cbn [apart] in *. destruct I1 as [I1 I1']. split; [lia|]. split; [lia|exact I1'].
        -- intros s e [X|X]; [injection X as <- <-; lia|apply (I2 s e); exact X].
        -- intros i. split.
           ++ intros [-> |Hi]; [exists i, (i + 1); split; [left; reflexivity|lia]|]. apply I3 in Hi. destruct Hi as (s & e & X & Y). exists s, e. split; [right; exact X|exact Y].
           ++ intros (s & e & [X|X] & Y); [injection X as <- <-; left; lia|]. right. apply I3. exists s, e. split; assumption.
        -- eauto.
Qed.
Lemma np_where_incr l : forall i, incr (i - 1) (where_from i l).
Proof.
  induction l as [|b l IH]; intros i; cbn [where_from]; [exact I|]. specialize (IH (i + 1)). replace (i + 1 - 1) with i in IH by lia.
  destruct b; cbn [app incr]; [split; [lia|exact IH]|apply (incr_weak _ i); [lia|exact IH]].
Qed.
Lemma np_where_In l : forall i x, In x (where_from i l) <-> i <= x < i + zlen l /\ nth (Z.to_nat (x - i)) l false = true.
Proof.
  induction l as [|b l IH]; intros i x; cbn [where_from].
  - cbn. split; [intros []|lia].
  - rewrite zlen_cons. pose proof (zlen_nonneg l). rewrite in_app_iff, IH. destruct (Z.eq_dec x i) as [-> |N].
    + rewrite Z.sub_diag. cbn [Z.to_nat nth]. destruct b; cbn [In]; (split; [intros [X|X]|intros X]); try (left; left; reflexivity); try lia; try (split; [lia|reflexivity]); try destruct X; try discriminate; tauto.
    + split.
      * intros [X|X]; [destruct b; cbn in X; [lia|destruct X]|]. split; [lia|]. replace (Z.to_nat (x - i)) with (S (Z.to_nat (x - (i + 1)))) by lia. cbn [nth]. apply X.
      * intros [X Y]. right. split; [lia|]. replace (Z.to_nat (x - i)) with (S (Z.to_nat (x - (i + 1)))) in Y by lia. exact Y.
Qed.
Lemma exact_runs_bool (l : list bool) : exact_runs (zlen l) (fun i => nth (Z.to_nat i) l false = true) (bool_to_ranges l).
Proof.
  rewrite bool_to_ranges_runs. unfold np_where. pose proof (np_where_incr l 0) as H. pose proof (np_where_In l 0) as J.
  assert (F : Forall (fun x => x < zlen l) (where_from 0 l)) by (apply Forall_forall; intros x Hx; apply J in Hx; lia).
  destruct (runs_spec (where_from 0 l) (-1) (zlen l) H F) as (R1 & R2 & R3 & _). split; [exact R1|]. split; [exact R2|].
  intros i Hi. rewrite <- R3, J, Z.sub_0_r. split; [intros X; split; [lia|exact X]|tauto].
Qed.
Lemma nth_map_getb (f : Z -> bool) l i : 0 <= i < zlen l -> nth (Z.to_nat i) (map f l) false = f (getb l i).
Proof.
  intros H. unfold getb, zlen in *. rewrite (nth_indep _ false (f 0)) by (rewrite map_length; lia). apply map_nth.
Qed.
Lemma exact_runs_ext n (P Q : Z -> Prop) rs : (forall i, 0 <= i < n -> (P i <-> Q i)) -> exact_runs n P rs -> exact_runs n Q rs.
Proof. intros E (A & B & C). split; [exact A|]. split; [exact B|]. intros i Hi. rewrite <- (E i Hi). apply C. exact Hi. Qed.
Lemma ranges_of_exact bits l : exact_runs (zlen l) (fun i => Z.land (getb l i) bits = bits) (ranges_of bits l).
Proof.
  unfold ranges_of. pose proof (exact_runs_bool (map (fun s => Z.land s bits =? bits) l)) as H. rewrite zlen_map in H.
  eapply exact_runs_ext; [|exact H]. intros i Hi. cbn beta. rewrite (nth_map_getb (fun s => Z.land s bits =? bits)) by exact Hi. apply Z.eqb_eq.
Qed.

(** * Setting and clearing *)
(** the base positions named by a list of ranges of a window *)
Definition covered (sh : list Z) (ranges : list (Z * Z)) (p : Z) : Prop :=
  exists s e, In (s, e) ranges /\ In p (pyslice sh (Some (Z.min s e)) (Some (Z.max s e))).
Lemma covered_dec sh ranges p : covered sh ranges p \/ ~ covered sh ranges p.
Proof.
  unfold covered. induction ranges as [|[s e] l IH]; [right; intros (s & e & [] & _)|].
  destruct (in_dec Z.eq_dec p (pyslice sh (Some (Z.min s e)) (Some (Z.max s e)))) as [Y|N]; [left; exists s, e; split; [left; reflexivity|exact Y]|].
  destruct IH as [(s' & e' & X & Y)|IH]; [left; exists s', e'; split; [right; exact X|exact Y]|].
  right. intros (s' & e' & [X|X] & Y); [injection X as <- <-; contradiction|]. apply IH. exists s', e'. split; assumption.
Qed.
Lemma zlen_arr_set h n a m : (n < length (hp_arr h))%nat -> zlen a = zlen (arr h n) -> zlen (arr (set_arr h n a) m) = zlen (arr h m).
Proof. intros L E. destruct (Nat.eq_dec n m) as [<- |N]; [rewrite arr_set_eq by exact L; exact E|rewrite arr_set_neq by exact N; reflexivity]. Qed.
Lemma upd_style_facts f h r ps : raw_ok h r -> Forall (fun p => 0 <= p < zlen (arr h (r_data r))) ps ->
  let h' := upd_style f h r ps in
  (forall p, 0 <= p -> getb (arr h' (r_style r)) p = if zmem p ps then f (getb (arr h (r_style r)) p) else getb (arr h (r_style r)) p) /\
  (forall n, n <> r_style r -> arr h' n = arr h n) /\ hp_ext h' = hp_ext h /\ (forall m, zlen (arr h' m) = zlen (arr h m)) /\
  (forall x, raw_ok h x -> raw_ok h' x /\ shows h' x = shows h x).
Proof.
  intros R P. cbn zeta. pose proof R as (R1 & R2 & R3 & R4 & R5 & W). rewrite <- R5 in P. unfold upd_style.
  assert (Z : zlen (update f (arr h (r_style r)) ps) = zlen (arr h (r_style r))) by (apply zlen_update; exact P).
  split; [intros p Hp; rewrite arr_set_eq by exact R2; apply getb_update; assumption|]. split; [intros n Hn; apply arr_set_neq; congruence|].
  split; [reflexivity|]. split; [intros m; apply zlen_arr_set; assumption|]. intros x Hx. split; [apply raw_ok_set_arr; assumption|].
  apply shows_same, zlen_arr_set; assumption.
Qed.
Lemma on_ranges_spec f r (Hf : forall x, f (f x) = f x) : forall ranges h, raw_ok h r ->
  let h' := on_ranges f h r ranges in
  (forall p, 0 <= p -> covered (shows h r) ranges p -> getb (arr h' (r_style r)) p = f (getb (arr h (r_style r)) p)) /\
  (forall p, 0 <= p -> ~ covered (shows h r) ranges p -> getb (arr h' (r_style r)) p = getb (arr h (r_style r)) p) /\
  (forall n, n <> r_style r -> arr h' n = arr h n) /\ hp_ext h' = hp_ext h /\ (forall m, zlen (arr h' m) = zlen (arr h m)) /\
  (forall x, raw_ok h x -> raw_ok h' x /\ shows h' x = shows h x).
Proof.
  induction ranges as [|[s e] l IH]; intros h R; cbn zeta.
  - cbn. split; [intros p Hp (s & e & [] & _)|]. auto 10.
  - unfold on_ranges. cbn [fold_left].
    set (h1 := let '(s, e) := if e <? s then (e, s) else (s, e) in upd_style f h r (win_slice (raw_len h r) (r_win r) (Some s) (Some e))).
    set (ps := pyslice (shows h r) (Some (Z.min s e)) (Some (Z.max s e))).
    assert (E : h1 = upd_style f h r ps).
    { unfold h1, ps. destruct (Z.ltb_spec e s); rewrite win_slice_shows by exact R.
      - rewrite Z.min_r, Z.max_l by lia. reflexivity.
      - rewrite Z.min_l, Z.max_r by lia. reflexivity. }
    assert (P : Forall (fun p => 0 <= p < zlen (arr h (r_data r))) ps) by (apply pyslice_Forall, shows_range, R).
    destruct (upd_style_facts f h r ps R P) as (U1 & U2 & U3 & U4 & U5). rewrite <- E in U1, U2, U3, U4, U5.
    destruct (U5 r R) as [R1 S1]. specialize (IH h1 R1). cbn zeta in IH. unfold on_ranges in IH. rewrite S1 in IH.
    destruct IH as (I1 & I2 & I3 & I4 & I5 & I6).
    assert (Hc : forall p, covered (shows h r) ((s, e) :: l) p <-> In p ps \/ covered (shows h r) l p).
    { intros p. unfold covered. split.
      - intros (s' & e' & [X|X] & Y); [injection X as <- <-; left; exact Y|right; exists s', e'; split; assumption].
      - intros [Y|(s' & e' & X & Y)]; [exists s, e; split; [left; reflexivity|exact Y]|exists s', e'; split; [right; exact X|exact Y]]. }
    split; [|split; [|split; [|split; [|split]]]].
    + intros p Hp C. apply Hc in C. destruct (covered_dec (shows h r) l p) as [C'|C'].
      * rewrite (I1 p Hp C'), (U1 p Hp). destruct (zmem p ps); [apply Hf|reflexivity].
      * destruct C as [C|C]; [|contradiction]. rewrite (I2 p Hp C'), (U1 p Hp). apply zmem_In in C. rewrite C. reflexivity.
    + intros p Hp C. rewrite Hc in C. rewrite (I2 p Hp) by tauto. rewrite (U1 p Hp). destruct (zmem p ps) eqn:Ez; [|reflexivity]. apply zmem_In in Ez. tauto.
    + intros n Hn. rewrite I3, U2 by exact Hn. reflexivity.
    + rewrite I4, U3. reflexivity.
    + intros m. rewrite I5, U4. reflexivity.
    + intros x Hx. destruct (U5 x Hx) as [X1 X2]. destruct (I6 x X1) as [X3 X4]. split; [exact X3|congruence].
Qed.
Lemma land_mask x b : 0 <= x < 256 -> Z.land x (Z.lxor 0xff b) = Z.ldiff x b.
Proof.
  intros Hx. apply Z.bits_inj'. intros i Hi. rewrite Z.land_spec, Z.ldiff_spec, Z.lxor_spec.
  destruct (Z.lt_ge_cases i 8) as [L|L].
  - replace (Z.testbit 255 i) with true; [reflexivity|].
    assert (C : i = 0 \/ i = 1 \/ i = 2 \/ i = 3 \/ i = 4 \/ i = 5 \/ i = 6 \/ i = 7) by lia.
    destruct C as [-> |[-> |[-> |[-> |[-> |[-> |[-> | ->]]]]]]]; reflexivity.
  - replace (Z.testbit x i) with false; [reflexivity|]. symmetry. destruct (Z.eq_dec x 0) as [-> |Nx]; [apply Z.bits_0|].
    apply Z.bits_above_log2; [lia|]. apply Z.log2_lt_pow2; [lia|]. apply Z.lt_le_trans with (2 ^ 8); [cbn; lia|]. apply Z.pow_le_mono_r; lia.
Qed.

(** * Binary search *)
Section BISECT.
Variables (right : bool) (l : list (Z * Z)) (x : Z * Z).
Let Q (k : Z) : bool := let y := nth (Z.to_nat k) l (0, 0) in if right then negb (plt x y) else plt y x.
Hypothesis mono : forall j k, 0 <= j <= k -> k < zlen l -> Q k = true -> Q j = true.
Lemma bisect_spec : forall fuel lo hi, 0 <= lo <= hi -> hi <= zlen l -> hi - lo < Z.of_nat fuel ->
  (forall k, 0 <= k < lo -> Q k = true) -> (forall k, hi <= k < zlen l -> Q k = false) ->
  let m := bisect right fuel l x lo hi in
  lo <= m <= hi /\ (forall k, 0 <= k < m -> Q k = true) /\ (forall k, m <= k < zlen l -> Q k = false).
Proof.
  induction fuel as [|f IH]; intros lo hi H1 H2 Hf HA HB; [lia|]. cbn zeta. cbn [bisect]. destruct (Z.ltb_spec lo hi) as [L|L].
  - assert (Hm : lo <= (lo + hi) / 2 < hi) by (Z.to_euclidean_division_equations; lia). set (mid := (lo + hi) / 2) in *.
    assert (EQ : (if right then if plt x (nth (Z.to_nat mid) l (0, 0)) then bisect right f l x lo mid else bisect right f l x (mid + 1) hi
                  else if plt (nth (Z.to_nat mid) l (0, 0)) x then bisect right f l x (mid + 1) hi else bisect right f l x lo mid)
                 = if Q mid then bisect right f l x (mid + 1) hi else bisect right f l x lo mid).
    { unfold Q. destruct right; [destruct (plt x _); reflexivity|reflexivity]. }
    rewrite EQ. destruct (Q mid) eqn:Eq.
    + assert (HA' : forall k, 0 <= k < mid + 1 -> Q k = true) by (intros k Hk; apply (mono k mid); [lia|lia|exact Eq]).
      destruct (IH (mid + 1) hi ltac:(lia) H2 ltac:(lia) HA' HB) as (I1 & I2 & I3). split; [lia|]. split; assumption.
    + assert (HB' : forall k, mid <= k < zlen l -> Q k = false).
      { intros k Hk. destruct (Q k) eqn:Ek; [|reflexivity]. rewrite (mono mid k) in Eq by (first [lia|exact Ek]). discriminate. }
      destruct (IH lo mid ltac:(lia) ltac:(lia) ltac:(lia) HA HB') as (I1 & I2 & I3). split; [lia|]. split; assumption.
  - assert (lo = hi) by lia. subst hi. split; [lia|]. split; assumption.
Qed.
End BISECT.

Lemma apart_nth l : forall f k, apart f l -> 0 <= k < zlen l -> f < fst (nth (Z.to_nat k) l (0, 0)) < snd (nth (Z.to_nat k) l (0, 0)).
Proof.
  induction l as [|[s e] l IH]; intros f k H Hk; [cbn in Hk; lia|]. rewrite zlen_cons in Hk. destruct H as [H1 H2].
  destruct (Z.eq_dec k 0) as [-> |N]; [cbn; lia|]. replace (Z.to_nat k) with (S (Z.to_nat (k - 1))) by lia. cbn [nth]. specialize (IH e (k - 1) H2 ltac:(lia)). lia.
Qed.
Lemma apart_nth_lt l : forall f j k, apart f l -> 0 <= j < k -> k < zlen l -> fst (nth (Z.to_nat j) l (0, 0)) < fst (nth (Z.to_nat k) l (0, 0)).
Proof.
  induction l as [|[s e] l IH]; intros f j k H Hj Hk; [cbn in Hk; lia|]. rewrite zlen_cons in Hk. destruct H as [H1 H2].
  replace (Z.to_nat k) with (S (Z.to_nat (k - 1))) by lia. cbn [nth]. destruct (Z.eq_dec j 0) as [-> |N].
  - cbn [Z.to_nat fst]. pose proof (apart_nth l e (k - 1) H2 ltac:(lia)). lia.
  - replace (Z.to_nat j) with (S (Z.to_nat (j - 1))) by lia. cbn [nth]. apply (IH e); [exact H2|lia|lia].
Qed.
Lemma In_nth_z {A} (x d : A) l : In x l -> exists k, 0 <= k < zlen l /\ nth (Z.to_nat k) l d = x.
Proof. intros H. destruct (In_nth l x d H) as (n & L & E). exists (Z.of_nat n). unfold zlen. rewrite Nat2Z.id. split; [lia|exact E]. Qed.

(** What the next and previous start mean, without searching. *)
Definition next_start (rs : list (Z * Z)) (i : Z) (res : option Z) : Prop :=
  match res with
  | None => rs = []
  | Some v => (exists e, In (v, e) rs) /\
      ((i < v /\ forall s e, In (s, e) rs -> i < s -> v <= s) \/
       ((forall s e, In (s, e) rs -> s <= i) /\ forall s e, In (s, e) rs -> v <= s))
  end.
Definition prev_start (rs : list (Z * Z)) (i : Z) (res : option Z) : Prop :=
  match res with
  | None => rs = []
  | Some v => (exists e, In (v, e) rs) /\
      ((v < i /\ forall s e, In (s, e) rs -> s < i -> s <= v) \/
       ((forall s e, In (s, e) rs -> i <= s) /\ forall s e, In (s, e) rs -> s <= v))
  end.
Lemma nth_pair_In (l : list (Z * Z)) k : 0 <= k < zlen l -> exists e, In (fst (nth (Z.to_nat k) l (0, 0)), e) l.
Proof. intros H. exists (snd (nth (Z.to_nat k) l (0, 0))). rewrite <- surjective_pairing. apply nth_In. unfold zlen in H. lia. Qed.
Lemma fst_le (l : list (Z * Z)) f j k : apart f l -> 0 <= j <= k -> k < zlen l -> fst (nth (Z.to_nat j) l (0, 0)) <= fst (nth (Z.to_nat k) l (0, 0)).
Proof. intros A H K. destruct (Z.eq_dec j k) as [-> |N]; [lia|]. pose proof (apart_nth_lt l f j k A ltac:(lia) K). lia. Qed.
Lemma next_in_spec l i : apart (-1) l -> next_start l i (next_in l i).
Proof.
  intros A. unfold next_in. destruct (Z.ltb_spec 0 (zlen l)) as [L|L].
  2:{ destruct l; [reflexivity|]. rewrite zlen_cons in L. pose proof (zlen_nonneg l). lia. }
  assert (QQ : forall k, 0 <= k < zlen l -> negb (plt (i + 1, 0) (nth (Z.to_nat k) l (0, 0))) = (fst (nth (Z.to_nat k) l (0, 0)) <=? i)).
  { intros k Hk. pose proof (apart_nth l (-1) k A Hk). unfold plt. cbn [fst snd]. lia. }
  unfold bisect_right.
  destruct (bisect_spec true l (i + 1, 0)) with (fuel := S (length l)) (lo := 0) (hi := zlen l) as (B1 & B2 & B3); try (unfold zlen; lia).
  { cbn zeta beta iota. intros j k Hj Hk. rewrite !QQ by lia. pose proof (fst_le l (-1) j k A Hj Hk). lia. }
  set (m := bisect true (S (length l)) l (i + 1, 0) 0 (zlen l)) in *. cbn zeta beta iota in B2, B3.
  destruct (Z.leb_spec (zlen l) m) as [Lm|Lm]; cbn [next_start].
  - split; [apply nth_pair_In; lia|]. right. split.
    + intros s e Hin. destruct (In_nth_z _ (0, 0) _ Hin) as (k & Hk & Ek). specialize (B2 k ltac:(lia)). rewrite QQ, Ek in B2 by lia. cbn [fst] in B2. lia.
    + intros s e Hin. destruct (In_nth_z _ (0, 0) _ Hin) as (k & Hk & Ek). pose proof (fst_le l (-1) 0 k A ltac:(lia) ltac:(lia)) as X. rewrite Ek in X. exact X.
  - split; [apply nth_pair_In; lia|]. left. split.
    + specialize (B3 m ltac:(lia)). rewrite QQ in B3 by lia. lia.
    + intros s e Hin Hs. destruct (In_nth_z _ (0, 0) _ Hin) as (k & Hk & Ek). destruct (Z.lt_ge_cases k m) as [Hkm|Hkm].
      * specialize (B2 k ltac:(lia)). rewrite QQ, Ek in B2 by lia. cbn [fst] in B2. lia.
      * pose proof (fst_le l (-1) m k A ltac:(lia) ltac:(lia)) as X. rewrite Ek in X. exact X.
Qed.
(** the code compares with index - 1, so it answers for index - 1 *)
Lemma prev_in_spec l i : apart (-1) l -> prev_start l (i - 1) (prev_in l i).
Proof.
  intros A. unfold prev_in. destruct (Z.ltb_spec 0 (zlen l)) as [L|L].
  2:{ destruct l; [reflexivity|]. rewrite zlen_cons in L. pose proof (zlen_nonneg l). lia. }
  assert (QQ : forall k, 0 <= k < zlen l -> plt (nth (Z.to_nat k) l (0, 0)) (i - 1, 0) = (fst (nth (Z.to_nat k) l (0, 0)) <? i - 1)).
  { intros k Hk. pose proof (apart_nth l (-1) k A Hk). unfold plt. cbn [fst snd]. lia. }
  unfold bisect_left.
  destruct (bisect_spec false l (i - 1, 0)) with (fuel := S (length l)) (lo := 0) (hi := zlen l) as (B1 & B2 & B3); try (unfold zlen; lia).
  { cbn zeta beta iota. intros j k Hj Hk. rewrite !QQ by lia. pose proof (fst_le l (-1) j k A Hj Hk). lia. }
  set (m := bisect false (S (length l)) l (i - 1, 0) 0 (zlen l)) in *. cbn zeta beta iota in B2, B3.
  destruct (Z.ltb_spec (m - 1) 0) as [Lm|Lm]; cbn [prev_start].
  - split; [apply nth_pair_In; lia|]. right. split.
    + intros s e Hin. destruct (In_nth_z _ (0, 0) _ Hin) as (k & Hk & Ek). specialize (B3 k ltac:(lia)). rewrite QQ, Ek in B3 by lia. cbn [fst] in B3. lia.
    + intros s e Hin. destruct (In_nth_z _ (0, 0) _ Hin) as (k & Hk & Ek). pose proof (fst_le l (-1) k (zlen l - 1) A ltac:(lia) ltac:(lia)) as X. rewrite Ek in X. exact X.
  - split; [apply nth_pair_In; lia|]. left. split.
    + specialize (B2 (m - 1) ltac:(lia)). rewrite QQ in B2 by lia. lia.
    + intros s e Hin Hs. destruct (In_nth_z _ (0, 0) _ Hin) as (k & Hk & Ek). destruct (Z.lt_ge_cases k m) as [Hkm|Hkm].
      * pose proof (fst_le l (-1) k (m - 1) A ltac:(lia) ltac:(lia)) as X. rewrite Ek in X. exact X.
      * specialize (B3 k ltac:(lia)). rewrite QQ, Ek in B3 by lia. cbn [fst] in B3. lia.
Qed.
