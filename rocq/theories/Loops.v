(** Following links inside a finite disk: either the walk stops within as many
    steps as there are sectors, or it never stops. *)
From Verif Require Import Base BaseLemmas.

Lemma NoDup_map_on {A B} (g : A -> B) l : NoDup l ->
  (forall x y, In x l -> In y l -> g x = g y -> x = y) -> NoDup (map g l).
Proof.
  induction 1 as [|x l Hx Hl IH]; intros Hg; [constructor|]. cbn [map]. constructor.
  - intros C. apply in_map_iff in C. destruct C as (y & Ey & Hy).
    rewrite (Hg y x) in Hy; [contradiction|right; assumption|left; reflexivity|assumption].
  - apply IH. intros y z Hy Hz. apply Hg; right; assumption.
Qed.

Section Walk.
  Variables (f : Z -> Z) (good : Z -> bool) (N : nat).

  Fixpoint at_ (i : nat) (x : Z) : Z := match i with O => x | S i' => at_ i' (f x) end.
  (** The first [m] stops of the walk are all good. *)
  Fixpoint alive (m : nat) (x : Z) : bool :=
    match m with O => true | S m' => good x && alive m' (f x) end.

  Lemma at_add i j x : at_ (i + j) x = at_ j (at_ i x).
  Proof. revert x. induction i as [|i IH]; intros x; [reflexivity|]. cbn [Nat.add at_]. apply IH. Qed.
  Lemma alive_at m x : alive m x = true <-> forall i, (i < m)%nat -> good (at_ i x) = true.
  Proof.
    revert x. induction m as [|m IH]; intros x; cbn [alive].
    - split; [intros _ i Hi; lia|reflexivity].
    - rewrite andb_true_iff, IH. split.
      + intros [H1 H2] [|i] Hi; [exact H1|]. cbn [at_]. apply H2. lia.
      + intros H. split; [apply (H O); lia|]. intros i Hi. apply (H (S i)). lia.
  Qed.

  Hypothesis Hgood : forall x, good x = true -> 0 < x < Z.of_nat N.

  (** A walk of more good stops than there are places repeats itself ... *)
  Lemma repeats x : alive (S N) x = true -> exists i j, (i < j <= N)%nat /\ at_ i x = at_ j x.
  Proof.
    intros H. rewrite alive_at in H.
    destruct (existsb (fun i => existsb (fun j => (i <? j)%nat && (at_ i x =? at_ j x)) (seq 0 (S N))) (seq 0 (S N))) eqn:E.
    - apply existsb_exists in E. destruct E as (i & Hi & E). apply existsb_exists in E. destruct E as (j & Hj & E).
      apply in_seq in Hi, Hj. apply andb_prop in E. destruct E as [E1 E2]. apply Nat.ltb_lt in E1.
      exists i, j. split; [lia|]. apply Z.eqb_eq. exact E2.
    - exfalso.
      assert (No : forall i j, (i < j <= N)%nat -> at_ i x <> at_ j x).
      { intros i j Hij Eq. apply not_true_iff_false in E. apply E. apply existsb_exists. exists i.
        split; [apply in_seq; lia|]. apply existsb_exists. exists j. split; [apply in_seq; lia|].
        apply andb_true_iff. split; [apply Nat.ltb_lt; lia|apply Z.eqb_eq; exact Eq]. }
      assert (ND : NoDup (map (fun i => at_ i x) (seq 0 (S N)))).
      { apply NoDup_map_on; [apply seq_NoDup|]. intros i j Hi Hj Eq. apply in_seq in Hi, Hj.
        destruct (Nat.lt_trichotomy i j) as [L|[L|L]]; [|exact L|].
        - exfalso. apply (No i j); [lia|exact Eq].
        - exfalso. apply (No j i); [lia|symmetry; exact Eq]. }
      assert (L : (length (map (fun i => at_ i x) (seq 0 (S N))) <= length (map Z.of_nat (seq 0 N)))%nat).
      { apply NoDup_incl_length; [exact ND|]. intros y Hy. apply in_map_iff in Hy. destruct Hy as (i & <- & Hi).
        apply in_seq in Hi. specialize (H i ltac:(lia)). apply Hgood in H. apply in_map_iff.
        exists (Z.to_nat (at_ i x)). split; [lia|]. apply in_seq. lia. }
      rewrite !map_length, !seq_length in L. lia.
  Qed.
  (** ... and so never stops. *)
  Lemma alive_forever x : alive (S N) x = true -> forall m, alive m x = true.
  Proof.
    intros H. destruct (repeats x H) as (i & j & Hij & E). rewrite alive_at in H.
    assert (G : forall m, good (at_ m x) = true).
    { intros m. induction m as [m IH] using lt_wf_ind. destruct (Nat.lt_ge_cases m (S N)) as [L|L]; [apply H; exact L|].
      replace (at_ m x) with (at_ (m - (j - i)) x); [apply IH; lia|].
      replace m with (j + (m - j))%nat at 2 by lia. rewrite at_add, <- E, <- at_add. f_equal. lia. }
    intros m. apply alive_at. intros k _. apply G.
  Qed.
End Walk.
