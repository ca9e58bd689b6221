(** Annotations and windows made while listing segments. *)
From Coq Require Import String.
From Verif Require Import Base BaseLemmas SegModel SegSpec SegProofs SegProofs2 SegProofs5 TextModel EditModel EditProofs SegListModel SegListSpec.

(** * Annotations *)
Lemma dget_app {V} p (a b : dict V) : dget p (a ++ b) = match dget p a with Some x => Some x | None => dget p b end.
Proof. induction a as [|[k v] a IH]; [reflexivity|]. cbn [app dget]. destruct (p =? k); [reflexivity|exact IH]. Qed.
Lemma zmem_app p a b : zmem p (a ++ b) = zmem p a || zmem p b.
Proof. unfold zmem. apply existsb_app. Qed.

Section M.
  Variables (r : raw).
  Lemma marks_len h area notes h' : marks h r area notes h' -> forall a, zlen (arr h' a) = zlen (arr h a).
  Proof.
    intros M a. destruct (Nat.eq_dec a (r_style r)) as [->|N]; [exact (mk_len _ _ _ _ _ M)|]. rewrite (mk_arr _ _ _ _ _ M a N). reflexivity.
  Qed.
  Lemma marks_raw h area notes h' x : marks h r area notes h' -> raw_ok h x -> raw_ok h' x /\ shows h' x = shows h x /\ raw_len h' x = raw_len h x.
  Proof.
    intros M (X1 & X2 & X3 & X4 & X5 & X6). pose proof (marks_len _ _ _ _ M) as L. destruct (mk_alloc _ _ _ _ _ M) as [A B].
    split; [|split; [apply shows_same, L|unfold raw_len; rewrite L; reflexivity]].
    unfold raw_ok. rewrite A, B, !L. auto 8.
  Qed.
  Lemma marks_refl h : marks h r [] [] h.
  Proof. constructor; try reflexivity. split; reflexivity. Qed.
  Lemma marks_trans h a1 n1 h1 a2 n2 h2 : raw_ok h r -> marks h r a1 n1 h1 -> marks h1 r a2 n2 h2 -> marks h r (a1 ++ a2) (n1 ++ n2) h2.
  Proof.
    intros R M N. destruct (marks_raw _ _ _ _ r M R) as (R1 & S1 & L1). constructor.
    - destruct (mk_alloc _ _ _ _ _ M), (mk_alloc _ _ _ _ _ N). split; congruence.
    - intros a Ha. rewrite (mk_arr _ _ _ _ _ N a Ha). exact (mk_arr _ _ _ _ _ M a Ha).
    - rewrite (mk_len _ _ _ _ _ N). exact (mk_len _ _ _ _ _ M).
    - intros p Hp. pose proof (mk_style _ _ _ _ _ N p) as X. rewrite L1, S1 in X. rewrite (X Hp), zmem_app, (mk_style _ _ _ _ _ M p Hp).
      destruct (zmem p a1), (zmem p a2); reflexivity.
    - intros q Hq Hn. pose proof (mk_style_out _ _ _ _ _ N q Hq) as X. rewrite S1 in X. rewrite (X Hn). exact (mk_style_out _ _ _ _ _ M q Hq Hn).
    - intros e He. rewrite (mk_ext _ _ _ _ _ N e He). exact (mk_ext _ _ _ _ _ M e He).
    - rewrite (mk_user _ _ _ _ _ N). exact (mk_user _ _ _ _ _ M).
    - intros p Hp. pose proof (mk_note _ _ _ _ _ N p) as X. rewrite L1, S1 in X. rewrite (X Hp), rev_app_distr, dget_app, (mk_note _ _ _ _ _ M p Hp).
      destruct (dget p (rev n2)); reflexivity.
    - intros q Hn. pose proof (mk_note_out _ _ _ _ _ N q) as X. rewrite S1 in X. rewrite (X Hn). exact (mk_note_out _ _ _ _ _ M q Hn).
  Qed.

  (** A window [s] of [r] at the positions [ps]. *)
  Record window (h : heap) (s : raw) (ps : list Z) : Prop := mkWn {
    wn_ok : raw_ok h s;
    wn_data : r_data s = r_data r; wn_style : r_style s = r_style r; wn_extra : r_extra s = r_extra r;
    wn_range : Forall (fun p => 0 <= p < raw_len h r) ps;
    wn_shows : shows h s = map (getb (shows h r)) ps }.
  Lemma window_len h s ps : window h s ps -> raw_len h s = zlen ps.
  Proof. intros W. rewrite <- (zlen_shows h s (wn_ok _ _ _ W)), (wn_shows _ _ _ W), zlen_map. reflexivity. Qed.
  Lemma window_marks h area notes h' s ps : raw_ok h r -> marks h r area notes h' -> window h s ps -> window h' s ps.
  Proof.
    intros R M [W1 W2 W3 W4 W5 W6]. destruct (marks_raw _ _ _ _ s M W1) as (S1 & S2 & _). destruct (marks_raw _ _ _ _ r M R) as (R1 & R2 & R3).
    constructor; try assumption; [rewrite R3; exact W5|rewrite S2, R2; exact W6].
  Qed.

  Lemma marks_style h s ps f : raw_ok h r -> NoDup (shows h r) -> window h s ps -> (forall x, f x = style_bits k_data) ->
    marks h r ps [] (upd_style f h s (shows h s)).
  Proof.
    intros R Nd W F. pose proof (zlen_shows h r R) as Ls. pose proof (shows_range h r R) as Sr. destruct W as [W1 W2 W3 W4 W5 W6]. unfold upd_style. rewrite W3.
    assert (Rg : Forall (fun p => 0 <= p < zlen (arr h (r_style r))) (shows h s)).
    { pose proof (shows_range h s W1) as X. rewrite W2 in X. destruct R as (_ & _ & _ & _ & R5 & _). rewrite R5. exact X. }
    assert (Rs : (r_style r < length (hp_arr h))%nat) by apply R.
    set (a := update f (arr h (r_style r)) (shows h s)).
    assert (La : zlen a = zlen (arr h (r_style r))) by (apply zlen_update; exact Rg).
    assert (St : forall q, 0 <= q -> getb a q = if zmem q (shows h s) then style_bits k_data else getb (arr h (r_style r)) q).
    { intros q Hq. unfold a. rewrite getb_update by assumption. destruct (zmem q (shows h s)); [apply F|reflexivity]. }
    constructor.
    - cbn [set_arr hp_arr hp_ext]. rewrite length_replace. split; reflexivity.
    - intros n Hn. apply arr_set_neq. congruence.
    - rewrite arr_set_eq by exact Rs. exact La.
    - intros p Hp. rewrite arr_set_eq by exact Rs.
      assert (Hq : 0 <= getb (shows h r) p).
      { rewrite Forall_forall in Sr. apply (Sr (getb (shows h r) p)). apply getb_In. lia. }
      rewrite (St _ Hq). replace (zmem (getb (shows h r) p) (shows h s)) with (zmem p ps); [reflexivity|].
      apply eq_true_iff_eq. rewrite !zmem_In, W6, in_map_iff. split.
      + intros Hi. exists p. split; [reflexivity|exact Hi].
      + intros (x & E & Hx). rewrite Forall_forall in W5. specialize (W5 x Hx).
        rewrite (getb_inj (shows h r) x p Nd) in Hx; [exact Hx| | |exact E]; lia.
    - intros q Hq Hn. rewrite arr_set_eq by exact Rs. rewrite (St q Hq). destruct (zmem q (shows h s)) eqn:E; [|reflexivity]. exfalso. apply Hn.
      apply zmem_In in E. rewrite W6, in_map_iff in E. destruct E as (x & <- & Hx). apply getb_In. rewrite Forall_forall in W5. specialize (W5 x Hx). lia.
    - reflexivity.
    - reflexivity.
    - reflexivity.
    - reflexivity.
  Qed.
  Lemma marks_data h s ps : raw_ok h r -> NoDup (shows h r) -> window h s ps -> marks h r ps [] (mark_data h s).
  Proof.
    intros R Nd W. unfold mark_data. rewrite win_slice_shows by apply W.
    replace (pyslice (shows h s) None None) with (shows h s); [apply marks_style; auto|].
    unfold pyslice, bound. symmetry. apply slice_full.
  Qed.
  Lemma marks_comment h s ps i t : raw_ok h r -> NoDup (shows h r) -> window h s ps -> 0 <= i < zlen ps ->
    exists h', set_comment_at h s i t = (h', Ok tt) /\ marks h r [] [(getb ps i, t)] h'.
  Proof.
    intros R Nd W Hi. pose proof (window_len _ _ _ W) as Lw. pose proof (zlen_shows h r R) as Ls. destruct W as [W1 W2 W3 W4 W5 W6].
    unfold set_comment_at. rewrite (raw_index_shows h s i W1) by lia. rewrite W6, getb_map by exact Hi.
    assert (Hp : 0 <= getb ps i < raw_len h r) by (rewrite Forall_forall in W5; apply W5, getb_In; exact Hi).
    assert (Rx : (r_extra r < length (hp_ext h))%nat) by apply R. unfold set_comments, comments. rewrite W4.
    eexists. split; [reflexivity|].
    set (e := mkE _ _). assert (Ce : forall q, dget q (e_comments e) = if getb (shows h r) (getb ps i) =? q then Some t else dget q (comments h r)).
    { intros q. unfold e. cbn [e_comments]. apply dget_dset. }
    constructor.
    - cbn [set_ext hp_arr hp_ext]. rewrite length_replace. split; reflexivity.
    - reflexivity.
    - reflexivity.
    - reflexivity.
    - reflexivity.
    - intros n Hn. apply ext_set_neq. congruence.
    - rewrite ext_set_eq by exact Rx. reflexivity.
    - intros p Hq. unfold comments at 1. rewrite ext_set_eq by exact Rx. rewrite Ce. cbn [rev app dget].
      destruct (Z.eqb_spec p (getb ps i)) as [->|N]; [rewrite Z.eqb_refl; reflexivity|].
      destruct (Z.eqb_spec (getb (shows h r) (getb ps i)) (getb (shows h r) p)) as [E|E]; [|reflexivity].
      exfalso. apply N. symmetry. apply (getb_inj (shows h r) _ _ Nd); [| |exact E]; lia.
    - intros q Hn. unfold comments at 1. rewrite ext_set_eq by exact Rx. rewrite Ce.
      destruct (Z.eqb_spec (getb (shows h r) (getb ps i)) q) as [E|E]; [|reflexivity]. exfalso. apply Hn. rewrite <- E. apply getb_In. lia.
  Qed.
  Definition note_list (ps : list Z) (notes : list (Z * list Z)) : list (Z * list Z) := map (fun it => (getb ps (fst it), snd it)) notes.
  Lemma marks_each s ps notes : forall h, raw_ok h r -> NoDup (shows h r) -> window h s ps -> Forall (fun it => 0 <= fst it < zlen ps) notes ->
    exists h', each (fun h it => set_comment_at h s (fst it) (snd it)) notes h = (h', Ok tt) /\ marks h r [] (note_list ps notes) h'.
  Proof.
    induction notes as [|[i t] notes IH]; intros h R Nd W F; cbn [each fst snd].
    - exists h. split; [reflexivity|apply marks_refl].
    - inversion F as [|x y F1 F2]; subst. destruct (marks_comment h s ps i t R Nd W F1) as (h1 & E1 & M1). rewrite E1.
      destruct (marks_raw _ _ _ _ r M1 R) as (R1 & S1 & L1). destruct (IH h1 R1) as (h2 & E2 & M2); [rewrite S1; exact Nd|exact (window_marks _ _ _ _ _ _ R M1 W)|exact F2|].
      exists h2. split; [exact E2|]. exact (marks_trans h [] [(getb ps i, t)] h1 [] _ h2 R M1 M2).
  Qed.
  Lemma marks_annotate s ps notes h : raw_ok h r -> NoDup (shows h r) -> window h s ps -> Forall (fun it => 0 <= fst it < zlen ps) notes ->
    exists h', annotate h s notes = (h', Ok tt) /\ marks h r ps (note_list ps notes) h'.
  Proof.
    intros R Nd W F. pose proof (marks_data h s ps R Nd W) as M1. destruct (marks_raw _ _ _ _ r M1 R) as (R1 & S1 & L1).
    destruct (marks_each s ps notes (mark_data h s) R1) as (h2 & E2 & M2); [rewrite S1; exact Nd|exact (window_marks _ _ _ _ _ _ R M1 W)|exact F|].
    exists h2. split; [exact E2|]. pose proof (marks_trans _ _ _ _ _ _ _ R M1 M2) as M. rewrite app_nil_r in M. exact M.
  Qed.

  (** * Windows *)
  Lemma slice_window h a b : raw_ok h r -> 0 <= a <= b -> b <= raw_len h r ->
    window h (raw_slice h r (Some a) (Some b)) (zrange a b).
  Proof.
    intros R Ha Hb. destruct (raw_slice_shows h r (Some a) (Some b) R) as (X1 & X2 & X3 & X4 & X5). pose proof (zlen_shows h r R) as L.
    constructor; try assumption.
    - apply Forall_forall. intros p Hp. apply In_zrange in Hp. lia.
    - rewrite X2. unfold pyslice, bound. replace (a <? 0) with false by lia. replace (b <? 0) with false by lia.
      rewrite <- slice_map_range by lia. f_equal; lia.
  Qed.
  Lemma slice_window_end h a : raw_ok h r -> 0 <= a <= raw_len h r -> window h (raw_slice h r (Some a) None) (zrange a (raw_len h r)).
  Proof.
    intros R Ha. destruct (raw_slice_shows h r (Some a) None R) as (X1 & X2 & X3 & X4 & X5). pose proof (zlen_shows h r R) as L.
    constructor; try assumption.
    - apply Forall_forall. intros p Hp. apply In_zrange in Hp. lia.
    - rewrite X2. unfold pyslice, bound. replace (a <? 0) with false by lia. rewrite L, <- slice_map_range by lia. f_equal; lia.
  Qed.
  Lemma window_slice h s ps a b : raw_ok h r -> window h s ps -> window h (raw_slice h s a b) (pyslice ps a b).
  Proof.
    intros R [W1 W2 W3 W4 W5 W6]. destruct (raw_slice_shows h s a b W1) as (X1 & X2 & X3 & X4 & X5). constructor; try congruence; try assumption.
    - apply pyslice_Forall. exact W5.
    - rewrite X2, W6. apply pyslice_map.
  Qed.
  Lemma order_window h o : raw_ok h r -> raw_len h r <= 2147483648 -> order_ok (raw_len h r) o ->
    exists s, raw_indexed h r (to_numpy_list o) = Ok s /\ window h s o.
  Proof.
    intros R L O. destruct (order_segment h r o R L O) as (s & E & S1 & S2 & S3 & S4 & S5 & _). exists s. split; [exact E|].
    constructor; try assumption. apply O.
  Qed.
  Lemma whole_window h : raw_ok h r -> window h r (zrange 0 (raw_len h r)).
  Proof.
    intros R. constructor; try reflexivity; try assumption.
    - apply Forall_forall. intros p Hp. apply In_zrange in Hp. lia.
    - rewrite <- (zlen_shows h r R). symmetry. apply map_range.
  Qed.
  Lemma window_seg h s e : raw_ok h r -> window h (g_raw s) (n_at e) -> g_kind s = n_kind e -> g_name s = n_name e -> g_origin s = n_origin e ->
    seg_is h r s e.
  Proof.
    intros R [W1 W2 W3 W4 W5 W6] K N O. constructor; try assumption.
    rewrite (read_data_shows h _ W1), W6, W2, map_map, (read_data_shows h r R). apply map_ext_in. intros p Hp.
    rewrite Forall_forall in W5. rewrite getb_map by (rewrite zlen_shows by exact R; apply W5; exact Hp). reflexivity.
  Qed.
End M.

(** A segment as a line says. *)
Definition made (r : raw) (h : heap) (s : seg) (e : entry) : Prop :=
  window r h (g_raw s) (n_at e) /\ g_kind s = n_kind e /\ g_name s = n_name e /\ g_origin s = n_origin e.
Lemma made_seg r h s e : raw_ok h r -> made r h s e -> seg_is h r s e.
Proof. intros R (W & K & N & O). apply window_seg; assumption. Qed.
Lemma made_all r h l es : raw_ok h r -> Forall2 (made r h) l es -> Forall2 (seg_is h r) l es.
Proof. intros R. induction 1; constructor; [apply made_seg|]; assumption. Qed.
Lemma made_marks r h area notes h' l es : raw_ok h r -> marks h r area notes h' -> Forall2 (made r h) l es -> Forall2 (made r h') l es.
Proof. intros R M. induction 1 as [|s e l es (W & X)]; constructor; [|assumption]. split; [exact (window_marks r _ _ _ _ _ _ R M W)|exact X]. Qed.
Lemma Forall2_join {A B} (P : A -> B -> Prop) a b c d : Forall2 P a b -> Forall2 P c d -> Forall2 P (a ++ c) (b ++ d).
Proof. induction 1; intros X; [exact X|]. cbn [app]. constructor; auto. Qed.
