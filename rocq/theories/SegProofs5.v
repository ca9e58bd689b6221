(** Proofs about comments, restore data, sessions, user data and comparisons. *)
From Verif Require Import Base BaseLemmas SegModel SegSpec SegProofs SegProofs2 SegProofs3.
From Coq Require Import Permutation.

(** * Dicts *)
Section DICT.
Context {V : Type}.
Implicit Types d : dict V.
Lemma dget_dset k v d q : dget q (dset k v d) = if k =? q then Some v else dget q d.
Proof.
  induction d as [|[a x] d IH]; cbn [dset dget].
  - rewrite (Z.eqb_sym q k). reflexivity.
  - destruct (Z.eqb_spec k a) as [-> |N]; cbn [dget].
    + rewrite (Z.eqb_sym q a). destruct (a =? q); reflexivity.
    + rewrite IH. destruct (Z.eqb_spec q a) as [-> |M]; [replace (k =? a) with false by lia; reflexivity|reflexivity].
Qed.
Lemma keys_dset k v d q : In q (map fst (dset k v d)) <-> q = k \/ In q (map fst d).
Proof.
  induction d as [|[a x] d IH]; cbn [dset map fst In]; [intuition congruence|].
  destruct (Z.eqb_spec k a) as [-> |N]; cbn [map fst In]; [intuition congruence|]. rewrite IH. intuition congruence.
Qed.
Lemma nodup_dset k v d : NoDup (map fst d) -> NoDup (map fst (dset k v d)).
Proof.
  induction d as [|[a x] d IH]; intros H; cbn [dset map fst] in *; [repeat constructor; intros []|].
  inversion H as [|? ? H1 H2]; subst. destruct (Z.eqb_spec k a) as [-> |N]; cbn [map fst]; [constructor; assumption|].
  constructor; [|apply IH; exact H2]. intros X. apply keys_dset in X. destruct X; [congruence|contradiction].
Qed.
Lemma dget_None d q : dget q d = None <-> ~ In q (map fst d).
Proof.
  induction d as [|[a x] d IH]; cbn [dget map fst In]; [tauto|]. destruct (Z.eqb_spec q a) as [-> |N]; [split; [discriminate|tauto]|].
  rewrite IH. split; [intros X [Y|Y]; congruence|tauto].
Qed.
Lemma keys_ddel k d q : In q (map fst (ddel k d)) -> In q (map fst d).
Proof.
  induction d as [|[a x] d IH]; cbn [ddel map fst In]; [tauto|]. destruct (k =? a); [tauto|]. cbn [map fst In]. tauto.
Qed.
Lemma nodup_ddel k d : NoDup (map fst d) -> NoDup (map fst (ddel k d)).
Proof.
  induction d as [|[a x] d IH]; intros H; cbn [ddel map fst] in *; [constructor|]. inversion H as [|? ? H1 H2]; subst.
  destruct (k =? a); [exact H2|]. cbn [map fst]. constructor; [|apply IH; exact H2]. intros X. apply H1, (keys_ddel k), X.
Qed.
Lemma dget_ddel k d q : NoDup (map fst d) -> dget q (ddel k d) = if k =? q then None else dget q d.
Proof.
  induction d as [|[a x] d IH]; intros H; cbn [ddel dget map fst] in *; [destruct (k =? q); reflexivity|]. inversion H as [|? ? H1 H2]; subst.
  destruct (Z.eqb_spec k a) as [-> |N]; cbn [dget].
  - destruct (Z.eqb_spec a q) as [-> |M]; [apply dget_None; exact H1|]. replace (q =? a) with false by lia. reflexivity.
  - destruct (Z.eqb_spec q a) as [-> |M]; [replace (k =? a) with false by lia; reflexivity|]. apply IH. exact H2.
Qed.
Lemma dget_In d q v : NoDup (map fst d) -> (dget q d = Some v <-> In (q, v) d).
Proof.
  induction d as [|[a x] d IH]; intros H; cbn [dget map fst In] in *; [split; [discriminate|intros []]|]. inversion H as [|? ? H1 H2]; subst.
  destruct (Z.eqb_spec q a) as [-> |N].
  - split; [intros X; injection X as ->; left; reflexivity|]. intros [X|X]; [congruence|]. destruct H1. apply (in_map fst) in X. exact X.
  - rewrite IH by exact H2. split; [tauto|]. intros [X|X]; [congruence|exact X].
Qed.
Lemma dget_perm d d' q : NoDup (map fst d) -> Permutation d d' -> dget q d' = dget q d.
Proof.
  intros N P. assert (N' : NoDup (map fst d')) by (eapply Permutation_NoDup; [apply Permutation_map; exact P|exact N]).
  destruct (dget q d) as [v|] eqn:E.
  - apply dget_In; [exact N'|]. eapply Permutation_in; [exact P|]. apply dget_In; assumption.
  - apply dget_None in E. apply dget_None. intros X. apply E. eapply Permutation_in; [apply Permutation_sym, Permutation_map; exact P|exact X].
Qed.
Lemma insert_key_perm kv d : Permutation (kv :: d) (insert_key kv d).
Proof.
  induction d as [|x d IH]; cbn [insert_key]; [reflexivity|]. destruct (fst kv <=? fst x); [reflexivity|].
  eapply perm_trans; [apply perm_swap|]. constructor. exact IH.
Qed.
Lemma sort_dict_perm d : Permutation d (sort_dict d).
Proof. unfold sort_dict. induction d as [|x d IH]; cbn [fold_right]; [constructor|]. eapply perm_trans; [constructor; exact IH|apply insert_key_perm]. Qed.
(** keys in increasing order *)
Fixpoint asc (from : Z) d : Prop := match d with [] => True | (k, _) :: r => from < k /\ asc k r end.
Lemma asc_weak d : forall f g, g <= f -> asc f d -> asc g d.
Proof. destruct d as [|[k v] d]; cbn [asc]; intros; [exact I|]. destruct H0. split; [lia|assumption]. Qed.
Lemma insert_key_asc kv d : forall f, f < fst kv -> ~ In (fst kv) (map fst d) -> asc f d -> asc f (insert_key kv d).
Proof.
  destruct kv as [k v]. cbn [fst]. induction d as [|[a x] d IH]; intros f Hf N H; cbn [insert_key asc map fst In] in *; [tauto|].
  destruct (Z.leb_spec k a) as [L|L]; cbn [asc].
  - split; [exact Hf|]. split; [|apply H]. assert (a <> k) by tauto. lia.
  - split; [apply H|]. apply IH; [exact L|tauto|apply H].
Qed.
Lemma sort_dict_asc d f : NoDup (map fst d) -> Forall (fun k => f < k) (map fst d) -> asc f (sort_dict d).
Proof.
  intros N F. unfold sort_dict. induction d as [|[k v] d IH]; cbn [fold_right map fst] in *; [exact I|].
  inversion N; subst. inversion F; subst. apply insert_key_asc; [assumption| |apply IH; assumption].
  cbn [fst]. intros X. match goal with H : ~ In k _ |- _ => apply H end.
  eapply Permutation_in; [apply Permutation_sym, Permutation_map; apply (sort_dict_perm d)|exact X].
Qed.
Lemma fold_dset_get l : forall d q, NoDup (map fst l) ->
  dget q (fold_left (fun d kv => dset (fst kv) (snd kv) d) l d) = match dget q l with Some v => Some v | None => dget q d end.
Proof.
  induction l as [|[k v] l IH]; intros d q N; cbn [fold_left dget map fst snd] in *; [reflexivity|]. inversion N as [|? ? N1 N2]; subst.
  rewrite IH by exact N2. rewrite dget_dset. destruct (Z.eqb_spec q k) as [-> |M].
  - assert (E : dget k l = None) by (apply dget_None; exact N1). rewrite E, Z.eqb_refl. reflexivity.
  - replace (k =? q) with false by lia. reflexivity.
Qed.
Lemma fold_dset_nodup l : forall d, NoDup (map fst d) -> NoDup (map fst (fold_left (fun d kv => dset (fst kv) (snd kv) d) l d)).
Proof. induction l as [|[k v] l IH]; intros d N; cbn [fold_left]; [exact N|]. apply IH, nodup_dset, N. Qed.
End DICT.

(** * Heaps of the same shape *)
Definition same_shape (h h' : heap) : Prop :=
  (forall m, zlen (arr h' m) = zlen (arr h m)) /\ length (hp_arr h') = length (hp_arr h) /\ length (hp_ext h') = length (hp_ext h).
Lemma shape_refl h : same_shape h h. Proof. repeat split. Qed.
Lemma shape_trans h1 h2 h3 : same_shape h1 h2 -> same_shape h2 h3 -> same_shape h1 h3.
Proof. intros (A & B & C) (A' & B' & C'). split; [intros m; rewrite A'; apply A|]. split; congruence. Qed.
Lemma shape_raw_ok h h' r : same_shape h h' -> raw_ok h r -> raw_ok h' r.
Proof. intros (A & B & C) (R1 & R2 & R3 & R4 & R5 & W). unfold raw_ok. rewrite !A, B, C. auto 10. Qed.
Lemma shape_shows h h' r : same_shape h h' -> shows h' r = shows h r.
Proof. intros (A & _). apply shows_same, A. Qed.
Lemma shape_raw_len h h' r : same_shape h h' -> raw_len h' r = raw_len h r.
Proof. intros (A & _). unfold raw_len. rewrite A. reflexivity. Qed.
Lemma shape_set_comments h r d : same_shape h (set_comments h r d).
Proof. unfold set_comments, set_ext. split; [intros m; reflexivity|]. split; [reflexivity|]. cbn [hp_ext]. apply length_replace. Qed.
Lemma shape_set_arr h n a : (n < length (hp_arr h))%nat -> zlen a = zlen (arr h n) -> same_shape h (set_arr h n a).
Proof. intros L E. split; [intros m; apply zlen_arr_set; assumption|]. split; [apply length_replace|reflexivity]. Qed.
Lemma shape_on_ranges f h r ranges : raw_ok h r -> same_shape h (on_ranges f h r ranges).
Proof.
  revert h. induction ranges as [|[s e] l IH]; intros h R; [apply shape_refl|]. unfold on_ranges. cbn [fold_left].
  match goal with |- same_shape _ (fold_left _ _ ?x) => set (h1 := x) end.
  assert (E : exists ps, Forall (fun p => 0 <= p < zlen (arr h (r_data r))) ps /\ h1 = upd_style f h r ps).
  { unfold h1. destruct (e <? s); rewrite win_slice_shows by exact R; eexists; (split; [apply pyslice_Forall, shows_range, R|reflexivity]). }
  destruct E as (ps & P & E). assert (S1 : same_shape h h1).
  { rewrite E. unfold upd_style. pose proof R as (R1 & R2 & R3 & R4 & R5 & W). apply shape_set_arr; [exact R2|]. apply zlen_update. rewrite R5. exact P. }
  eapply shape_trans; [exact S1|]. apply IH. eapply shape_raw_ok; eassumption.
Qed.
Lemma comments_set h r d x : (r_extra r < length (hp_ext h))%nat -> r_extra x = r_extra r -> comments (set_comments h r d) x = d.
Proof. intros L E. unfold comments, set_comments. rewrite E, ext_set_eq by exact L. reflexivity. Qed.
Lemma comments_ext h h' r : hp_ext h' = hp_ext h -> comments h' r = comments h r.
Proof. intros E. unfold comments, ext. rewrite E. reflexivity. Qed.

(** * Comment operations as updates of a map from positions to texts *)
Inductive cop :=
| CAt (r : raw) (i : Z) (t : list Z) | CRanges (r : raw) (l : list (Z * Z)) (t : list Z)
| CRemove (r : raw) (i : Z) | CClear (r : raw) (l : list (Z * Z)).
Definition cop_raw (o : cop) : raw := match o with CAt r _ _ => r | CRanges r _ _ => r | CRemove r _ => r | CClear r _ => r end.
Definition do_cop (h : heap) (o : cop) : heap * res unit :=
  match o with
  | CAt r i t => set_comment_at h r i t
  | CRanges r l t => set_comment h r l t
  | CRemove r i => remove_comment h r i
  | CClear r l => clear_comment h r l
  end.
(** A view of array [d] with annotations [x], and indexes inside it. *)
Definition cop_ok (h : heap) (d x : nat) (o : cop) : Prop :=
  raw_ok h (cop_raw o) /\ r_data (cop_raw o) = d /\ r_extra (cop_raw o) = x /\
  match o with
  | CAt r i _ => 0 <= i < raw_len h r
  | CRanges r l _ => Forall (fun se => 0 <= fst se < raw_len h r) l
  | CRemove r i => 0 <= i < raw_len h r
  | CClear r l => Forall (fun se => 0 <= fst se /\ snd se <= raw_len h r) l
  end.
Definition texts := Z -> option (list Z).
(** [n] is the length of the array. *)
Definition after (n : Z) (o : cop) (m : texts) : texts := fun p =>
  match o with
  | CAt r i t => if getb (positions n (r_win r)) i =? p then Some t else m p
  | CRanges r l t => if existsb (fun se => getb (positions n (r_win r)) (fst se) =? p) l then Some t else m p
  | CRemove r i => if getb (positions n (r_win r)) i =? p then None else m p
  | CClear r l => if existsb (fun se => zmem p (map (getb (positions n (r_win r))) (zrange (fst se) (snd se)))) l then None else m p
  end.
Lemma set_comment_at_eq h r i t : raw_ok h r -> 0 <= i < raw_len h r ->
  set_comment_at h r i t = (set_comments h r (dset (getb (shows h r) i) t (comments h r)), Ok tt).
Proof. intros R Hi. unfold set_comment_at. rewrite (raw_index_shows h r i R Hi). reflexivity. Qed.
Lemma remove_comment_eq h r i : raw_ok h r -> 0 <= i < raw_len h r ->
  remove_comment h r i = (set_comments h r (ddel (getb (shows h r) i) (comments h r)), Ok tt).
Proof. intros R Hi. unfold remove_comment. rewrite (raw_index_shows h r i R Hi). reflexivity. Qed.
(** what a step does to the heap: only the comments of [x] change, styles keep their shape *)
Definition cstep (h : heap) (x : nat) (h' : heap) (f : texts -> texts) : Prop :=
  same_shape h h' /\ (NoDup (map fst (e_comments (ext h x))) -> NoDup (map fst (e_comments (ext h' x))) /\
    forall p, dget p (e_comments (ext h' x)) = f (fun q => dget q (e_comments (ext h x))) p) /\
  (forall y, y <> x -> ext h' y = ext h y) /\ e_user (ext h' x) = e_user (ext h x).
Definition arrs_same (h h' : heap) : Prop := hp_arr h' = hp_arr h.
Lemma set_comments_ext h r d y : y <> r_extra r -> ext (set_comments h r d) y = ext h y.
Proof. intros N. unfold set_comments. apply ext_set_neq. congruence. Qed.
Lemma each_set_at r t : forall l h, raw_ok h r -> Forall (fun se : Z * Z => 0 <= fst se < raw_len h r) l ->
  exists h', each (fun h se => set_comment_at h r (fst se) t) l h = (h', Ok tt) /\ hp_arr h' = hp_arr h /\
  cstep h (r_extra r) h' (fun m p => if existsb (fun se => getb (shows h r) (fst se) =? p) l then Some t else m p).
Proof.
  induction l as [|[s e] l IH]; intros h R F.
  - exists h. split; [reflexivity|]. split; [reflexivity|]. split; [apply shape_refl|]. split; [intros N; split; [exact N|reflexivity]|]. split; reflexivity.
  - inversion F as [|? ? F1 F2]; subst. cbn [fst] in F1. cbn [each fst]. rewrite (set_comment_at_eq h r s t R F1).
    set (h1 := set_comments h r (dset (getb (shows h r) s) t (comments h r))).
    pose proof (shape_set_comments h r (dset (getb (shows h r) s) t (comments h r))) as S1. fold h1 in S1.
    pose proof (shape_raw_ok _ _ _ S1 R) as R1. rewrite <- (shape_raw_len h h1 r S1) in F2.
    destruct (IH h1 R1 F2) as (h' & E & A & S' & C' & X' & U'). rewrite (shape_shows h h1 r S1) in C'.
    pose proof R as (_ & _ & _ & Lx & _).
    assert (Ec : e_comments (ext h1 (r_extra r)) = dset (getb (shows h r) s) t (comments h r)) by (apply (comments_set h r _ r); [exact Lx|reflexivity]).
    exists h'. split; [exact E|]. split; [rewrite A; reflexivity|]. split; [eapply shape_trans; eassumption|]. split; [|split].
    + intros N. rewrite Ec in C'. destruct (C' (nodup_dset _ _ _ N)) as [C1 C2]. split; [exact C1|]. intros p. rewrite C2, dget_dset. cbn [existsb fst].
      destruct (getb (shows h r) s =? p); cbn [orb]; [destruct (existsb _ l); reflexivity|reflexivity].
    + intros y Hy. rewrite X' by exact Hy. apply set_comments_ext. exact Hy.
    + rewrite U'. unfold h1, set_comments. rewrite ext_set_eq by exact Lx. reflexivity.
Qed.
Lemma each_remove r : forall l h, raw_ok h r -> Forall (fun i => 0 <= i < raw_len h r) l ->
  exists h', each (fun h i => remove_comment h r i) l h = (h', Ok tt) /\ hp_arr h' = hp_arr h /\
  cstep h (r_extra r) h' (fun m p => if zmem p (map (getb (shows h r)) l) then None else m p).
Proof.
  induction l as [|i l IH]; intros h R F.
  - exists h. split; [reflexivity|]. split; [reflexivity|]. split; [apply shape_refl|]. split; [intros N; split; [exact N|reflexivity]|]. split; reflexivity.
  - inversion F as [|? ? F1 F2]; subst. cbn [each]. rewrite (remove_comment_eq h r i R F1).
    set (h1 := set_comments h r (ddel (getb (shows h r) i) (comments h r))).
    pose proof (shape_set_comments h r (ddel (getb (shows h r) i) (comments h r))) as S1. fold h1 in S1.
    pose proof (shape_raw_ok _ _ _ S1 R) as R1. rewrite <- (shape_raw_len h h1 r S1) in F2.
    destruct (IH h1 R1 F2) as (h' & E & A & S' & C' & X' & U'). rewrite (shape_shows h h1 r S1) in C'.
    pose proof R as (_ & _ & _ & Lx & _).
    assert (Ec : e_comments (ext h1 (r_extra r)) = ddel (getb (shows h r) i) (comments h r)) by (apply (comments_set h r _ r); [exact Lx|reflexivity]).
    exists h'. split; [exact E|]. split; [rewrite A; reflexivity|]. split; [eapply shape_trans; eassumption|]. split; [|split].
    + intros N. rewrite Ec in C'. destruct (C' (nodup_ddel _ _ N)) as [C1 C2]. split; [exact C1|]. intros p. rewrite C2, dget_ddel by exact N. cbn [map].
      destruct (Z.eqb_spec (getb (shows h r) i) p) as [Ep|Ep].
      * replace (zmem p (getb (shows h r) i :: map (getb (shows h r)) l)) with true by (symmetry; apply zmem_In; left; exact Ep).
        destruct (zmem p _); reflexivity.
      * replace (zmem p (getb (shows h r) i :: map (getb (shows h r)) l)) with (zmem p (map (getb (shows h r)) l)); [reflexivity|].
        destruct (zmem p (map (getb (shows h r)) l)) eqn:Ez.
        -- symmetry. apply zmem_In. right. apply zmem_In. exact Ez.
        -- destruct (zmem p (getb (shows h r) i :: map (getb (shows h r)) l)) eqn:Ey; [|reflexivity]. apply zmem_In in Ey. destruct Ey as [Ey|Ey]; [congruence|].
           apply zmem_In in Ey. congruence.
    + intros y Hy. rewrite X' by exact Hy. apply set_comments_ext. exact Hy.
    + rewrite U'. unfold h1, set_comments. rewrite ext_set_eq by exact Lx. reflexivity.
Qed.
Lemma each_clear r : forall l h, raw_ok h r -> Forall (fun se : Z * Z => 0 <= fst se /\ snd se <= raw_len h r) l ->
  exists h', each (fun h se => each (fun h i => remove_comment h r i) (zrange (fst se) (snd se)) h) l h = (h', Ok tt) /\ hp_arr h' = hp_arr h /\
  cstep h (r_extra r) h' (fun m p => if existsb (fun se => zmem p (map (getb (shows h r)) (zrange (fst se) (snd se)))) l then None else m p).
Proof.
  induction l as [|[s e] l IH]; intros h R F.
  - exists h. split; [reflexivity|]. split; [reflexivity|]. split; [apply shape_refl|]. split; [intros N; split; [exact N|reflexivity]|]. split; reflexivity.
  - inversion F as [|? ? F1 F2]; subst. cbn [fst snd] in F1. cbn [each fst snd].
    assert (Fr : Forall (fun i => 0 <= i < raw_len h r) (zrange s e)) by (apply Forall_forall; intros i Hi; apply In_zrange in Hi; lia).
    destruct (each_remove r (zrange s e) h R Fr) as (h1 & E1 & A1 & S1 & C1 & X1 & U1). rewrite E1.
    pose proof (shape_raw_ok _ _ _ S1 R) as R1. rewrite <- (shape_raw_len h h1 r S1) in F2.
    destruct (IH h1 R1 F2) as (h' & E & A & S' & C' & X' & U'). rewrite (shape_shows h h1 r S1) in C'.
    exists h'. split; [exact E|]. split; [congruence|]. split; [eapply shape_trans; eassumption|]. split; [|split].
    + intros N. destruct (C1 N) as [N1 G1]. destruct (C' N1) as [N2 G2]. split; [exact N2|]. intros p. rewrite G2. cbn [existsb fst snd]. rewrite G1.
      destruct (zmem p (map (getb (shows h r)) (zrange s e))); cbn [orb]; [destruct (existsb _ l); reflexivity|reflexivity].
    + intros y Hy. rewrite X', X1 by exact Hy. reflexivity.
    + congruence.
Qed.
Lemma lor_idem b x : Z.lor (Z.lor x b) b = Z.lor x b.
Proof. rewrite <- Z.lor_assoc, Z.lor_diag. reflexivity. Qed.
Lemma land_idem b x : Z.land (Z.land x b) b = Z.land x b.
Proof. rewrite <- Z.land_assoc, Z.land_diag. reflexivity. Qed.
Lemma do_cop_spec h d x o : cop_ok h d x o ->
  exists h', do_cop h o = (h', Ok tt) /\ cstep h x h' (after (zlen (arr h d)) o) /\ (forall n, n <> r_style (cop_raw o) -> arr h' n = arr h n).
Proof.
  intros (R & Ed & Ex & H). pose proof R as (_ & _ & _ & Lx & _). destruct o as [r i t|r l t|r i|r l]; cbn [cop_raw do_cop] in *; subst x d.
  - rewrite set_comment_at_eq by assumption. eexists. split; [reflexivity|]. split; [|reflexivity]. split; [apply shape_set_comments|]. split; [|split].
    + intros N. unfold set_comments. rewrite ext_set_eq by exact Lx. cbn [e_comments]. split; [apply nodup_dset; exact N|]. intros p. rewrite dget_dset. reflexivity.
    + intros y Hy. apply set_comments_ext. exact Hy.
    + unfold set_comments. rewrite ext_set_eq by exact Lx. reflexivity.
  - unfold set_comment. destruct (on_ranges_spec (fun v => Z.lor v (style_bits k_comment)) r (lor_idem _) l h R) as (_ & _ & O3 & O4 & _ & O6). cbn zeta in *.
    fold (set_style_ranges h r l k_comment) in *. set (h1 := set_style_ranges h r l k_comment) in *.
    assert (S1 : same_shape h h1) by (apply shape_on_ranges; exact R). destruct (O6 r R) as [R1 Sh1]. rewrite <- (shape_raw_len h h1 r S1) in H.
    destruct (each_set_at r t l h1 R1 H) as (h' & E & A & S' & C' & X' & U'). exists h'. split; [exact E|].
    assert (Ee : forall y, ext h1 y = ext h y) by (intros y; unfold ext; rewrite O4; reflexivity).
    split; [|intros n Hn; unfold arr at 1; rewrite A; apply O3; exact Hn]. split; [eapply shape_trans; eassumption|]. rewrite Ee in *. rewrite Sh1 in C'.
    split; [exact C'|]. split; [intros y Hy; rewrite X', Ee by exact Hy; reflexivity|exact U'].
  - rewrite remove_comment_eq by assumption. eexists. split; [reflexivity|]. split; [|reflexivity]. split; [apply shape_set_comments|]. split; [|split].
    + intros N. unfold set_comments. rewrite ext_set_eq by exact Lx. cbn [e_comments]. split; [apply nodup_ddel; exact N|]. intros p. rewrite dget_ddel by exact N. reflexivity.
    + intros y Hy. apply set_comments_ext. exact Hy.
    + unfold set_comments. rewrite ext_set_eq by exact Lx. reflexivity.
  - unfold clear_comment. destruct (on_ranges_spec (fun v => Z.land v (style_mask k_comment)) r (land_idem _) l h R) as (_ & _ & O3 & O4 & _ & O6). cbn zeta in *.
    fold (clear_style_ranges h r l k_comment) in *. set (h1 := clear_style_ranges h r l k_comment) in *.
    assert (S1 : same_shape h h1) by (apply shape_on_ranges; exact R). destruct (O6 r R) as [R1 Sh1]. rewrite <- (shape_raw_len h h1 r S1) in H.
    destruct (each_clear r l h1 R1 H) as (h' & E & A & S' & C' & X' & U'). exists h'. split; [exact E|].
    assert (Ee : forall y, ext h1 y = ext h y) by (intros y; unfold ext; rewrite O4; reflexivity).
    split; [|intros n Hn; unfold arr at 1; rewrite A; apply O3; exact Hn]. split; [eapply shape_trans; eassumption|]. rewrite Ee in *. rewrite Sh1 in C'.
    split; [exact C'|]. split; [intros y Hy; rewrite X', Ee by exact Hy; reflexivity|exact U'].
Qed.
Lemma cop_ok_shape h h' d x o : same_shape h h' -> cop_ok h d x o -> cop_ok h' d x o.
Proof.
  intros S (R & A & B & C). split; [eapply shape_raw_ok; eassumption|]. split; [exact A|]. split; [exact B|]. destruct o; rewrite (shape_raw_len h h') by exact S; exact C.
Qed.
Lemma after_ext n o m m' p : (forall q, m q = m' q) -> after n o m p = after n o m' p.
Proof. intros E. unfold after. destruct o; rewrite E; reflexivity. Qed.
Lemma fold_after_ext n ops : forall m m' p, (forall q, m q = m' q) ->
  fold_left (fun m o => after n o m) ops m p = fold_left (fun m o => after n o m) ops m' p.
Proof. induction ops as [|o ops IH]; intros m m' p G; cbn [fold_left]; [apply G|]. apply IH. intros q. apply after_ext. exact G. Qed.
Lemma do_cops_spec d x : forall ops h, Forall (cop_ok h d x) ops -> NoDup (map fst (e_comments (ext h x))) ->
  exists h', each do_cop ops h = (h', Ok tt) /\ same_shape h h' /\ NoDup (map fst (e_comments (ext h' x))) /\
   (forall p, dget p (e_comments (ext h' x)) = fold_left (fun m o => after (zlen (arr h d)) o m) ops (fun q => dget q (e_comments (ext h x))) p) /\
   (forall n, Forall (fun o => n <> r_style (cop_raw o)) ops -> arr h' n = arr h n).
Proof.
  induction ops as [|o ops IH]; intros h F N.
  - exists h. split; [reflexivity|]. split; [apply shape_refl|]. split; [exact N|]. split; reflexivity.
  - inversion F as [|? ? F1 F2]; subst. cbn [each fold_left]. destruct (do_cop_spec h d x o F1) as (h1 & E & (S1 & C1 & _) & A1). rewrite E.
    destruct (C1 N) as [N1 G1].
    assert (F2' : Forall (cop_ok h1 d x) ops) by (eapply Forall_impl; [|exact F2]; intros a Ha; eapply cop_ok_shape; eassumption).
    destruct (IH h1 F2' N1) as (h' & E' & S' & N' & G' & A'). exists h'. split; [exact E'|]. split; [eapply shape_trans; eassumption|]. split; [exact N'|]. split.
    + intros p. rewrite G'. destruct S1 as (Za & _). rewrite Za. apply fold_after_ext. exact G1.
    + intros n Hn. inversion Hn; subst. rewrite A', A1 by assumption. reflexivity.
Qed.
Lemma get_comment_eq h r i : raw_ok h r -> 0 <= i < raw_len h r ->
  get_comment h r i = Ok (match dget (getb (shows h r) i) (comments h r) with Some t => t | None => [] end).
Proof. intros R Hi. unfold get_comment. rewrite (raw_index_shows h r i R Hi). reflexivity. Qed.

(** * Restore data *)
Lemma pyslice_in l s e : 0 <= s <= e -> e <= zlen l -> pyslice l (Some s) (Some e) = map (getb l) (zrange s e).
Proof.
  intros H1 H2. unfold pyslice, bound. replace (s <? 0) with false by lia. replace (e <? 0) with false by lia.
  rewrite (Z.min_r (zlen l) s), (Z.min_r (zlen l) e), !Z.max_r by lia. apply slice_map_range; lia.
Qed.
Lemma save_items_eq h r l : raw_ok h r -> Forall (fun i => 0 <= i < raw_len h r) l ->
  save_items h r l = Ok (map (fun i => (getb (shows h r) i, dget (getb (shows h r) i) (comments h r))) l).
Proof.
  intros R. induction l as [|i l IH]; intros F; [reflexivity|]. inversion F; subst. cbn [save_items map]. rewrite (raw_index_shows h r i R) by assumption.
  cbn [rbind]. rewrite IH by assumption. reflexivity.
Qed.
Definition saved_of (h : heap) (r : raw) (se : Z * Z) : saved :=
  (fst se, snd se, map (fun i => getb (arr h (r_style r)) (getb (shows h r) i)) (zrange (fst se) (snd se)),
   map (fun i => (getb (shows h r) i, dget (getb (shows h r) i) (comments h r))) (zrange (fst se) (snd se))).
Lemma restore_data_eq h r ranges : raw_ok h r -> Forall (fun se => 0 <= fst se <= snd se /\ snd se <= raw_len h r) ranges ->
  restore_data h r ranges = Ok (map (saved_of h r) ranges).
Proof.
  intros R. induction ranges as [|[s e] l IH]; intros F; [reflexivity|]. inversion F as [|? ? F1 F2]; subst. cbn [fst snd] in F1. cbn [restore_data map].
  rewrite win_slice_shows by exact R. rewrite pyslice_in by (first [lia|rewrite zlen_shows by exact R; lia]).
  rewrite save_items_eq; [|exact R|apply Forall_forall; intros i Hi; apply In_zrange in Hi; lia]. cbn [rbind]. rewrite IH by exact F2. cbn [rbind].
  rewrite gather_map.
  - unfold saved_of. cbn [fst snd]. rewrite map_map. reflexivity.
  - pose proof R as (_ & _ & _ & _ & R5 & _). rewrite R5. apply Forall_sel; [apply shows_range; exact R|].
    apply Forall_forall. intros i Hi. apply In_zrange in Hi. rewrite zlen_shows by exact R. lia.
Qed.
Definition norm (t : option (list Z)) : option (list Z) := match t with Some [] => None | x => x end.
Lemma restore_items_spec r (C0 : texts) : forall ps h, (r_extra r < length (hp_ext h))%nat -> NoDup (map fst (comments h r)) ->
  let h' := fold_left (restore_item r) (map (fun p => (p, C0 p)) ps) h in
  hp_arr h' = hp_arr h /\ same_shape h h' /\ NoDup (map fst (comments h' r)) /\
  (forall q, dget q (comments h' r) = if zmem q ps then norm (C0 q) else dget q (comments h r)) /\
  (forall y, y <> r_extra r -> ext h' y = ext h y).
Proof.
  induction ps as [|p ps IH]; intros h Lx N; cbn zeta; cbn [map fold_left].
  - split; [reflexivity|]. split; [apply shape_refl|]. split; [exact N|]. split; reflexivity.
  - set (h1 := restore_item r h (p, C0 p)).
    assert (G : exists d, h1 = set_comments h r d /\ NoDup (map fst d) /\ forall q, dget q d = if p =? q then norm (C0 p) else dget q (comments h r)).
    { unfold h1, restore_item. cbn [fst snd]. destruct (C0 p) as [[|a t]|]; cbn [norm]; eexists; (split; [reflexivity|]).
      - split; [apply nodup_ddel; exact N|]. intros q. apply dget_ddel. exact N.
      - split; [apply nodup_dset; exact N|]. intros q. apply dget_dset.
      - split; [apply nodup_ddel; exact N|]. intros q. apply dget_ddel. exact N. }
    destruct G as (d & E & Nd & Gd). assert (S1 : same_shape h h1) by (rewrite E; apply shape_set_comments).
    assert (Ec : comments h1 r = d) by (rewrite E; apply comments_set; [exact Lx|reflexivity]).
    assert (Lx1 : (r_extra r < length (hp_ext h1))%nat) by (destruct S1 as (_ & _ & ->); exact Lx).
    destruct (IH h1 Lx1 ltac:(rewrite Ec; exact Nd)) as (A & S' & N' & G' & X'). cbn zeta in *.
    split; [rewrite A, E; reflexivity|]. split; [eapply shape_trans; eassumption|]. split; [exact N'|]. split.
    + intros q. rewrite G', Ec, Gd. unfold zmem in *. cbn [existsb]. rewrite (Z.eqb_sym q p). destruct (Z.eqb_spec p q) as [-> |Np]; cbn [orb]; [destruct (existsb _ _); reflexivity|reflexivity].
    + intros y Hy. rewrite X' by exact Hy. rewrite E. apply set_comments_ext. exact Hy.
Qed.
(** the positions of a list of ranges, without Python's slice rules *)
Definition in_ranges (sh : list Z) (ranges : list (Z * Z)) (p : Z) : Prop :=
  exists s e i, In (s, e) ranges /\ s <= i < e /\ getb sh i = p.
Lemma zmem_map_range sh s e p : zmem p (map (getb sh) (zrange s e)) = true <-> exists i, s <= i < e /\ getb sh i = p.
Proof.
  rewrite zmem_In, in_map_iff. split; [intros (i & E & Hi); apply In_zrange in Hi; eauto|intros (i & Hi & E); exists i; split; [exact E|apply In_zrange; exact Hi]].
Qed.
Lemma restore_comments_spec h0 r : raw_ok h0 r -> bytes_ok (arr h0 (r_style r)) -> forall ranges h,
  same_shape h0 h -> NoDup (map fst (comments h r)) -> Forall (fun se => 0 <= fst se <= snd se /\ snd se <= raw_len h0 r) ranges ->
  exists h', restore_comments h r (map (saved_of h0 r) ranges) = (h', Ok tt) /\ same_shape h h' /\ NoDup (map fst (comments h' r)) /\
   (forall p, 0 <= p -> in_ranges (shows h0 r) ranges p -> getb (arr h' (r_style r)) p = getb (arr h0 (r_style r)) p /\ dget p (comments h' r) = norm (dget p (comments h0 r))) /\
   (forall p, 0 <= p -> ~ in_ranges (shows h0 r) ranges p -> getb (arr h' (r_style r)) p = getb (arr h (r_style r)) p /\ dget p (comments h' r) = dget p (comments h r)) /\
   (forall n, n <> r_style r -> arr h' n = arr h n) /\ (forall y, y <> r_extra r -> ext h' y = ext h y).
Proof.
  intros R B. induction ranges as [|[s e] l IH]; intros h S N F.
  - exists h. split; [reflexivity|]. split; [apply shape_refl|]. split; [exact N|]. split; [intros p Hp (s & e & i & [] & _)|]. auto.
  - inversion F as [|? ? F1 F2]; subst. cbn [fst snd] in F1. cbn [map restore_comments]. unfold saved_of at 1. cbn [fst snd].
    pose proof (shape_raw_ok _ _ _ S R) as Rh. pose proof Rh as (L1 & L2 & _ & L4 & L5 & _).
    rewrite win_slice_shows by exact Rh. rewrite (shape_shows h0 h r S).
    rewrite pyslice_in by (first [lia|rewrite zlen_shows by exact R; lia]).
    set (ps := map (getb (shows h0 r)) (zrange s e)).
    assert (Ev : map (fun i => getb (arr h0 (r_style r)) (getb (shows h0 r) i)) (zrange s e) = map (getb (arr h0 (r_style r))) ps) by (unfold ps; rewrite map_map; reflexivity).
    rewrite Ev. rewrite broadcast_same.
    2:{ rewrite zlen_map. reflexivity. }
    2:{ apply Forall_forall. intros v Hv. apply in_map_iff in Hv. destruct Hv as (p & <- & Hp). apply bytes_ok_getb. exact B. }
    assert (P : Forall (fun p => 0 <= p < zlen (arr h (r_style r))) ps).
    { rewrite L5. destruct S as (Z & _). rewrite Z. apply Forall_sel; [apply shows_range; exact R|]. apply Forall_forall. intros i Hi. apply In_zrange in Hi. rewrite zlen_shows by exact R. lia. }
    set (h1 := set_arr h (r_style r) (scatter (arr h (r_style r)) ps (map (getb (arr h0 (r_style r))) ps))).
    assert (S1 : same_shape h h1) by (apply shape_set_arr; [exact L2|apply zlen_scatter; exact P]).
    assert (Em : map (fun i => (getb (shows h0 r) i, dget (getb (shows h0 r) i) (comments h0 r))) (zrange s e) = map (fun p => (p, dget p (comments h0 r))) ps)
      by (unfold ps; rewrite map_map; reflexivity). rewrite Em.
    destruct (restore_items_spec r (fun p => dget p (comments h0 r)) ps h1 L4 N) as (A2 & S2 & N2 & G2 & X2). cbn zeta in *.
    set (h2 := fold_left (restore_item r) (map (fun p => (p, dget p (comments h0 r))) ps) h1) in *.
    assert (S02 : same_shape h0 h2) by (eapply shape_trans; [exact S|eapply shape_trans; eassumption]).
    destruct (IH h2 S02 N2 F2) as (h' & E' & S' & N' & I1 & I2 & I3 & I4). exists h'. split; [exact E'|].
    split; [eapply shape_trans; [exact S1|eapply shape_trans; eassumption]|]. split; [exact N'|].
    assert (Hst : forall p, 0 <= p -> getb (arr h2 (r_style r)) p = if zmem p ps then getb (arr h0 (r_style r)) p else getb (arr h (r_style r)) p).
    { intros p Hp. unfold arr at 1. rewrite A2. fold (arr h1 (r_style r)). unfold h1. rewrite arr_set_eq by exact L2. rewrite getb_scatter by assumption. rewrite last_write_map. destruct (zmem p ps); reflexivity. }
    assert (Hcm : forall p, dget p (comments h2 r) = if zmem p ps then norm (dget p (comments h0 r)) else dget p (comments h r)) by (intros p; rewrite G2; reflexivity).
    assert (Dec : forall p, in_ranges (shows h0 r) l p \/ ~ in_ranges (shows h0 r) l p).
    { intros p. clear. induction l as [|[s e] l IHl]; [right; intros (s & e & i & [] & _)|]. destruct (zmem p (map (getb (shows h0 r)) (zrange s e))) eqn:Ez.
      - apply zmem_map_range in Ez. destruct Ez as (i & Hi & E). left. exists s, e, i. split; [left; reflexivity|]. split; assumption.
      - destruct IHl as [(s' & e' & i & X & Y)|IHl]; [left; exists s', e', i; split; [right; exact X|exact Y]|]. right. intros (s' & e' & i & [X|X] & Y).
        + injection X as <- <-. assert (zmem p (map (getb (shows h0 r)) (zrange s e)) = true) by (apply zmem_map_range; exists i; exact Y). congruence.
        + apply IHl. exists s', e', i. split; [exact X|exact Y]. }
    assert (Cov : forall p, in_ranges (shows h0 r) ((s, e) :: l) p <-> zmem p ps = true \/ in_ranges (shows h0 r) l p).
    { intros p. unfold ps. rewrite zmem_map_range. unfold in_ranges. split.
      - intros (s' & e' & i & [X|X] & Y); [injection X as <- <-; left; eauto|right; exists s', e', i; split; [exact X|exact Y]].
      - intros [(i & Y)|(s' & e' & i & X & Y)]; [exists s, e, i; split; [left; reflexivity|exact Y]|exists s', e', i; split; [right; exact X|exact Y]]. }
    split; [|split; [|split]].
    + intros p Hp C. destruct (Dec p) as [D|D]; [apply I1; assumption|]. apply Cov in C. destruct C as [C|C]; [|contradiction].
      destruct (I2 p Hp D) as [J1 J2]. rewrite J1, J2, Hst, Hcm, C by exact Hp. split; reflexivity.
    + intros p Hp C. rewrite Cov in C. destruct (I2 p Hp ltac:(tauto)) as [J1 J2]. rewrite J1, J2, Hst, Hcm by exact Hp.
      destruct (zmem p ps); [tauto|]. split; reflexivity.
    + intros n Hn. rewrite I3 by exact Hn. unfold arr at 1. rewrite A2. fold (arr h1 n). apply arr_set_neq. congruence.
    + intros y Hy. rewrite I4, X2 by exact Hy. reflexivity.
Qed.

(** * Sessions *)
Lemma covered_runs h r k p : raw_ok h r -> 0 <= style_bits k ->
  covered (shows h r) (get_style_ranges h r k) p <-> In p (shows h r) /\ Z.land (getb (arr h (r_style r)) p) (style_bits k) = style_bits k.
Proof.
  intros R Hk. unfold get_style_ranges. pose proof (ranges_of_exact (style_bits k) (read_style h r)) as (A & B & C).
  assert (Zs : zlen (read_style h r) = zlen (shows h r)) by (rewrite read_style_shows by exact R; apply zlen_map). rewrite Zs in *.
  set (rs := ranges_of (style_bits k) (read_style h r)) in *.
  assert (In_b : forall s e, In (s, e) rs -> 0 <= s < e /\ e <= zlen (shows h r)).
  { intros s e Hin. split; [|apply (B s e Hin)]. destruct (In_nth_z _ (0, 0) _ Hin) as (j & Hj & E). pose proof (apart_nth rs (-1) j A Hj) as X. rewrite E in X. cbn [fst snd] in X. lia. }
  assert (Gs : forall i, 0 <= i < zlen (shows h r) -> getb (read_style h r) i = getb (arr h (r_style r)) (getb (shows h r) i)).
  { intros i Hi. rewrite read_style_shows by exact R. apply getb_map. exact Hi. }
  unfold covered. split.
  - intros (s & e & Hin & Hp). destruct (In_b s e Hin) as [B1 B2]. rewrite Z.min_l, Z.max_r in Hp by lia. rewrite pyslice_in in Hp by lia.
    apply in_map_iff in Hp. destruct Hp as (i & <- & Hi). apply In_zrange in Hi. split; [apply getb_In; lia|].
    rewrite <- Gs by lia. apply C; [lia|]. exists s, e. split; [exact Hin|exact Hi].
  - intros [Hp Hb]. destruct (In_getb _ _ Hp) as (i & Hi & <-). rewrite <- Gs in Hb by exact Hi. apply C in Hb; [|exact Hi]. destruct Hb as (s & e & Hin & Hse).
    exists s, e. split; [exact Hin|]. destruct (In_b s e Hin) as [B1 B2]. rewrite Z.min_l, Z.max_r by lia. rewrite pyslice_in by lia.
    apply in_map_iff. exists i. split; [reflexivity|apply In_zrange; exact Hse].
Qed.
Definition gain (s b : Z) : Z := if Z.land s b =? b then b else 0.
Lemma set_from_runs h r h' r' k k' : raw_ok h r -> raw_ok h' r' -> shows h' r' = shows h r -> 0 <= style_bits k -> style_bits k' = style_bits k ->
  let h2 := set_style_ranges h' r' (get_style_ranges h r k) k' in
  (forall p, In p (shows h r) -> getb (arr h2 (r_style r')) p = Z.lor (getb (arr h' (r_style r')) p) (gain (getb (arr h (r_style r)) p) (style_bits k))) /\
  (forall p, 0 <= p -> ~ In p (shows h r) -> getb (arr h2 (r_style r')) p = getb (arr h' (r_style r')) p) /\
  (forall n, n <> r_style r' -> arr h2 n = arr h' n) /\ hp_ext h2 = hp_ext h' /\ same_shape h' h2.
Proof.
  intros R R' Sh Hk Ek. cbn zeta. unfold set_style_ranges. rewrite Ek.
  destruct (on_ranges_spec (fun x => Z.lor x (style_bits k)) r' (lor_idem _) (get_style_ranges h r k) h' R') as (O1 & O2 & O3 & O4 & O5 & O6).
  cbn zeta in *. rewrite Sh in O1, O2. split; [|split; [|split; [|split]]].
  - intros p Hp. pose proof (shows_range h r R) as F. rewrite Forall_forall in F. pose proof (F p Hp) as Hp0. unfold gain.
    destruct (Z.eqb_spec (Z.land (getb (arr h (r_style r)) p) (style_bits k)) (style_bits k)) as [E|E].
    + rewrite O1 by (first [lia|apply covered_runs; auto]). reflexivity.
    + rewrite O2; [rewrite Z.lor_0_r; reflexivity|lia|]. intros X. apply covered_runs in X; [|exact R|exact Hk]. apply E, X.
  - intros p Hp Hn. apply O2; [exact Hp|]. intros X. apply covered_runs in X; [|exact R|exact Hk]. apply Hn, X.
  - exact O3.
  - exact O4.
  - apply shape_on_ranges. exact R'.
Qed.
Lemma dget_user g L i : dget i (flat_map (fun i => match g i with [] => [] | l => [(i, l)] end) L) =
  if zmem i L then match g i with [] => None | l => Some l end else None :> option (list (Z * Z)).
Proof.
  unfold zmem. induction L as [|a L IH]; [reflexivity|]. cbn [flat_map existsb]. destruct (Z.eqb_spec i a) as [-> |N]; cbn [orb].
  - destruct (g a) eqn:E; cbn [app dget]; [|rewrite Z.eqb_refl; reflexivity]. rewrite IH. destruct (existsb _ L); reflexivity.
  - destruct (g a) eqn:E; cbn [app dget]; [exact IH|]. replace (i =? a) with false by lia. exact IH.
Qed.
Definition gains (s : Z) : Z := Z.lor (Z.lor (gain s 0x40) (gain s 1)) (fold_left (fun a i => Z.lor a (gain s i)) (zrange 1 7) 0).
Lemma gains_eq s : 0 <= s < 256 -> gains s = Z.land s 0x47.
Proof.
  intros H. assert (C : forallb (fun s => gains s =? Z.land s 0x47) (zrange 0 256) = true) by (vm_compute; reflexivity).
  rewrite forallb_forall in C. specialize (C s). apply Z.eqb_eq, C, In_zrange. lia.
Qed.
Lemma set_comments_fold r l : forall h, (r_extra r < length (hp_ext h))%nat ->
  let h' := fold_left (fun h kv => set_comments h r (dset (fst kv) (snd kv) (comments h r))) l h in
  hp_arr h' = hp_arr h /\ comments h' r = fold_left (fun d kv => dset (fst kv) (snd kv) d) l (comments h r) /\ same_shape h h'.
Proof.
  induction l as [|kv l IH]; intros h Lx; cbn zeta; cbn [fold_left]; [split; [reflexivity|]; split; [reflexivity|apply shape_refl]|].
  set (h1 := set_comments h r (dset (fst kv) (snd kv) (comments h r))). assert (S1 : same_shape h h1) by apply shape_set_comments.
  assert (Lx1 : (r_extra r < length (hp_ext h1))%nat) by (destruct S1 as (_ & _ & ->); exact Lx).
  destruct (IH h1 Lx1) as (A & B & C). cbn zeta in *. split; [rewrite A; reflexivity|]. split; [|eapply shape_trans; eassumption].
  rewrite B. unfold h1 at 1. rewrite comments_set by (first [exact Lx|reflexivity]). reflexivity.
Qed.
Lemma style_bits_user i : 1 <= i < 7 -> style_bits (k_user i) = i.
Proof.
  intros H. unfold style_bits. cbn [s_user s_diff s_match s_comment s_data s_selected k_user]. replace (i =? 0) with false by lia.
  rewrite Z.lor_0_l. change 7 with (Z.ones 3). rewrite Z.land_ones by lia. apply Z.mod_small. change (2 ^ 3) with 8. lia.
Qed.
Lemma restore_session_spec h r h' r' : raw_ok h r -> raw_ok h' r' -> shows h' r' = shows h r -> bytes_ok (arr h (r_style r)) ->
  NoDup (map fst (comments h r)) -> NoDup (map fst (comments h' r')) ->
  let h2 := restore_session h' r' (serialize_session h r) in
  (forall p, In p (shows h r) -> getb (arr h2 (r_style r')) p = Z.lor (getb (arr h' (r_style r')) p) (Z.land (getb (arr h (r_style r)) p) 0x47)) /\
  (forall p, 0 <= p -> ~ In p (shows h r) -> getb (arr h2 (r_style r')) p = getb (arr h' (r_style r')) p) /\
  (forall n, n <> r_style r' -> arr h2 n = arr h' n) /\ same_shape h' h2 /\
  (forall p, dget p (comments h2 r') = match dget p (comments h r) with Some t => Some t | None => dget p (comments h' r') end).
Proof.
  intros R R' Sh B N N'. cbn zeta. unfold restore_session, serialize_session. cbn [ss_comment ss_data ss_user ss_comments].
  pose proof R' as (_ & _ & _ & Lx & _).
  destruct (set_comments_fold r' (sort_dict (comments h r)) h' Lx) as (A0 & C0 & S0). cbn zeta in *.
  set (h0 := fold_left (fun h kv => set_comments h r' (dset (fst kv) (snd kv) (comments h r'))) (sort_dict (comments h r)) h') in *.
  pose proof (shape_raw_ok _ _ _ S0 R') as R0. assert (Sh0 : shows h0 r' = shows h r) by (rewrite (shape_shows h' h0 r' S0); exact Sh).
  destruct (set_from_runs h r h0 r' k_comment k_comment R R0 Sh0 ltac:(cbn; lia) eq_refl) as (P1 & Q1 & O1 & X1 & S1). cbn zeta in *.
  set (h1 := set_style_ranges h0 r' (get_style_ranges h r k_comment) k_comment) in *.
  pose proof (shape_raw_ok _ _ _ S1 R0) as R1. assert (Sh1 : shows h1 r' = shows h r) by (rewrite (shape_shows h0 h1 r' S1); exact Sh0).
  destruct (set_from_runs h r h1 r' k_data (k_user 1) R R1 Sh1 ltac:(cbn; lia) eq_refl) as (P2 & Q2 & O2 & X2 & S2). cbn zeta in *.
  set (h2 := set_style_ranges h1 r' (get_style_ranges h r k_data) (k_user 1)) in *.
  pose proof (shape_raw_ok _ _ _ S2 R1) as R2. assert (Sh2 : shows h2 r' = shows h r) by (rewrite (shape_shows h1 h2 r' S2); exact Sh1).
  set (U := flat_map _ (zrange 1 7)).
  assert (G : forall L ha, (forall i, In i L -> 1 <= i < 7) -> raw_ok ha r' -> shows ha r' = shows h r ->
    let hb := fold_left (fun h i => match dget i U with Some l => set_style_ranges h r' l (k_user i) | None => h end) L ha in
    (forall p, In p (shows h r) -> getb (arr hb (r_style r')) p = Z.lor (getb (arr ha (r_style r')) p) (fold_left (fun a i => Z.lor a (gain (getb (arr h (r_style r)) p) i)) L 0)) /\
    (forall p, 0 <= p -> ~ In p (shows h r) -> getb (arr hb (r_style r')) p = getb (arr ha (r_style r')) p) /\
    (forall n, n <> r_style r' -> arr hb n = arr ha n) /\ hp_ext hb = hp_ext ha /\ same_shape ha hb).
  { assert (FL : forall s L a b, fold_left (fun a i => Z.lor a (gain s i)) L (Z.lor a b) = Z.lor a (fold_left (fun a i => Z.lor a (gain s i)) L b)).
    { intros s. induction L as [|i L IH]; intros a b; cbn [fold_left]; [reflexivity|]. rewrite <- Z.lor_assoc. apply IH. }
    induction L as [|i L IH]; intros ha HL Ra Sa; cbn zeta; cbn [fold_left].
    - split; [intros; rewrite Z.lor_0_r; reflexivity|]. repeat split.
    - assert (Hi : 1 <= i < 7) by (apply HL; left; reflexivity).
      set (hc := match dget i U with Some l => set_style_ranges ha r' l (k_user i) | None => ha end).
      assert (Ec : hc = set_style_ranges ha r' (get_style_ranges h r (k_user i)) (k_user i)).
      { unfold hc, U. rewrite dget_user. replace (zmem i (zrange 1 7)) with true by (symmetry; apply zmem_In, In_zrange; lia).
        destruct (get_style_ranges h r (k_user i)); reflexivity. }
      destruct (set_from_runs h r ha r' (k_user i) (k_user i) R Ra Sa ltac:(rewrite style_bits_user; lia) eq_refl) as (Pc & Qc & Oc & Xc & Sc). cbn zeta in *.
      rewrite <- Ec in Pc, Qc, Oc, Xc, Sc. rewrite style_bits_user in Pc by exact Hi.
      destruct (IH hc) as (I1 & I2 & I3 & I4 & I5).
      { intros j Hj. apply HL. right. exact Hj. } { eapply shape_raw_ok; eassumption. } { rewrite (shape_shows ha hc r' Sc). exact Sa. }
      cbn zeta in *. split; [|split; [|split; [|split]]].
      + intros p Hp. rewrite I1, Pc by exact Hp. rewrite <- Z.lor_assoc. f_equal. rewrite <- FL. f_equal. apply Z.lor_comm.
      + intros p Hp Hn. rewrite I2, Qc by assumption. reflexivity.
      + intros n Hn. rewrite I3, Oc by exact Hn. reflexivity.
      + congruence.
      + eapply shape_trans; eassumption. }
  destruct (G (zrange 1 7) h2 ltac:(intros i Hi; apply In_zrange in Hi; lia) R2 Sh2) as (P3 & Q3 & O3 & X3 & S3). cbn zeta in *.
  set (h3 := fold_left _ (zrange 1 7) h2) in *.
  split; [|split; [|split; [|split]]].
  - intros p Hp. rewrite P3, P2, P1 by exact Hp. change (style_bits k_comment) with 64. change (style_bits k_data) with 1.
    unfold arr at 1. rewrite A0. fold (arr h' (r_style r')). rewrite <- !Z.lor_assoc. f_equal. rewrite <- gains_eq by (apply bytes_ok_getb; exact B).
    unfold gains. rewrite Z.lor_assoc. reflexivity.
  - intros p Hp Hn. rewrite Q3, Q2, Q1 by assumption. unfold arr at 1. rewrite A0. reflexivity.
  - intros n Hn. rewrite O3, O2, O1 by exact Hn. unfold arr at 1. rewrite A0. reflexivity.
  - eapply shape_trans; [exact S0|]. eapply shape_trans; [exact S1|]. eapply shape_trans; eassumption.
  - intros p. rewrite (comments_ext h2 h3 r' X3), (comments_ext h1 h2 r' X2), (comments_ext h0 h1 r' X1), C0.
    pose proof (sort_dict_perm (comments h r)) as Pm.
    rewrite fold_dset_get by (eapply Permutation_NoDup; [apply Permutation_map; exact Pm|exact N]).
    rewrite (dget_perm (comments h r)) by assumption. reflexivity.
Qed.
