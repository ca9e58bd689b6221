(** C101 on DOS 3.3 disks: which files fit together. *)
From Coq Require Import Permutation.
From Verif Require Import Base BaseLemmas DiskModel DirLemmas AtariSpec Dos33Model Dos33Spec Dos33Geom Dos33Vtoc Dos33Dir Dos33Files Dos33Update Dos33Alloc Dos33Write Dos33Delete Dos33Shred Dos33Ops Dos33Session Dos33Demo Properties_Dos33 Properties_Balance3.
From Verif Require CliInst Properties_Copy.

(** Files with their types; writing stops at the first that is refused. *)
Notation job3 := (list Z * list Z * list Z)%type.
Definition job_name (j : job3) : list Z := stored_name3 (fst (fst j)).
Fixpoint write_all3 (im : img33) (jobs : list job3) : img33 * res unit :=
  match jobs with
  | [] => (im, Ok tt)
  | (n, t, d) :: r => match write_file3 im n t d with (im', Ok _) => write_all3 im' r | (im', Err e) => (im', Err e) end
  end.
Definition writable3 (im : img33) (jobs : list job3) : Prop :=
  (forall n t d, In (n, t, d) jobs -> ascii n /\ type_code t <> 0 /\ d <> [] /\ bytes_ok d) /\ NoDup (listing3 im ++ map job_name jobs).
Definition needed3 (jobs : list job3) : Z := fold_right (fun j s => need3 (zlen (snd j)) + s) 0 jobs.
Definition put_all3 (m : fsmap) (jobs : list job3) : fsmap := fold_left (fun m j => fs_put m (job_name j) (padded (snd j))) jobs m.
(** How many files the catalog has room for. *)
Definition capacity3 (im : img33) (c : Z) : Prop := exists cat k, dos33_disk (i_bytes im) cat k /\ c = 7 * (zlen cat - 1).

Lemma filter_length_le {A} (f : A -> bool) l : (length (filter f l) <= length l)%nat.
Proof. induction l as [|x l IH]; cbn [filter length]; [lia|]. destruct (f x); cbn [length]; lia. Qed.
Lemma capacity_det im c c' : capacity3 im c -> capacity3 im c' -> c = c'.
Proof. intros (cat & k & D & ->) (cat' & k' & D' & ->). destruct (disk_det _ _ _ _ _ D D') as [<- _]. reflexivity. Qed.
Lemma capacity_room im c : consistent3 im -> capacity3 im c -> (has_room3 im <-> zlen (listing3 im) < c).
Proof.
  intros C (cat & k & D & ->). split.
  - intros R. apply (has_room3_iff im cat k D) in R. destruct (consistent3_view im C) as (cat' & k' & E & D'). destruct (disk_det _ _ _ _ _ D D') as [<- <-].
    rewrite E. rewrite (listing3_view _ _ _ D), zlen_map. unfold live_slots3. pose proof (k3_k _ _ _ D) as Hk.
    assert (L : zlen (filter (fun i => live_b (slot3 (i_bytes im) cat i)) (zrange 0 k)) <= k).
    { pose proof (filter_length_le (fun i => live_b (slot3 (i_bytes im) cat i)) (zrange 0 k)) as X. pose proof (zlen_zrange 0 k ltac:(lia)) as Y. unfold zlen in *. lia. }
    destruct R as [(i & Hi & Dd)|R]; [|lia].
    rewrite (zrange_app 0 i k), (zrange_cons i k) in * by lia. rewrite filter_app in *. cbn [filter] in *.
    assert (Ld : live_b (slot3 (i_bytes im) cat i) = false) by (unfold live_b; rewrite Dd; reflexivity). rewrite Ld in *.
    pose proof (filter_length_le (fun i => live_b (slot3 (i_bytes im) cat i)) (zrange 0 i)) as X1. pose proof (zlen_zrange 0 i ltac:(lia)) as Y1.
    pose proof (filter_length_le (fun i => live_b (slot3 (i_bytes im) cat i)) (zrange (i + 1) k)) as X2. pose proof (zlen_zrange (i + 1) k ltac:(lia)) as Y2.
    rewrite zlen_app. unfold zlen in *. lia.
  - intros H. apply (Properties_Copy.dir_room im cat k 0 D C); lia.
Qed.
Lemma writable_cons3 im n t d r : writable3 im ((n, t, d) :: r) -> legal_write3 im n t d /\
  forall im' tl dl, write_result3 im im' n t d tl dl -> writable3 im' r /\ Permutation (listing3 im') (stored_name3 n :: listing3 im).
Proof.
  intros (H1 & H2). cbn [map] in H2. change (job_name (n, t, d)) with (stored_name3 n) in H2. destruct (H1 n t d (or_introl eq_refl)) as (A1 & A2 & A3 & A4). split.
  - split; [exact A1|]. split; [exact A2|]. split; [exact A3|]. split; [exact A4|]. intros X. apply NoDup_remove_2 in H2. apply H2. apply in_or_app. left. exact X.
  - intros im' tl dl W. destruct (wr3_listing _ _ _ _ _ _ _ W) as (l1 & l2 & E1 & E2).
    assert (P : Permutation (listing3 im') (stored_name3 n :: listing3 im)) by (rewrite E1, E2; symmetry; apply Permutation_middle).
    split; [|exact P]. split; [intros n0 t0 d0 X; apply H1; right; exact X|].
    apply (Permutation_NoDup (l := listing3 im ++ stored_name3 n :: map job_name r)); [|exact H2].
    rewrite <- Permutation_middle. change (stored_name3 n :: listing3 im ++ map job_name r) with ((stored_name3 n :: listing3 im) ++ map job_name r). apply Permutation_app_tail. symmetry. exact P.
Qed.
Lemma needed_nonneg3 jobs : 0 <= needed3 jobs.
Proof. unfold needed3. induction jobs as [|j r IH]; cbn [fold_right]; [lia|]. pose proof (Properties_Copy.need3_nonneg (zlen (snd j)) (zlen_nonneg _)). lia. Qed.
Lemma put_all_ext3 jobs : forall m m', (forall x, m x = m' x) -> forall x, put_all3 m jobs x = put_all3 m' jobs x.
Proof. induction jobs as [|j r IH]; intros m m' H x; [apply H|]. cbn [put_all3 fold_left]. apply IH. intros y. unfold fs_put. destruct (zlist_eqb _ _); auto. Qed.

(** Files fit together exactly when their sizes in sectors add up to no more than
    the free sectors and the catalog has entries for all of them. *)
Theorem C101_dos33_fit c jobs : forall im, consistent3 im -> capacity3 im c -> zlen (listing3 im) <= c -> writable3 im jobs ->
  (snd (write_all3 im jobs) = Ok tt <-> needed3 jobs <= free_sectors3 im /\ zlen (listing3 im) + zlen jobs <= c) /\
  (forall im', write_all3 im jobs = (im', Ok tt) -> consistent3 im' /\ capacity3 im' c /\ free_sectors3 im' = free_sectors3 im - needed3 jobs /\
     (forall x, fs_of3 im' x = put_all3 (fs_of3 im) jobs x) /\ Permutation (listing3 im') (listing3 im ++ map job_name jobs)).
Proof.
  induction jobs as [|[[n t] d] r IH]; intros im C K Kl Wr.
  { cbn [write_all3 snd needed3 fold_right]. split.
    - split; [intros _|reflexivity]. split; [unfold free_sectors3; rewrite free_count3_list; apply zlen_nonneg|rewrite zlen_nil; lia].
    - intros im' E. injection E as <-. cbn [needed3 fold_right map put_all3 fold_left]. rewrite app_nil_r. split; [exact C|]. split; [exact K|]. split; [lia|]. split; [reflexivity|apply Permutation_refl]. }
  destruct (writable_cons3 im n t d r Wr) as [L N]. cbn [write_all3]. rewrite zlen_cons. pose proof (zlen_nonneg r) as Zr.
  assert (Nc : needed3 ((n, t, d) :: r) = need3 (zlen d) + needed3 r) by reflexivity. pose proof (needed_nonneg3 r) as Nn.
  assert (Ge : sectors3 (zlen d) <= need3 (zlen d)).
  { unfold need3, lists3. pose proof (zlen_nonneg d). assert (0 <= sectors3 (zlen d)) by (unfold sectors3; apply Z.div_pos; lia). pose proof (Z.div_pos (sectors3 (zlen d) + 121) 122). lia. }
  pose proof (capacity_room im c C K) as Rm.
  destruct (write_master3 im n t d C L) as [(Hs & Hr & im1 & tl & dl & E & W)|[(Hs & E)|[(Hs & i1 & l & E & _)|(Hs & Hr & i1 & l & E & _)]]]; rewrite E.
  - destruct (N im1 tl dl W) as (Wr1 & P1). pose proof (wr3_consistent _ _ _ _ _ _ _ W) as C1. apply Rm in Hr.
    assert (K1 : capacity3 im1 c).
    { destruct K as (cat & k & D & ->). destruct (Properties_Copy.write_catalog im n t d im1 cat k D C L E) as (k' & D'). exists cat, k'. auto. }
    assert (Zl : zlen (listing3 im1) = zlen (listing3 im) + 1) by (unfold zlen; rewrite (Permutation_length P1); cbn [length]; lia).
    destruct (IH im1 C1 K1 ltac:(lia) Wr1) as [I1 I2]. pose proof (wr3_free_count _ _ _ _ _ _ _ W) as Fc.
    split; [rewrite I1; lia|]. intros im' E'. destruct (I2 im' E') as (C2 & K2 & F2 & S2 & P2). split; [exact C2|]. split; [exact K2|]. split; [lia|]. split.
    + intros x. rewrite S2. cbn [put_all3 fold_left]. change (job_name (n, t, d)) with (stored_name3 n). cbn [snd]. apply put_all_ext3. intros y. unfold fs_of3, fs_put. destruct (zlist_eqb y (stored_name3 n)) eqn:Q.
      * apply zlist_eqb_eq in Q. subst y. rewrite (wr3_read _ _ _ _ _ _ _ W). reflexivity.
      * rewrite (proj1 (wr3_others _ _ _ _ _ _ _ W y ltac:(intros ->; rewrite (proj2 (zlist_eqb_eq _ _) eq_refl) in Q; discriminate))). reflexivity.
    + rewrite P2. cbn [map]. change (job_name (n, t, d)) with (stored_name3 n). rewrite <- Permutation_middle. change (stored_name3 n :: listing3 im ++ map job_name r) with ((stored_name3 n :: listing3 im) ++ map job_name r). apply Permutation_app_tail. exact P1.
  - cbn [snd]. split; [split; [discriminate|intros; lia]|]. discriminate.
  - cbn [snd]. split; [split; [discriminate|intros; lia]|]. discriminate.
  - cbn [snd]. rewrite Rm in Hr. split; [split; [discriminate|intros; lia]|]. discriminate.
Qed.
Print Assumptions C101_dos33_fit.

Lemma put_other3 jobs : forall m x, ~ In x (map job_name jobs) -> put_all3 m jobs x = m x.
Proof.
  induction jobs as [|j r IH]; intros m x H; [reflexivity|]. cbn [map In] in H. change (put_all3 (fs_put m (job_name j) (padded (snd j))) r x = m x). rewrite IH by tauto.
  unfold fs_put. destruct (zlist_eqb x (job_name j)) eqn:Q; [|reflexivity]. apply zlist_eqb_eq in Q. subst. tauto.
Qed.
Lemma put_one3 jobs : forall m j, In j jobs -> NoDup (map job_name jobs) -> put_all3 m jobs (job_name j) = Some (padded (snd j)).
Proof.
  induction jobs as [|j0 r IH]; intros m j H ND; [destruct H|]. cbn [map] in ND. inversion ND as [|? ? N1 N2]. subst.
  change (put_all3 (fs_put m (job_name j0) (padded (snd j0))) r (job_name j) = Some (padded (snd j))). destruct H as [H|H]; [|apply IH; assumption].
  subst j. rewrite put_other3 by exact N1. unfold fs_put. rewrite (proj2 (zlist_eqb_eq _ _) eq_refl). reflexivity.
Qed.
Lemma put_perm3 m jobs jobs' x : Permutation jobs jobs' -> NoDup (map job_name jobs) -> put_all3 m jobs x = put_all3 m jobs' x.
Proof.
  intros P ND. assert (Pn : Permutation (map job_name jobs) (map job_name jobs')) by (apply Permutation_map; exact P).
  destruct (in_dec (list_eq_dec Z.eq_dec) x (map job_name jobs)) as [H|H].
  - apply in_map_iff in H. destruct H as (j & <- & H). rewrite (put_one3 _ _ j H ND). symmetry. apply put_one3; [eapply Permutation_in; eassumption|eapply Permutation_NoDup; eassumption].
  - rewrite put_other3 by exact H. symmetry. apply put_other3. intros X. apply H. eapply Permutation_in; [symmetry; exact Pn|exact X].
Qed.
Lemma NoDup_app_r3 {A} (l1 l2 : list A) : NoDup (l1 ++ l2) -> NoDup l2.
Proof. induction l1 as [|x l IH]; [auto|]. cbn [app]. intros H. inversion H. auto. Qed.

(** The order in which they are written does not matter. *)
Theorem C101_dos33_order c im jobs jobs' im' : consistent3 im -> capacity3 im c -> zlen (listing3 im) <= c -> writable3 im jobs -> Permutation jobs jobs' -> write_all3 im jobs = (im', Ok tt) ->
  exists im'', write_all3 im jobs' = (im'', Ok tt) /\ (forall x, fs_of3 im'' x = fs_of3 im' x) /\ Permutation (listing3 im'') (listing3 im') /\ free_sectors3 im'' = free_sectors3 im'.
Proof.
  intros C K Kl Wr P E. assert (Pn : Permutation (map job_name jobs) (map job_name jobs')) by (apply Permutation_map; exact P).
  assert (Wr' : writable3 im jobs').
  { destruct Wr as (H1 & H2). split; [intros n t d X; apply (H1 n t d); eapply Permutation_in; [symmetry; exact P|exact X]|].
    eapply Permutation_NoDup; [|exact H2]. apply Permutation_app_head. exact Pn. }
  assert (Ne : needed3 jobs = needed3 jobs') by (unfold needed3; clear -P; induction P; cbn [fold_right]; lia).
  assert (Zj : zlen jobs = zlen jobs') by (unfold zlen; rewrite (Permutation_length P); reflexivity).
  destruct (C101_dos33_fit c jobs im C K Kl Wr) as [F1 F2]. destruct (C101_dos33_fit c jobs' im C K Kl Wr') as [G1 G2].
  assert (Y : snd (write_all3 im jobs') = Ok tt) by (apply G1; rewrite <- Ne, <- Zj; apply F1; rewrite E; reflexivity).
  destruct (write_all3 im jobs') as [im'' r] eqn:E'. cbn [snd] in Y. subst r. exists im''. split; [reflexivity|].
  destruct (F2 im' E) as (_ & _ & Fa & Fb & Fc). destruct (G2 im'' eq_refl) as (_ & _ & Ga & Gb & Gc).
  split; [intros x; rewrite Fb, Gb; symmetry; apply put_perm3; [exact P|]; destruct Wr as (_ & H2); exact (NoDup_app_r3 _ _ H2)|].
  split; [rewrite Gc, Fc; apply Permutation_app_head; symmetry; exact Pn|]. rewrite Fa, Ga, Ne. reflexivity.
Qed.
Print Assumptions C101_dos33_order.

Example C101_dos33_fit_example : exists im c, consistent3 im /\ capacity3 im c /\ zlen (listing3 im) <= c /\
  writable3 im [(NEW, [66], new_data); ([88], [65], big_data 200)] /\ snd (write_all3 im [(NEW, [66], new_data); ([88], [65], big_data 200)]) = Ok tt.
Proof.
  exists one_im, (7 * (zlen demo_cat - 1)). split; [exact one_consistent|].
  assert (K : capacity3 one_im (7 * (zlen demo_cat - 1))) by (exists demo_cat, 1; rewrite one_bytes; split; [exact demo_one_disk|reflexivity]). split; [exact K|].
  assert (Kl : zlen (listing3 one_im) <= 7 * (zlen demo_cat - 1)) by (rewrite one_listing; vm_compute; discriminate). split; [exact Kl|].
  assert (Wr : writable3 one_im [(NEW, [66], new_data); ([88], [65], big_data 200)]).
  { split.
    - intros n t d [X|[X|[]]]; injection X as <- <- <-.
      + split; [exact NEW_ascii|]. split; [discriminate|]. split; [discriminate|exact new_data_ok].
      + split; [repeat constructor; lia|]. split; [discriminate|]. split; [apply big_data_nil; lia|apply big_data_ok].
    - rewrite one_listing. cbn [map app]. change (job_name (NEW, [66], new_data)) with NEW. change (job_name ([88], [65], big_data 200)) with [88].
      repeat constructor; cbn [In]; intuition discriminate. }
  split; [exact Wr|]. apply (proj1 (C101_dos33_fit _ _ one_im one_consistent K Kl Wr)). rewrite one_free, one_listing. cbn [needed3 fold_right snd]. rewrite big_data_len by lia.
  split; vm_compute; discriminate.
Qed.
