(** C101 on DOS 3.3 disks: no sector is lost or invented, unless a write is refused. *)
From Coq Require Import Permutation.
From Verif Require Import Base BaseLemmas DiskModel DirLemmas AtariSpec Dos33Model Dos33Spec Dos33Geom Dos33Vtoc Dos33Dir Dos33Files Dos33Update Dos33Alloc Dos33Write Dos33Delete Dos33Shred Dos33Ops Dos33Session Dos33Demo.
From Verif Require Import Properties_Dos33.
From Verif Require CliInst.

(** A sector of a listed file; a sector that is free or belongs to a file. *)
Definition owned3 (im : img33) (s : Z) : Prop := exists m tl dl, sectors_of3 im m tl dl /\ In s (tl ++ dl).
Definition accounted3 (im : img33) (s : Z) : Prop := is_free3 im s \/ owned3 im s.

Lemma sectors_det3 im n tl dl tl' dl' : sectors_of3 im n tl dl -> sectors_of3 im n tl' dl' -> tl = tl' /\ dl = dl'.
Proof.
  intros (cat & k & i & D & (H1 & H2 & H3 & H4)) (cat' & k' & i' & D' & F'). destruct (disk_det _ _ _ _ _ D D') as [<- <-]. destruct F' as (H1' & H2' & H3' & H4').
  assert (i = i') by (apply (live_names _ _ _ D i i'); try assumption; congruence). subst i'. exact (file_at_det _ _ _ _ _ _ H4 H4').
Qed.
Lemma sectors_listed3 im n tl dl : consistent3 im -> sectors_of3 im n tl dl -> In n (listing3 im).
Proof.
  intros C (cat & k & i & D & F). destruct (consistent3_view im C) as (cat' & k' & E & D'). destruct (disk_det _ _ _ _ _ D D') as [<- <-].
  rewrite E. apply In_listing3; [exact D|]. destruct F as (H1 & H2 & H3 & _). exists i. auto.
Qed.
Lemma upd_sectors b cat k b' k' j m tl dl : update3 b cat k b' k' j ->
  (0 <= j < k -> x_live (slot3 b cat j) -> x_name (slot3 b cat j) <> m) -> (0 <= j < k' -> x_live (slot3 b' cat j) -> x_name (slot3 b' cat j) <> m) ->
  (sectors_of3 (view3 b' cat k') m tl dl <-> sectors_of3 (view3 b cat k) m tl dl).
Proof.
  intros U Old New. pose proof (u_disk _ _ _ _ _ _ U) as D. pose proof (update_ok _ _ _ _ _ _ U) as D'. pose proof (u_k _ _ _ _ _ _ U) as Hk. split.
  - intros (cat0 & k0 & i & D0 & (H1 & H2 & H3 & H4)). cbn [view3 i_bytes] in *. destruct (disk_det _ _ _ _ _ D0 D') as [-> ->].
    assert (Hj : i <> j) by (intros ->; apply (New H1 H2 H3)). destruct (kept_file_inv _ _ _ _ _ _ U i tl dl H1 Hj H2 H4) as (A1 & A2 & A3).
    destruct (u_kept _ _ _ _ _ _ U i H1 Hj) as [_ (Hn & _)]. exists cat, k, i. cbn [view3 i_bytes]. split; [exact D|]. split; [lia|]. split; [exact A2|]. split; [congruence|exact A3].
  - intros (cat0 & k0 & i & D0 & (H1 & H2 & H3 & H4)). cbn [view3 i_bytes] in *. destruct (disk_det _ _ _ _ _ D0 D) as [-> ->].
    assert (Hj : i <> j) by (intros ->; apply (Old H1 H2 H3)). destruct (kept_file _ _ _ _ _ _ U i tl dl H1 Hj H2 H4) as [A1 _].
    destruct (u_kept _ _ _ _ _ _ U i ltac:(lia) Hj) as [_ (Hn & _)]. exists cat, k', i. cbn [view3 i_bytes]. split; [exact D'|]. split; [lia|]. split; [apply (kept_live _ _ _ _ _ _ U i ltac:(lia) Hj); exact H2|]. split; [congruence|exact A1].
Qed.

Lemma write_sectors3 im n ft d im' : consistent3 im -> legal_write3 im n ft d -> write_file3 im n ft d = (im', Ok tt) ->
  forall m, m <> stored_name3 n -> forall tl dl, sectors_of3 im' m tl dl <-> sectors_of3 im m tl dl.
Proof.
  intros C L E0 m Hm tl dl. pose proof (write_master3 im n ft d C L) as M. destruct M as [(N & R & _)|[(_ & X)|[(_ & ? & ? & X & _)|(_ & _ & ? & ? & X & _)]]]; [|congruence|congruence|congruence].
  destruct L as (Ha & Ht & Hd & Hdo & Hnl). destruct (consistent3_view im C) as (cat & k & E & D). set (b := i_bytes im) in *. rewrite E in Hnl. rewrite In_listing3 in Hnl by assumption.
  pose proof (write_body3_spec b cat k n ft d D Ha Hd Hdo Ht Hnl) as (_ & _ & _ & O4).
  unfold free_sectors3 in N. fold b in N. rewrite free_count3_list in N. apply (has_room3_iff im cat k D) in R. destruct (O4 N R) as (b' & Eb & W).
  pose proof (w3_upd _ _ _ _ _ _ _ _ _ _ _ W) as U. pose proof (w3_new _ _ _ _ _ _ _ _ _ _ _ W) as (Nw1 & Nw2 & Nw3 & _). destruct (w3_slot _ _ _ _ _ _ _ _ _ _ _ W) as (_ & _ & Dd & _).
  assert (X : write_file3 im n ft d = (view3 b' cat _, Ok tt)) by (rewrite E; unfold write_file3; apply transact3_view; [exact (update_ok _ _ _ _ _ _ U)|exact Eb]).
  rewrite X in E0. injection E0 as <-. rewrite E. apply (upd_sectors _ _ _ _ _ _ _ _ _ U).
  - intros H1 [H2 _]. exfalso. apply H2. apply Dd. lia.
  - intros _ _. congruence.
Qed.
Lemma delete_sectors3 im n im' : consistent3 im -> In n (listing3 im) -> delete_file3 im n = (im', Ok tt) ->
  forall m, m <> n -> forall tl dl, sectors_of3 im' m tl dl <-> sectors_of3 im m tl dl.
Proof.
  intros C L E0 m Hm tl0 dl0. destruct (consistent3_view im C) as (cat & k & E & D). set (b := i_bytes im) in *. rewrite E in L. rewrite In_listing3 in L by assumption.
  destruct (listed_file3 b cat k n D L) as (i & tl & dl & F). destruct (delete_body3_spec b cat k n i tl dl D F) as (b' & Eb & W). pose proof (x3_upd _ _ _ _ _ _ _ W) as U.
  assert (X : delete_file3 im n = (view3 b' cat k, Ok tt)) by (rewrite E; unfold delete_file3; apply transact3_view; [exact (update_ok _ _ _ _ _ _ U)|exact Eb]).
  rewrite X in E0. injection E0 as <-. rewrite E. destruct F as (_ & _ & Ni & _). apply (upd_sectors _ _ _ _ _ _ _ _ _ U).
  - intros _ _. congruence.
  - intros _ [H2 _]. exfalso. apply H2. apply (x3_dead _ _ _ _ _ _ _ W).
Qed.
Lemma shred_sectors3 im fill im' : consistent3 im -> shred3 im fill = (im', Ok tt) ->
  (forall m tl dl, sectors_of3 im' m tl dl <-> sectors_of3 im m tl dl) /\ (forall s, is_free3 im' s <-> is_free3 im s) /\ free_sectors3 im' = free_sectors3 im.
Proof.
  intros C E0. destruct (consistent3_view im C) as (cat & k & E & D). set (b := i_bytes im) in *. destruct (shred_body3_spec b cat k fill D) as (b' & Eb & W). pose proof (s3_upd _ _ _ _ _ W) as U.
  assert (X : shred3 im fill = (view3 b' cat k, Ok tt)) by (rewrite E; unfold shred3; apply transact3_view; [exact (update_ok _ _ _ _ _ _ U)|exact Eb]).
  rewrite X in E0. injection E0 as <-. split; [intros m tl dl; rewrite E; apply (upd_sectors _ _ _ _ _ _ _ _ _ U); lia|].
  assert (B : forall s, free_bit3 b' s = free_bit3 b s).
  { intros s. assert (V : vtoc b' = vtoc b); [|unfold free_bit3; rewrite V; reflexivity]. unfold vtoc. rewrite (s3_sec _ _ _ _ _ W) by lia.
    destruct (Z.eqb_spec (free_bit3 b 272) 1) as [Q|Q]; [|reflexivity]. exfalso. destruct (k3_free _ _ _ D 272 ltac:(lia) Q) as (_ & Q2 & _). lia. }
  split.
  - intros s. unfold is_free3. cbn [view3 i_bytes]. fold b. rewrite B. reflexivity.
  - unfold free_sectors3. cbn [view3 i_bytes]. fold b. rewrite !free_count3_list. f_equal. unfold free_list3. apply filter_ext. intros s. rewrite B. reflexivity.
Qed.

Lemma write_owned3 im n ft d im' tl dl : consistent3 im -> legal_write3 im n ft d -> write_file3 im n ft d = (im', Ok tt) -> write_result3 im im' n ft d tl dl ->
  forall s, owned3 im' s <-> owned3 im s \/ In s (tl ++ dl).
Proof.
  intros C L E W s. pose proof (write_sectors3 im n ft d im' C L E) as S. destruct L as (_ & _ & _ & _ & Nl). split.
  - intros (m & t & l & Sm & H). destruct (list_eq_dec Z.eq_dec m (stored_name3 n)) as [->|Nm].
    + right. destruct (sectors_det3 _ _ _ _ _ _ (wr3_sectors _ _ _ _ _ _ _ W) Sm) as [-> ->]. exact H.
    + left. exists m, t, l. split; [apply S; assumption|exact H].
  - intros [(m & t & l & Sm & H)|H].
    + exists m, t, l. split; [|exact H]. apply S; [|exact Sm]. intros ->. apply Nl. exact (sectors_listed3 _ _ _ _ C Sm).
    + exists (stored_name3 n), tl, dl. split; [apply (wr3_sectors _ _ _ _ _ _ _ W)|exact H].
Qed.
Lemma delete_unlists3 im n im' tl dl : consistent3 im -> delete_result3 im im' n tl dl -> ~ In n (listing3 im').
Proof.
  intros C W. destruct (dr3_listing _ _ _ _ _ W) as (l1 & l2 & E1 & E2). rewrite E2. apply NoDup_remove_2. rewrite <- E1. apply CliInst.listing3_NoDup. exact C.
Qed.
Lemma delete_owned3 im n im' tl dl : consistent3 im -> In n (listing3 im) -> delete_file3 im n = (im', Ok tt) -> delete_result3 im im' n tl dl ->
  forall s, owned3 im s <-> owned3 im' s \/ In s (tl ++ dl).
Proof.
  intros C L E W s. pose proof (delete_sectors3 im n im' C L E) as S. pose proof (dr3_consistent _ _ _ _ _ W) as C'. pose proof (delete_unlists3 _ _ _ _ _ C W) as Nl. split.
  - intros (m & t & l & Sm & H). destruct (list_eq_dec Z.eq_dec m n) as [->|Nm].
    + right. destruct (sectors_det3 _ _ _ _ _ _ (dr3_sectors _ _ _ _ _ W) Sm) as [-> ->]. exact H.
    + left. exists m, t, l. split; [apply S; assumption|exact H].
  - intros [(m & t & l & Sm & H)|H].
    + exists m, t, l. split; [|exact H]. apply S; [|exact Sm]. intros ->. apply Nl. exact (sectors_listed3 _ _ _ _ C' Sm).
    + exists n, tl, dl. split; [apply (dr3_sectors _ _ _ _ _ W)|exact H].
Qed.

(** Writes that succeed, deletes of listed files, any shred. *)
Definition done_op3 (im : img33) (o : op3) : Prop :=
  match o with
  | PWrite n t d => legal_write3 im n t d /\ snd (write_file3 im n t d) = Ok tt
  | PDelete n => In n (listing3 im)
  | PShred _ => True
  end.
Definition file_cost3 (im : img33) (n : list Z) : Z := match find_file3 im n with Ok d => need3 (zlen d) | Err _ => 0 end.
(** What the sizes of the listed files add up to, in sectors. *)
Definition spent3 (im : img33) : Z := fold_right (fun n s => file_cost3 im n + s) 0 (listing3 im).
(** Every file occupies as few sectors as its contents need. *)
Definition compact3 (im : img33) : Prop := forall n tl dl d, sectors_of3 im n tl dl -> find_file3 im n = Ok d -> zlen (tl ++ dl) = need3 (zlen d).

Lemma sum_app3 {A} (f : A -> Z) l1 l2 : fold_right (fun n s => f n + s) 0 (l1 ++ l2) = fold_right (fun n s => f n + s) 0 l1 + fold_right (fun n s => f n + s) 0 l2.
Proof. induction l1 as [|x l IH]; cbn [fold_right app]; [lia|rewrite IH; lia]. Qed.
Lemma sum_ext3 {A} (f g : A -> Z) l : (forall x, In x l -> f x = g x) -> fold_right (fun n s => f n + s) 0 l = fold_right (fun n s => g n + s) 0 l.
Proof. induction l as [|x l IH]; intros H; [reflexivity|]. cbn [fold_right]. rewrite (H x (or_introl eq_refl)), IH; [reflexivity|intros; apply H; right; assumption]. Qed.
Lemma need_padded d : need3 (zlen (padded d)) = need3 (zlen d).
Proof.
  pose proof (zlen_nonneg d). unfold need3. assert (E : sectors3 (zlen (padded d)) = sectors3 (zlen d)); [|rewrite E; reflexivity].
  unfold padded. rewrite zlen_app. unfold sectors3 in *. rewrite zlen_zrepeat by (Z.to_euclidean_division_equations; lia). Z.to_euclidean_division_equations; lia.
Qed.

Lemma step_accounted3 im o : consistent3 im -> done_op3 im o ->
  consistent3 (fst (do_op3 im o)) /\ (forall s, accounted3 (fst (do_op3 im o)) s <-> accounted3 im s) /\
  (compact3 im -> compact3 (fst (do_op3 im o)) /\ free_sectors3 (fst (do_op3 im o)) + spent3 (fst (do_op3 im o)) = free_sectors3 im + spent3 im).
Proof.
  intros C L. destruct o as [n t d|n|f]; cbn [done_op3 do_op3] in *.
  - destruct L as [L Ok1]. destruct (write_master3 im n t d C L) as [(_ & _ & im' & tl & dl & E & W)|[(_ & E)|[(_ & ? & ? & E & _)|(_ & _ & ? & ? & E & _)]]]; rewrite E in *; cbn [snd fst] in *; try discriminate. clear Ok1.
    split; [apply (wr3_consistent _ _ _ _ _ _ _ W)|]. split.
    + intros s. unfold accounted3. rewrite (wr3_free _ _ _ _ _ _ _ W), (write_owned3 im n t d im' tl dl C L E W). pose proof (wr3_were_free _ _ _ _ _ _ _ W s) as F.
      pose proof (in_app_iff dl tl s) as A3. pose proof (in_app_iff tl dl s) as A4. clear -F A3 A4. destruct (in_dec Z.eq_dec s tl); destruct (in_dec Z.eq_dec s dl); tauto.
    + intros K. pose proof (write_sectors3 im n t d im' C L E) as S. split.
      * intros m tm dm d' Sm Fm. destruct (list_eq_dec Z.eq_dec m (stored_name3 n)) as [->|Nm].
        -- rewrite (wr3_read _ _ _ _ _ _ _ W) in Fm. injection Fm as <-. destruct (sectors_det3 _ _ _ _ _ _ (wr3_sectors _ _ _ _ _ _ _ W) Sm) as [<- <-].
           rewrite need_padded, zlen_app. destruct (wr3_count _ _ _ _ _ _ _ W) as [E1 E2]. unfold need3. rewrite E2, E1. lia.
        -- rewrite (proj1 (wr3_others _ _ _ _ _ _ _ W m Nm)) in Fm. apply S in Sm; [|exact Nm]. exact (K m tm dm d' Sm Fm).
      * destruct L as (_ & _ & _ & _ & Nl). destruct (wr3_listing _ _ _ _ _ _ _ W) as (l1 & l2 & E1 & E2). rewrite E1 in Nl. unfold spent3. rewrite E1, E2, !sum_app3. cbn [fold_right].
        assert (X : forall m, In m (l1 ++ l2) -> file_cost3 im' m = file_cost3 im m).
        { intros m Hm. unfold file_cost3. rewrite (proj1 (wr3_others _ _ _ _ _ _ _ W m ltac:(intros ->; contradiction))). reflexivity. }
        rewrite !(sum_ext3 (file_cost3 im') (file_cost3 im)) by (intros; apply X; apply in_or_app; auto). unfold file_cost3 at 2. rewrite (wr3_read _ _ _ _ _ _ _ W), need_padded, (wr3_free_count _ _ _ _ _ _ _ W). lia.
  - destruct (delete_master3 im n C L) as (im' & tl & dl & E & W). rewrite E. cbn [fst].
    split; [apply (dr3_consistent _ _ _ _ _ W)|]. split.
    + intros s. unfold accounted3. rewrite (dr3_free _ _ _ _ _ W), (delete_owned3 im n im' tl dl C L E W). tauto.
    + intros K. pose proof (delete_sectors3 im n im' C L E) as S. pose proof (delete_unlists3 _ _ _ _ _ C W) as Nl. pose proof (dr3_consistent _ _ _ _ _ W) as C'. split.
      * intros m tm dm d' Sm Fm. assert (Nm : m <> n) by (intros ->; apply Nl; exact (sectors_listed3 _ _ _ _ C' Sm)).
        rewrite (proj1 (dr3_others _ _ _ _ _ W m Nm)) in Fm. apply S in Sm; [|exact Nm]. exact (K m tm dm d' Sm Fm).
      * destruct (dr3_listing _ _ _ _ _ W) as (l1 & l2 & E1 & E2). rewrite E2 in Nl. unfold spent3. rewrite E1, E2, !sum_app3. cbn [fold_right].
        assert (X : forall m, In m (l1 ++ l2) -> file_cost3 im' m = file_cost3 im m).
        { intros m Hm. unfold file_cost3. rewrite (proj1 (dr3_others _ _ _ _ _ W m ltac:(intros ->; contradiction))). reflexivity. }
        rewrite !(sum_ext3 (file_cost3 im') (file_cost3 im)) by (intros; apply X; apply in_or_app; auto). rewrite (dr3_free_count _ _ _ _ _ W).
        destruct (find_total3 im n C) as [Fn|[d' Fn]].
        -- exfalso. destruct (consistent3_view im C) as (cat & k & Ev & D). pose proof L as L0. rewrite Ev in L0. apply In_listing3 in L0; [|exact D]. destruct (listed_file3 _ _ _ n D L0) as (i & t & l & F0).
           rewrite Ev, (proj1 (find_of_file_in3 _ _ _ _ _ _ _ D F0)) in Fn. discriminate.
        -- rewrite (K n tl dl d' (dr3_sectors _ _ _ _ _ W) Fn). unfold file_cost3 at 4. rewrite Fn. lia.
  - destruct (shred_master3 im f C) as (im' & E & W). destruct (shred_sectors3 im f im' C E) as (S & F & Fc). rewrite E. cbn [fst].
    split; [apply (sr3_consistent _ _ _ W)|]. split.
    + intros s. unfold accounted3. rewrite F. assert (O : owned3 im' s <-> owned3 im s); [|tauto].
      split; intros (m & t & l & Sm & Hs); exists m, t, l; (split; [apply S; exact Sm|exact Hs]).
    + intros K. split.
      * intros m t l d Sm Fm. rewrite (proj1 (sr3_files _ _ _ W m)) in Fm. apply (K m); [apply S; exact Sm|exact Fm].
      * rewrite Fc. unfold spent3. rewrite (sr3_listing _ _ _ W). f_equal. apply sum_ext3. intros m _. unfold file_cost3. rewrite (proj1 (sr3_files _ _ _ W m)). reflexivity.
Qed.

(** Over any session whose writes succeed, the sectors that are free or belong
    to a listed file are the same ones before and after; on a disk whose files
    are as short as they can be, free sectors and file sizes always add up to
    the same number. *)
Theorem C101_dos33_partial ops : forall im m, consistent3 im -> all_ops3 done_op3 im ops ->
  let im' := fst (run3 im m ops) in
  consistent3 im' /\ (forall s, accounted3 im' s <-> accounted3 im s) /\
  (compact3 im -> compact3 im' /\ free_sectors3 im' + spent3 im' = free_sectors3 im + spent3 im).
Proof.
  induction ops as [|o r IH]; intros im m C L; [cbn [run3 fst]; tauto|]. cbn [all_ops3] in L. destruct L as [L1 L2].
  destruct (step_accounted3 im o C L1) as (C1 & A1 & B1). cbn [run3].
  destruct (do_op3 im o) as [im1 res]. cbn [fst] in *. destruct (IH im1 (map_step3 m o res) C1 L2) as (C2 & A2 & B2).
  split; [exact C2|]. split; [intros s; rewrite A2; apply A1|].
  intros K. destruct (B1 K) as [K1 E1]. destruct (B2 K1) as [K2 E2]. split; [exact K2|lia].
Qed.
Print Assumptions C101_dos33_partial.
Theorem C101_dos33_one_owner im s : consistent3 im ->
  (is_free3 im s -> ~ owned3 im s) /\
  (forall m1 m2 t1 l1 t2 l2, sectors_of3 im m1 t1 l1 -> sectors_of3 im m2 t2 l2 -> In s (t1 ++ l1) -> In s (t2 ++ l2) -> m1 = m2).
Proof.
  intros C. split.
  - intros [Hs Fb] (m & tl & dl & (cat & k & i & D & (H1 & H2 & H3 & H4)) & H). destruct (live_sector _ _ _ i tl dl s D H1 H2 H4 H) as [_ X]. congruence.
  - intros m1 m2 t1 l1 t2 l2 (cat & k & i & D & (H1 & H2 & H3 & H4)) (cat' & k' & i' & D' & F') A B. destruct (disk_det _ _ _ _ _ D D') as [<- <-]. destruct F' as (H1' & H2' & H3' & H4').
    rewrite <- (k3_own _ _ _ D i i' t1 l1 t2 l2 s) in H3' by assumption. congruence.
Qed.
Print Assumptions C101_dos33_one_owner.

(** * Refused writes *)
Lemma refused_sectors3 im n ft d im' e : consistent3 im -> legal_write3 im n ft d -> write_file3 im n ft d = (im', Err e) ->
  forall m tl dl, sectors_of3 im' m tl dl <-> sectors_of3 im m tl dl.
Proof.
  intros C L E0 m tl dl. pose proof (write_master3 im n ft d C L) as M.
  destruct L as (Ha & Ht & Hd & Hdo & Hnl). destruct (consistent3_view im C) as (cat & k & E & D). set (b := i_bytes im) in *. rewrite E in Hnl. rewrite In_listing3 in Hnl by assumption.
  pose proof (write_body3_spec b cat k n ft d D Ha Hd Hdo Ht Hnl) as (_ & O2 & O3 & _). pose proof (marked_b1 b cat k d D) as M1. pose proof (marked_b2 b cat k d D Hd Hdo) as M2.
  unfold free_sectors3 in M. fold b in M. rewrite free_count3_list in M.
  destruct M as [(_ & _ & ? & ? & ? & X & _)|[(_ & X)|[(N & ? & ? & X & _)|(N & R & ? & ? & X & _)]]]; [congruence| | |].
  - assert (Q : im' = im) by congruence. rewrite Q. reflexivity.
  - pose proof (m3_upd _ _ _ _ _ M1) as U. assert (Y : write_file3 im n ft d = (view3 _ cat k, _)) by (rewrite E; unfold write_file3; apply transact3_view; [exact (update_ok _ _ _ _ _ _ U)|apply O2; exact N]).
    rewrite Y in E0. injection E0 as <- _. rewrite E. apply (upd_sectors _ _ _ _ _ _ _ _ _ U); lia.
  - assert (R' : ~ room3 b cat k) by (intros Q; apply R; apply (has_room3_iff im cat k D); exact Q).
    pose proof (m3_upd _ _ _ _ _ M2) as U. assert (Y : write_file3 im n ft d = (view3 _ cat k, _)) by (rewrite E; unfold write_file3; apply transact3_view; [exact (update_ok _ _ _ _ _ _ U)|apply O3; [exact N|exact R']]).
    rewrite Y in E0. injection E0 as <- _. rewrite E. apply (upd_sectors _ _ _ _ _ _ _ _ _ U); lia.
Qed.
Lemma lk3_nodup im im' l : consistent3 im -> leak_result3 im im' l -> NoDup l.
Proof.
  intros C W. destruct (consistent3_view im C) as (cat & k & _ & D). destruct (consistent3_view im' (lk3_consistent _ _ _ W)) as (cat' & k' & _ & D').
  pose proof (lk3_free_count _ _ _ W) as Fc. unfold free_sectors3 in Fc. rewrite !free_count3_list in Fc. set (u := nodup Z.eq_dec l).
  assert (P : Permutation (free_list3 (i_bytes im)) (u ++ free_list3 (i_bytes im'))).
  { apply NoDup_Permutation; [apply NoDup_free_list3| |].
    - pose proof (NoDup_free_list3 (i_bytes im')) as N'. assert (Hd : forall x, In x u -> ~ In x (free_list3 (i_bytes im'))).
      { intros x Hx Hx'. apply nodup_In in Hx. apply (is_free_in im' cat' k' x D') in Hx'. apply (lk3_free _ _ _ W) in Hx'. tauto. }
      pose proof (NoDup_nodup Z.eq_dec l) as Hnd. fold u in Hnd. clearbody u. clear -Hnd N' Hd. induction Hnd as [|x l Hx Hnd IH]; [assumption|]. cbn [app]. constructor.
      + rewrite in_app_iff. intros [C|C]; [contradiction|]. apply (Hd x); [left; reflexivity|assumption].
      + apply IH. intros y Hy. apply Hd. right; assumption.
    - intros x. rewrite in_app_iff. unfold u. rewrite nodup_In, <- (is_free_in im cat k x D), <- (is_free_in im' cat' k' x D'), (lk3_free _ _ _ W). pose proof (lk3_were_free _ _ _ W x) as F.
      destruct (in_dec Z.eq_dec x l); tauto. }
  apply Permutation_length in P. rewrite app_length in P. unfold zlen in Fc.
  apply (NoDup_incl_NoDup (l := u)); [apply NoDup_nodup|lia|]. intros x Hx. apply nodup_In in Hx. exact Hx.
Qed.
(** What a refused write loses: nothing when not even the data fits, otherwise
    exactly the sectors it would have used for the data, or for all of the file
    when it is the catalog that is full. *)
Theorem C101_dos33_refused_loss im n ft d im' e : consistent3 im -> legal_write3 im n ft d -> write_file3 im n ft d = (im', Err e) ->
  exists lost, NoDup lost /\ (forall s, In s lost -> is_free3 im s) /\ (forall s, accounted3 im' s <-> accounted3 im s /\ ~ In s lost) /\
    zlen lost = (if free_sectors3 im <? sectors3 (zlen d) then 0 else if free_sectors3 im <? need3 (zlen d) then sectors3 (zlen d) else need3 (zlen d)).
Proof.
  intros C L E. pose proof (refused_sectors3 im n ft d im' e C L E) as S.
  assert (O : forall s, owned3 im' s <-> owned3 im s) by (intros s; split; intros (m & t & l & Sm & Hs); exists m, t, l; (split; [apply S; exact Sm|exact Hs])).
  assert (G : forall l, leak_result3 im im' l -> forall s, accounted3 im' s <-> accounted3 im s /\ ~ In s l).
  { intros l W s. unfold accounted3. rewrite (lk3_free _ _ _ W), O. destruct (C101_dos33_one_owner im s C) as [X _]. pose proof (lk3_were_free _ _ _ W s). tauto. }
  assert (Ge : sectors3 (zlen d) <= need3 (zlen d)).
  { unfold need3. pose proof (zlen_nonneg d). assert (0 <= sectors3 (zlen d)) by (unfold sectors3; apply Z.div_pos; lia). assert (0 <= lists3 (sectors3 (zlen d))) by (unfold lists3; apply Z.div_pos; lia). lia. }
  destruct (write_master3 im n ft d C L) as [(_ & _ & ? & ? & ? & X & _)|[(N & X)|[(N & i1 & l & X & W & Hl)|(N & R & i1 & l & X & W & Hl)]]]; [congruence| | |].
  - assert (im' = im) by congruence. subst. exists []. split; [constructor|]. split; [intros s []|]. split; [intros s; cbn [In]; tauto|]. replace (_ <? _) with true by lia. reflexivity.
  - assert (im' = i1) by congruence. subst i1. exists l. split; [apply (lk3_nodup im im' l C W)|]. split; [apply (lk3_were_free _ _ _ W)|]. split; [apply G; exact W|].
    replace (free_sectors3 im <? sectors3 (zlen d)) with false by lia. replace (free_sectors3 im <? need3 (zlen d)) with true by lia. exact Hl.
  - assert (im' = i1) by congruence. subst i1. exists l. split; [apply (lk3_nodup im im' l C W)|]. split; [apply (lk3_were_free _ _ _ W)|]. split; [apply G; exact W|].
    replace (free_sectors3 im <? sectors3 (zlen d)) with false by lia. replace (free_sectors3 im <? need3 (zlen d)) with false by lia. exact Hl.
Qed.
Print Assumptions C101_dos33_refused_loss.

(** A refused write can lose sectors: here every free sector of a disk. *)
Theorem C101_dos33_refused_write_refuted : exists im n d im' e, consistent3 im /\ legal_write3 im n [66] d /\ write_file3 im n [66] d = (im', Err e) /\
  exists s, accounted3 im s /\ ~ accounted3 im' s.
Proof.
  assert (L : legal_write3 one_im NEW [66] (big_data 494)) by (apply legal_one; [discriminate|apply big_data_nil; lia|apply big_data_ok]).
  assert (S : sectors3 (zlen (big_data 494)) = 494) by (rewrite big_data_len, sectors3_big by lia; reflexivity).
  assert (Nd : need3 (zlen (big_data 494)) = 499) by (unfold need3; rewrite S; reflexivity).
  destruct (write_master3 one_im NEW [66] (big_data 494) one_consistent L) as [(H & _)|[(H & _)|[(_ & im' & l & E & W & Hl)|(H & _)]]].
  - exfalso. rewrite Nd, one_free in H. lia.
  - exfalso. rewrite S, one_free in H. lia.
  - exists one_im, NEW, (big_data 494), im', (EAtr NotEnoughSpaceOnDisk). split; [exact one_consistent|]. split; [exact L|]. split; [exact E|].
    rewrite S in Hl. destruct l as [|s l]; [discriminate|]. pose proof (lk3_were_free _ _ _ W s (or_introl eq_refl)) as F. exists s. split; [left; exact F|].
    intros [X|(m & tl & dl & Sm & Hs)]; [apply (lk3_free _ _ _ W) in X; destruct X as [_ X]; apply X; left; reflexivity|].
    apply (refused_sectors3 _ _ _ _ _ _ one_consistent L E) in Sm. apply (proj1 (C101_dos33_one_owner one_im s one_consistent) F). exists m, tl, dl. auto.
  - exfalso. rewrite Nd, one_free in H. lia.
Qed.
Print Assumptions C101_dos33_refused_write_refuted.

(** A session that meets the hypotheses. *)
Definition demo_ops3 : list op3 := [PWrite NEW [66] new_data; PDelete HELLO; PShred 0; PDelete NEW].
Example C101_dos33_example : exists im, consistent3 im /\ compact3 im /\ listing3 im = [HELLO] /\ all_ops3 done_op3 im demo_ops3 /\ free_sectors3 im = 494 /\ spent3 im = 2.
Proof.
  exists one_im. split; [exact one_consistent|].
  assert (Fd : exists d, find_file3 one_im HELLO = Ok d /\ need3 (zlen d) = 2).
  { destruct (find_of_file_in3 _ _ _ _ _ _ _ demo_one_disk one_file) as [A _]. eexists. split; [exact A|]. vm_compute. reflexivity. }
  destruct Fd as (d0 & Fd & Nd). split.
  { intros n tl dl d S F. pose proof (sectors_listed3 _ _ _ _ one_consistent S) as Hin. rewrite one_listing in Hin. destruct Hin as [<-|[]].
    assert (S1 : sectors_of3 one_im HELLO [48] [49]) by (exists demo_cat, 1, 0; rewrite one_bytes; split; [exact demo_one_disk|exact one_file]).
    destruct (sectors_det3 _ _ _ _ _ _ S1 S) as [<- <-]. assert (d = d0) by congruence. subst d. rewrite Nd. reflexivity. }
  split; [exact one_listing|]. split.
  2: { split; [exact one_free|]. unfold spent3. rewrite one_listing. cbn [fold_right]. unfold file_cost3. rewrite Fd, Nd. reflexivity. }
  destruct (one_write [66] new_data ltac:(discriminate) ltac:(discriminate) new_data_ok ltac:(vm_compute; discriminate)) as (im1 & tl & dl & E1 & W).
  unfold demo_ops3. cbn [all_ops3 do_op3 done_op3]. split; [split; [apply legal_one; [discriminate|discriminate|exact new_data_ok]|rewrite E1; reflexivity]|].
  rewrite E1. cbn [fst]. pose proof (wr3_consistent _ _ _ _ _ _ _ W) as C1.
  destruct (wr3_listing _ _ _ _ _ _ _ W) as (l1 & l2 & H1 & H2). rewrite one_listing in H1. rewrite NEW_stored in H2.
  assert (M1 : In HELLO (listing3 im1)).
  { assert (X : In HELLO (l1 ++ l2)) by (rewrite <- H1; left; reflexivity). rewrite H2.
    apply in_app_iff in X. apply in_app_iff. cbn [In]. tauto. }
  split; [exact M1|].
  destruct (delete_master3 im1 HELLO C1 M1) as (im2 & tl2 & dl2 & E2 & W2). rewrite E2. cbn [fst].
  pose proof (dr3_consistent _ _ _ _ _ W2) as C2. split; [exact Logic.I|].
  destruct (shred_master3 im2 0 C2) as (im3 & E3 & W3). rewrite E3. cbn [fst].
  destruct (dr3_listing _ _ _ _ _ W2) as (q1 & q2 & Q1 & Q2).
  assert (M3 : In NEW (listing3 im3)).
  { rewrite (sr3_listing _ _ _ W3), Q2.
    assert (X : In NEW (listing3 im1)) by (rewrite H2; apply in_app_iff; right; left; reflexivity). rewrite Q1 in X.
    apply in_app_iff in X. destruct X as [X|[X|X]]; [|discriminate X|]; apply in_app_iff; tauto. }
  split; [exact M3|]. exact Logic.I.
Qed.
