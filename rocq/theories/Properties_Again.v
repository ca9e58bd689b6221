(** C18: deleting names again and again on a DOS 3.3 disk. *)
From Verif Require Import Base BaseLemmas DiskModel AtariSpec Dos33Model Dos33Spec Dos33Ops Dos33Session Dos33Demo Properties_Dos33.

(** * Specification *)
Definition delete_all3 (im : img33) (ns : list (list Z)) : img33 := fold_left (fun im n => fst (delete_file3 im n)) ns im.
Definition not_in (ns : list (list Z)) (m : list Z) : bool := negb (existsb (zlist_eqb m) ns).
(** A name that can be deleted without harm: a file, a name that no entry has, or one of a
    deleted file whose sectors no file has got since. *)
Definition harmless3 (im : img33) (n : list Z) : Prop := In n (listing3 im) \/ ~ named3 im n \/ exists tl dl, stale_safe3 im n tl dl.

Lemma not_in_cons n ns m : not_in (n :: ns) m = negb (zlist_eqb m n) && not_in ns m.
Proof. unfold not_in. cbn [existsb]. apply negb_orb. Qed.
Lemma listed_found im n : consistent3 im -> In n (listing3 im) -> find_file3 im n <> Err (EAtr FileNotFound).
Proof.
  intros C H G. destruct (consistent3_view im C) as (cat & k & Ei & D). rewrite Ei in H, G.
  apply In_listing3 in H; [|assumption]. destruct (listed_file3 _ _ _ _ D H) as (i & tl' & dl' & F).
  rewrite (proj1 (find_of_file_in3 _ _ _ _ _ _ _ D F)) in G. discriminate G.
Qed.
Lemma unlisted_not_found im n : consistent3 im -> ~ In n (listing3 im) -> find_file3 im n = Err (EAtr FileNotFound).
Proof.
  intros C H. destruct (consistent3_view im C) as (cat & k & Ei & D). rewrite Ei in H |- *.
  destruct (find_view3 (i_bytes im) cat k n D) as [(j & tl' & dl' & (Hj & Lj & Nj & _) & _)|(_ & R & _)]; [exfalso|exact R].
  apply H. apply In_listing3; [exact D|]. exists j. auto.
Qed.
(** Deleting one harmless name *)
Lemma one_more3 im n : consistent3 im -> harmless3 im n ->
  let im' := fst (delete_file3 im n) in
  consistent3 im' /\ listing3 im' = filter (fun m => negb (zlist_eqb m n)) (listing3 im) /\
  (forall m, m <> n -> find_file3 im' m = find_file3 im m /\ type_of3 im' m = type_of3 im m) /\
  forall m, harmless3 im m -> harmless3 im' m.
Proof.
  intros C L. cbv zeta.
  assert (F : forall l, ~ In n l -> filter (fun m => negb (zlist_eqb m n)) l = l).
  { induction l as [|x l IH]; [reflexivity|]. intros H. cbn [filter]. destruct (zlist_eqb x n) eqn:E; [apply zlist_eqb_eq in E; exfalso; apply H; left; exact E|].
    cbn [negb]. rewrite IH by (intros X; apply H; right; exact X). reflexivity. }
  destruct (in_dec (list_eq_dec Z.eq_dec) n (listing3 im)) as [H|H].
  - destruct (delete_master3 im n C H) as (im' & tl & dl & E & W). rewrite E. cbn [fst snd]. pose proof (dr3_consistent _ _ _ _ _ W) as C'.
    split; [exact C'|]. destruct (dr3_listing _ _ _ _ _ W) as (l1 & l2 & E1 & E2).
    assert (N : ~ In n (l1 ++ l2)) by (rewrite <- E2; intros X; exact (listed_found im' n C' X (dr3_gone _ _ _ _ _ W))).
    split. { rewrite E1, E2. rewrite filter_app. cbn [filter]. rewrite zlist_eqb_refl. cbn [negb]. rewrite <- filter_app. symmetry. apply F. exact N. }
    split; [apply (dr3_others _ _ _ _ _ W)|].
    intros m Hm. destruct (list_eq_dec Z.eq_dec m n) as [->|Hne]; [right; right; exists tl, dl; exact (dr3_again _ _ _ _ _ W)|].
    destruct Hm as [Hm|[Hm|(tl' & dl' & Hm)]].
    + left. rewrite E1 in Hm. rewrite E2. apply in_app_or in Hm. apply in_or_app. destruct Hm as [Hm|[Hm|Hm]]; [auto|congruence|auto].
    + right. left. intros X. apply Hm. apply (dr3_named _ _ _ _ _ W). exact X.
    + right. right. exists tl', dl'. apply (dr3_stale _ _ _ _ _ W); assumption.
  - destruct L as [L|[L|(tl & dl & L)]]; [contradiction| |].
    + rewrite delete_unknown3 by assumption. cbn [fst snd]. split; [exact C|]. split; [symmetry; apply F; exact H|]. split; auto.
    + destruct (stale_master3 im n tl dl C H L) as (im' & E & W). rewrite E. cbn [fst snd]. split; [exact (st3_consistent _ _ _ W)|].
      split; [rewrite (st3_listing _ _ _ W); symmetry; apply F; exact H|]. split; [intros m _; apply (st3_files _ _ _ W)|].
      intros m Hm. destruct Hm as [Hm|[Hm|(tl' & dl' & Hm)]].
      * left. rewrite (st3_listing _ _ _ W). exact Hm.
      * right. left. intros X. apply Hm. apply (st3_named _ _ _ W). exact X.
      * right. right. exists tl', dl'. apply (st3_stale _ _ _ W). exact Hm.
Qed.
(** Any number of deletions, of any names in any order and as often as one likes: as long as
    nothing is written in between, exactly the named files are gone. *)
Theorem C18_dos33_delete_again (im : img33) (ns : list (list Z)) : consistent3 im -> Forall (harmless3 im) ns ->
  let im' := delete_all3 im ns in
  consistent3 im' /\ listing3 im' = filter (not_in ns) (listing3 im) /\
  (forall m, In m ns -> find_file3 im' m = Err (EAtr FileNotFound)) /\
  (forall m, ~ In m ns -> find_file3 im' m = find_file3 im m /\ type_of3 im' m = type_of3 im m) /\
  forall m, harmless3 im m -> harmless3 im' m.
Proof.
  revert im. induction ns as [|n ns IH]; intros im C L; cbv zeta.
  - cbn [delete_all3 fold_left]. split; [exact C|]. split; [|split; [intros m []|split; auto]].
    symmetry. induction (listing3 im) as [|x l IHl]; [reflexivity|]. cbn [filter not_in existsb negb]. f_equal. exact IHl.
  - inversion L as [|? ? L1 L2]; subst. destruct (one_more3 im n C L1) as (C1 & E1 & F1 & P1). cbv zeta in *.
    change (delete_all3 im (n :: ns)) with (delete_all3 (fst (delete_file3 im n)) ns). set (im1 := fst (delete_file3 im n)) in *.
    assert (L3 : Forall (harmless3 im1) ns) by (revert L2; apply Forall_impl; exact P1).
    destruct (IH im1 C1 L3) as (C2 & E2 & G2 & F2 & P2). cbv zeta in *. split; [exact C2|]. split.
    { rewrite E2, E1. clear. induction (listing3 im) as [|x l IHl]; [reflexivity|]. cbn [filter]. rewrite not_in_cons. destruct (zlist_eqb x n); cbn [negb andb]; [exact IHl|].
      cbn [filter]. destruct (not_in ns x); rewrite IHl; reflexivity. }
    split; [|split; [|intros m Hm; apply P2, P1, Hm]].
    + intros m Hm. destruct (in_dec (list_eq_dec Z.eq_dec) m ns) as [X|X]; [exact (G2 m X)|]. destruct Hm as [<-|Hm]; [|contradiction].
      rewrite (proj1 (F2 n X)). apply unlisted_not_found; [exact C1|]. rewrite E1. intros Y. apply filter_In in Y. rewrite zlist_eqb_refl in Y. destruct Y as [_ Y]. discriminate Y.
    + intros m Hm. assert (N : m <> n) by (intros ->; apply Hm; left; reflexivity). assert (X : ~ In m ns) by (intros X; apply Hm; right; exact X).
      destruct (F2 m X) as [A1 A2]. destruct (F1 m N) as [B1 B2]. split; congruence.
Qed.
Print Assumptions C18_dos33_delete_again.
(** On a disk with a file and two deleted ones *)
Example C18_again_example : Forall (harmless3 full_im) [HELLO; GONE; HELLO; NEW; GONE] /\ listing3 (delete_all3 full_im [HELLO; GONE; HELLO; NEW; GONE]) = [].
Proof.
  assert (H : Forall (harmless3 full_im) [HELLO; GONE; HELLO; NEW; GONE]).
  { assert (A : harmless3 full_im HELLO) by (left; rewrite full_listing; left; reflexivity).
    assert (B : harmless3 full_im GONE) by (right; right; exists [50], [51]; exact full_gone_safe).
    assert (N : harmless3 full_im NEW) by (right; left; apply full_no_named; discriminate).
    repeat (constructor; [assumption|]). constructor. }
  split; [exact H|]. destruct (C18_dos33_delete_again full_im _ full_consistent H) as (_ & E & _). cbv zeta in E. rewrite E, full_listing. reflexivity.
Qed.
