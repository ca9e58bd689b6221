(** Sessions on DOS 3.3 disks: any sequence of operations acts like a map from
    names to contents. *)
From Verif Require Import Base BaseLemmas DiskModel DirLemmas AtariSpec Dos33Model Dos33Spec Dos33Geom Dos33Vtoc Dos33Dir Dos33Files Dos33Update Dos33Alloc Dos33Write Dos33Delete Dos33Shred Dos33Ops.

(** * Vocabulary *)
Inductive op3 := PWrite (name ft data : list Z) | PDelete (name : list Z) | PShred (fill : Z).
Definition do_op3 (im : img33) (o : op3) : img33 * res unit :=
  match o with
  | PWrite n t d => write_file3 im n t d
  | PDelete n => delete_file3 im n
  | PShred f => shred3 im f
  end.
Definition map_step3 (m : fsmap) (o : op3) (r : res unit) : fsmap :=
  match o, r with
  | PWrite n _ d, Ok _ => fs_put m (stored_name3 n) (padded d)
  | PDelete n, Ok _ => fs_del m n
  | _, _ => m
  end.
Fixpoint run3 (im : img33) (m : fsmap) (ops : list op3) : img33 * fsmap :=
  match ops with
  | [] => (im, m)
  | o :: r => let (im', res) := do_op3 im o in run3 im' (map_step3 m o res) r
  end.
Definition fs_of3 (im : img33) : fsmap :=
  fun n => match find_file3 im n with Ok d => Some d | Err _ => None end.
Definition answers3 (im : img33) (m : fsmap) : Prop :=
  forall n, find_file3 im n = match m n with Some d => Ok d | None => Err (EAtr FileNotFound) end.
(** Writes with no data are refused.  A name that only a deleted entry still
    carries may be deleted again if the sectors found through that entry belong
    to no file by now. *)
Definition legal_op3 (im : img33) (o : op3) : Prop :=
  match o with
  | PWrite n t d => legal_write3 im n t d \/ d = []
  | PDelete n => In n (listing3 im) \/ ~ named3 im n \/ exists tl dl, stale_safe3 im n tl dl
  | PShred _ => True
  end.
Fixpoint all_ops3 (P : img33 -> op3 -> Prop) (im : img33) (ops : list op3) : Prop :=
  match ops with [] => True | o :: r => P im o /\ all_ops3 P (fst (do_op3 im o)) r end.
(** The documented results of each operation. *)
Definition refusal3 (im : img33) (o : op3) (r : res unit) : Prop :=
  match o with
  | PWrite _ _ d => r = Ok tt \/ r = Err (EAtr NotEnoughSpaceOnDisk) \/ r = Err (EAtr NoSpaceInDirectory) \/
                    (d = [] /\ r = Err EIndex)
  | PDelete n => (In n (listing3 im) -> r = Ok tt) /\ (~ named3 im n -> r = Err (EAtr FileNotFound))
  | PShred _ => r = Ok tt
  end.

(** * Writing no data *)
Lemma write_empty3 im n ft : consistent3 im -> write_file3 im n ft [] = (im, Err EIndex).
Proof.
  intros C. destruct (consistent3_view im C) as (cat & k & E & D). set (b := i_bytes im) in *.
  pose proof (k3_size _ _ _ D) as Hb. pose proof (k3_bytes _ _ _ D) as Ho.
  assert (V : pack_vtoc3 (vtoc b) (smap3 b) = vtoc b).
  { apply pack_parse_vtoc3; [apply zlen_sec; [assumption|lia]|apply bytes_ok_sec; assumption]. }
  assert (Same : wr b 272 (vtoc b) = b) by (unfold wr, vtoc, sec; apply setslice_self; lia).
  assert (B : write_body3 (view3 b cat k) n ft [] = (with_bytes3 (view3 b cat k) b, Err EIndex)).
  { assert (EG : get_directory3 (view3 b cat k) = (view3 b cat k, Ok (entries3 (fdir3 b) b cat k)))
      by (apply (get_directory3_view b cat k D)).
    unfold write_body3. rewrite EG. clear EG.
    change (i_hdr (view3 b cat k)) with (H3 (fdir3 b)). change (i_bytes (view3 b cat k)) with b.
    change (h_pairs (H3 (fdir3 b))) with 122. cbn [Z.eqb length build_sectors lift3].
    assert (Esm : get_smap3 (view3 b cat k) = Ok (smap3 b)).
    { unfold get_smap3. cbn [view3 i_hdr i_bytes]. rewrite get_raw3_in by lia. reflexivity. }
    rewrite Esm. cbn [lift3]. cbn [reserve].
    rewrite calc_bitmap3_spec by (assumption || apply zlen_smap3; assumption).
    rewrite V, Same. cbn [combine link_loop map ts_chunks length lift3 reserve].
    rewrite calc_bitmap3_spec by (assumption || apply zlen_smap3; assumption).
    rewrite V, Same. reflexivity. }
  rewrite E. unfold write_file3. apply transact3_view; assumption.
Qed.

(** * Steps *)
Lemma find_total3 im n : consistent3 im ->
  find_file3 im n = Err (EAtr FileNotFound) \/ exists d, find_file3 im n = Ok d.
Proof.
  intros C. destruct (consistent3_view im C) as (cat & k & E & D). rewrite E.
  destruct (find_view3 _ cat k n D) as [(i & tl & dl & _ & -> & _)|(_ & -> & _)]; eauto.
Qed.
Lemma answers_self3 im : consistent3 im -> answers3 im (fs_of3 im).
Proof.
  intros C n. unfold fs_of3. destruct (find_total3 im n C) as [->|(d & ->)]; reflexivity.
Qed.

Lemma step3 im o m : consistent3 im -> legal_op3 im o -> answers3 im m ->
  let (im', r) := do_op3 im o in
  consistent3 im' /\ answers3 im' (map_step3 m o r) /\ refusal3 im o r.
Proof.
  intros C L A. destruct o as [n t d|n|f]; cbn [do_op3 legal_op3 refusal3] in *.
  - destruct L as [L|L].
    2:{ rewrite L, write_empty3 by assumption. split; [assumption|]. split; [exact A|]. auto. }
    destruct (write_master3 im n t d C L) as [(_ & _ & im' & tl & dl & E & W)|[(_ & E)|[(_ & im' & l & E & W & _)|(_ & _ & im' & l & E & W & _)]]];
      rewrite E; cbn [map_step3].
    + split; [apply (wr3_consistent _ _ _ _ _ _ _ W)|]. split; [|auto]. intros x. unfold fs_put.
      destruct (zlist_eqb x (stored_name3 n)) eqn:Ex.
      * apply zlist_eqb_eq in Ex. subst x. apply (wr3_read _ _ _ _ _ _ _ W).
      * apply zlist_eqb_neq in Ex. rewrite (proj1 (wr3_others _ _ _ _ _ _ _ W x Ex)). apply A.
    + split; [assumption|]. split; [exact A|]. auto.
    + split; [apply (lk3_consistent _ _ _ W)|]. split; [|auto]. intros x.
      rewrite (proj1 (lk3_files _ _ _ W x)). apply A.
    + split; [apply (lk3_consistent _ _ _ W)|]. split; [|auto]. intros x.
      rewrite (proj1 (lk3_files _ _ _ W x)). apply A.
  - destruct (in_dec (list_eq_dec Z.eq_dec) n (listing3 im)) as [Hin|Hin].
    + destruct (delete_master3 im n C Hin) as (im' & tl & dl & E & W). rewrite E. cbn [map_step3].
      split; [apply (dr3_consistent _ _ _ _ _ W)|]. split.
      * intros x. unfold fs_del. destruct (zlist_eqb x n) eqn:Ex.
        -- apply zlist_eqb_eq in Ex. subst x. apply (dr3_gone _ _ _ _ _ W).
        -- apply zlist_eqb_neq in Ex. rewrite (proj1 (dr3_others _ _ _ _ _ W x Ex)). apply A.
      * split; [reflexivity|]. intros X. exfalso. apply X. apply listed_named3; assumption.
    + destruct L as [L|[L|(tl & dl & L)]]; [contradiction| |].
      * rewrite delete_unknown3 by assumption. cbn [map_step3].
        split; [assumption|]. split; [exact A|]. split; [intros X; contradiction|reflexivity].
      * destruct (stale_master3 im n tl dl C Hin L) as (im' & E & W). rewrite E. cbn [map_step3].
        split; [apply (st3_consistent _ _ _ W)|]. split.
        -- intros x. rewrite (proj1 (st3_files _ _ _ W x)). unfold fs_del. destruct (zlist_eqb x n) eqn:Ex; [|apply A].
           apply zlist_eqb_eq in Ex. subst x. destruct (consistent3_view im C) as (cat & k & Ei & D).
           rewrite Ei in Hin |- *. rewrite In_listing3 in Hin by assumption.
           destruct (find_view3 _ cat k n D) as [(i & tl' & dl' & (F1 & F2 & F3 & _) & _)|(_ & R & _)]; [|exact R].
           exfalso. apply Hin. exists i. auto.
        -- split; [reflexivity|]. intros X. exfalso. apply X.
           destruct L as ((cat & k & i & D & Hi & _ & Hn & _) & _). exists cat, k, i. auto.
  - destruct (shred_master3 im f C) as (im' & E & W). rewrite E. cbn [map_step3].
    split; [apply (sr3_consistent _ _ _ W)|]. split; [|reflexivity]. intros x.
    rewrite (proj1 (sr3_files _ _ _ W x)). apply A.
Qed.

Lemma session3 ops : forall im m, consistent3 im -> answers3 im m -> all_ops3 legal_op3 im ops ->
  let (im', m') := run3 im m ops in consistent3 im' /\ answers3 im' m'.
Proof.
  induction ops as [|o ops IH]; intros im m C A L; [cbn; auto|].
  cbn [run3 all_ops3] in *. destruct L as [Lo L].
  pose proof (step3 im o m C Lo A) as S. destruct (do_op3 im o) as [im' r].
  destruct S as (S1 & S2 & _). apply IH; assumption.
Qed.
