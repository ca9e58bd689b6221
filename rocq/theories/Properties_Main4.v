(** C80: the current directory ("." ) in place of an image. *)
From Verif Require Import Base BaseLemmas DiskModel AtariModel AtariSpec AtariGeom AtariOps AtariSession AtariProps SpartaModel ExecModel ExecSpec ExecProofs ExecProofs2 Properties_Exec SdModel CliModel CliProofs CliInst DetectModel DetectSpec DetectErrors DetectErrors2 MainModel MainProofs MainProofs2 MainInst Properties_Cli Properties_Main Properties_Main2.

(** * Nothing is overwritten without --force *)
Lemma local_save_keeps o f n d f' m r : o_force o = false -> local_save o f n d = (f', m, r) -> forall p x, f p = Some x -> f' p = Some x.
Proof.
  intros Fc E p x H. unfold local_save in E. rewrite Fc in E. destruct (f n) eqn:Fn; [injection E as <- _ _; exact H|].
  destruct (o_dry o); injection E as <- _ _; [exact H|]. rewrite fput_neq; [exact H|congruence].
Qed.
Lemma local_add_keeps o : o_force o = false -> forall files f f' m r, local_add o f files = (f', m, r) -> forall p x, f p = Some x -> f' p = Some x.
Proof.
  intros Fc. induction files as [|q l IH]; intros f f' m r E p x H; cbn [local_add] in E; [injection E as <- _ _; exact H|].
  destruct (f q) as [d|]; [|injection E as <- _ _; exact H]. destruct (local_save o f (basename q []) d) as [[f1 m1] r1] eqn:S1.
  destruct (local_add o f1 l) as [[f2 m2] r2] eqn:L. injection E as <- _ _. eapply IH; [exact L|]. eapply local_save_keeps; eassumption.
Qed.
Theorem C80_keeps_files w o f c f' ms r : o_force o = false -> ~ is_create c -> ~ is_boot c -> main w o f [46] c = (f', ms, r) ->
  forall p x, f p = Some x -> f' p = Some x.
Proof.
  intros Fc Nc Nb E p x H. assert (E' : local_command w o f c = (f', ms, r)) by (destruct c; cbn in Nc, Nb; try tauto; exact E). clear E.
  destruct c as [crc l|l|l|l|t|s d b y z|s d b y|l|cl|]; cbn [local_command] in E'; try (injection E' as <- _ _; exact H).
  - destruct (o_all o); [injection E' as <- _ _; exact H|]. destruct (local_extract f l). injection E' as <- _ _. exact H.
  - destruct (o_type o); [injection E' as <- _ _; exact H|]. exact (local_add_keeps o Fc _ _ _ _ _ E' p x H).
  - destruct (assemble_segments w f s d b y) as [m1 [[segs rn]|e]]; [|injection E' as <- _ _; exact H].
    destruct (executable None z segs rn) as [[dt ty]|e]; [|injection E' as <- _ _; exact H].
    destruct (local_save o f z dt) as [[f1 m2] r1] eqn:S1. injection E' as <- _ _. exact (local_save_keeps _ _ _ _ _ _ _ Fc S1 p x H).
Qed.
Print Assumptions C80_keeps_files.

(** * Adding copies the files *)
(** The file among [files] whose last path component is [q], if any. *)
Definition source_of (q : list Z) (files : list (list Z)) : option (list Z) := find (fun p => zlist_eqb (basename p []) q) files.
Lemma local_add_new o : o_force o = false -> o_dry o = false -> forall files f f' m r, Forall (fun p => f p <> None) files -> local_add o f files = (f', m, r) ->
  r = Ok tt /\ forall q, f' q = match f q with Some x => Some x | None => match source_of q files with Some p => f p | None => None end end.
Proof.
  intros Fc Dc. induction files as [|p l IH]; intros f f' m r Hf E; cbn [local_add] in E.
  - injection E as <- _ <-. split; [reflexivity|]. intros q. destruct (f q); reflexivity.
  - inversion Hf as [|? ? Hp Hl]; subst. destruct (f p) as [d|] eqn:Fp; [|congruence]. unfold local_save in E. rewrite Fc, Dc in E.
    destruct (f (basename p [])) as [x|] eqn:Fb.
    + destruct (local_add o f l) as [[f2 m2] r2] eqn:L. injection E as <- _ <-. destruct (IH _ _ _ _ Hl L) as [R H]. split; [exact R|]. intros q. rewrite H.
      destruct (f q) eqn:Fq; [reflexivity|]. unfold source_of. cbn [find]. destruct (zlist_eqb (basename p []) q) eqn:Eq; [|reflexivity]. apply zlist_eqb_eq in Eq. congruence.
    + destruct (local_add o (fput f (basename p []) d) l) as [[f2 m2] r2] eqn:L. injection E as <- _ <-.
      assert (Hl' : Forall (fun p0 => fput f (basename p []) d p0 <> None) l).
      { eapply Forall_impl; [|exact Hl]. intros a Ha. unfold fput. destruct (zlist_eqb a (basename p [])); [discriminate|exact Ha]. }
      destruct (IH _ _ _ _ Hl' L) as [R H]. split; [exact R|]. intros q. rewrite H. unfold source_of. cbn [find]. destruct (zlist_eqb (basename p []) q) eqn:Eq.
      * apply zlist_eqb_eq in Eq. subst q. rewrite fput_eq, Fb, Fp. reflexivity.
      * assert (Nq : q <> basename p []) by (intros ->; rewrite zlist_eqb_refl in Eq; discriminate). rewrite fput_neq by exact Nq. destruct (f q); [reflexivity|].
        destruct (find _ l) as [p'|] eqn:Fi; [|reflexivity]. apply find_some in Fi. destruct Fi as [Fi _]. rewrite Forall_forall in Hl. specialize (Hl p' Fi).
        rewrite fput_neq; [reflexivity|]. intros ->. contradiction.
Qed.
(** Without --force: every file not yet there is created with the contents of the first of
    the files given that has its name; all others stay. *)
Lemma add_copies_existing w o f files f' ms r : o_force o = false -> o_dry o = false -> o_type o <> [] -> Forall (fun p => f p <> None) files ->
  main w o f [46] (KAdd files) = (f', ms, r) ->
  r = Ok tt /\ forall q, f' q = match f q with Some x => Some x | None => match source_of q files with Some p => f p | None => None end end.
Proof.
  intros Fc Dc T Hf E. cbn [main] in E. rewrite zlist_eqb_refl in E. cbn [local_command] in E. destruct (o_type o); [congruence|]. exact (local_add_new o Fc Dc _ _ _ _ _ Hf E).
Qed.
(** With --force the last of the files with a name wins. *)
Lemma local_add_force o : o_force o = true -> o_dry o = false -> forall files f f' m r, Forall (fun p => f p <> None) files ->
  (forall p p', In p files -> In p' files -> p <> basename p' []) -> local_add o f files = (f', m, r) ->
  r = Ok tt /\ forall q, f' q = match source_of q (rev files) with Some p => f p | None => f q end.
Proof.
  intros Fc Dc. induction files as [|p l IH]; intros f f' m r Hf Hd E; cbn [local_add] in E.
  - injection E as <- _ <-. split; reflexivity.
  - inversion Hf as [|? ? Hp Hl]; subst. destruct (f p) as [d|] eqn:Fp; [|congruence].
    assert (E' : exists m2, local_add o (fput f (basename p []) d) l = (f', m2, r)).
    { unfold local_save in E. rewrite Fc, Dc in E. destruct (f (basename p [])); destruct (local_add o (fput f (basename p []) d) l) as [[f2 m2] r2]; injection E as <- _ <-; eexists; reflexivity. }
    destruct E' as (m2 & L).
    assert (Hl' : Forall (fun p0 => fput f (basename p []) d p0 <> None) l).
    { eapply Forall_impl; [|exact Hl]. intros a Ha. unfold fput. destruct (zlist_eqb a (basename p [])); [discriminate|exact Ha]. }
    destruct (IH _ _ _ _ Hl' (fun a b A B => Hd a b (or_intror A) (or_intror B)) L) as [R H]. split; [exact R|]. intros q. rewrite H. cbn [rev]. unfold source_of.
    assert (Fa : forall (g : list Z -> bool) a b, find g (a ++ b) = match find g a with Some y => Some y | None => find g b end).
    { intros g a b. induction a as [|y a IHa]; [reflexivity|]. cbn [app find]. destruct (g y); [reflexivity|exact IHa]. }
    rewrite Fa. destruct (find _ (rev l)) as [p'|] eqn:Fi.
    + apply find_some in Fi. destruct Fi as [Fi _]. apply in_rev in Fi. apply fput_neq. apply Hd; [right; exact Fi|left; reflexivity].
    + cbn [find]. destruct (zlist_eqb (basename p []) q) eqn:Eq.
      * apply zlist_eqb_eq in Eq. subst q. rewrite fput_eq, Fp. reflexivity.
      * apply fput_neq. intros ->. rewrite zlist_eqb_refl in Eq. discriminate.
Qed.
Lemma add_forced_existing w o f files f' ms r : o_force o = true -> o_dry o = false -> o_type o <> [] -> Forall (fun p => f p <> None) files ->
  (forall p p', In p files -> In p' files -> p <> basename p' []) -> main w o f [46] (KAdd files) = (f', ms, r) ->
  r = Ok tt /\ forall q, f' q = match source_of q (rev files) with Some p => f p | None => f q end.
Proof.
  intros Fc Dc T Hf Hd E. cbn [main] in E. rewrite zlist_eqb_refl in E. cbn [local_command] in E. destruct (o_type o); [congruence|]. exact (local_add_force o Fc Dc _ _ _ _ _ Hf Hd E).
Qed.
(** Without --filetype nothing is copied: AttributeError. *)
Theorem C80_add_without_type_refuted w o f files : o_type o = [] -> main w o f [46] (KAdd files) = (f, [], Err EAttribute).
Proof. intros T. cbn [main]. rewrite zlist_eqb_refl. cbn [local_command]. rewrite T. reflexivity. Qed.
Print Assumptions C80_add_without_type_refuted.
(** Nor can a file that is there be extracted. *)
Theorem C80_extract_refuted w o f n d l : f n = Some d -> main w o f [46] (KExtract (n :: l)) = (f, [], Err EAttribute).
Proof. intros H. cbn [main]. rewrite zlist_eqb_refl. cbn [local_command local_extract]. rewrite H. destruct (o_all o); reflexivity. Qed.
Print Assumptions C80_extract_refuted.

(** * Assembling writes an executable *)
Theorem C80_assembled_xex w o f src args obj run output segs start f' ms r :
  o_dry o = false -> ends_with (map lower output) t_xex = true ->
  gathered w f src args obj run segs start -> Forall seg_ok segs ->
  main w o f [46] (KAssemble src args obj run output) = (f', ms, r) ->
  (r = Ok tt /\ (f output = None \/ o_force o = true) /\ exists x, (forall q, f' q = if zlist_eqb q output then Some x else f q) /\ xex_of segs start x) \/
  (r = Ok tt /\ f output <> None /\ o_force o = false /\ f' = f) \/
  (exists e, r = Err e /\ ~ makeable segs start /\ f' = f).
Proof.
  intros Dc X G Sk E. destruct (gathered_spec _ _ _ _ _ _ _ _ G) as (rn & A & T). cbn [main] in E. rewrite zlist_eqb_refl in E. cbn [local_command] in E. rewrite A in E.
  pose proof (C23_accepted_iff output segs (run_opt rn) X) as Acc. rewrite T in Acc.
  cbn [executable] in E. unfold create_executable in E, Acc. rewrite X in E, Acc. destruct (get_xex segs (run_opt rn)) as [x|e] eqn:Gx; cbn [rbind] in E, Acc.
  - unfold local_save in E. rewrite Dc in E.
    assert (Xx : xex_of segs start x).
    { intros st. destruct (C23_xex_round_trip_partial output segs (run_opt rn) x t_XEX st Sk X) as (rep & Y & M & _).
      { unfold create_executable. rewrite X, Gx. reflexivity. }
      exists rep. split; [exact Y|]. rewrite M, (wanted_truthy _ _ _ T). reflexivity. }
    destruct (f output) eqn:Fo; [destruct (o_force o) eqn:Fc|]; injection E as <- _ <-.
    + left. split; [reflexivity|]. split; [right; reflexivity|]. exists x. split; [reflexivity|exact Xx].
    + right; left. split; [reflexivity|]. split; [discriminate|]. auto.
    + left. split; [reflexivity|]. split; [left; reflexivity|]. exists x. split; [reflexivity|exact Xx].
  - right; right. assert (E2 : exists e', r = Err e' /\ f' = f).
    { destruct e as [a| | | | | | | | | | | |]; try (injection E as <- _ <-; eexists; split; reflexivity). destruct a; injection E as <- _ <-; eexists; split; reflexivity. }
    destruct E2 as (e' & -> & ->). exists e'. split; [reflexivity|]. split; [|reflexivity]. intros M. destruct (proj2 Acc M) as (x & Y). discriminate Y.
Qed.
Print Assumptions C80_assembled_xex.

(** ** Cases *)
Definition p_dir : list Z := [100; 47; 97].      (* d/a *)
Definition p_dir2 : list Z := [101; 47; 97].     (* e/a *)
Definition two_fs : fs := fun p => if zlist_eqb p p_dir then Some [1] else if zlist_eqb p p_dir2 then Some [2] else None.
Definition typed (force : bool) : opts := mkO force false false false false None [66].
Example C80_add_case : (exists f' ms, main w0 (typed false) two_fs [46] (KAdd [p_dir; p_dir2]) = (f', ms, Ok tt) /\ f' [97] = Some [1]) /\
  (exists f' ms, main w0 (typed true) two_fs [46] (KAdd [p_dir; p_dir2]) = (f', ms, Ok tt) /\ f' [97] = Some [2]).
Proof.
  split.
  - destruct (main w0 (typed false) two_fs [46] (KAdd [p_dir; p_dir2])) as [[f' ms] r] eqn:E. destruct (add_copies_existing w0 (typed false) two_fs [p_dir; p_dir2] f' ms r eq_refl eq_refl ltac:(discriminate)) with (2 := E) as [-> H].
    { constructor; [discriminate|constructor; [discriminate|constructor]]. }
    exists f', ms. split; [reflexivity|]. rewrite H. reflexivity.
  - destruct (main w0 (typed true) two_fs [46] (KAdd [p_dir; p_dir2])) as [[f' ms] r] eqn:E. destruct (add_forced_existing w0 (typed true) two_fs [p_dir; p_dir2] f' ms r eq_refl eq_refl ltac:(discriminate)) with (3 := E) as [-> H].
    { constructor; [discriminate|constructor; [discriminate|constructor]]. }
    { intros p p' [<-|[<-|[]]] [<-|[<-|[]]]; discriminate. }
    exists f', ms. split; [reflexivity|]. rewrite H. reflexivity.
Qed.
