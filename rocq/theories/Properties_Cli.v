(** The command line: C39, C40, C44 and C59-C63. *)
From Verif Require Import Base BaseLemmas DiskModel AtariModel AtariSpec AtariOps AtariSession AtariProps AtariDemo Dos33Model Dos33Spec Dos33Ops Dos33Session Dos33Demo CliModel CliProofs CliInst.

(** A job: a local file, read as [path], to be stored as [fst nd] with data [snd nd]. *)
Definition atari_job (f : fs) (path : list Z) (nd : list Z * list Z) : Prop :=
  f path = Some (snd nd) /\ basename path [] = fst nd /\ atari_name (fst nd) /\ atari_data (snd nd).
Definition dos33_job (f : fs) (ft path : list Z) (nd : list Z * list Z) : Prop :=
  f path = Some (snd nd) /\ basename path [] = fst nd /\ dos33_name (fst nd) /\ dos33_data ft (snd nd).

Lemma answers_of_look im m : consistent im -> (forall n, look atari_api im n = m n) -> answers im m.
Proof. intros C H. apply fs_of_answers; [intros n; apply find_total_c; exact C|]. intros n. rewrite <- look_atari. apply H. Qed.
Lemma answers_of_look3 im m : consistent3 im -> (forall n, look dos33_api im n = m n) -> answers3 im m.
Proof.
  intros C H n. rewrite <- H, look_dos33. unfold fs_of3. destruct (find_total3 im n C) as [->|(d & ->)]; reflexivity.
Qed.
Lemma look_fs im : forall n, look atari_api im n = fs_of im n.
Proof. intros n. apply look_atari. Qed.

(** * C39 *)
(** Adding files to an Atari disk: either the disk is full and nothing is saved, or the
    files are added as to a map, names already there being skipped without --force.  The
    image is saved if the last file was not skipped. *)
Theorem C39_add_atari_partial (o : opts) (f : fs) (img : list Z) (im : aimg) (files : list (list Z)) (jobs : list (list Z * list Z)) (f' : fs) m r :
  o_dry o = false -> consistent im -> f img = Some (a_bytes im) ->
  Forall2 (atari_job f) files jobs -> zlen (a_files im) + zlen jobs <= 64 ->
  run_command atari_api o f img (CAdd files) = (f', m, r) ->
  let spec := add_spec (o_force o) (fun d => d) (fs_of im) jobs in
  (r = Ok tt /\ m = zip_log jobs (snd spec) /\
   exists im', open_image (a_bytes im') = Ok im' /\ consistent im' /\ answers im' (fst spec) /\
     f' = if last (snd spec) false then fput f img (a_bytes im') else f) \/
  (r = Err (EAtr NotEnoughSpaceOnDisk) /\ f' = f).
Proof.
  intros D C Fi F Ft E spec.
  destruct (add_command atari_api o consistent atari_name (fun _ d => atari_data d) (fun im k => zlen (a_files im) + k <= 64) (fun d => d) _ atari_lawful
     f img im files jobs f' m r D C Fi F Ft E) as [(-> & -> & im' & O & C' & L & ->)|(e & -> & -> & ->)]; [left|right; auto].
  destruct (add_spec_ext (o_force o) (fun d => d) jobs _ _ (look_fs im)) as [X1 X2]. rewrite X1. fold spec. split; [reflexivity|]. split; [reflexivity|].
  exists im'. split; [exact O|]. split; [exact C'|]. split; [|reflexivity]. apply answers_of_look; [exact C'|]. intros n. rewrite L. apply X2.
Qed.
Print Assumptions C39_add_atari_partial.
Theorem C39_add_dos33_partial (o : opts) (f : fs) (img : list Z) (im : img33) (files : list (list Z)) (jobs : list (list Z * list Z)) (f' : fs) m r :
  o_dry o = false -> consistent3 im -> f img = Some (i_bytes im) ->
  Forall2 (dos33_job f (match o_type o with [] => [66] | t => t end)) files jobs ->
  run_command dos33_api o f img (CAdd files) = (f', m, r) ->
  let spec := add_spec (o_force o) padded (fs_of3 im) jobs in
  (r = Ok tt /\ m = zip_log jobs (snd spec) /\
   exists im', open33 (i_bytes im') = Ok im' /\ consistent3 im' /\ answers3 im' (fst spec) /\
     f' = if last (snd spec) false then fput f img (i_bytes im') else f) \/
  ((r = Err (EAtr NotEnoughSpaceOnDisk) \/ r = Err (EAtr NoSpaceInDirectory)) /\ f' = f).
Proof.
  intros D C Fi F E spec.
  destruct (add_command dos33_api o consistent3 dos33_name dos33_data (fun _ _ => True) padded _ dos33_lawful
     f img im files jobs f' m r D C Fi F Logic.I E) as [(-> & -> & im' & O & C' & L & ->)|(e & -> & He & ->)]; [left|right; destruct He as [-> | ->]; auto].
  destruct (add_spec_ext (o_force o) padded jobs _ _ (look_dos33 im)) as [X1 X2]. rewrite X1. fold spec. split; [reflexivity|]. split; [reflexivity|].
  exists im'. split; [exact O|]. split; [exact C'|]. split; [|reflexivity]. apply answers_of_look3; [exact C'|]. intros n. rewrite L. apply X2.
Qed.
Print Assumptions C39_add_dos33_partial.

(** When the image is saved, every file reported as copied is in it, with the contents of
    the last local file of that name that was not skipped. *)
Lemma In_zip_log jobs : forall l n, length l = length jobs -> In (MCopying n) (zip_log jobs l) ->
  exists i, 0 <= i < zlen jobs /\ nth (Z.to_nat i) l false = true /\ fst (nth (Z.to_nat i) jobs ([], [])) = n.
Proof.
  induction jobs as [|j js IH]; intros l n Hl H; destruct l as [|b bs]; try discriminate; [destruct H|]. cbn [zip_log] in H. rewrite zlen_cons. pose proof (zlen_nonneg js).
  destruct H as [H|H].
  - exists 0. unfold add_log in H. destruct b; [|discriminate]. injection H as <-. split; [lia|]. split; reflexivity.
  - destruct (IH bs n ltac:(cbn in Hl; lia) H) as (i & Hi & N1 & N2). exists (1 + i). split; [lia|]. replace (Z.to_nat (1 + i)) with (S (Z.to_nat i)) by lia. split; assumption.
Qed.
Lemma copied_present force norm m jobs n : In (MCopying n) (zip_log jobs (snd (add_spec force norm m jobs))) ->
  exists j d, 0 <= j < zlen jobs /\ nth (Z.to_nat j) jobs ([], []) = (n, d) /\ nth (Z.to_nat j) (snd (add_spec force norm m jobs)) false = true /\
    fst (add_spec force norm m jobs) n = Some (norm d) /\
    forall k, j < k < zlen jobs -> fst (nth (Z.to_nat k) jobs ([], [])) = n -> nth (Z.to_nat k) (snd (add_spec force norm m jobs)) false = false.
Proof.
  intros H. destruct (In_zip_log jobs _ n (add_spec_len force norm jobs m) H) as (i & Hi & N1 & N2).
  destruct (add_spec_present force norm jobs m i Hi N1) as (j & Hj & E1 & E2 & E3 & E4). rewrite N2 in *.
  exists j, (snd (nth (Z.to_nat j) jobs ([], []))). split; [lia|]. split; [rewrite <- E1; destruct (nth (Z.to_nat j) jobs ([], [])); reflexivity|]. auto.
Qed.
Theorem C39_reported_is_saved_partial (o : opts) (f : fs) (img : list Z) (im : aimg) (files : list (list Z)) (jobs : list (list Z * list Z)) (f' : fs) m b :
  o_dry o = false -> consistent im -> f img = Some (a_bytes im) ->
  Forall2 (atari_job f) files jobs -> zlen (a_files im) + zlen jobs <= 64 ->
  run_command atari_api o f img (CAdd files) = (f', m, Ok tt) ->
  (exists n, last m MNothing = MCopying n) ->
  f' img = Some b -> exists im', open_image b = Ok im' /\
    (forall n, In (MCopying n) m -> exists path d, In path files /\ f path = Some d /\ basename path [] = n /\ find_file im' n = Ok d) /\
    (forall n, ~ In n (map fst jobs) -> find_file im' n = find_file im n) /\
    (o_force o = false -> forall n d, find_file im n = Ok d -> find_file im' n = Ok d).
Proof.
  intros D C Fi F Ft E (n0 & Lm) Fb.
  destruct (C39_add_atari_partial o f img im files jobs f' m _ D C Fi F Ft E) as [(_ & Em & im' & O & C' & An & Ef)|(X & _)]; [|discriminate]. cbv zeta in Em, An, Ef.
  set (spec := add_spec (o_force o) (fun d => d) (fs_of im) jobs) in *.
  assert (Ls : last (snd spec) false = true).
  { rewrite Em in Lm. pose proof (add_spec_len (o_force o) (fun d => d) jobs (fs_of im)) as Hl. fold spec in Hl. revert Lm Hl. generalize (snd spec). clear. intros l.
    revert jobs. induction l as [|b l IH]; intros jobs Lm Hl; destruct jobs as [|j js]; try discriminate. cbn [zip_log] in Lm.
    destruct l as [|b2 l]; destruct js as [|j2 js]; try discriminate.
    - cbn in Lm |- *. unfold add_log in Lm. destruct b; [reflexivity|discriminate].
    - change (last (b :: b2 :: l) false) with (last (b2 :: l) false). apply (IH (j2 :: js)); [exact Lm|cbn in *; lia]. }
  rewrite Ls in Ef. rewrite Ef, fput_eq in Fb. injection Fb as <-. exists im'. split; [exact O|]. split; [|split].
  - intros n Hn. rewrite Em in Hn. destruct (copied_present _ _ _ _ _ Hn) as (j & d & Hj & E1 & _ & E2 & _).
    assert (X : exists path, In path files /\ f path = Some d /\ basename path [] = n).
    { clear - F Hj E1. revert j Hj E1. induction F as [|p nd ps js (J1 & J2 & _) F IH]; intros j Hj E1; [cbn in Hj; lia|]. rewrite zlen_cons in Hj. destruct (Z.eq_dec j 0) as [-> |Nj].
      - cbn in E1. subst nd. exists p. split; [left; reflexivity|]. auto.
      - replace (Z.to_nat j) with (S (Z.to_nat (j - 1))) in E1 by lia. destruct (IH (j - 1) ltac:(lia) E1) as (q & Q1 & Q2). exists q. split; [right; exact Q1|exact Q2]. }
    destruct X as (p & P1 & P2 & P3). exists p, d. split; [exact P1|]. split; [exact P2|]. split; [exact P3|]. rewrite (An n). unfold spec. rewrite E2. reflexivity.
  - intros n Hn. rewrite (An n). unfold spec. rewrite add_spec_other by exact Hn. unfold fs_of. destruct (find_total_c im n C) as [->|(d & ->)]; reflexivity.
  - intros Fo n d Hn. rewrite (An n). unfold spec. rewrite Fo. rewrite (add_spec_keeps _ jobs _ n d); [reflexivity|]. unfold fs_of. rewrite Hn. reflexivity.
Qed.
Print Assumptions C39_reported_is_saved_partial.

(** --dry-run changes nothing, for any kind of image and any command. *)
Theorem C39_dry_run (A : api) (o : opts) (f : fs) (img : list Z) (c : command) f' m r :
  o_dry o = true -> run_command A o f img c = (f', m, r) -> f' = f.
Proof. apply run_dry. Qed.
Print Assumptions C39_dry_run.
(** Commands other than extract write no path but the image; a command that fails writes nothing. *)
Theorem C39_only_the_image (A : api) (o : opts) (f : fs) (img : list Z) (c : command) f' m r :
  run_command A o f img c = (f', m, r) -> match c with CExtract _ => False | _ => True end ->
  (forall q, q <> img -> f' q = f q) /\ (forall e, r = Err e -> f' = f).
Proof. apply run_frame. Qed.
Print Assumptions C39_only_the_image.

(** A session: the image with HELLO.TXT, and two local files. *)
Definition p_other : list Z := [47; 116; 109; 112; 47; 66].             (* /tmp/B *)
Definition p_hello : list Z := [104; 47] ++ hello.                       (* h/HELLO.TXT *)
Definition p_img : list Z := [68].                                       (* D *)
Definition demo_fs (b : list Z) : fs := fun p =>
  if zlist_eqb p p_img then Some b else if zlist_eqb p p_other then Some text else if zlist_eqb p p_hello then Some [1; 2; 3] else None.
Definition no_opts : opts := mkO false false false false false None [].
Definition forced : opts := mkO true false false false false None [].
Lemma demo_jobs b : Forall2 (atari_job (demo_fs b)) [p_hello; p_other] [(hello, [1; 2; 3]); (other, text)].
Proof.
  constructor; [|constructor; [|constructor]].
  - split; [reflexivity|]. split; [reflexivity|]. split; [split; [apply AtariWrite.valid_stored; exact hello_valid|apply (AtariWrite.valid_stored _ hello_valid)]|].
    split; [discriminate|apply AtariDemo.bytes_ok_b; reflexivity].
  - split; [reflexivity|]. split; [reflexivity|]. split; [split; [apply AtariWrite.valid_stored; exact other_valid|apply (AtariWrite.valid_stored _ other_valid)]|].
    split; [discriminate|apply AtariDemo.bytes_ok_b; reflexivity].
Qed.

Lemma demo_step : exists im im', consistent im /\ listing im = [hello] /\ find_file im hello = Ok text /\ find_file im other = Err (EAtr FileNotFound) /\
  write_file im other text = (im', Ok tt) /\ consistent im' /\ In hello (listing im') /\ zlen (a_files im) = 1.
Proof.
  destruct demo_image as (im & C & L & Fd & Fr & P & M).
  assert (LW : legal_write im other text).
  { split; [apply AtariWrite.valid_stored; exact other_valid|]. rewrite (proj2 (AtariWrite.valid_stored _ other_valid)). split; [discriminate|]. split; [apply AtariDemo.bytes_ok_b; reflexivity|].
    rewrite listing_files, L. split; [intros [E|[]]; discriminate|cbn; lia]. }
  destruct (write_master im other text (tidy_consistent _ C) LW) as [(Hs & im' & c & Ew & W)|(Hs & _)].
  - exists im, im'. split; [apply tidy_consistent; exact C|]. split; [exact L|]. split; [exact Fd|].
    split.
    { destruct (find_total_c im other (tidy_consistent _ C)) as [E|(d & E)]; [exact E|]. exfalso. unfold find_file in E.
      destruct (find_name other (a_files im)) eqn:En; [|discriminate]. assert (X : In other (listing im)).
      { destruct (in_dec (list_eq_dec Z.eq_dec) other (listing im)) as [H|H]; [exact H|]. apply find_name_none in H. congruence. }
      rewrite L in X. destruct X as [X|[]]; discriminate. }
    split; [exact Ew|]. split; [apply (wr_consistent _ _ _ _ _ W)|]. split; [|rewrite files_count, L; reflexivity].
    destruct (wr_listing _ _ _ _ _ W) as (l1 & l2 & E1 & E2). rewrite E2. rewrite L in E1. apply in_or_app.
    assert (H : In hello (l1 ++ l2)) by (rewrite <- E1; left; reflexivity). apply in_app_or in H. destruct H; [left|right; right]; assumption.
  - exfalso. revert Hs. rewrite P, Fr. intros Hs. vm_compute in Hs. congruence.
Qed.
(** B is copied and HELLO.TXT, already there, skipped: if B comes last both happen as reported. *)
Example C39_demo : exists im f' im', consistent im /\
  run_command atari_api no_opts (demo_fs (a_bytes im)) p_img (CAdd [p_hello; p_other]) = (f', [MSkipping hello; MCopying other], Ok tt) /\
  f' p_img = Some (a_bytes im') /\ open_image (a_bytes im') = Ok im' /\ find_file im' other = Ok text /\ find_file im' hello = Ok text.
Proof.
  destruct demo_step as (im & im1 & C & L & Fd & Fo & Ew & C1 & Hin & Z1).
  assert (Fh : exists d, find_name hello (a_files im) = Some d) by (destruct (find_name hello (a_files im)) eqn:E; [eauto|apply find_name_none in E; exfalso; apply E; change (In hello (listing im)); rewrite L; left; reflexivity]).
  assert (Fn : find_name other (a_files im) = None) by (apply find_name_none; change (~ In other (listing im)); rewrite L; intros [X|[]]; discriminate).
  destruct Fh as (dh & Fh).
  assert (R : run_command atari_api no_opts (demo_fs (a_bytes im)) p_img (CAdd [p_hello; p_other]) = (fput (demo_fs (a_bytes im)) p_img (a_bytes im1), [MSkipping hello; MCopying other], Ok tt)).
  { unfold run_command. change (demo_fs (a_bytes im) p_img) with (Some (a_bytes im)). cbv iota beta. change (p_open atari_api (a_bytes im)) with (open_image (a_bytes im)). rewrite (proj1 C).
    unfold add_files, save_if. cbn [add_loop]. change (demo_fs (a_bytes im) p_hello) with (Some [1; 2; 3]). cbv iota. change (basename p_hello []) with hello.
    unfold save_file at 1. change (p_find atari_api im hello) with (find_name hello (a_files im)). rewrite Fh. cbn [o_force no_opts].
    change (demo_fs (a_bytes im) p_other) with (Some text). cbv iota. change (basename p_other []) with other.
    unfold save_file. change (p_find atari_api im other) with (find_name other (a_files im)). rewrite Fn. cbn [o_dry no_opts].
    change (p_write atari_api im other (filetype atari_api no_opts) text) with (write_file im other text). rewrite Ew. reflexivity. }
  exists im, (fput (demo_fs (a_bytes im)) p_img (a_bytes im1)), im1. split; [exact C|]. split; [exact R|]. split; [apply fput_eq|].
  assert (Ls : exists n, last [MSkipping hello; MCopying other] MNothing = MCopying n) by (exists other; reflexivity).
  destruct (C39_reported_is_saved_partial no_opts _ p_img im [p_hello; p_other] _ _ _ (a_bytes im1) eq_refl C eq_refl (demo_jobs (a_bytes im)) ltac:(rewrite Z1; cbn; lia) R Ls (fput_eq _ _ _)) as (im' & O & S1 & S2 & S3).
  rewrite (proj1 C1) in O. injection O as <-. split; [apply (proj1 C1)|]. split; [|apply S3; [reflexivity|exact Fd]].
  destruct (S1 other ltac:(right; left; reflexivity)) as (path & d & Hp & Fp & Bp & Fd'). destruct Hp as [<-|[<-|[]]]; [discriminate Bp|]. injection Fp as <-. exact Fd'.
Qed.
(** If it comes first, it is reported as copied but the image file does not change. *)
Theorem C39_last_skipped_refuted : exists im f' m, consistent im /\
  Forall2 (atari_job (demo_fs (a_bytes im))) [p_other; p_hello] [(other, text); (hello, [1; 2; 3])] /\
  run_command atari_api no_opts (demo_fs (a_bytes im)) p_img (CAdd [p_other; p_hello]) = (f', m, Ok tt) /\
  In (MCopying other) m /\ f' p_img = Some (a_bytes im) /\ open_image (a_bytes im) = Ok im /\ find_file im other = Err (EAtr FileNotFound).
Proof.
  destruct demo_step as (im & im1 & C & L & Fd & Fo & Ew & C1 & Hin & Z1).
  assert (Fh : exists d, find_name hello (a_files im1) = Some d) by (destruct (find_name hello (a_files im1)) eqn:E; [eauto|apply find_name_none in E; contradiction]).
  assert (Fn : find_name other (a_files im) = None) by (apply find_name_none; change (~ In other (listing im)); rewrite L; intros [X|[]]; discriminate).
  destruct Fh as (dh & Fh).
  assert (R : run_command atari_api no_opts (demo_fs (a_bytes im)) p_img (CAdd [p_other; p_hello]) = (demo_fs (a_bytes im), [MCopying other; MSkipping hello], Ok tt)).
  { unfold run_command. change (demo_fs (a_bytes im) p_img) with (Some (a_bytes im)). cbv iota beta. change (p_open atari_api (a_bytes im)) with (open_image (a_bytes im)). rewrite (proj1 C).
    unfold add_files, save_if. cbn [add_loop]. 
    change (demo_fs (a_bytes im) p_other) with (Some text). cbv iota. change (basename p_other []) with other.
    unfold save_file at 1. change (p_find atari_api im other) with (find_name other (a_files im)). rewrite Fn. cbn [o_dry no_opts].
    change (p_write atari_api im other (filetype atari_api no_opts) text) with (write_file im other text). rewrite Ew. cbn [rbind].
    change (demo_fs (a_bytes im) p_hello) with (Some [1; 2; 3]). cbv iota. change (basename p_hello []) with hello.
    unfold save_file. change (p_find atari_api im1 hello) with (find_name hello (a_files im1)). rewrite Fh. reflexivity. }
  exists im, (demo_fs (a_bytes im)), [MCopying other; MSkipping hello]. split; [exact C|]. split.
  { pose proof (demo_jobs (a_bytes im)) as J. inversion J as [|? ? ? ? J1 J2]; subst. inversion J2 as [|? ? ? ? J3 J4]; subst. constructor; [exact J3|]. constructor; [exact J1|constructor]. }
  split; [exact R|]. split; [left; reflexivity|]. split; [reflexivity|]. split; [apply (proj1 C)|exact Fo].
Qed.
Print Assumptions C39_last_skipped_refuted.

(** A name that does not fit is stored cut short; it is not recognised as present, so a
    file that is there is replaced without --force: reading LONGFILE now gives the new data. *)
Definition longfile : list Z := [76; 79; 78; 71; 70; 73; 76; 69].                  (* LONGFILE *)
Definition longname : list Z := longfile ++ [78; 65; 77; 69].                      (* LONGFILENAME *)
Definition shadow_disk : list Z := craft 369 (entry 0x80 1 369 [65] ++ entry 0x42 1 369 longfile) [(369, fsec [1] 1 0 1)].
Definition shadow_fs (b : list Z) : fs := fun p => if zlist_eqb p p_img then Some b else if zlist_eqb p longname then Some [2] else None.
Definition bad_shadow (im : aimg) : bool :=
  ok_is (find_file im longfile) [1] &&
  match run_command atari_api no_opts (shadow_fs shadow_disk) p_img (CAdd [longname]) with
  | (f', [MCopying _], Ok _) =>
      match f' p_img with Some b => with_open b false (fun im' => ok_is (find_file im' longfile) [2]) | None => false end
  | _ => false
  end.
Lemma bad_shadow_true : with_open shadow_disk false bad_shadow = true.
Proof. vm_cast_no_check (eq_refl true). Qed.
Theorem C39_long_name_refuted : exists im f' m b im', open_image (a_bytes im) = Ok im /\ o_force no_opts = false /\
  find_file im longfile = Ok [1] /\
  run_command atari_api no_opts (shadow_fs (a_bytes im)) p_img (CAdd [longname]) = (f', m, Ok tt) /\
  f' p_img = Some b /\ open_image b = Ok im' /\ find_file im' longfile = Ok [2].
Proof.
  destruct (with_open_true _ _ bad_shadow_true) as (im & Ho & E). unfold bad_shadow in E. apply andb_true_iff in E. destruct E as [E1 E2].
  assert (B : a_bytes im = shadow_disk) by (revert Ho; apply open_image_bytes).
  destruct (run_command atari_api no_opts (shadow_fs shadow_disk) p_img (CAdd [longname])) as [[f' m] r] eqn:R.
  destruct m as [|m0 ms]; [discriminate E2|]. destruct m0; try discriminate E2. destruct ms; [|discriminate E2]. destruct r as [[]|]; [|discriminate E2].
  destruct (f' p_img) as [b|] eqn:Fb; [|discriminate E2]. destruct (with_open_true _ _ E2) as (im' & O' & E3).
  exists im, f', [MCopying name], b, im'. rewrite B. split; [exact Ho|]. split; [reflexivity|]. split; [apply ok_is_eq; exact E1|]. split; [exact R|]. split; [exact Fb|]. split; [exact O'|]. apply ok_is_eq. exact E3.
Qed.
Print Assumptions C39_long_name_refuted.

(** * C40 *)
(** What extract is to write, in order: for each wanted file on the disk its local path and
    contents. *)
Definition atari_outputs (o : opts) (im : aimg) (files : list (list Z)) : list (list Z * list Z) :=
  flat_map (fun n => match find_file im n with Ok x => [(out_path o n, converted o x)] | Err _ => [] end)
    (if o_all o then listing im else files).
Definition dos33_outputs (o : opts) (im : img33) (files : list (list Z)) : list (list Z * list Z) :=
  flat_map (fun n => match find_file3 im n with Ok x => [(out_path o n, converted o x)] | Err _ => [] end)
    (if o_all o then listing3 im else files).
(** The first entry of a list of writes for a path. *)
Fixpoint first_for (p : list Z) (w : list (list Z * list Z)) : option (list Z) :=
  match w with [] => None | (q, d) :: r => if list_eq_dec Z.eq_dec q p then Some d else first_for p r end.
Lemma written_first p w : written p w = first_for p w.
Proof.
  induction w as [|[q d] r IH]; [reflexivity|]. unfold written in *. cbn [find fst first_for]. destruct (list_eq_dec Z.eq_dec q p) as [-> |N].
  - replace (zlist_eqb p p) with true by (symmetry; apply zlist_eqb_eq; reflexivity). reflexivity.
  - apply zlist_eqb_neq in N. rewrite N. exact IH.
Qed.
(** Extraction writes exactly the wanted files.  Without --force a path that exists is left
    alone and the first file extracted to a path stays; with --force the last one does. *)
Theorem C40_extract_atari (o : opts) (f : fs) (img : list Z) (im : aimg) (files : list (list Z)) f' m r :
  o_dry o = false -> consistent im -> f img = Some (a_bytes im) ->
  run_command atari_api o f img (CExtract files) = (f', m, r) ->
  r = Ok tt /\
  forall p, f' p = if o_force o
                   then match first_for p (rev (atari_outputs o im files)) with Some x => Some x | None => f p end
                   else match f p with Some x => Some x | None => first_for p (atari_outputs o im files) end.
Proof.
  intros D C Fi E. destruct (extract_command atari_api o _ _ _ _ _ _ atari_lawful f img im files f' m r D C Fi E) as [-> H]. split; [reflexivity|].
  assert (Eo : outputs atari_api o im files = atari_outputs o im files).
  { unfold outputs, atari_outputs, wanted, listing. change (p_files atari_api im) with (a_files im). change (p_name atari_api) with filename.
    apply flat_map_ext. intros n. rewrite look_atari. unfold fs_of. destruct (find_file im n); reflexivity. }
  intros p. rewrite H, Eo, !written_first. reflexivity.
Qed.
Print Assumptions C40_extract_atari.
Theorem C40_extract_dos33 (o : opts) (f : fs) (img : list Z) (im : img33) (files : list (list Z)) f' m r :
  o_dry o = false -> consistent3 im -> f img = Some (i_bytes im) ->
  run_command dos33_api o f img (CExtract files) = (f', m, r) ->
  r = Ok tt /\
  forall p, f' p = if o_force o
                   then match first_for p (rev (dos33_outputs o im files)) with Some x => Some x | None => f p end
                   else match f p with Some x => Some x | None => first_for p (dos33_outputs o im files) end.
Proof.
  intros D C Fi E. destruct (extract_command dos33_api o _ _ _ _ _ _ dos33_lawful f img im files f' m r D C Fi E) as [-> H]. split; [reflexivity|].
  assert (Eo : outputs dos33_api o im files = dos33_outputs o im files).
  { unfold outputs, dos33_outputs, wanted, listing3. change (p_files dos33_api im) with (i_files im). change (p_name dos33_api) with d3_name.
    apply flat_map_ext. intros n. rewrite look_dos33. unfold fs_of3. destruct (find_file3 im n); reflexivity. }
  intros p. rewrite H, Eo, !written_first. reflexivity.
Qed.
Print Assumptions C40_extract_dos33.
(** A file alone on its path, which does not exist yet, is extracted there exactly. *)
Lemma first_for_unique p w d : In (p, d) w -> (forall d', In (p, d') w -> d' = d) -> first_for p w = Some d.
Proof.
  induction w as [|[q e] r IH]; intros H U; [destruct H|]. cbn [first_for]. destruct (list_eq_dec Z.eq_dec q p) as [-> |N].
  - f_equal. apply U. left. reflexivity.
  - destruct H as [H|H]; [congruence|]. apply IH; [exact H|]. intros d' H'. apply U. right. exact H'.
Qed.
Theorem C40_one_file (o : opts) (f : fs) (img : list Z) (im : aimg) (files : list (list Z)) f' m r n d :
  o_dry o = false -> consistent im -> f img = Some (a_bytes im) ->
  run_command atari_api o f img (CExtract files) = (f', m, r) ->
  In n (if o_all o then listing im else files) -> find_file im n = Ok d ->
  f (out_path o n) = None \/ o_force o = true ->
  (forall n', In n' (if o_all o then listing im else files) -> out_path o n' = out_path o n -> n' = n) ->
  f' (out_path o n) = Some (converted o d).
Proof.
  intros D C Fi E Hn Fn Ab Un. destruct (C40_extract_atari o f img im files f' m r D C Fi E) as [_ H]. rewrite H.
  assert (I1 : In (out_path o n, converted o d) (atari_outputs o im files)) by (apply in_flat_map; exists n; split; [exact Hn|rewrite Fn; left; reflexivity]).
  assert (I2 : forall d', In (out_path o n, d') (atari_outputs o im files) -> d' = converted o d).
  { intros d' H'. apply in_flat_map in H'. destruct H' as (n' & Hn' & H'). destruct (find_file im n') as [x|] eqn:Fx; [|destruct H']. destruct H' as [H'|[]].
    injection H' as E1 <-. rewrite (Un n' Hn' E1) in Fx. congruence. }
  destruct (o_force o).
  - rewrite (first_for_unique _ _ (converted o d)); [reflexivity|rewrite <- in_rev; exact I1|]. intros d' H'. apply in_rev in H'. apply I2. exact H'.
  - destruct Ab as [-> |X]; [|discriminate]. apply first_for_unique; assumption.
Qed.
Print Assumptions C40_one_file.
(** Without --force no existing file changes, for any kind of image and even if the command fails. *)
Theorem C40_never_clobbers (A : api) (o : opts) (f : fs) (img : list Z) (files : list (list Z)) f' m r :
  o_force o = false -> run_command A o f img (CExtract files) = (f', m, r) -> forall p x, f p = Some x -> f' p = Some x.
Proof.
  intros Fo E p x Hp. unfold run_command in E. destruct (f img) as [b|]; [|injection E as <- _ _; exact Hp].
  destruct (p_open A b) as [im|e].
  - unfold extract_files in E. eapply extract_keeps; eassumption.
  - destruct e as [e| | | | | | | | | | | |]; try (injection E as <- _ _; exact Hp). destruct e; injection E as <- _ _; exact Hp.
Qed.
Print Assumptions C40_never_clobbers.
Lemma getb_mapped (f : Z -> Z) l i : 0 <= i < zlen l -> getb (map f l) i = f (getb l i).
Proof.
  intros Hi. unfold getb. rewrite (nth_indep (map f l) 0 (f 0)); [apply map_nth|]. rewrite map_length. unfold zlen in Hi. lia.
Qed.
(** --text changes end-of-line and tab, byte by byte, and nothing else. *)
Theorem C40_text (o : opts) (d : list Z) :
  (o_text o = false -> converted o d = d) /\
  (o_text o = true -> zlen (converted o d) = zlen d /\
   forall i, 0 <= i < zlen d -> getb (converted o d) i = if getb d i =? 0x9b then 10 else if getb d i =? 0x7f then 9 else getb d i).
Proof.
  unfold converted. split; intros ->; [reflexivity|]. unfold replace. rewrite map_map. split; [unfold zlen; rewrite map_length; reflexivity|].
  intros i Hi. rewrite getb_mapped by exact Hi. destruct (Z.eqb_spec (getb d i) 127) as [-> |N]; [reflexivity|]. reflexivity.
Qed.
Print Assumptions C40_text.
Example C40_demo : exists im f' m, consistent im /\
  run_command atari_api (mkO false false true true true (Some [111]) []) (demo_fs (a_bytes im)) p_img (CExtract []) = (f', m, Ok tt) /\
  f' [111; 47; 104; 101; 108; 108; 111; 46; 116; 120; 116] = Some text.      (* o/hello.txt *)
Proof.
  destruct demo_step as (im & im1 & C & L & Fd & _).
  set (o := mkO false false true true true (Some [111]) []).
  destruct (run_command atari_api o (demo_fs (a_bytes im)) p_img (CExtract [])) as [[f' m] r] eqn:R.
  pose proof (C40_extract_atari o _ p_img im [] f' m r eq_refl C eq_refl R) as [-> _].
  exists im, f', m. split; [exact C|]. split; [exact R|].
  assert (X : f' (out_path o hello) = Some (converted o text)).
  { apply (C40_one_file o _ p_img im [] f' m _ hello text eq_refl C eq_refl R).
    - cbn [o_all o]. rewrite L. left. reflexivity.
    - exact Fd.
    - left. reflexivity.
    - cbn [o_all o]. rewrite L. intros n' [<-|[]] _. reflexivity. }
  change (out_path o hello) with [111; 47; 104; 101; 108; 108; 111; 46; 116; 120; 116] in X. rewrite X. vm_compute. reflexivity.
Qed.

(** * C44 *)
Inductive notation : Type := N0x | NDollar | NPlain | NHash | NPercent.
Definition n_prefix (x : notation) : list Z :=
  match x with N0x => [48; 120] | NDollar => [36] | NPlain => [] | NHash => [35] | NPercent => [37] end.
Definition n_base (x : notation) : Z := match x with NHash => 10 | NPercent => 2 | _ => 16 end.
(** Every digit string in every notation gives the number it denotes. *)
Lemma text_to_int_plain ds : Forall (is_digit 16) ds -> text_to_int ds = py_int 16 ds.
Proof.
  intros F. destruct F as [|c r Hc F]; [reflexivity|]. destruct (digit_range 16 c ltac:(lia) Hc) as [Rc _]. unfold text_to_int.
  destruct (Z.eq_dec c 48) as [-> |N].
  - destruct F as [|x l [Hx _] F]; [reflexivity|]. destruct (Z.eq_dec x 120) as [-> |Nx]; [vm_compute in Hx; destruct Hx; discriminate|].
    destruct x as [|p|]; try reflexivity. do 7 (destruct p as [p|p|]; try reflexivity; try congruence).
  - destruct c as [|p|]; try lia. do 6 (destruct p as [p|p|]; try reflexivity; try congruence; try lia).
Qed.
Theorem C44_every_notation (x : notation) (ds : list Z) :
  ds <> [] -> Forall (is_digit (n_base x)) ds -> text_to_int (n_prefix x ++ ds) = Ok (number (n_base x) ds).
Proof.
  intros Ne F. destruct x; cbn [n_prefix n_base app] in *.
  - change (text_to_int (48 :: 120 :: ds)) with (py_int 16 ds). apply py_int_digits; [cbn; auto|exact F|exact Ne].
  - change (text_to_int (36 :: ds)) with (py_int 16 ds). apply py_int_digits; [cbn; auto|exact F|exact Ne].
  - rewrite text_to_int_plain by exact F. apply py_int_digits; [cbn; auto|exact F|exact Ne].
  - change (text_to_int (35 :: ds)) with (py_int 10 ds). apply py_int_digits; [cbn; auto|exact F|exact Ne].
  - change (text_to_int (37 :: ds)) with (py_int 2 ds). apply py_int_digits; [cbn; auto|exact F|exact Ne].
Qed.
Print Assumptions C44_every_notation.
(** So every number can be given in every notation. *)
Theorem C44_every_number (x : notation) (v : Z) : 0 <= v -> exists t, text_to_int (n_prefix x ++ t) = Ok v.
Proof.
  intros Hv. destruct (number_exists (n_base x) v) as (ds & Ne & F & E); [destruct x; cbn; lia|exact Hv|]. exists ds. rewrite C44_every_notation by assumption. rewrite E. reflexivity.
Qed.
Print Assumptions C44_every_number.
(** Nothing else is accepted but blanks around it, a sign, a second prefix and underscores
    between the digits, as Python's int() allows. *)
Theorem C44_nothing_else (t : list Z) (v : Z) : text_to_int t = Ok v ->
  exists x rest, t = n_prefix x ++ rest /\ accepted (n_base x) rest v.
Proof.
  intros E. unfold text_to_int in E.
  assert (Pl : py_int 16 t = Ok v -> exists x rest, t = n_prefix x ++ rest /\ accepted (n_base x) rest v) by (intros H; exists NPlain, t; split; [reflexivity|apply py_int_inv; exact H]).
  destruct t as [|c r]; [apply Pl; exact E|].
  destruct (Z.eq_dec c 48) as [-> |N1].
  { destruct r as [|x l]; [apply Pl; exact E|]. destruct (Z.eq_dec x 120) as [-> |Nx].
    - exists N0x, l. split; [reflexivity|]. apply py_int_inv. exact E.
    - apply Pl. rewrite <- E. destruct x as [|p|]; try reflexivity. do 7 (destruct p as [p|p|]; try reflexivity; try congruence). }
  destruct (Z.eq_dec c 36) as [-> |N2]; [exists NDollar, r; split; [reflexivity|apply py_int_inv; exact E]|].
  destruct (Z.eq_dec c 35) as [-> |N3]; [exists NHash, r; split; [reflexivity|apply py_int_inv; exact E]|].
  destruct (Z.eq_dec c 37) as [-> |N4]; [exists NPercent, r; split; [reflexivity|apply py_int_inv; exact E]|].
  apply Pl. rewrite <- E. destruct c as [|p|]; try reflexivity. do 6 (destruct p as [p|p|]; try reflexivity; try congruence).
Qed.
Print Assumptions C44_nothing_else.
Example C44_demo : text_to_int [48; 120; 49; 70] = Ok 31 /\ text_to_int [36; 49; 70] = Ok 31 /\ text_to_int [49; 70] = Ok 31 /\
  text_to_int [35; 51; 49] = Ok 31 /\ text_to_int [37; 49; 49; 49; 49; 49] = Ok 31 /\ text_to_int [35; 49; 70] = Err EValue /\
  Forall (is_digit 16) [49; 70] /\ text_to_int [36; 45; 49] = Ok (-1).
Proof. repeat split; try reflexivity; repeat constructor; vm_compute; congruence. Qed.

(** * C59 *)
(** Extracted files stay below --dir if their names have no slash. *)
Theorem C59_stays_in_dir_partial (o : opts) (dir n : list Z) :
  o_dir o = Some dir -> dir <> [] -> n <> [] -> ~ In 47 n ->
  exists n', out_path o n = (if last dir 0 =? 47 then dir else dir ++ [47]) ++ n' /\ zlen n' = zlen n /\ ~ In 47 n'.
Proof.
  intros Ed Nd Nn Hs. exists (if o_lower o then map lower1 n else n).
  assert (Hl : ~ In 47 (map lower1 n)).
  { intros H. apply in_map_iff in H. destruct H as (c & Hc & Hi). unfold lower1 in Hc.
    destruct ((65 <=? c) && (c <=? 90) || (192 <=? c) && (c <=? 222) && negb (c =? 215)) eqn:B; [lia|subst c; contradiction]. }
  split; [|split; [destruct (o_lower o); [unfold zlen; rewrite map_length|]; reflexivity|destruct (o_lower o); assumption]].
  unfold out_path. rewrite Ed. set (q := if o_lower o then map lower1 n else n).
  assert (Q : ~ In 47 q /\ q <> []) by (unfold q; destruct (o_lower o); split; try assumption; destruct n; cbn; congruence). clearbody q. destruct Q as [Q1 Q2].
  unfold join. destruct q as [|c q]; [congruence|].
  assert (Nc : c <> 47) by (intros ->; apply Q1; left; reflexivity).
  destruct dir as [|x dir]; [congruence|].
  assert (E : (match c :: q with 47 :: _ => c :: q | _ => if last (x :: dir) 0 =? 47 then (x :: dir) ++ c :: q else (x :: dir) ++ 47 :: c :: q end) =
     (if last (x :: dir) 0 =? 47 then (x :: dir) ++ c :: q else (x :: dir) ++ 47 :: c :: q)).
  { destruct c as [|p|]; try reflexivity. do 6 (destruct p as [p|p|]; try reflexivity; try congruence). }
  rewrite E. destruct (last (x :: dir) 0 =? 47); [reflexivity|]. rewrite <- app_assoc. reflexivity.
Qed.
Print Assumptions C59_stays_in_dir_partial.
Example C59_demo : out_path (mkO false false true false false (Some [111]) []) hello = [111; 47; 104; 101; 108; 108; 111; 46; 116; 120; 116].
Proof. reflexivity. Qed.
(** A name beginning with a slash replaces the directory: a disk holding a file called "/X"
    makes extract write to /X. *)
Definition slash_disk : list Z := craft 369 (entry 0x42 1 369 [47; 88]) [(369, fsec [7] 0 0 1)].
Definition slash_opts : opts := mkO false false false false true (Some [111; 117; 116]) [].    (* --all --dir out *)
Definition bad_slash (im : aimg) : bool :=
  match run_command atari_api slash_opts (fun p => if zlist_eqb p p_img then Some slash_disk else None) p_img (CExtract []) with
  | (f', _, Ok _) => match f' [47; 88] with Some d => zlist_eqb d [7] | None => false end
  | _ => false
  end.
Lemma bad_slash_true : with_open slash_disk false bad_slash = true.
Proof. vm_cast_no_check (eq_refl true). Qed.
Theorem C59_escapes_dir_refuted : exists im f' m, open_image (a_bytes im) = Ok im /\
  run_command atari_api slash_opts (fun p => if zlist_eqb p p_img then Some (a_bytes im) else None) p_img (CExtract []) = (f', m, Ok tt) /\
  f' [47; 88] = Some [7].
Proof.
  destruct (with_open_true _ _ bad_slash_true) as (im & Ho & E). unfold bad_slash in E.
  assert (B : a_bytes im = slash_disk) by (revert Ho; apply open_image_bytes).
  destruct (run_command atari_api slash_opts (fun p => if zlist_eqb p p_img then Some slash_disk else None) p_img (CExtract [])) as [[f' m] [[]|e]] eqn:R; [|discriminate E].
  destruct (f' [47; 88]) as [d|] eqn:Fd; [|discriminate E]. exists im, f', m. rewrite B. split; [exact Ho|]. split; [exact R|]. rewrite Fd. f_equal. apply zlist_eqb_eq. exact E.
Qed.
Print Assumptions C59_escapes_dir_refuted.

(** * C60 *)
(** Deleting: exactly the named files that are there go; the image is saved if any was. *)
Theorem C60_delete_atari (o : opts) (f : fs) (img : list Z) (im : aimg) (files : list (list Z)) f' m r :
  o_dry o = false -> consistent im -> f img = Some (a_bytes im) ->
  run_command atari_api o f img (CDelete files) = (f', m, r) ->
  r = Ok tt /\ exists im', open_image (a_bytes im') = Ok im' /\ consistent im' /\
    answers im' (fun n => if existsb (zlist_eqb n) files then None else fs_of im n) /\
    ((exists n, In n files /\ In n (listing im)) -> f' = fput f img (a_bytes im')) /\
    ((forall n, In n files -> ~ In n (listing im)) -> f' = f).
Proof.
  intros D C Fi E. destruct (remove_command atari_api o _ _ _ _ _ _ atari_lawful f img im files f' m r D C Fi E) as (-> & im' & O & C' & L & ->). split; [reflexivity|].
  exists im'. split; [exact O|]. split; [exact C'|]. split; [apply answers_of_look; [exact C'|]; intros n; rewrite L, look_atari; reflexivity|].
  assert (Lk : forall n, In n (listing im) <-> look atari_api im n <> None).
  { intros n. rewrite look_atari. unfold fs_of. split.
    - intros H. destruct (listed_found im n C H) as (d & ->). discriminate.
    - intros H. destruct (in_dec (list_eq_dec Z.eq_dec) n (listing im)) as [X|X]; [exact X|]. exfalso. apply H. unfold find_file. apply find_name_none in X. rewrite X. reflexivity. }
  destruct (existsb (fun n => match look atari_api im n with Some _ => true | None => false end) files) eqn:B.
  - split; [reflexivity|]. intros H. exfalso. apply existsb_exists in B. destruct B as (n & Hn & B). apply (H n Hn). apply Lk. intros X. rewrite X in B. discriminate.
  - split; [|reflexivity]. intros (n & Hn & Hl). exfalso. apply Lk in Hl. assert (X : existsb (fun n => match look atari_api im n with Some _ => true | None => false end) files = true).
    { apply existsb_exists. exists n. split; [exact Hn|]. destruct (look atari_api im n); [reflexivity|congruence]. }
    congruence.
Qed.
Print Assumptions C60_delete_atari.
Theorem C60_delete_dos33 (o : opts) (f : fs) (img : list Z) (im : img33) (files : list (list Z)) f' m r :
  o_dry o = false -> consistent3 im -> f img = Some (i_bytes im) ->
  run_command dos33_api o f img (CDelete files) = (f', m, r) ->
  r = Ok tt /\ exists im', open33 (i_bytes im') = Ok im' /\ consistent3 im' /\
    answers3 im' (fun n => if existsb (zlist_eqb n) files then None else fs_of3 im n) /\
    ((exists n, In n files /\ In n (listing3 im)) -> f' = fput f img (i_bytes im')) /\
    ((forall n, In n files -> ~ In n (listing3 im)) -> f' = f).
Proof.
  intros D C Fi E. destruct (remove_command dos33_api o _ _ _ _ _ _ dos33_lawful f img im files f' m r D C Fi E) as (-> & im' & O & C' & L & ->). split; [reflexivity|].
  exists im'. split; [exact O|]. split; [exact C'|]. split; [apply answers_of_look3; [exact C'|]; intros n; rewrite L, look_dos33; reflexivity|].
  assert (Lk : forall n, In n (listing3 im) <-> look dos33_api im n <> None).
  { intros n. rewrite look_dos33. unfold fs_of3. split.
    - intros H. destruct (listed_found3 im n C H) as (d & ->). discriminate.
    - intros H. destruct (in_dec (list_eq_dec Z.eq_dec) n (listing3 im)) as [X|X]; [exact X|]. exfalso. apply H. unfold find_file3. apply find_name3_none in X. rewrite X. reflexivity. }
  destruct (existsb (fun n => match look dos33_api im n with Some _ => true | None => false end) files) eqn:B.
  - split; [reflexivity|]. intros H. exfalso. apply existsb_exists in B. destruct B as (n & Hn & B). apply (H n Hn). apply Lk. intros X. rewrite X in B. discriminate.
  - split; [|reflexivity]. intros (n & Hn & Hl). exfalso. apply Lk in Hl. assert (X : existsb (fun n => match look dos33_api im n with Some _ => true | None => false end) files = true).
    { apply existsb_exists. exists n. split; [exact Hn|]. destruct (look dos33_api im n); [reflexivity|congruence]. }
    congruence.
Qed.
Print Assumptions C60_delete_dos33.
Example C60_demo : exists im f' m im', consistent im /\ In hello (listing im) /\
  run_command atari_api no_opts (demo_fs (a_bytes im)) p_img (CDelete [other; hello]) = (f', m, Ok tt) /\
  f' p_img = Some (a_bytes im') /\ open_image (a_bytes im') = Ok im' /\ find_file im' hello = Err (EAtr FileNotFound).
Proof.
  destruct demo_step as (im & im1 & C & L & Fd & _).
  destruct (run_command atari_api no_opts (demo_fs (a_bytes im)) p_img (CDelete [other; hello])) as [[f' m] r] eqn:R.
  destruct (C60_delete_atari no_opts _ p_img im _ f' m r eq_refl C eq_refl R) as (-> & im' & O & C' & An & Sv & _).
  exists im, f', m, im'. split; [exact C|]. split; [rewrite L; left; reflexivity|]. split; [exact R|].
  rewrite Sv by (exists hello; split; [right; left; reflexivity|rewrite L; left; reflexivity]).
  split; [apply fput_eq|]. split; [exact O|]. exact (An hello).
Qed.
(** -f is documented as needed for files that are locked, but a locked file goes without it. *)
Definition locked_disk : list Z := craft 369 (entry 0x62 1 369 [66]) [(369, fsec [1] 0 0 1)].
Definition bad_locked (im : aimg) : bool :=
  match a_files im with [d] => d_locked d && zlist_eqb (filename d) other | _ => false end &&
  match run_command atari_api no_opts (fun p => if zlist_eqb p p_img then Some locked_disk else None) p_img (CDelete [other]) with
  | (f', _, Ok _) => match f' p_img with Some b => with_open b false (fun im' => match a_files im' with [] => true | _ => false end) | None => false end
  | _ => false
  end.
Lemma bad_locked_true : with_open locked_disk false bad_locked = true.
Proof. vm_cast_no_check (eq_refl true). Qed.
Theorem C60_locked_refuted : exists im d f' m b im', open_image (a_bytes im) = Ok im /\ a_files im = [d] /\ filename d = other /\ d_locked d = true /\
  o_force no_opts = false /\
  run_command atari_api no_opts (fun p => if zlist_eqb p p_img then Some (a_bytes im) else None) p_img (CDelete [other]) = (f', m, Ok tt) /\
  f' p_img = Some b /\ open_image b = Ok im' /\ a_files im' = [].
Proof.
  destruct (with_open_true _ _ bad_locked_true) as (im & Ho & E). unfold bad_locked in E. apply andb_true_iff in E. destruct E as [E1 E2].
  assert (B : a_bytes im = locked_disk) by (revert Ho; apply open_image_bytes).
  destruct (run_command atari_api no_opts (fun p => if zlist_eqb p p_img then Some locked_disk else None) p_img (CDelete [other])) as [[f' m] [[]|e]] eqn:R; [|discriminate E2].
  destruct (f' p_img) as [b|] eqn:Fb; [|discriminate E2]. destruct (with_open_true _ _ E2) as (im' & O' & E3).
  destruct (a_files im) as [|d [|]] eqn:Fl; try discriminate E1. apply andb_true_iff in E1. destruct E1 as [L1 L2].
  exists im, d, f', m, b, im'. rewrite B. split; [exact Ho|]. split; [exact Fl|]. split; [apply zlist_eqb_eq; exact L2|]. split; [exact L1|]. split; [reflexivity|]. split; [exact R|]. split; [exact Fb|]. split; [exact O'|].
  destruct (a_files im'); [reflexivity|discriminate E3].
Qed.
Print Assumptions C60_locked_refuted.

(** * C61 *)
(** create: a new image is an exact copy of the one template whose name contains the given
    text; nothing that exists is replaced without --force; --dry-run writes nothing. *)
Theorem C61_create (can_read : list Z -> res unit) (o : opts) (ts : list (list Z * list Z)) (f : fs) (template name : list Z) f' m r :
  create_image can_read o ts f template name = (f', m, r) ->
  (forall q, q <> name -> f' q = f q) /\
  (f' name = f name \/ exists tn data, In (tn, data) ts /\ substring template tn = true /\ f' name = Some data /\ o_dry o = false /\
     (forall t, In t ts -> substring template (fst t) = true -> t = (tn, data)) /\ (f name = None \/ o_force o = true)).
Proof.
  unfold create_image. destruct (get_template template ts) as [[tn data]|e] eqn:G; [|intros E; injection E as <- _ _; auto].
  destruct (o_dry o) eqn:D; [intros E; injection E as <- _ _; auto|].
  unfold get_template in G. destruct (template_matches template ts) as [|t [|]] eqn:T; try discriminate. injection G as ->.
  assert (M : forall t, In t ts -> substring template (fst t) = true -> t = (tn, data)).
  { intros t H1 H2. assert (X : In t (template_matches template ts)) by (apply filter_In; auto). rewrite T in X. destruct X as [<-|[]]. reflexivity. }
  assert (I1 : In (tn, data) (template_matches template ts)) by (rewrite T; left; reflexivity). apply filter_In in I1. destruct I1 as [I1 I2].
  assert (Wr : (fput f name data, [MUsing tn; MCreated name], can_read data) = (f', m, r) -> (f name = None \/ o_force o = true) ->
    (forall q, q <> name -> f' q = f q) /\
    (f' name = f name \/ exists tn data, In (tn, data) ts /\ substring template tn = true /\ f' name = Some data /\ false = false /\
     (forall t, In t ts -> substring template (fst t) = true -> t = (tn, data)) /\ (f name = None \/ o_force o = true))).
  { intros E Hn. injection E as <- _ _. split; [intros q Hq; apply fput_neq; exact Hq|]. right. exists tn, data. split; [exact I1|]. split; [exact I2|]. split; [apply fput_eq|]. auto. }
  destruct (f name) as [x|] eqn:Fx.
  - destruct (o_force o) eqn:Fo; [intros E; apply Wr; auto|]. intros E. injection E as <- _ _. auto.
  - intros E. apply Wr; auto.
Qed.
Print Assumptions C61_create.
Definition with_data (l : list (list Z)) : list (list Z * list Z) := map (fun n => (n, n)) l.
(** Each template can be had by its full file name ... *)
Theorem C61_full_names (n : list Z) : In n template_names -> get_template n (with_data template_names) = Ok (n, n).
Proof. intros H. cbn [template_names In] in H. repeat destruct H as [<-|H]; try reflexivity. destruct H. Qed.
Print Assumptions C61_full_names.
Example C61_demo : In [100;111;115;51;51;46;100;115;107] template_names /\
  create_image (fun _ => Ok tt) no_opts (with_data template_names) (fun _ => None) [100;111;115;51;51;97] [68] =
    (fput (fun _ => None) [68] [100;111;115;51;51;97;117;116;111;98;114;117;110;46;100;115;107],
     [MUsing [100;111;115;51;51;97;117;116;111;98;114;117;110;46;100;115;107]; MCreated [68]], Ok tt).
Proof. split; [cbn; tauto|reflexivity]. Qed.
(** ... but the names given in the documentation for three of them are refused as
    ambiguous: dos2sd, dos2ed and dos33. *)
Theorem C61_documented_names_refuted :
  Forall (fun n => exists n', prefix n n' = true /\ In n' template_names /\ get_template n (with_data template_names) = Err (EAtr InvalidDiskImage))
    [[100;111;115;50;115;100]; [100;111;115;50;101;100]; [100;111;115;51;51]].
Proof.
  constructor; [|constructor; [|constructor; [|constructor]]].
  - exists [100;111;115;50;115;100;46;97;116;114]. split; [reflexivity|]. split; [cbn; tauto|reflexivity].
  - exists [100;111;115;50;101;100;46;97;116;114]. split; [reflexivity|]. split; [cbn; tauto|reflexivity].
  - exists [100;111;115;51;51;46;100;115;107]. split; [reflexivity|]. split; [cbn; tauto|reflexivity].
Qed.
Print Assumptions C61_documented_names_refuted.

(** * C62 *)
(** boot: the image file written is exactly the generated boot image; the kind of image
    follows from the extension; without data nothing is written. *)
Theorem C62_boot_partial {S} (o : opts) (make : boot_kind -> list S -> res (list Z)) (f : fs) (name : list Z) (segs : list S) f' m r :
  boot_image o make f name segs = (f', m, r) ->
  (forall q, q <> name -> f' q = f q) /\
  (f' = f \/ exists k b, segs <> [] /\ make k segs = Ok b /\ f' name = Some b /\ r = Ok tt /\
     match k with BKBoot => ends (lower_name name) [46;97;116;114] = true
                | BStandard => ends (lower_name name) [46;100;115;107] = true end).
Proof.
  unfold boot_image, boot_class. intros E.
  destruct (ends (lower_name name) [46; 97; 116; 114]) eqn:E1; [|destruct (ends (lower_name name) [46; 100; 115; 107]) eqn:E2; [|injection E as <- _ _; auto]].
  - destruct segs as [|s l]; [injection E as <- _ _; auto|]. destruct (make BKBoot (s :: l)) as [b|e] eqn:M; injection E as <- _ <-; [|auto].
    split; [intros q Hq; apply fput_neq; exact Hq|]. right. exists BKBoot, b. split; [discriminate|]. split; [exact M|]. split; [apply fput_eq|]. split; [reflexivity|first [exact E1|reflexivity]].
  - destruct segs as [|s l]; [injection E as <- _ _; auto|]. destruct (make BStandard (s :: l)) as [b|e] eqn:M; injection E as <- _ <-; [|auto].
    split; [intros q Hq; apply fput_neq; exact Hq|]. right. exists BStandard, b. split; [discriminate|]. split; [exact M|]. split; [apply fput_eq|]. split; [reflexivity|first [exact E2|reflexivity]].
Qed.
Print Assumptions C62_boot_partial.
Definition a_atr : list Z := [97; 46; 65; 84; 82].      (* a.ATR *)
Example C62_demo : boot_image no_opts (fun k (l : list Z) => Ok (1 :: l)) (fun _ => None) a_atr [5] = (fput (fun _ => None) a_atr [1; 5], [MSaving a_atr], Ok tt).
Proof. reflexivity. Qed.
(** It replaces an existing file without --force and writes it even with --dry-run. *)
Theorem C62_force_and_dry_run_refuted : exists f f' m x y,
  let o := mkO false true false false false None [] in
  o_force o = false /\ o_dry o = true /\ f a_atr = Some x /\
  boot_image o (fun k (l : list Z) => Ok (1 :: l)) f a_atr [5] = (f', m, Ok tt) /\ f' a_atr = Some y /\ x <> y.
Proof.
  exists (fput (fun _ => None) a_atr [9]), (fput (fput (fun _ => None) a_atr [9]) a_atr [1; 5]), [MSaving a_atr], [9], [1; 5].
  cbv zeta. split; [reflexivity|]. split; [reflexivity|]. split; [apply fput_eq|]. split; [reflexivity|]. split; [apply fput_eq|discriminate].
Qed.
Print Assumptions C62_force_and_dry_run_refuted.

(** * C63 *)
(** The data files of assemble and boot, file[start:end]@address. *)
Definition dec (ds : list Z) : Prop := Forall (is_digit 10) ds.
Lemma rsplit_last c a b : ~ In c b -> rsplit c (a ++ c :: b) = Some (a, b).
Proof.
  intros H. assert (N : forall l, ~ In c l -> rsplit c l = None).
  { induction l as [|x l IH]; intros Hl; [reflexivity|]. cbn [rsplit]. rewrite IH by (intros X; apply Hl; right; exact X). replace (x =? c) with false; [reflexivity|]. symmetry. apply Z.eqb_neq. intros ->. apply Hl. left. reflexivity. }
  induction a as [|x a IH]; cbn [app rsplit]; [rewrite N by exact H; rewrite Z.eqb_refl; reflexivity|]. rewrite IH. reflexivity.
Qed.
Lemma lsplit_first c a b : ~ In c a -> lsplit c (a ++ c :: b) = Some (a, b).
Proof.
  induction a as [|x a IH]; intros H; cbn [app lsplit]; [rewrite Z.eqb_refl; reflexivity|].
  replace (x =? c) with false by (symmetry; apply Z.eqb_neq; intros ->; apply H; left; reflexivity). rewrite IH by (intros X; apply H; right; exact X). reflexivity.
Qed.
Lemma digit_not base ds c : base <= 36 -> Forall (is_digit base) ds -> ~ (48 <= c <= 57 \/ 65 <= c <= 90 \/ 97 <= c <= 122) -> ~ In c ds.
Proof. intros Hb F Hc Hi. rewrite Forall_forall in F. destruct (digit_range base c Hb (F c Hi)) as [R _]. contradiction. Qed.
Lemma ends_snoc e c : ends (e ++ [c]) [c] = true.
Proof.
  unfold ends. assert (L : zlen (e ++ [c]) = zlen e + 1) by (unfold zlen; rewrite app_length; cbn; lia). pose proof (zlen_nonneg e). rewrite L. change (zlen [c]) with 1. replace (1 <=? zlen e + 1) with true by lia.
  cbn [andb]. apply zlist_eqb_eq. replace (zlen e + 1 - 1) with (zlen e) by lia. rewrite slice_app_r by lia. replace (zlen e - zlen e) with 0 by lia. replace (zlen e + 1 - zlen e) with 1 by lia. reflexivity.
Qed.
Lemma zmem_app_r x a b : zmem x b = true -> zmem x (a ++ b) = true.
Proof. rewrite !zmem_In. intros H. apply in_or_app. right. exact H. Qed.
Theorem C63_whole_file (f : fs) (name addr : list Z) (d : list Z) :
  Forall (is_digit 16) addr -> addr <> [] -> ~ In 91 name -> f name = Some d ->
  data_segment f (name ++ [64] ++ addr) = Ok (number 16 addr, d).
Proof.
  intros Fa Na Nb Fn. unfold data_segment, data_arg. change ([64] ++ addr) with (64 :: addr). rewrite rsplit_last by (eapply digit_not; [|exact Fa|]; lia).
  pose proof (C44_every_notation NPlain addr Na Fa) as Ea. cbn [n_prefix n_base app] in Ea. rewrite Ea. cbn [rbind]. replace (zmem 91 name) with false by (symmetry; apply zmem_false; exact Nb). cbn [andb rbind]. rewrite Fn.
  unfold py_slice, py_bound. pose proof (zlen_nonneg d). cbn [Z.ltb Z.compare]. rewrite Z.min_l by lia. rewrite slice_full. reflexivity.
Qed.
Print Assumptions C63_whole_file.
Theorem C63_part_of_file (f : fs) (name s e addr : list Z) (d : list Z) :
  Forall (is_digit 16) addr -> addr <> [] -> dec s -> dec e -> f name = Some d ->
  data_segment f (name ++ [91] ++ s ++ [58] ++ e ++ [93; 64] ++ addr) =
    Ok (number 16 addr, slice d (Z.min (number 10 s) (zlen d)) (match e with [] => zlen d | _ => Z.min (number 10 e) (zlen d) end)).
Proof.
  intros Fa Na Hs He Fn. unfold data_segment, data_arg.
  replace (name ++ [91] ++ s ++ [58] ++ e ++ [93; 64] ++ addr) with ((name ++ [91] ++ s ++ [58] ++ e ++ [93]) ++ 64 :: addr) by (rewrite <- !app_assoc; reflexivity).
  rewrite rsplit_last by (eapply digit_not; [|exact Fa|]; lia). pose proof (C44_every_notation NPlain addr Na Fa) as Ea. cbn [n_prefix n_base app] in Ea. rewrite Ea. cbn [rbind].
  assert (M1 : zmem 91 (name ++ [91] ++ s ++ [58] ++ e ++ [93]) = true) by (apply zmem_app_r, zmem_In; left; reflexivity).
  assert (M2 : zmem 93 (name ++ [91] ++ s ++ [58] ++ e ++ [93]) = true) by (apply zmem_app_r, zmem_app_r, zmem_app_r, zmem_app_r, zmem_app_r, zmem_In; left; reflexivity).
  rewrite M1, M2. cbn [andb]. cbn [app]. rewrite rsplit_last.
  2:{ rewrite !in_app_iff. cbn [In]. rewrite in_app_iff. cbn [In]. pose proof (digit_not 10 s 91 ltac:(lia) Hs ltac:(lia)). pose proof (digit_not 10 e 91 ltac:(lia) He ltac:(lia)). intuition discriminate. }
  rewrite lsplit_first by (eapply digit_not; [|exact Hs|]; lia). rewrite ends_snoc.
  assert (Sl : slice (e ++ [93]) 0 (zlen (e ++ [93]) - 1) = e).
  { replace (zlen (e ++ [93]) - 1) with (zlen e) by (unfold zlen; rewrite app_length; cbn; lia). apply slice_app_full_l. }
  rewrite Sl. cbn [rbind]. rewrite Fn. f_equal. f_equal. pose proof (zlen_nonneg d).
  assert (Pos : forall ds, dec ds -> 0 <= number 10 ds).
  { intros ds F. unfold number. assert (G : forall l acc, Forall (is_digit 10) l -> 0 <= acc -> 0 <= fold_left (fun a c => a * 10 + digit_val c) l acc).
    { induction l as [|c l IH]; intros acc Fl Ha; [exact Ha|]. inversion Fl as [|? ? [Hc _] Fl']; subst. cbn [fold_left]. apply IH; [exact Fl'|lia]. }
    apply G; [exact F|lia]. }
  assert (Val : forall ds, dec ds -> ds <> [] -> py_int 10 ds = Ok (number 10 ds)) by (intros ds F Ne; apply py_int_digits; [cbn; auto|exact F|exact Ne]).
  unfold py_slice. f_equal.
  - destruct s as [|c s]; [reflexivity|]. rewrite Val by (assumption || discriminate). pose proof (Pos _ Hs). unfold py_bound. replace (number 10 (c :: s) <? 0) with false by lia. reflexivity.
  - destruct e as [|c e]; [reflexivity|]. rewrite Val by (assumption || discriminate). pose proof (Pos _ He). unfold py_bound. replace (number 10 (c :: e) <? 0) with false by lia. reflexivity.
Qed.
Print Assumptions C63_part_of_file.
Example C63_demo : data_segment (fun _ => Some [10; 11; 12; 13]) [102; 91; 49; 58; 51; 93; 64; 50; 48; 48; 48] = Ok (0x2000, [11; 12]).  (* f[1:3]@2000 *)
Proof. reflexivity. Qed.
(** A slice whose bounds are not decimal numbers is taken as the whole file, without a word. *)
Theorem C63_bad_bounds_refuted : exists arg, data_segment (fun _ => Some [10; 11; 12; 13]) arg = Ok (0x2000, [10; 11; 12; 13]) /\
  arg = [102; 91; 36; 49; 58; 36; 51; 93; 64; 50; 48; 48; 48].                         (* f[$1:$3]@2000 *)
Proof. eexists. split; [|reflexivity]. reflexivity. Qed.
Print Assumptions C63_bad_bounds_refuted.
