(** C73, C80: executables of the kind asked for by the extension of the output; copying
    into the current directory when files are missing. *)
From Verif Require Import Base BaseLemmas DiskModel AtariModel AtariSpec AtariGeom AtariHeader AtariBlank AtariOps AtariSession AtariProps AtariDemo SpartaModel ExecModel ExecSpec ExecProofs ExecProofs2 Properties_Exec SdModel CliModel CliProofs CliInst DetectModel DetectSpec DetectErrors DetectErrors2 DetectErrors3 DetectStay DetectExec Properties_Detect Properties_Detect2 Properties_Detect3 DetectDsk MainModel MainProofs MainProofs2 MainInst Dos33Model Dos33Spec Dos33Dir Dos33Files Dos33Ops Dos33Session Dos33Demo Properties_Cli Properties_Main Properties_Main2 Properties_Main3 Properties_Main4.
Import ExecModel ExecSpec Properties_Main2 Properties_Main4.

(** * C80: copying stops at the first file that is missing *)
Lemma basename_app p : forall acc, existsb (fun c => c =? 47) (rev acc) = false -> existsb (fun c => c =? 47) (basename p acc) = false.
Proof.
  induction p as [|c p IH]; intros acc H; cbn [basename]; [exact H|].
  destruct (Z.eq_dec c 47) as [-> |Nc]; [apply IH; reflexivity|].
  replace (match c with 47 => basename p [] | _ => basename p (c :: acc) end) with (basename p (c :: acc)).
  - apply IH. cbn [rev]. rewrite existsb_app, H. cbn [existsb orb]. replace (c =? 47) with false by lia. reflexivity.
  - destruct c as [|q|q]; try reflexivity. do 6 (destruct q as [q|q|]; try reflexivity); congruence.
Qed.
Lemma basename_plain p : forall acc, existsb (fun c => c =? 47) p = false -> basename p acc = rev acc ++ p.
Proof.
  induction p as [|c p IH]; intros acc H; cbn [basename]; [rewrite app_nil_r; reflexivity|].
  cbn [existsb] in H. apply Bool.orb_false_iff in H. destruct H as [Hc Hp].
  replace (match c with 47 => basename p [] | _ => basename p (c :: acc) end) with (basename p (c :: acc)).
  - rewrite IH by exact Hp. cbn [rev]. rewrite <- app_assoc. reflexivity.
  - destruct c as [|q|q]; try reflexivity. do 6 (destruct q as [q|q|]; try reflexivity); discriminate Hc.
Qed.
Lemma basename_twice p : basename (basename p []) [] = basename p [].
Proof. rewrite basename_plain; [reflexivity|]. apply basename_app. reflexivity. Qed.

(** The files given up to the first that does not exist. *)
Definition cut_short (f : fs) (files done_ : list (list Z)) (r : res unit) : Prop :=
  (r = Ok tt /\ files = done_) \/ (r = Err EOS /\ exists p rest, files = done_ ++ p :: rest /\ f p = None).
Definition copied (f : fs) (files : list (list Z)) (q : list Z) : option (list Z) :=
  match f q with Some x => Some x | None => match source_of q files with Some p => f p | None => None end end.
Lemma local_add_any o : o_force o = false -> o_dry o = false -> forall files f f' m r, local_add o f files = (f', m, r) ->
  exists done_, cut_short f files done_ r /\ forall q, f' q = copied f done_ q.
Proof.
  intros Fc Dc. induction files as [|p l IH]; intros f f' m r E; cbn [local_add] in E.
  - injection E as <- _ <-. exists []. split; [left; split; reflexivity|]. intros q. unfold copied. destruct (f q); reflexivity.
  - destruct (f p) as [d|] eqn:Fp.
    2: { injection E as <- _ <-. exists []. split; [right; split; [reflexivity|]; exists p, l; split; [reflexivity|exact Fp]|]. intros q. unfold copied. destruct (f q); reflexivity. }
    unfold local_save in E. rewrite Fc, Dc in E. destruct (f (basename p [])) as [x|] eqn:Fb.
    + destruct (local_add o f l) as [[f2 m2] r2] eqn:L. injection E as <- _ <-. destruct (IH _ _ _ _ L) as (dn & Ct & H). exists (p :: dn). split.
      * destruct Ct as [[R ->]|(R & a & b & -> & N)]; [left; auto|right; split; [exact R|exists a, b; auto]].
      * intros q. rewrite H. unfold copied, source_of. cbn [find]. destruct (f q) eqn:Fq; [reflexivity|].
        destruct (zlist_eqb (basename p []) q) eqn:Eq; [|reflexivity]. apply zlist_eqb_eq in Eq. congruence.
    + destruct (local_add o (fput f (basename p []) d) l) as [[f2 m2] r2] eqn:L. injection E as <- _ <-. destruct (IH _ _ _ _ L) as (dn & Ct & H). exists (p :: dn). split.
      * destruct Ct as [[R ->]|(R & a & b & -> & N)]; [left; auto|right; split; [exact R|exists a, b; split; [reflexivity|]]].
        unfold fput in N. destruct (zlist_eqb a (basename p [])); [discriminate N|exact N].
      * intros q. rewrite H. unfold copied, source_of. cbn [find]. destruct (zlist_eqb (basename p []) q) eqn:Eq.
        -- apply zlist_eqb_eq in Eq. subst q. rewrite fput_eq, Fb, Fp. reflexivity.
        -- assert (Nq : q <> basename p []) by (intros ->; rewrite zlist_eqb_refl in Eq; discriminate). rewrite fput_neq by exact Nq. destruct (f q); [reflexivity|].
           destruct (find _ dn) as [p'|] eqn:Fi; [|reflexivity]. apply find_some in Fi. destruct Fi as [_ Fi]. apply zlist_eqb_eq in Fi.
           apply fput_neq. intros ->. rewrite basename_twice in Fi. congruence.
Qed.
(** Without --force: the files given up to the first that does not exist are copied, each
    under its last path component; files that are there already stay, and of two files
    with one name the first is taken. *)
Theorem C80_add_copies w o f files f' ms r : o_force o = false -> o_dry o = false -> o_type o <> [] -> main w o f [46] (KAdd files) = (f', ms, r) ->
  exists done_, cut_short f files done_ r /\ forall q, f' q = copied f done_ q.
Proof.
  intros Fc Dc T E. cbn [main] in E. rewrite zlist_eqb_refl in E. cbn [local_command] in E. destruct (o_type o); [congruence|]. exact (local_add_any o Fc Dc _ _ _ _ _ E).
Qed.
Print Assumptions C80_add_copies.

Lemma local_add_forced_any o : o_force o = true -> o_dry o = false -> forall files f f' m r,
  (forall p p', In p files -> In p' files -> p <> basename p' []) -> local_add o f files = (f', m, r) ->
  exists done_, cut_short f files done_ r /\ forall q, f' q = match source_of q (rev done_) with Some p => f p | None => f q end.
Proof.
  intros Fc Dc. induction files as [|p l IH]; intros f f' m r Hd E; cbn [local_add] in E.
  - injection E as <- _ <-. exists []. split; [left; split; reflexivity|reflexivity].
  - destruct (f p) as [d|] eqn:Fp.
    2: { injection E as <- _ <-. exists []. split; [right; split; [reflexivity|]; exists p, l; split; [reflexivity|exact Fp]|reflexivity]. }
    assert (E' : exists m2, local_add o (fput f (basename p []) d) l = (f', m2, r)).
    { unfold local_save in E. rewrite Fc, Dc in E. destruct (f (basename p [])); destruct (local_add o (fput f (basename p []) d) l) as [[f2 m2] r2]; injection E as <- _ <-; eexists; reflexivity. }
    destruct E' as (m2 & L). destruct (IH _ _ _ _ (fun a b A B => Hd a b (or_intror A) (or_intror B)) L) as (dn & Ct & H).
    exists (p :: dn).
    assert (Dn : forall a, In a dn -> In a l) by (intros a Ha; destruct Ct as [[_ ->]|(_ & b & c & -> & _)]; [exact Ha|apply in_or_app; left; exact Ha]).
    split.
    + destruct Ct as [[R ->]|(R & a & b & -> & N)]; [left; auto|right; split; [exact R|exists a, b; split; [reflexivity|]]].
      rewrite fput_neq in N; [exact N|]. apply Hd; [right; apply in_or_app; right; left; reflexivity|left; reflexivity].
    + intros q. rewrite H. cbn [rev]. unfold source_of.
      assert (Fa : forall (g : list Z -> bool) a b, find g (a ++ b) = match find g a with Some y => Some y | None => find g b end).
      { intros g a b. induction a as [|y a IHa]; [reflexivity|]. cbn [app find]. destruct (g y); [reflexivity|exact IHa]. }
      rewrite Fa. destruct (find _ (rev dn)) as [p'|] eqn:Fi.
      * apply find_some in Fi. destruct Fi as [Fi _]. apply in_rev, Dn in Fi. apply fput_neq. apply Hd; [right; exact Fi|left; reflexivity].
      * cbn [find]. destruct (zlist_eqb (basename p []) q) eqn:Eq.
        -- apply zlist_eqb_eq in Eq. subst q. rewrite fput_eq, Fp. reflexivity.
        -- apply fput_neq. intros ->. rewrite zlist_eqb_refl in Eq. discriminate.
Qed.
(** With --force the last of the files with a name wins.  That no file given is itself
    overwritten is asked for: files are read one by one. *)
Theorem C80_add_forced w o f files f' ms r : o_force o = true -> o_dry o = false -> o_type o <> [] ->
  (forall p p', In p files -> In p' files -> p <> basename p' []) -> main w o f [46] (KAdd files) = (f', ms, r) ->
  exists done_, cut_short f files done_ r /\ forall q, f' q = match source_of q (rev done_) with Some p => f p | None => f q end.
Proof.
  intros Fc Dc T Hd E. cbn [main] in E. rewrite zlist_eqb_refl in E. cbn [local_command] in E. destruct (o_type o); [congruence|]. exact (local_add_forced_any o Fc Dc _ _ _ _ _ Hd E).
Qed.
Print Assumptions C80_add_forced.
(** With --dry-run, and whatever else is asked for, no file is changed. *)
Theorem C80_dry_run w o f c f' ms r : o_dry o = true -> ~ is_create c -> ~ is_boot c -> main w o f [46] c = (f', ms, r) -> f' = f.
Proof.
  intros Dc Nc Nb E. assert (E' : local_command w o f c = (f', ms, r)) by (destruct c; cbn in Nc, Nb; try tauto; exact E). clear E.
  assert (Sv : forall n d g m x, local_save o f n d = (g, m, x) -> g = f).
  { intros n d g m x S1. unfold local_save in S1. rewrite Dc in S1. destruct (f n), (o_force o); injection S1 as <- _ _; reflexivity. }
  destruct c as [crc l|l|l|l|t|s d b y z|s d b y|l|cl|]; cbn [local_command] in E'; try (injection E' as <- _ _; reflexivity).
  - destruct (o_all o); [injection E' as <- _ _; reflexivity|]. destruct (local_extract f l). injection E' as <- _ _. reflexivity.
  - destruct (o_type o); [injection E' as <- _ _; reflexivity|]. clear Nc Nb. revert ms r E'. induction l as [|p l IH]; intros ms r E'; cbn [local_add] in E'; [injection E' as <- _ _; reflexivity|].
    destruct (f p) as [d|]; [|injection E' as <- _ _; reflexivity]. destruct (local_save o f (basename p []) d) as [[f1 m1] r1] eqn:S1. apply Sv in S1. subst f1.
    destruct (local_add o f l) as [[f2 m2] r2] eqn:L. injection E' as E1 _ _. subst f2. exact (IH _ _ eq_refl).
  - destruct (assemble_segments w f s d b y) as [m1 [[segs rn]|e]]; [|injection E' as <- _ _; reflexivity].
    destruct (executable None z segs rn) as [[dt ty]|e]; [|injection E' as <- _ _; reflexivity].
    destruct (local_save o f z dt) as [[f1 m2] r1] eqn:S1. injection E' as <- _ _. exact (Sv _ _ _ _ _ S1).
Qed.
Print Assumptions C80_dry_run.

(** * Executables of the kind the extension asks for *)
Definition asks_bsave (output : list Z) : Prop :=
  ends_with (map lower output) t_xex = false /\ (ends_with (map lower output) t_bin || ends_with (map lower output) t_bsave) = true.
Lemma bsave_made segs run start lo hi : truthy run = truthy start -> ExecSpec.fits segs lo hi -> 3 <= lo < 65536 -> hi - lo + 3 < 65536 ->
  (forall a, truthy start = Some a -> 0 <= a < 65536) ->
  (exists x, get_bsave segs run = Ok x /\ bsave_of segs start x) \/
  (exists e a, get_bsave segs run = Err (EAtr e) /\ e <> UnsupportedContainer /\ truthy start = Some a /\ existsb (fun s => covers s a) segs = false).
Proof.
  intros T Ft Lo Hi Rs. rewrite (get_bsave_truthy segs run start T). destruct (truthy start) as [a|] eqn:Ts.
  - destruct (Z.eq_dec a lo) as [-> |Na].
    + left. destruct (C25_bsave_loads_the_segments_partial segs start lo hi Ft ltac:(lia) ltac:(lia) ltac:(auto)) as (x & Y1 & Y2). exists x. split; [exact Y1|]. exists lo, hi. split; [exact Ft|]. rewrite Ts, Z.eqb_refl. exact Y2.
    + destruct (existsb (fun s => covers s a) segs) eqn:Cv.
      * left. destruct (C25_bsave_jumps_to_run_address_partial segs start a lo hi Ft Ts Na (Rs a eq_refl) Cv Lo Hi) as (x & Y1 & Y2). exists x. split; [exact Y1|]. exists lo, hi. split; [exact Ft|]. rewrite Ts.
        replace (a =? lo) with false by lia. exact Y2.
      * right. exists InvalidBinaryFile, a. split; [exact (C25_run_address_outside_is_refused segs start a lo hi Ft Ts Na Cv)|]. split; [discriminate|auto].
  - left. destruct (C25_bsave_loads_the_segments_partial segs start lo hi Ft ltac:(lia) ltac:(lia) ltac:(auto)) as (x & Y1 & Y2). exists x. split; [exact Y1|]. exists lo, hi. split; [exact Ft|]. rewrite Ts. exact Y2.
Qed.

Lemma get_xex_refuses segs run e : get_xex segs run = Err e -> e <> EAtr UnsupportedContainer.
Proof.
  unfold get_xex. destruct (existsb _ segs); [discriminate|]. destruct (xex_run segs run) as [a|x] eqn:R; [discriminate|]. cbn [rbind]. intros E. injection E as <-.
  unfold xex_run in R. destruct (truthy run); [destruct (has_addr _ _); [discriminate R|]|destruct segs; [|discriminate R]]; injection R as <-; discriminate.
Qed.

Theorem C80_assembled_bsave w o f src args obj run output segs start lo hi f' ms r :
  o_dry o = false -> asks_bsave output ->
  gathered w f src args obj run segs start -> ExecSpec.fits segs lo hi -> 3 <= lo < 65536 -> hi - lo + 3 < 65536 ->
  (forall a, truthy start = Some a -> 0 <= a < 65536) ->
  main w o f [46] (KAssemble src args obj run output) = (f', ms, r) ->
  (r = Ok tt /\ (f output = None \/ o_force o = true) /\ exists x, (forall q, f' q = if zlist_eqb q output then Some x else f q) /\ bsave_of segs start x) \/
  (r = Ok tt /\ f output <> None /\ o_force o = false /\ f' = f) \/
  (exists e a, r = Err e /\ truthy start = Some a /\ existsb (fun s => covers s a) segs = false /\ f' = f).
Proof.
  intros Dc [X1 X2] G Ft Lo Hi Rs E. destruct (gathered_spec _ _ _ _ _ _ _ _ G) as (rn & A & T). cbn [main] in E. rewrite zlist_eqb_refl in E. cbn [local_command] in E. rewrite A in E.
  cbn [executable] in E. unfold create_executable in E. rewrite X1, X2 in E.
  destruct (bsave_made segs (run_opt rn) start lo hi T Ft Lo Hi Rs) as [(x & B & Bx)|(e & a & B & Ne & Ts & Cv)]; rewrite B in E; cbn [rbind] in E.
  - unfold local_save in E. rewrite Dc in E. destruct (f output) eqn:Fo; [destruct (o_force o) eqn:Fc|]; injection E as <- _ <-.
    + left. split; [reflexivity|]. split; [right; reflexivity|]. exists x. split; [reflexivity|exact Bx].
    + right; left. split; [reflexivity|]. split; [discriminate|]. auto.
    + left. split; [reflexivity|]. split; [left; reflexivity|]. exists x. split; [reflexivity|exact Bx].
  - right; right. exists (EAtr e), a. destruct e; injection E as <- _ <-; try (split; [reflexivity|auto]). congruence.
Qed.
Print Assumptions C80_assembled_bsave.
(** Any other name, also one without an extension, ends in AttributeError. *)
Theorem C80_assembled_no_extension_refuted w o f src args obj run output segs start f' ms r :
  ends_with (map lower output) t_xex = false -> ends_with (map lower output) t_bin = false -> ends_with (map lower output) t_bsave = false ->
  gathered w f src args obj run segs start ->
  main w o f [46] (KAssemble src args obj run output) = (f', ms, r) -> r = Err EAttribute /\ f' = f.
Proof.
  intros X1 X2 X3 G E. destruct (gathered_spec _ _ _ _ _ _ _ _ G) as (rn & A & T). cbn [main] in E. rewrite zlist_eqb_refl in E. cbn [local_command] in E. rewrite A in E.
  cbn [executable] in E. unfold create_executable in E. rewrite X1, X2, X3 in E. cbn [orb] in E. injection E as <- _ <-. auto.
Qed.
Print Assumptions C80_assembled_no_extension_refuted.

(** * C73: on disks the other kind of executable is made if the extension asks for it *)
Theorem C73_assembled_atari_bsave w o f img m src args obj run output segs start lo hi f' ms r :
  atari_disk w f img m -> o_dry o = false -> proper w f obj -> atari_name output -> room f img 1 -> asks_bsave output ->
  gathered w f src args obj run segs start -> ExecSpec.fits segs lo hi -> 3 <= lo < 65536 -> hi - lo + 3 < 65536 ->
  (forall a, truthy start = Some a -> 0 <= a < 65536) ->
  main w o f img (KAssemble src args obj run output) = (f', ms, r) ->
  (r = Ok tt /\ (m output = None \/ o_force o = true) /\ (forall q, q <> img -> f' q = f q) /\
     exists m' x, atari_disk w f' img m' /\ (forall n, m' n = if zlist_eqb n output then Some x else m n) /\ bsave_of segs start x) \/
  (r = Ok tt /\ m output <> None /\ o_force o = false /\ f' img = f img) \/
  (r = Err (EAtr NotEnoughSpaceOnDisk) /\ f' = f) \/
  (exists e a, r = Err e /\ truthy start = Some a /\ existsb (fun s => covers s a) segs = false /\ f' = f).
Proof.
  intros H D P Hn R [X1 X2] G Ft Lo Hi Rs E. destruct (gathered_spec _ _ _ _ _ _ _ _ G) as (rn & A & T).
  pose proof H as (N & _). pose proof (C75_only_the_image w o f img (KAssemble src args obj run output) f' ms r (fun x => x) N E) as [Fr Fe].
  assert (U : atari_usual w o f img (KAssemble src args obj run output)) by (split; [exact Hn|split; [exact R|exact P]]).
  destruct (C74_one_run_atari _ _ _ _ _ _ _ _ _ H U E) as (m' & H' & Ef). unfold effect in Ef. rewrite D in Ef.
  pose proof (bsave_made segs (run_opt rn) start lo hi T Ft Lo Hi Rs) as B.
  assert (Xc : forall y, executable (Some t_XEX) output segs rn = y ->
    (exists x, y = Ok (x, [66]) /\ bsave_of segs start x) \/ (exists e a, y = Err e /\ truthy start = Some a /\ existsb (fun s => covers s a) segs = false)).
  { intros y <-. cbn [executable]. unfold create_executable_image, create_executable. rewrite X1, X2.
    destruct B as [(x & B & Bx)|(e & a & B & Ne & Ts & Cv)]; rewrite B; cbn [rbind]; [left; eauto|right]. exists (EAtr e), a. split; [destruct e; try reflexivity; exfalso; apply Ne; reflexivity|auto]. }
  destruct Ef as [(e & ms0 & -> & _ & [Ea|(s1 & r1 & Ea & Ex)])|(ms0 & s1 & r1 & d & ty & Ea & Ex & Ef)]; rewrite A in Ea; [discriminate Ea| |].
  - injection Ea as <- <- <-. right; right; right. destruct (Xc _ Ex) as [(x & Y & _)|(e' & a & Y & Ts & Cv)]; [discriminate Y|]. exists e, a. split; [reflexivity|]. split; [exact Ts|]. split; [exact Cv|]. apply (Fe e eq_refl); intros [].
  - injection Ea as <- <- <-. destruct Ef as [(-> & Nw & S1)|[(-> & No & Fc & S1)|(e & -> & -> & S1)]].
    + left. split; [reflexivity|]. split; [exact Nw|]. split; [exact Fr|]. exists m', d. split; [exact H'|]. split; [intros n; rewrite S1; reflexivity|].
      destruct (Xc _ Ex) as [(x & Y & Bx)|(e' & a & Y & _)]; [injection Y as <- _; exact Bx|discriminate Y].
    + right; left. split; [reflexivity|]. split; [exact No|]. split; [exact Fc|].
      assert (U2 : ausual w o f img (KAssemble src args obj run output)) by (apply atari_usual_ok; exact U). destruct U2 as (_ & Ff & Hd).
      destruct (main_assemble atari_api (Some t_XEX) atari_vtoc (disk (w_env w)) atari_name (fun _ d => atari_data d) atari_fits (fun d => d) atari_refused (disk_lawful _) w IAtariDos (disk_found _)
        (fun _ _ _ _ _ => eq_refl) o f img m src args obj run output [] segs rn d ty f' ms (Ok tt) (proj1 (atari_holds _ _ _ _) H) D A Ex Hn (Hd _ _ _ _ _ A Ex) Ff E) as [(_ & [Y|Y] & _)|[(_ & _ & _ & ->)|(e & Y & _)]]; [contradiction|congruence|reflexivity|discriminate Y].
    + right; right; left. split; [reflexivity|]. apply (Fe _ eq_refl). intros [].
Qed.
Print Assumptions C73_assembled_atari_bsave.

Theorem C73_assembled_dos33_xex w o f img m src args obj run output segs start f' ms r :
  dos33_disk w f img m -> o_dry o = false -> proper w f obj -> dos33_name output ->
  ends_with (map lower output) t_xex = true ->
  gathered w f src args obj run segs start -> Forall seg_ok segs ->
  main w o f img (KAssemble src args obj run output) = (f', ms, r) ->
  (r = Ok tt /\ (m output = None \/ o_force o = true) /\ (forall q, q <> img -> f' q = f q) /\
     exists m' x, dos33_disk w f' img m' /\ (forall n, m' n = if zlist_eqb n output then Some (padded x) else m n) /\ xex_of segs start x) \/
  (r = Ok tt /\ m output <> None /\ o_force o = false /\ f' img = f img) \/
  ((r = Err (EAtr NotEnoughSpaceOnDisk) \/ r = Err (EAtr NoSpaceInDirectory)) /\ f' = f) \/
  (exists e, r = Err e /\ ~ makeable segs start /\ f' = f).
Proof.
  intros H D P Hn X1 G Sk E. destruct (gathered_spec _ _ _ _ _ _ _ _ G) as (rn & A & T).
  pose proof H as (N & _). pose proof (C75_only_the_image w o f img (KAssemble src args obj run output) f' ms r (fun x => x) N E) as [Fr Fe].
  assert (U : dos33_usual w o f img (KAssemble src args obj run output)) by (split; [exact Hn|exact P]).
  assert (Xc : forall y, executable (Some t_BSAVE) output segs rn = y ->
    (exists x, y = Ok (x, t_XEX) /\ xex_of segs start x) \/ (exists e, y = Err e /\ ~ makeable segs start)).
  { intros y <-. cbn [executable]. unfold create_executable_image, create_executable. rewrite X1.
    pose proof (C23_accepted_iff output segs (run_opt rn) X1) as Acc. rewrite T in Acc. unfold create_executable in Acc. rewrite X1 in Acc.
    destruct (get_xex segs (run_opt rn)) as [x|e] eqn:Gx; cbn [rbind] in *.
    - left. exists x. split; [reflexivity|]. intros st. destruct (C23_xex_round_trip_partial output segs (run_opt rn) x t_XEX st Sk X1) as (rep & Y & M & _).
      { unfold create_executable. rewrite X1, Gx. reflexivity. }
      exists rep. split; [exact Y|]. rewrite M, (wanted_truthy _ _ _ T). reflexivity.
    - right. assert (Nm : ~ makeable segs start) by (intros M; destruct (proj2 Acc M) as (x & Y); discriminate Y).
      pose proof (get_xex_refuses _ _ _ Gx) as Na. exists e. split; [|exact Nm]. destruct e as [a| | | | | | | | | | | |]; try reflexivity. destruct a; try reflexivity. congruence. }
  destruct (C74_one_run_dos33 _ _ _ _ _ _ _ _ _ H U E) as (m' & H' & Ef). unfold effect in Ef. rewrite D in Ef.
  destruct Ef as [(e & ms0 & -> & _ & [Ea|(s1 & r1 & Ea & Ex)])|(ms0 & s1 & r1 & d & ty & Ea & Ex & Ef)]; rewrite A in Ea; [discriminate Ea| |].
  - injection Ea as <- <- <-. right; right; right. destruct (Xc _ Ex) as [(x & Y & _)|(e' & Y & Nm)]; [discriminate Y|]. exists e. split; [reflexivity|]. split; [exact Nm|]. apply (Fe e eq_refl); intros [].
  - injection Ea as <- <- <-. destruct Ef as [(-> & Nw & S1)|[(-> & No & Fc & S1)|(e & -> & Re & S1)]].
    + left. split; [reflexivity|]. split; [exact Nw|]. split; [exact Fr|]. exists m', d. split; [exact H'|]. split; [intros n; rewrite S1; reflexivity|].
      destruct (Xc _ Ex) as [(x & Y & Bx)|(e' & Y & _)]; [injection Y as <- _; exact Bx|discriminate Y].
    + right; left. split; [reflexivity|]. split; [exact No|]. split; [exact Fc|].
      assert (U2 : dusual w o f img (KAssemble src args obj run output)) by (apply dos33_usual_ok; exact U). destruct U2 as (_ & _ & Hd).
      destruct (main_assemble dos33_api (Some t_BSAVE) get_smap3 (disk3 (w_env w)) dos33_name dos33_data (fun _ _ => True) padded dos33_refused (disk3_lawful _) w IDos33 (disk3_found _)
        (fun _ _ _ _ _ => eq_refl) o f img m src args obj run output [] segs rn d ty f' ms (Ok tt) (proj1 (dos33_holds _ _ _ _) H) D A Ex Hn (Hd _ _ _ _ _ A Ex) (fun _ _ _ => Logic.I) E) as [(_ & [Y|Y] & _)|[(_ & _ & _ & ->)|(e & Y & _)]]; [contradiction|congruence|reflexivity|discriminate Y].
    + right; right; left. split; [destruct Re as [-> | ->]; auto|]. apply (Fe _ eq_refl). intros [].
Qed.
Print Assumptions C73_assembled_dos33_xex.

(** ** Cases *)
Definition q_bin : list Z := [65; 46; 98; 105; 110].   (* A.bin *)
Definition data_arg : list Z := [100; 47; 97; 64; 48; 120; 54; 48; 48].   (* d/a@0x600 *)
Lemma data_gathered : gathered w0 two_fs [] [data_arg] [] [] [mkI 0x600 [1]] None.
Proof. exists [], [mkI 0x600 [1]], []. split; [reflexivity|]. split; [reflexivity|]. split; [constructor|]. split; [intros s [] |]. split; reflexivity. Qed.
Example C80_assembled_case : exists f' ms x, main w0 (typed false) two_fs [46] (KAssemble [] [data_arg] [] [] q_bin) = (f', ms, Ok tt) /\ f' q_bin = Some x /\ bsave_of [mkI 0x600 [1]] None x.
Proof.
  destruct (main w0 (typed false) two_fs [46] (KAssemble [] [data_arg] [] [] q_bin)) as [[f' ms] r] eqn:E.
  destruct (C80_assembled_bsave w0 (typed false) two_fs [] [data_arg] [] [] q_bin [mkI 0x600 [1]] None 0x600 0x601 f' ms r) as [(-> & _ & x & Hx & B)|[(_ & N & _)|(e & a & _ & T & _)]]; try exact E; try reflexivity; try lia.
  - split; reflexivity.
  - exact data_gathered.
  - split; [lia|]. split; [lia|]. split; [intros s [<-|[]]; cbn; lia|]. split; constructor; reflexivity.
  - intros a Ha. discriminate Ha.
  - exists f', ms, x. split; [reflexivity|]. split; [rewrite Hx; reflexivity|exact B].
  - exfalso. apply N. reflexivity.
  - discriminate T.
Qed.
Example C80_missing_case : exists f' ms, main w0 (typed false) two_fs [46] (KAdd [p_dir; q_bin; p_dir2]) = (f', ms, Err EOS) /\ f' [97] = Some [1].
Proof.
  destruct (main w0 (typed false) two_fs [46] (KAdd [p_dir; q_bin; p_dir2])) as [[f' ms] r] eqn:E.
  assert (R : r = Err EOS) by (revert E; vm_compute; intros E; congruence). subst r. exists f', ms. split; [reflexivity|].
  revert E. vm_compute. intros E. injection E as <- _. reflexivity.
Qed.
Definition A_BIN : list Z := [65; 46; 66; 73; 78].
Definition A_XEX : list Z := [65; 46; 88; 69; 88].
Lemma A_BIN_name : atari_name A_BIN.
Proof. assert (V : AtariSpec.valid_name A_BIN).
  { exists [65], [66; 73; 78]. split; [reflexivity|]. split; [cbn; lia|]. split; [cbn; lia|].
    split; [cbn; lia|]. split; [apply AtariDemo.bytes_ok_b; reflexivity|]. split; [apply AtariDemo.bytes_ok_b; reflexivity|].
    split; [apply (AtariDemo.clean_end_last [] 65); [reflexivity|discriminate]|apply (AtariDemo.clean_end_last [66; 73] 78); [reflexivity|discriminate]]. }
  split; [apply AtariWrite.valid_stored; exact V|apply (AtariWrite.valid_stored _ V)]. Qed.
Example C73_other_kinds_case :
  (exists im, atari_disk w0 (asm_fs (a_bytes im)) p_img (fs_of im) /\ proper w0 (asm_fs (a_bytes im)) [p_xex] /\ atari_name A_BIN /\ room (asm_fs (a_bytes im)) p_img 1 /\ asks_bsave A_BIN /\
     gathered w0 (asm_fs (a_bytes im)) [] [] [p_xex] [] [seg1] (Some 0x601) /\ ExecSpec.fits [seg1] 0x600 0x602) /\
  (dos33_disk w0 (asm_fs (i_bytes one_im)) p_img (fs_of3 one_im) /\ proper w0 (asm_fs (i_bytes one_im)) [p_xex] /\ dos33_name A_XEX /\ ends_with (map lower A_XEX) t_xex = true /\
     gathered w0 (asm_fs (i_bytes one_im)) [] [] [p_xex] [] [seg1] (Some 0x601) /\ makeable [seg1] (Some 0x601)).
Proof.
  split.
  - destruct blank_disk as (im & D & L & F & P). pose proof D as (C & _). destruct (consistent_view im C) as (k0 & _ & _ & Dk & _). exists im.
    split; [apply (disk_at env0); [reflexivity|exact D|discriminate|reflexivity]|]. split; [apply asm_proper; apply (dk_bytes _ _ _ Dk)|]. split; [exact A_BIN_name|].
    split; [|split; [split; reflexivity|]].
    + intros b imb Hb Ho. injection Hb as <-. destruct D as ([O1 _] & _). assert (imb = im) by congruence. subst imb. rewrite listing_files, L. cbn. lia.
    + split; [apply xex1_gathered|]. split; [lia|]. split; [lia|]. split; [intros s [<-|[]]; cbn; lia|]. split; left; reflexivity.
  - pose proof one_disk as D. pose proof D as (C & _). destruct (consistent3_vtoc one_im C) as (_ & _ & Hb).
    split; [apply disk3_at; [exact D|discriminate|reflexivity]|]. split; [exact (asm_proper _ Hb)|]. split; [split; [repeat constructor; lia|reflexivity]|].
    split; [reflexivity|]. split; [apply xex1_gathered|]. right. reflexivity.
Qed.

(** With --force and files that are overwritten themselves: what ends up under a name goes
    back to the file it was copied from, step by step. *)
Fixpoint goes_back (files : list (list Z)) (q : list Z) : list Z :=
  match files with
  | [] => q
  | p :: l => let q' := goes_back l q in if zlist_eqb q' (basename p []) then p else q'
  end.
Lemma local_add_forced_chain o : o_force o = true -> o_dry o = false -> forall files f f' m r, local_add o f files = (f', m, r) ->
  exists done_, ((r = Ok tt /\ files = done_) \/ (r = Err EOS /\ exists p rest, files = done_ ++ p :: rest /\ f' p = None)) /\
    forall q, f' q = f (goes_back done_ q).
Proof.
  intros Fc Dc. induction files as [|p l IH]; intros f f' m r E; cbn [local_add] in E.
  - injection E as <- _ <-. exists []. split; [left; split; reflexivity|reflexivity].
  - destruct (f p) as [d|] eqn:Fp.
    2: { injection E as <- _ <-. exists []. split; [right; split; [reflexivity|]; exists p, l; split; [reflexivity|exact Fp]|reflexivity]. }
    assert (E' : exists m2, local_add o (fput f (basename p []) d) l = (f', m2, r)).
    { unfold local_save in E. rewrite Fc, Dc in E. destruct (f (basename p [])); destruct (local_add o (fput f (basename p []) d) l) as [[f2 m2] r2]; injection E as <- _ <-; eexists; reflexivity. }
    destruct E' as (m2 & L). destruct (IH _ _ _ _ L) as (dn & Ct & H). exists (p :: dn). split.
    + destruct Ct as [[R ->]|(R & a & b & -> & N)]; [left; auto|right; split; [exact R|exists a, b; auto]].
    + intros q. rewrite H. cbn [goes_back]. unfold fput. destruct (zlist_eqb (goes_back dn q) (basename p [])); [rewrite Fp|]; reflexivity.
Qed.
Theorem C80_add_forced_chain w o f files f' ms r : o_force o = true -> o_dry o = false -> o_type o <> [] -> main w o f [46] (KAdd files) = (f', ms, r) ->
  exists done_, ((r = Ok tt /\ files = done_) \/ (r = Err EOS /\ exists p rest, files = done_ ++ p :: rest /\ f' p = None)) /\
    forall q, f' q = f (goes_back done_ q).
Proof.
  intros Fc Dc T E. cbn [main] in E. rewrite zlist_eqb_refl in E. cbn [local_command] in E. destruct (o_type o); [congruence|]. exact (local_add_forced_chain o Fc Dc _ _ _ _ _ E).
Qed.
Print Assumptions C80_add_forced_chain.
(** So the last one does not always win: a file that is given after another of its name
    is lost. *)
Theorem C80_forced_lost_refuted w : exists o f p q f' ms, o_force o = true /\ q <> p /\ f p = Some [1] /\ f q = Some [2] /\ basename p [] = q /\
  main w o f [46] (KAdd [p; q]) = (f', ms, Ok tt) /\ f' q = Some [1] /\ f' p = Some [1].
Proof.
  destruct (main w (typed true) (fput (fput (fun _ => None) [100; 47; 97] [1]) [97] [2]) [46] (KAdd [[100; 47; 97]; [97]])) as [[f' ms] r] eqn:E.
  exists (typed true), (fput (fput (fun _ => None) [100; 47; 97] [1]) [97] [2]), [100; 47; 97], [97], f', ms.
  split; [reflexivity|]. split; [discriminate|]. do 3 (split; [reflexivity|]). cbn in E. injection E as <- <- <-. repeat split.
Qed.
Print Assumptions C80_forced_lost_refuted.
