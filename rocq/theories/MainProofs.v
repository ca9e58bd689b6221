(** Facts about the whole program, for any kind of image. *)
From Verif Require Import Base BaseLemmas DiskModel AtariModel AtariSpec SpartaModel Dos33Model CliModel CliProofs CliInst SdModel ExecModel DetectModel MainModel.

Lemma zlist_eqb_refl l : zlist_eqb l l = true.
Proof. apply zlist_eqb_eq. reflexivity. Qed.
Lemma not_dot img : img <> [46] -> zlist_eqb img [46] = false.
Proof. intros H. destruct (zlist_eqb img [46]) eqn:E; [apply zlist_eqb_eq in E; contradiction|reflexivity]. Qed.

(** * What a run may touch *)
(** Commands that are not to change anything. *)
Definition reads_only (c : cmd) : Prop :=
  match c with KList _ _ | KCrc _ | KVtoc false | KSegments => True | _ => False end.
Definition is_boot (c : cmd) : Prop := match c with KBoot _ _ _ _ => True | _ => False end.
Definition is_create (c : cmd) : Prop := match c with KCreate _ => True | _ => False end.
Definition is_extract (c : cmd) : Prop := match c with KExtract _ => True | _ => False end.

Section OneImage.
Variables (A : api) (dflt : option (list Z)) (vtoc : p_img A -> res (list Z)) (w : world) (o : opts).
Notation cmd_on := (image_command A dflt vtoc w o).
Lemma image_reads f img im c f' m r : reads_only c -> cmd_on f img im c = (f', m, r) -> f' = f.
Proof.
  intros H E. destruct c as [crc l|l|l|l|t|s d b x y|s d b x|l|[|]|]; cbn [reads_only] in H; try destruct H; cbn [image_command] in E.
  - destruct (list_command A w im crc l). injection E as <- _ _. reflexivity.
  - destruct (crc_files A (w_crc w) im l). injection E as <- _ _. reflexivity.
  - destruct (vtoc im); injection E as <- _ _; reflexivity.
  - injection E as <- _ _. reflexivity.
Qed.
Lemma image_dry f img im c f' m r : o_dry o = true -> cmd_on f img im c = (f', m, r) -> f' = f.
Proof.
  intros D E. destruct c as [crc l|l|l|l|t|s d b x y|s d b x|l|cl|]; cbn [image_command] in E.
  - destruct (list_command A w im crc l). injection E as <- _ _. reflexivity.
  - destruct (crc_files A (w_crc w) im l). injection E as <- _ _. reflexivity.
  - exact (proj1 (extract_dry A o im D _ _ _ _ _ E)).
  - unfold add_files, save_if in E. destruct (add_loop A o f im (filetype A o) l false) as [[im2 m2] [[]|e]] eqn:L; injection E as <- _ _; try reflexivity.
    pose proof (add_loop_dry A o f _ D l im false im2 m2 true L eq_refl). discriminate.
  - injection E as <- _ _. reflexivity.
  - destruct (assemble_segments w f s d b x) as [ms [[segs rn]|e]]; [|injection E as <- _ _; reflexivity].
    destruct (executable dflt y segs rn) as [[dt ty]|e]; [|injection E as <- _ _; reflexivity].
    unfold assemble_save, save_if in E. destruct (save_file A o im y ty dt) as [[im2 m2] [[]|e]] eqn:L; injection E as <- _ _; try reflexivity.
    pose proof (save_file_dry A o _ _ _ _ _ _ _ D L). discriminate.
  - injection E as <- _ _. reflexivity.
  - unfold remove_files, save_if in E. destruct (remove_loop A o im l false) as [[im2 m2] x] eqn:L. destruct (remove_loop_dry A o D _ _ _ _ _ _ L) as [-> _]. injection E as <- _ _; reflexivity.
  - destruct (vtoc im); [|injection E as <- _ _; reflexivity]. destruct cl; [|injection E as <- _ _; reflexivity].
    unfold shred_image in E. rewrite D in E. injection E as <- _ _. reflexivity.
  - injection E as <- _ _. reflexivity.
Qed.
Lemma image_frame f img im c f' m r : ~ is_extract c -> cmd_on f img im c = (f', m, r) ->
  (forall q, q <> img -> f' q = f q) /\ (forall e, r = Err e -> f' = f).
Proof.
  assert (Same : forall m0 r0, (f, m0, r0) = (f', m, r) -> (forall q, q <> img -> f' q = f q) /\ (forall e, r = Err e -> f' = f)).
  { intros m0 r0 E. injection E as <- _ _. auto. }
  intros H E. destruct c as [crc l|l|l|l|t|s d b x y|s d b x|l|cl|]; cbn [image_command is_extract] in H, E; try (exfalso; apply H; exact Logic.I).
  - destruct (list_command A w im crc l). eauto.
  - destruct (crc_files A (w_crc w) im l). eauto.
  - split; [eapply save_if_path; exact E|]. intros e ->. eapply save_if_err; exact E.
  - eauto.
  - destruct (assemble_segments w f s d b x) as [ms [[segs rn]|e]]; [|eauto]. destruct (executable dflt y segs rn) as [[dt ty]|e]; [|eauto].
    unfold assemble_save in E. destruct (save_if A f img (save_file A o im y ty dt)) as [[f2 m2] x2] eqn:S. injection E as <- _ <-.
    split; [eapply save_if_path; exact S|]. intros e ->. eapply save_if_err; exact S.
  - eauto.
  - split; [eapply save_if_path; exact E|]. intros e ->. eapply save_if_err; exact E.
  - destruct (vtoc im); [|eauto]. destruct cl; [|eauto]. unfold shred_image in E. destruct (o_dry o); [eauto|].
    destruct (p_shred A im) as [im' [[]|e]]; [|eauto]. injection E as <- _ <-. split; [intros q Hq; apply fput_neq, Hq|discriminate].
  - eauto.
Qed.
(** Without --force extracting changes no existing file. *)
Lemma image_extract_keeps f img im l f' m r : o_force o = false -> cmd_on f img im (KExtract l) = (f', m, r) ->
  forall p x, f p = Some x -> f' p = Some x.
Proof. intros Fc E. cbn [image_command] in E. eapply extract_keeps; eassumption. Qed.
End OneImage.

Lemma flat_same w o f c f' m r : flat_command w o f c = (f', m, r) -> f' = f.
Proof.
  intros E. destruct c as [crc l|l|l|l|t|s d b x y|s d b x|l|cl|]; cbn [flat_command] in E; try (injection E as <- _ _; reflexivity).
  - destruct l; [injection E as <- _ _; reflexivity|]. destruct (o_all o); injection E as <- _ _; reflexivity.
  - destruct l as [|p l]; [destruct (o_type o); injection E as <- _ _; reflexivity|].
    destruct (o_type o); [injection E as <- _ _; reflexivity|]. destruct (f p); injection E as <- _ _; reflexivity.
  - destruct (assemble_segments w f s d b x) as [ms [[segs rn]|e]]; injection E as <- _ _; reflexivity.
  - destruct l; injection E as <- _ _; reflexivity.
Qed.
Lemma open_reads w o f img i c f' m r : reads_only c -> open_command w o f img i c = (f', m, r) -> f' = f.
Proof. intros H E. destruct i; cbn [open_command] in E; first [exact (image_reads _ _ _ _ _ _ _ _ _ _ _ _ H E)|exact (flat_same _ _ _ _ _ _ _ E)]. Qed.
Lemma open_dry w o f img i c f' m r : o_dry o = true -> open_command w o f img i c = (f', m, r) -> f' = f.
Proof. intros H E. destruct i; cbn [open_command] in E; first [exact (image_dry _ _ _ _ _ _ _ _ _ _ _ _ H E)|exact (flat_same _ _ _ _ _ _ _ E)]. Qed.
Lemma open_frame w o f img i c f' m r : ~ is_extract c -> open_command w o f img i c = (f', m, r) ->
  (forall q, q <> img -> f' q = f q) /\ (forall e, r = Err e -> f' = f).
Proof.
  intros H E. destruct i; cbn [open_command] in E; first [exact (image_frame _ _ _ _ _ _ _ _ _ _ _ _ H E)|apply flat_same in E; subst f'; auto].
Qed.
Lemma open_extract_keeps w o f img i l f' m r : o_force o = false -> open_command w o f img i (KExtract l) = (f', m, r) ->
  forall p x, f p = Some x -> f' p = Some x.
Proof.
  intros H E. destruct i; cbn [open_command] in E; first [exact (image_extract_keeps _ _ _ _ _ _ _ _ _ _ _ _ H E)|apply flat_same in E; subst f'; auto].
Qed.
(** The main dispatch, for the commands that open an image. *)
Definition is_segs (c : cmd) : Prop := match c with KSegments => True | _ => False end.
Definition opens (c : cmd) : Prop := ~ is_create c /\ ~ is_boot c /\ ~ is_segs c.
Lemma main_segments w o f img f' m r : img <> [46] -> main w o f img KSegments = (f', m, r) -> f' = f.
Proof.
  intros N E. unfold main in E. rewrite (not_dot _ N) in E. destruct (f img) as [b|]; [|injection E as <- _ _; reflexivity].
  destruct (find_diskimage (w_env w) b) as [fd|e]; [destruct (segments_command (w_env w) b fd); injection E as <- _ _; reflexivity|].
  destruct e as [e| | | | | | | | | | | |]; try (injection E as <- _ _; reflexivity). destruct e; injection E as <- _ _; reflexivity.
Qed.
Lemma main_open w o f img c f' m r : ~ is_create c /\ ~ is_boot c -> img <> [46] -> main w o f img c = (f', m, r) ->
  f' = f \/ exists b fd, f img = Some b /\ find_diskimage (w_env w) b = Ok fd /\ open_command w o f img (f_image fd) c = (f', m, r).
Proof.
  intros (C1 & C2) N E. assert (C3 : is_segs c \/ ~ is_segs c) by (destruct c; [right; intros []..|left; exact Logic.I]).
  destruct C3 as [C3|C3]; [left; destruct c; try destruct C3; eapply main_segments; eassumption|]. unfold main in E.
  assert (E' : (if zlist_eqb img [46] then local_command w o f c
      else match f img with
      | None => (f, [MError img], Ok tt)
      | Some b =>
          match find_diskimage (w_env w) b with
          | Err (EAtr UnsupportedContainer) | Err (EAtr UnsupportedDiskImage) | Err EOS => (f, [MError img], Ok tt)
          | Err e => (f, [], Err e)
          | Ok fd => open_command w o f img (f_image fd) c
          end
      end) = (f', m, r)).
  { destruct c; try exact E; [exfalso; apply C1; exact Logic.I|exfalso; apply C2; exact Logic.I|exfalso; apply C3; exact Logic.I]. }
  clear E. rewrite (not_dot _ N) in E'. destruct (f img) as [b|]; [|left; injection E' as <- _ _; reflexivity].
  destruct (find_diskimage (w_env w) b) as [fd|e] eqn:F; [right; eauto|left].
  destruct e as [e| | | | | | | | | | | |]; try (injection E' as <- _ _; reflexivity). destruct e; injection E' as <- _ _; reflexivity.
Qed.
Lemma main_opened w o f img c b fd : opens c -> img <> [46] -> f img = Some b -> find_diskimage (w_env w) b = Ok fd ->
  main w o f img c = open_command w o f img (f_image fd) c.
Proof.
  intros (C1 & C2 & C3) N F D. destruct c; try (unfold main; rewrite (not_dot _ N), F, D; reflexivity); [exfalso; apply C1; exact Logic.I|exfalso; apply C2; exact Logic.I|exfalso; apply C3; exact Logic.I].
Qed.

(** * The current directory *)
Lemma local_save_dry o f n d f' m r : o_dry o = true -> local_save o f n d = (f', m, r) -> f' = f.
Proof. intros D E. unfold local_save in E. rewrite D in E. destruct (f n); [destruct (o_force o)|]; injection E as <- _ _; reflexivity. Qed.
Lemma local_add_dry o : o_dry o = true -> forall files f f' m r, local_add o f files = (f', m, r) -> f' = f.
Proof.
  intros D. induction files as [|p l IH]; intros f f' m r E; cbn [local_add] in E; [injection E as <- _ _; reflexivity|].
  destruct (f p) as [d|]; [|injection E as <- _ _; reflexivity]. destruct (local_save o f (basename p []) d) as [[f1 m1] r1] eqn:S.
  apply (local_save_dry _ _ _ _ _ _ _ D) in S. subst f1. destruct (local_add o f l) as [[f2 m2] r2] eqn:L. injection E as <- _ _. eapply IH; exact L.
Qed.
Lemma local_dry w o f c f' m r : o_dry o = true -> local_command w o f c = (f', m, r) -> f' = f.
Proof.
  intros D E. destruct c as [crc l|l|l|l|t|s d b x y|s d b x|l|cl|]; cbn [local_command] in E; try (injection E as <- _ _; reflexivity).
  - destruct (o_all o); [injection E as <- _ _; reflexivity|]. destruct (local_extract f l). injection E as <- _ _; reflexivity.
  - destruct (o_type o); [injection E as <- _ _; reflexivity|]. eapply local_add_dry; eassumption.
  - destruct (assemble_segments w f s d b x) as [ms [[segs rn]|e]]; [|injection E as <- _ _; reflexivity].
    destruct (executable None y segs rn) as [[dt ty]|e]; [|injection E as <- _ _; reflexivity].
    destruct (local_save o f y dt) as [[f1 m1] r1] eqn:S. apply (local_save_dry _ _ _ _ _ _ _ D) in S. injection E as <- _ _. exact S.
Qed.
Lemma local_reads w o f c f' m r : reads_only c -> local_command w o f c = (f', m, r) -> f' = f.
Proof. intros H E. destruct c; cbn [local_command reads_only] in *; try destruct H; injection E as <- _ _; reflexivity. Qed.


(** What a run of a command does to the files [m] of the image it is given, local files
    being [f]: [norm] is what the disk keeps of some contents, [refused] the errors of a
    disk without enough space, [r] the outcome of the run. *)
Definition same (m' m : fsmap) : Prop := forall n, m' n = m n.
Definition effect (dflt : option (list Z)) (norm : list Z -> list Z) (refused : exn -> Prop) (w : world)
    (o : opts) (f : fs) (m : fsmap) (c : cmd) (r : res unit) (m' : fsmap) : Prop :=
  if o_dry o then same m' m else
  match c with
  | KAdd files =>
      exists jobs, Forall2 (fun p nd => f p = Some (snd nd) /\ basename p [] = fst nd) files jobs /\
      ((r = Ok tt /\ same m' (if last (snd (add_spec (o_force o) norm m jobs)) false then fst (add_spec (o_force o) norm m jobs) else m)) \/
       (exists e, r = Err e /\ refused e /\ same m' m))
  | KDelete files => r = Ok tt /\ forall n, m' n = if existsb (zlist_eqb n) files then None else m n
  | KAssemble src data obj run output =>
      (exists e ms, r = Err e /\ same m' m /\
         (assemble_segments w f src data obj run = (ms, Err e) \/
          exists segs rn, assemble_segments w f src data obj run = (ms, Ok (segs, rn)) /\ executable dflt output segs rn = Err e)) \/
      (exists ms segs rn d ty, assemble_segments w f src data obj run = (ms, Ok (segs, rn)) /\ executable dflt output segs rn = Ok (d, ty) /\
         ((r = Ok tt /\ (m output = None \/ o_force o = true) /\ same m' (fs_put m output (norm d))) \/
          (r = Ok tt /\ m output <> None /\ o_force o = false /\ same m' m) \/
          (exists e, r = Err e /\ refused e /\ same m' m)))
  | _ => same m' m
  end.
(** Names a command may change. *)
Definition targets (c : cmd) : list (list Z) :=
  match c with
  | KAdd files => map (fun p => basename p []) files
  | KDelete files => files
  | KAssemble _ _ _ _ output => [output]
  | _ => []
  end.
Lemma effect_frame dflt norm refused w o f m c r m' : effect dflt norm refused w o f m c r m' -> forall n, ~ In n (targets c) -> m' n = m n.
Proof.
  unfold effect. destruct (o_dry o); [intros H n _; apply H|].
  destruct c as [crc l|l|l|l|t|s d b x y|s d b x|l|cl|]; intros H n Hn; try apply H; cbn [targets] in Hn.
  - destruct H as (jobs & J & [(_ & H)|(e & _ & _ & H)]); [|apply H]. rewrite H. destruct (last _ _); [|reflexivity]. apply add_spec_other.
    replace (map fst jobs) with (map (fun p => basename p []) l); [exact Hn|].
    clear -J. induction J as [|p j ps js (_ & E) J IH]; [reflexivity|]. cbn [map]. rewrite E, IH. reflexivity.
  - destruct H as [(e & ms & _ & H & _)|(ms & segs & rn & dd & ty & _ & _ & [(_ & _ & H)|[(_ & _ & _ & H)|(e & _ & _ & H)]])]; rewrite H; try reflexivity.
    apply fs_put_neq. intros ->. apply Hn. left. reflexivity.
  - destruct H as [_ H]. rewrite H. destruct (existsb (zlist_eqb n) l) eqn:X; [|reflexivity].
    exfalso. apply existsb_exists in X. destruct X as (q & Hq & Eq). apply zlist_eqb_eq in Eq. subst q. exact (Hn Hq).
Qed.

(** * A lawful image in the program *)
Section Program.
Variables (A : api) (dflt : option (list Z)) (vtoc : p_img A -> res (list Z)).
Variable good : p_img A -> Prop.
Variable okname : list Z -> Prop.
Variable okdata : list Z -> list Z -> Prop.
Variable fits : p_img A -> Z -> Prop.
Variable norm : list Z -> list Z.
Variable refused : exn -> Prop.
Hypothesis law : lawful A good okname okdata fits norm refused.
Variable w : world.
Variable inj : p_img A -> image.
Hypothesis H_found : forall im, good im -> exists fd, find_diskimage (w_env w) (p_bytes A im) = Ok fd /\ f_image fd = inj im.
Hypothesis H_open : forall o f img im c, open_command w o f img (inj im) c = image_command A dflt vtoc w o f img im c.
Hypothesis H_vtoc : forall im, good im -> exists m, vtoc im = Ok m.
Hypothesis H_shred : forall im im', good im -> p_shred A im = (im', Ok tt) -> good im' /\ forall n, look A im' n = look A im n.

Lemma main_on o f img im c : opens c -> img <> [46] -> f img = Some (p_bytes A im) -> good im ->
  main w o f img c = image_command A dflt vtoc w o f img im c.
Proof.
  intros C N F G. destruct (H_found im G) as (fd & E1 & E2). rewrite (main_opened w o f img c _ fd C N F E1), E2. apply H_open.
Qed.
Ltac on_image im E :=
  match type of E with main _ ?o ?f ?img ?c = _ =>
    rewrite (main_on o f img im c ltac:(split; [|split]; intros []) ltac:(assumption) ltac:(assumption) ltac:(assumption)) in E end.
(** The image file holds an image of this kind with the contents [m]. *)
Definition holds (f : fs) (img : list Z) (m : fsmap) : Prop :=
  img <> [46] /\ exists im, f img = Some (p_bytes A im) /\ good im /\ forall n, look A im n = m n.
Lemma holds_same f f' img m : f' img = f img -> holds f img m -> holds f' img m.
Proof. intros E (N & im & F & G). split; [exact N|]. exists im. rewrite E. auto. Qed.
(** Ordinary use of the program on [img]: files to add exist and have names and contents
    the disk can hold, the disk has directory entries for them, nothing is extracted over
    the image, the image is not created anew. *)
Definition usual (o : opts) (f : fs) (img : list Z) (c : cmd) : Prop :=
  match c with
  | KAdd files => exists jobs, Forall2 (job okname okdata f (filetype A o)) files jobs /\
                    forall im, f img = Some (p_bytes A im) -> good im -> fits im (zlen jobs)
  | KAssemble src data obj run output =>
      okname output /\ (forall im, f img = Some (p_bytes A im) -> good im -> fits im 1) /\
      forall m segs rn d ty, assemble_segments w f src data obj run = (m, Ok (segs, rn)) ->
        executable dflt output segs rn = Ok (d, ty) -> okdata ty d
  | KExtract files => o_force o = false \/ forall im n, f img = Some (p_bytes A im) -> good im -> look A im n <> None -> out_path o n <> img
  | KCreate _ => o_force o = false
  | KBoot _ _ _ _ => False
  | _ => True
  end.
Lemma usual_job f ft p n d : job okname okdata f ft p (n, d) -> f p = Some d /\ basename p [] = n.
Proof. intros (H1 & H2 & _). auto. Qed.
Lemma jobs_names f ft files jobs : Forall2 (job okname okdata f ft) files jobs -> map fst jobs = map (fun p => basename p []) files.
Proof. intros F. induction F as [|p [n d] ps js (H1 & H2 & _) F IH]; [reflexivity|]. cbn [map]. cbn [fst] in *. rewrite IH, H2. reflexivity. Qed.
(** Saving one file on its own. *)
Lemma save_file_ok o im n ft d im' ms b : o_dry o = false -> good im -> okname n -> okdata ft d -> fits im 1 ->
  save_file A o im n ft d = (im', ms, Ok b) ->
  good im' /\
  (if b then forall q, look A im' q = fs_put (look A im) n (norm d) q
   else o_force o = false /\ look A im n <> None /\ im' = im).
Proof.
  intros D G Hn Hd Ft E. unfold save_file in E. rewrite D in E.
  assert (W : forall im0 imw, good im0 -> fits im0 1 -> p_find A im0 n = None -> p_write A im0 n ft d = (imw, Ok tt) ->
     good imw /\ forall q, look A imw q = fs_put (look A im0) n (norm d) q).
  { intros im0 imw G0 F10 Fn Ew. destruct (lw_write _ _ _ _ _ _ _ law im0 n ft d imw G0 Hn Hd F10 Fn Ew) as (G1 & L1 & L2 & L3). split; [exact G1|].
    intros q. unfold fs_put. destruct (zlist_eqb q n) eqn:Eq; [apply zlist_eqb_eq in Eq; subst q; exact L1|apply L2; intros ->; rewrite zlist_eqb_refl in Eq; discriminate]. }
  destruct (p_find A im n) as [en|] eqn:Fn.
  - assert (Ln : look A im n <> None) by (intros X; apply (find_look A good okname okdata fits norm refused law im n G) in X; congruence).
    destruct (o_force o) eqn:Fc; [|injection E as <- _ <-; auto].
    destruct (lw_delete _ _ _ _ _ _ _ law im n G ltac:(congruence)) as (imd & Ed & Gd & Ld & Lo & Lf). rewrite Ed in E.
    destruct (p_write A imd n ft d) as [imw [[]|e]] eqn:Ew; [|discriminate E]. injection E as <- _ <-.
    destruct (W imd imw Gd (Lf _ Ft) (proj2 (find_look A good okname okdata fits norm refused law imd n Gd) Ld) Ew) as (W1 & W2). split; [exact W1|].
    intros q. rewrite W2. unfold fs_put. destruct (zlist_eqb q n) eqn:Eq; [reflexivity|]. apply Lo. intros ->. rewrite zlist_eqb_refl in Eq. discriminate.
  - destruct (p_write A im n ft d) as [imw [[]|e]] eqn:Ew; [|discriminate E]. injection E as <- _ <-. exact (W im imw G Ft Fn Ew).
Qed.
Lemma save_file_refused o im n ft d im' ms e : o_dry o = false -> good im -> okname n -> okdata ft d -> fits im 1 ->
  save_file A o im n ft d = (im', ms, Err e) -> refused e.
Proof.
  intros D G Hn Hd Ft E. unfold save_file in E. rewrite D in E. destruct (p_find A im n) as [en|] eqn:Fn.
  - destruct (o_force o); [|discriminate E].
    destruct (lw_delete _ _ _ _ _ _ _ law im n G ltac:(congruence)) as (imd & Ed & Gd & Ld & Lo & Lf). rewrite Ed in E.
    destruct (p_write A imd n ft d) as [imw [[]|e']] eqn:Ew; [discriminate E|]. injection E as _ _ <-.
    exact (lw_refuse _ _ _ _ _ _ _ law imd n ft d imw e' Gd Hn Hd (Lf _ Ft) (proj2 (find_look A good okname okdata fits norm refused law imd n Gd) Ld) Ew).
  - destruct (p_write A im n ft d) as [imw [[]|e']] eqn:Ew; [discriminate E|]. injection E as _ _ <-.
    exact (lw_refuse _ _ _ _ _ _ _ law im n ft d imw e' G Hn Hd Ft Fn Ew).
Qed.

(** One run: the image stays one of its kind, and its files change as they should. *)
Notation eff := (effect dflt norm refused w).
Lemma main_step o f img m c f' ms r : holds f img m -> usual o f img c -> main w o f img c = (f', ms, r) ->
  exists m', holds f' img m' /\ eff o f m c r m'.
Proof.
  intros Hh U E. pose proof Hh as (N & im & F & G & L).
  assert (Same : f' img = f img -> eff o f m c r m -> exists m', holds f' img m' /\ eff o f m c r m').
  { intros X Y. exists m. split; [eapply holds_same; eassumption|exact Y]. }
  assert (Put : forall im', good im' -> f' = fput f img (p_bytes A im') -> eff o f m c r (look A im') -> exists m', holds f' img m' /\ eff o f m c r m').
  { intros im' G' -> H. exists (look A im'). split; [|exact H]. split; [exact N|]. exists im'. rewrite fput_eq. auto. }
  assert (Rf : same m m) by (intros n; reflexivity).
  unfold effect in *.
  destruct (o_dry o) eqn:D.
  { apply Same; [|exact Rf]. destruct c as [crc l|l|l|l|t|s d b x y|s d b x|l|cl|]; cbn [usual] in U; try (destruct U; fail).
    all: try (on_image im E; apply (image_dry _ _ _ _ _ _ _ _ _ _ _ _ D) in E; subst f'; reflexivity).
    - cbn [main] in E. unfold create_image in E. destruct (get_template t (w_tmpl w)) as [[]|]; [rewrite D in E|]; injection E as <- _ _; reflexivity.
    - rewrite (main_segments _ _ _ _ _ _ _ N E). reflexivity. }
  destruct c as [crc l|l|l|l|t|s d b x y|s d b x|l|cl|]; cbn [usual] in U.
  - apply Same; [|exact Rf]. on_image im E. apply image_reads in E; [subst f'; reflexivity|exact Logic.I].
  - apply Same; [|exact Rf]. on_image im E. apply image_reads in E; [subst f'; reflexivity|exact Logic.I].
  - apply Same; [|exact Rf]. on_image im E. destruct U as [U|U].
    + rewrite F. exact (image_extract_keeps _ _ _ _ _ _ _ _ _ _ _ _ U E img _ F).
    + assert (Er : run_command A o f img (CExtract l) = (f', ms, r)) by (unfold run_command; rewrite F, (lw_open _ _ _ _ _ _ _ law im G); exact E).
      destruct (extract_command A o good okname okdata fits norm refused law f img im l f' ms r D G F Er) as [_ X].
      assert (NW : forall x0, In x0 (outputs A o im l) -> fst x0 <> img).
      { intros x0 H0. unfold outputs in H0. apply in_flat_map in H0. destruct H0 as (n & _ & H0). destruct (look A im n) as [z|] eqn:Lz; [|destruct H0].
        destruct H0 as [<-|[]]. cbn [fst]. apply (U im n F G). rewrite Lz. discriminate. }
      assert (WN : forall lst, (forall x0, In x0 lst -> fst x0 <> img) -> written img lst = None).
      { intros lst. unfold written. induction lst as [|y0 lst IH]; intros H0; [reflexivity|]. cbn [find].
        destruct (zlist_eqb (fst y0) img) eqn:Ey; [apply zlist_eqb_eq in Ey; destruct (H0 y0 (or_introl eq_refl) Ey)|]. apply IH. intros x0 Hx. apply H0. right. exact Hx. }
      rewrite X, F. destruct (o_force o); [|reflexivity]. rewrite WN; [reflexivity|]. intros x0 H0. apply NW. rewrite in_rev. exact H0.
  - destruct U as (jobs & J & Ft). on_image im E.
    assert (J' : Forall2 (fun p nd => f p = Some (snd nd) /\ basename p [] = fst nd) l jobs) by (clear -J; induction J as [|p j ps js (X1 & X2 & _) J IH]; constructor; auto).
    assert (Er : run_command A o f img (CAdd l) = (f', ms, r)) by (unfold run_command; rewrite F, (lw_open _ _ _ _ _ _ _ law im G); exact E).
    destruct (add_spec_ext (o_force o) norm jobs (look A im) m L) as [S1 S2].
    destruct (add_command A o good okname okdata fits norm refused law f img im l jobs f' ms r D G F J (Ft im F G) Er) as [(Er1 & _ & im' & _ & G' & L' & Ef)|(e & Ee & Re & ->)].
    + rewrite S1 in Ef. destruct (last _ _) eqn:La.
      * apply (Put im' G' Ef). exists jobs. split; [exact J'|]. left. split; [exact Er1|]. rewrite La. intros n. rewrite L', S2. reflexivity.
      * apply Same; [rewrite Ef; reflexivity|]. exists jobs. split; [exact J'|]. left. split; [exact Er1|]. rewrite La. exact Rf.
    + apply Same; [reflexivity|]. exists jobs. split; [exact J'|]. right. eauto.
  - apply Same; [|exact Rf]. cbn [main] in E. unfold create_image in E. destruct (get_template t (w_tmpl w)) as [[tn dt]|]; [|injection E as <- _ _; reflexivity].
    rewrite D, F, U in E. injection E as <- _ _; reflexivity.
  - destruct U as (Hn & Ft & Hd). on_image im E. cbn [image_command] in E.
    destruct (assemble_segments w f s d b x) as [ma [[segs rn]|e]] eqn:Ea.
    2:{ injection E as <- <- <-. apply Same; [reflexivity|]. left. exists e, ma. auto. }
    destruct (executable dflt y segs rn) as [[dt ty]|e] eqn:Ex.
    2:{ injection E as <- <- <-. apply Same; [reflexivity|]. left. exists e, ma. split; [reflexivity|]. split; [exact Rf|]. right. eauto. }
    assert (Lm : look A im y = m y) by apply L.
    unfold assemble_save, save_if in E. destruct (save_file A o im y ty dt) as [[im2 m2] [b2|e]] eqn:Sv.
    + destruct (save_file_ok o im y ty dt im2 m2 b2 D G Hn (Hd _ _ _ _ _ eq_refl Ex) (Ft im F G) Sv) as [G2 L2].
      destruct b2; injection E as <- _ <-.
      * apply (Put im2 G2 eq_refl). right. exists ma, segs, rn, dt, ty. split; [reflexivity|]. split; [exact Ex|]. left. split; [reflexivity|]. split.
        -- rewrite <- Lm. destruct (o_force o) eqn:Fc; [right; reflexivity|left]. destruct (look A im y) eqn:Lo; [|reflexivity].
           unfold save_file in Sv. destruct (p_find A im y) eqn:Fo; [rewrite Fc in Sv; discriminate|unfold look in Lo; rewrite Fo in Lo; discriminate].
        -- intros n. rewrite L2. unfold fs_put. destruct (zlist_eqb n y); [reflexivity|apply L].
      * apply Same; [reflexivity|]. right. exists ma, segs, rn, dt, ty. split; [reflexivity|]. split; [exact Ex|]. right; left. destruct L2 as (L2 & L3 & _). rewrite <- Lm. auto.
    + injection E as <- _ <-. apply Same; [reflexivity|]. right. exists ma, segs, rn, dt, ty. split; [reflexivity|]. split; [exact Ex|]. right; right. exists e. split; [reflexivity|].
      split; [|exact Rf]. eapply save_file_refused; [exact D|exact G|exact Hn|exact (Hd _ _ _ _ _ eq_refl Ex)|exact (Ft im F G)|exact Sv].
  - destruct U.
  - on_image im E.
    assert (Er : run_command A o f img (CDelete l) = (f', ms, r)) by (unfold run_command; rewrite F, (lw_open _ _ _ _ _ _ _ law im G); exact E).
    destruct (remove_command A o good okname okdata fits norm refused law f img im l f' ms r D G F Er) as (Er1 & im' & _ & G' & L' & Ef).
    destruct (existsb _ _) eqn:La in Ef.
    + apply (Put im' G' Ef). split; [exact Er1|]. intros n. rewrite L'. destruct (existsb (zlist_eqb n) l); [reflexivity|apply L].
    + apply Same; [rewrite Ef; reflexivity|]. split; [exact Er1|]. intros n. destruct (existsb (zlist_eqb n) l) eqn:Xn; [|reflexivity].
      apply existsb_exists in Xn. destruct Xn as (q & Hq & Eq). apply zlist_eqb_eq in Eq. subst q. rewrite <- L. destruct (look A im n) eqn:Ln; [|reflexivity].
      exfalso. assert (X : existsb (fun n0 => match look A im n0 with Some _ => true | None => false end) l = true) by (apply existsb_exists; exists n; rewrite Ln; auto). congruence.
  - on_image im E. cbn [image_command] in E.
    destruct (vtoc im); [|apply Same; [injection E as <- _ _; reflexivity|exact Rf]]. destruct cl; [|apply Same; [injection E as <- _ _; reflexivity|exact Rf]].
    unfold shred_image in E. rewrite D in E. destruct (p_shred A im) as [im' [[]|e]] eqn:Es; injection E as <- _ _; [|apply Same; [reflexivity|exact Rf]].
    destruct (H_shred im im' G Es) as [G' L']. apply (Put im' G' eq_refl). intros n. rewrite L'. apply L.
  - apply Same; [|exact Rf]. rewrite (main_segments _ _ _ _ _ _ _ N E). reflexivity.
Qed.

(** Several runs, on this and other images *)
Fixpoint session (f : fs) (l : list (opts * list Z * cmd)) : fs :=
  match l with [] => f | (o, q, c) :: r => session (fst (fst (main w o f q c))) r end.
Fixpoint all_usual (f : fs) (img : list Z) (l : list (opts * list Z * cmd)) : Prop :=
  match l with
  | [] => True
  | (o, q, c) :: r =>
      (q = img /\ usual o f img c \/ q <> img /\ fst (fst (main w o f q c)) img = f img) /\
      all_usual (fst (fst (main w o f q c))) img r
  end.
Definition named (img : list Z) (l : list (opts * list Z * cmd)) : list (list Z) :=
  flat_map (fun x => if zlist_eqb (snd (fst x)) img then targets (snd x) else []) l.
(** The files of the image after each run follow from those before it. *)
Fixpoint replay (f : fs) (img : list Z) (m : fsmap) (l : list (opts * list Z * cmd)) (m' : fsmap) : Prop :=
  match l with
  | [] => same m' m
  | (o, q, c) :: r =>
      exists m1, (if zlist_eqb q img then eff o f m c (snd (main w o f q c)) m1 else same m1 m) /\
        replay (fst (fst (main w o f q c))) img m1 r m'
  end.
Lemma replay_frame l : forall f img m m', replay f img m l m' -> forall n, ~ In n (named img l) -> m' n = m n.
Proof.
  induction l as [|[[o q] c] l IH]; intros f img m m' H n Hn; cbn [replay] in H; [apply H|]. destruct H as (m1 & H1 & H2).
  unfold named in Hn. cbn [flat_map fst snd] in Hn.
  rewrite (IH _ _ _ _ H2 n) by (intros X; apply Hn, in_or_app; right; exact X).
  destruct (zlist_eqb q img); [|apply H1]. apply (effect_frame _ _ _ _ _ _ _ _ _ _ H1). intros X. apply Hn, in_or_app. left. exact X.
Qed.
Lemma main_session l : forall f img m, holds f img m -> all_usual f img l ->
  exists m', holds (session f l) img m' /\ replay f img m l m'.
Proof.
  induction l as [|[[o q] c] l IH]; intros f img m H U; cbn [session all_usual replay] in *; [exists m; split; [exact H|intros n; reflexivity]|]. destruct U as [U1 U2].
  assert (X : exists m1, holds (fst (fst (main w o f q c))) img m1 /\ if zlist_eqb q img then eff o f m c (snd (main w o f q c)) m1 else same m1 m).
  { destruct U1 as [[-> U1]|[Nq U1]].
    - rewrite zlist_eqb_refl. destruct (main w o f img c) as [[f1 ms] r] eqn:E. exact (main_step o f img m c f1 ms r H U1 E).
    - exists m. split; [eapply holds_same; eassumption|]. destruct (zlist_eqb q img) eqn:Eq; [apply zlist_eqb_eq in Eq; contradiction|intros n; reflexivity]. }
  destruct X as (m1 & H1 & K1). destruct (IH _ img m1 H1 U2) as (m2 & H2 & K2). exists m2. split; [exact H2|]. exists m1. auto.
Qed.
(** Adding a file that is not there, or with --force, and not refused. *)
Lemma main_add1 o f img m path d f' ms : holds f img m -> o_dry o = false ->
  f path = Some d -> okname (basename path []) -> okdata (filetype A o) d ->
  (forall im, f img = Some (p_bytes A im) -> good im -> fits im 1) ->
  (m (basename path []) = None \/ o_force o = true) ->
  main w o f img (KAdd [path]) = (f', ms, Ok tt) ->
  exists m', holds f' img m' /\ m' (basename path []) = Some (norm d) /\ forall n, n <> basename path [] -> m' n = m n.
Proof.
  intros (N & im & F & G & L) D Fp Hn Hd Ft Nw E. on_image im E.
  assert (Er : run_command A o f img (CAdd [path]) = (f', ms, Ok tt)) by (unfold run_command; rewrite F, (lw_open _ _ _ _ _ _ _ law im G); exact E).
  assert (J : Forall2 (job okname okdata f (filetype A o)) [path] [(basename path [], d)]) by (constructor; [repeat split; assumption|constructor]).
  destruct (add_command A o good okname okdata fits norm refused law f img im [path] _ f' ms _ D G F J (Ft im F G) Er) as [(_ & _ & im' & _ & G' & L' & Ef)|(e & X & _)]; [|discriminate].
  assert (Sp : add_spec (o_force o) norm (look A im) [(basename path [], d)] = (fs_put (look A im) (basename path []) (norm d), [true])).
  { cbn [add_spec]. rewrite (L (basename path [])). destruct Nw as [Nw|Nw]; rewrite Nw; [reflexivity|]. destruct (m (basename path [])); reflexivity. }
  rewrite Sp in L', Ef. cbn [fst snd last] in L', Ef. exists (look A im'). split; [split; [exact N|]; exists im'; subst f'; rewrite fput_eq; auto|].
  split; [rewrite L'; apply fs_put_eq|]. intros n Hnn. rewrite L', fs_put_neq by exact Hnn. apply L.
Qed.
(** Extracting one file *)
Lemma main_extract1 o f img m n d f' ms r : holds f img m -> o_dry o = false -> o_all o = false -> m n = Some d ->
  (f (out_path o n) = None \/ o_force o = true) ->
  main w o f img (KExtract [n]) = (f', ms, r) -> r = Ok tt /\ forall p, f' p = if zlist_eqb p (out_path o n) then Some (converted o d) else f p.
Proof.
  intros (N & im & F & G & L) D Al Mn Nw E. on_image im E.
  assert (Er : run_command A o f img (CExtract [n]) = (f', ms, r)) by (unfold run_command; rewrite F, (lw_open _ _ _ _ _ _ _ law im G); exact E).
  destruct (extract_command A o good okname okdata fits norm refused law f img im [n] f' ms r D G F Er) as [-> X]. split; [reflexivity|].
  assert (O1 : outputs A o im [n] = [(out_path o n, converted o d)]).
  { unfold outputs, CliProofs.wanted. rewrite Al. cbn [flat_map]. rewrite (L n), Mn. reflexivity. }
  intros p. rewrite X, O1. cbn [rev app]. unfold written. cbn [find fst]. destruct (zlist_eqb (out_path o n) p) eqn:E1.
  - apply zlist_eqb_eq in E1. subst p. rewrite zlist_eqb_refl. cbn [option_map snd]. destruct Nw as [Nw|Nw]; rewrite Nw; [|reflexivity]. destruct (o_force o); reflexivity.
  - destruct (zlist_eqb p (out_path o n)) eqn:E2; [apply zlist_eqb_eq in E2; subst p; rewrite zlist_eqb_refl in E1; discriminate|].
    cbn [option_map]. destruct (o_force o), (f p); reflexivity.
Qed.
(** Checksums *)
Lemma crc_all crc im ds : (forall d, In d ds -> exists x, p_read A im d = Ok x) ->
  crc_loop A crc im ds = (map (fun d => MCrc (p_name A d) (crc (match p_read A im d with Ok x => x | Err _ => [] end))) ds, Ok tt).
Proof.
  induction ds as [|d l IH]; intros H; [reflexivity|]. cbn [crc_loop map]. destruct (H d (or_introl eq_refl)) as (x & ->).
  rewrite IH by (intros d' Hd; apply H; right; exact Hd). reflexivity.
Qed.
Lemma files_read im d : good im -> In d (p_files A im) -> exists x, p_read A im d = Ok x /\ look A im (p_name A d) = Some x.
Proof.
  intros G H. pose proof (lw_files _ _ _ _ _ _ _ law im d G H) as Fd. destruct (lw_find _ _ _ _ _ _ _ law im (p_name A d) G) as [X|(x & X)]; [congruence|].
  exists x. split; [|exact X]. unfold look in X. rewrite Fd in X. destruct (p_read A im d); congruence.
Qed.
Definition asked (files : list (list Z)) (n : list Z) : bool := match files with [] => true | _ => existsb (zlist_eqb n) files end.
Lemma main_crc o f img im files c : img <> [46] -> f img = Some (p_bytes A im) -> good im -> (c = KCrc files \/ c = KList true files) ->
  main w o f img c =
  (f, map (fun n => MCrc n (w_crc w (match look A im n with Some x => x | None => [] end))) (filter (asked files) (map (p_name A) (p_files A im))), Ok tt).
Proof.
  intros N F G Hc. rewrite (main_on o f img im c) by (try assumption; destruct Hc as [-> | ->]; (split; [|split]); intros []).
  assert (E : crc_files A (w_crc w) im files = (map (fun n => MCrc n (w_crc w (match look A im n with Some x => x | None => [] end))) (filter (asked files) (map (p_name A) (p_files A im))), Ok tt)).
  { unfold crc_files. rewrite crc_all.
    - f_equal. unfold listed_names, asked.
      assert (X : forall l, (forall d, In d l -> In d (p_files A im)) ->
        map (fun d => MCrc (p_name A d) (w_crc w match p_read A im d with Ok x => x | Err _ => [] end)) (filter (fun d => match files with [] => true | _ :: _ => existsb (zlist_eqb (p_name A d)) files end) l) =
        map (fun n => MCrc n (w_crc w match look A im n with Some x => x | None => [] end)) (filter (fun n => match files with [] => true | _ :: _ => existsb (zlist_eqb n) files end) (map (p_name A) l))).
      { induction l as [|d l IH]; intros H; [reflexivity|]. cbn [map filter]. specialize (IH (fun d' Hd => H d' (or_intror Hd))).
        destruct (files_read im d G (H d (or_introl eq_refl))) as (x & E1 & E2).
        destruct (match files with [] => true | _ :: _ => existsb (zlist_eqb (p_name A d)) files end); [|exact IH]. cbn [map]. rewrite E1, E2, IH. reflexivity. }
      apply X. auto.
    - intros d Hd. unfold listed_names in Hd. apply filter_In in Hd. destruct (files_read im d G (proj1 Hd)) as (x & -> & _). eauto. }
  destruct Hc as [-> | ->]; cbn [image_command list_command]; rewrite E; reflexivity.
Qed.
(** Assembling *)
Lemma main_assemble o f img m src data obj run output ma segs rn d ty f' ms r : holds f img m -> o_dry o = false ->
  assemble_segments w f src data obj run = (ma, Ok (segs, rn)) -> executable dflt output segs rn = Ok (d, ty) ->
  okname output -> okdata ty d -> (forall im, f img = Some (p_bytes A im) -> good im -> fits im 1) ->
  main w o f img (KAssemble src data obj run output) = (f', ms, r) ->
  (r = Ok tt /\ (m output = None \/ o_force o = true) /\ exists m', holds f' img m' /\ m' output = Some (norm d) /\ (forall n, n <> output -> m' n = m n) /\ forall q, q <> img -> f' q = f q) \/
  (r = Ok tt /\ m output <> None /\ o_force o = false /\ f' = f) \/
  (exists e, r = Err e /\ refused e /\ f' = f).
Proof.
  intros (N & im & F & G & L) D Ea Ex Hn Hd Ft E. on_image im E. cbn [image_command] in E.
  rewrite Ea, Ex in E. unfold assemble_save, save_if in E. destruct (save_file A o im output ty d) as [[im2 m2] [b2|e]] eqn:Sv.
  - destruct (save_file_ok o im output ty d im2 m2 b2 D G Hn Hd (Ft im F G) Sv) as [G2 L2]. destruct b2; injection E as <- _ <-.
    + left. split; [reflexivity|]. split.
      * rewrite <- (L output). destruct (o_force o) eqn:Fc; [right; reflexivity|left]. destruct (look A im output) eqn:Lo; [|reflexivity].
        unfold save_file in Sv. destruct (p_find A im output) eqn:Fo; [rewrite Fc in Sv; discriminate|unfold look in Lo; rewrite Fo in Lo; discriminate].
      * exists (look A im2). split; [split; [exact N|]; exists im2; rewrite fput_eq; auto|]. split; [rewrite L2; apply fs_put_eq|].
        split; [intros n Hnn; rewrite L2, fs_put_neq by exact Hnn; apply L|]. intros q Hq. apply fput_neq, Hq.
    + right; left. destruct L2 as (L2 & L3 & _). rewrite <- (L output). auto.
  - right; right. exists e. injection E as <- _ <-. split; [reflexivity|]. split; [|reflexivity]. eapply save_file_refused; [exact D|exact G|exact Hn|exact Hd|exact (Ft im F G)|exact Sv].
Qed.
End Program.
