(** Two runs of the program whose image files differ in their bytes, but not in what is in
    them. *)
From Verif Require Import Base BaseLemmas DiskModel AtariModel SpartaModel Dos33Model CliModel CliInst SdModel ExecModel DetectModel DetectSpec DetectProofs ObjModel MainModel MainProofs.

(** The files g and g' are the same but for the image, which is as it was in f and f', or the
    same as well. *)
Definition alike (img : list Z) (f f' g g' : fs) : Prop :=
  (forall n, n <> img -> g n = g' n) /\ (g img = g' img \/ g img = f img /\ g' img = f' img).
Definition alike_run {R} (img : list Z) (f f' : fs) (x y : fs * list msg * R) : Prop :=
  alike img f f' (fst (fst x)) (fst (fst y)) /\ snd (fst x) = snd (fst y) /\ snd x = snd y.
(** What a command reads apart from the image *)
Definition reads_elsewhere (w : world) (f f' : fs) (img : list Z) (c : cmd) : Prop :=
  match c with
  | KAdd files => ~ In img files
  | KAssemble src data obj _ _ =>
      (forall asm n, w_asm w = Some asm -> In n src -> asm f n = asm f' n) /\
      (forall a n first r, In a data -> data_arg a = Ok (n, first, r) -> n <> img) /\ ~ In img obj
  | _ => True
  end.

Section Alike.
Variables (img : list Z) (f f' : fs).
Hypothesis Hn : forall n, n <> img -> f n = f' n.
Hypothesis Hi : f img <> None.
Hypothesis Hi' : f' img <> None.

Lemma alike_start : alike img f f' f f'.
Proof. split; [exact Hn|right; auto]. Qed.
Lemma alike_put g g' n d : alike img f f' g g' -> alike img f f' (fput g n d) (fput g' n d).
Proof.
  intros (A & B). split.
  - intros k Hk. unfold fput. destruct (zlist_eqb k n); [reflexivity|exact (A k Hk)].
  - unfold fput. destruct (zlist_eqb img n); [left; reflexivity|exact B].
Qed.
Lemma alike_exists g g' n : alike img f f' g g' -> (g n = None <-> g' n = None).
Proof.
  intros (A & B). destruct (list_eq_dec Z.eq_dec n img) as [->|N]; [|rewrite (A n N); tauto].
  destruct B as [B|(B1 & B2)]; [rewrite B; tauto|rewrite B1, B2; tauto].
Qed.
Lemma alike_same {R} (m : list msg) (r : R) : alike_run img f f' (f, m, r) (f', m, r).
Proof. split; [exact alike_start|split; reflexivity]. Qed.

Lemma data_segs_same args : (forall a n first r, In a args -> data_arg a = Ok (n, first, r) -> n <> img) -> data_segs f args = data_segs f' args.
Proof.
  induction args as [|a r IH]; intros H; cbn [data_segs]; [reflexivity|]. rewrite IH by (intros; eapply H; [right; eassumption|eassumption]).
  unfold data_segment. destruct (data_arg a) as [[[n first] [s e]]|x] eqn:D; cbn [rbind]; [|reflexivity].
  rewrite (Hn n (H a n first (s, e) (or_introl eq_refl) D)). reflexivity.
Qed.
Lemma obj_segs_same w names : ~ In img names -> forall run, obj_segs w f names run = obj_segs w f' names run.
Proof.
  induction names as [|n r IH]; intros N run; cbn [obj_segs]; [reflexivity|].
  rewrite (Hn n) by (intros ->; apply N; left; reflexivity). assert (N' : ~ In img r) by (intros Q; apply N; right; exact Q).
  destruct (zlist_eqb n [46]); [reflexivity|]. destruct (f' n) as [b|]; [|reflexivity].
  destruct (find_diskimage (w_env w) b) as [fd|e]; [|destruct e; try reflexivity; rewrite (IH N'); reflexivity].
  match goal with |- match ?x with _ => _ end = _ => destruct x as [[l run']|e] end; [|reflexivity]. rewrite (IH N'). reflexivity.
Qed.
Lemma source_segs_same (asm asm' : list Z -> res (list iseg)) names : (forall n, In n names -> asm n = asm' n) -> source_segs asm names = source_segs asm' names.
Proof.
  induction names as [|n r IH]; intros H; cbn [source_segs]; [reflexivity|]. rewrite (H n (or_introl eq_refl)), IH by (intros; apply H; right; assumption). reflexivity.
Qed.
Lemma assemble_same w src data obj run out : reads_elsewhere w f f' img (KAssemble src data obj run out) ->
  assemble_segments w f src data obj run = assemble_segments w f' src data obj run.
Proof.
  intros (A & B & C). unfold assemble_segments.
  assert (S0 : all_source_segs w f src = all_source_segs w f' src).
  { unfold all_source_segs. destruct src as [|s r]; [reflexivity|]. destruct (w_asm w) as [asm|]; [|reflexivity]. apply source_segs_same. intros n Hin. exact (A asm n eq_refl Hin). }
  rewrite S0, (data_segs_same data B), (obj_segs_same w obj C). reflexivity.
Qed.

Section Api.
Variable A : api.
Variable o : opts.
Lemma save_if_alike x : alike_run img f f' (save_if A f img x) (save_if A f' img x).
Proof.
  destruct x as [[im m] [[]|e]]; cbn [save_if]; try apply alike_same. split; [apply alike_put, alike_start|split; reflexivity].
Qed.
Lemma add_loop_same ft files : ~ In img files -> forall im ch, add_loop A o f im ft files ch = add_loop A o f' im ft files ch.
Proof.
  induction files as [|p r IH]; intros N im ch; cbn [add_loop]; [reflexivity|]. rewrite (Hn p) by (intros ->; apply N; left; reflexivity).
  destruct (f' p) as [d|]; [|reflexivity]. destruct (save_file A o im (basename p []) ft d) as [[im' m] [c|e]]; [|reflexivity].
  rewrite IH by (intros Q; apply N; right; exact Q). reflexivity.
Qed.
Lemma extract_alike im sel g g' : alike img f f' g g' -> alike_run img f f' (extract_loop A o g im sel) (extract_loop A o g' im sel).
Proof.
  revert g g'. induction sel as [|[n [d|]] r IH]; intros g g' L; cbn [extract_loop].
  - split; [exact L|split; reflexivity].
  - destruct (o_dry o).
    + specialize (IH g g' L). destruct (extract_loop A o g im r) as [[f2 m2] x], (extract_loop A o g' im r) as [[f3 m3] y].
      destruct IH as (I1 & I2 & I3). cbn [fst snd] in *. split; [exact I1|]. cbn [fst snd]. split; congruence.
    + destruct (p_read A im d) as [data|e]; [|split; [exact L|split; reflexivity]].
      set (p := out_path o (p_name A d)). pose proof (alike_exists g g' p L) as X.
      assert (Y : match g p, o_force o with Some _, false => true | _, _ => false end = match g' p, o_force o with Some _, false => true | _, _ => false end).
      { destruct (g p), (g' p), (o_force o); try reflexivity; destruct X as [X1 X2]; [discriminate (X2 eq_refl)|discriminate (X1 eq_refl)]. }
      assert (E : forall q, match q p, o_force o with
                 | Some _, false => let '(f2, m2, x) := extract_loop A o q im r in (f2, MExists p :: m2, x)
                 | _, _ => let '(f2, m2, x) := extract_loop A o (fput q p (converted o data)) im r in (f2, MExtracting p :: m2, x)
                 end = if match q p, o_force o with Some _, false => true | _, _ => false end
                       then let '(f2, m2, x) := extract_loop A o q im r in (f2, MExists p :: m2, x)
                       else let '(f2, m2, x) := extract_loop A o (fput q p (converted o data)) im r in (f2, MExtracting p :: m2, x)).
      { intros q. destruct (q p), (o_force o); reflexivity. }
      rewrite !E, Y. clear E X Y. destruct (match g' p, o_force o with Some _, false => true | _, _ => false end).
      * specialize (IH g g' L). destruct (extract_loop A o g im r) as [[f2 m2] x], (extract_loop A o g' im r) as [[f3 m3] y].
        destruct IH as (I1 & I2 & I3). cbn [fst snd] in *. split; [exact I1|]. cbn [fst snd]. split; congruence.
      * specialize (IH _ _ (alike_put g g' p (converted o data) L)).
        destruct (extract_loop A o (fput g p (converted o data)) im r) as [[f2 m2] x], (extract_loop A o (fput g' p (converted o data)) im r) as [[f3 m3] y].
        destruct IH as (I1 & I2 & I3). cbn [fst snd] in *. split; [exact I1|]. cbn [fst snd]. split; congruence.
  - specialize (IH g g' L). destruct (extract_loop A o g im r) as [[f2 m2] x], (extract_loop A o g' im r) as [[f3 m3] y].
    destruct IH as (I1 & I2 & I3). cbn [fst snd] in *. split; [exact I1|]. cbn [fst snd]. split; congruence.
Qed.
Lemma image_alike dflt vtoc w im c : reads_elsewhere w f f' img c ->
  alike_run img f f' (image_command A dflt vtoc w o f img im c) (image_command A dflt vtoc w o f' img im c).
Proof.
  intros E. destruct c; cbn [image_command].
  - destruct (list_command _ _ _ _ _). apply alike_same.
  - destruct (crc_files _ _ _ _). apply alike_same.
  - apply extract_alike, alike_start.
  - unfold add_files. rewrite (add_loop_same _ _ E). apply save_if_alike.
  - apply alike_same.
  - rewrite (assemble_same _ _ _ _ _ _ E). destruct (assemble_segments w f' src data obj run) as [m [[segs r]|e]]; [|apply alike_same].
    destruct (executable dflt output segs r) as [[d ty]|e]; [|apply alike_same]. unfold assemble_save.
    pose proof (save_if_alike (save_file A o im output ty d)) as K.
    destruct (save_if A f img _) as [[f2 m2] x], (save_if A f' img _) as [[f3 m3] y]. destruct K as (K1 & K2 & K3). cbn [fst snd] in *.
    split; [exact K1|]. cbn [fst snd]. split; congruence.
  - apply alike_same.
  - apply save_if_alike.
  - destruct (vtoc im); [|apply alike_same]. destruct clear; [|apply alike_same]. unfold shred_image. destruct (o_dry o); [apply alike_same|].
    destruct (p_shred A im) as [im' [u|e]]; [|apply alike_same]. split; [apply alike_put, alike_start|split; reflexivity].
  - apply alike_same.
Qed.
End Api.
Lemma flat_alike w o c : reads_elsewhere w f f' img c -> alike_run img f f' (flat_command w o f c) (flat_command w o f' c).
Proof.
  intros E. destruct c; cbn [flat_command]; try apply alike_same.
  - destruct files; [apply alike_same|]. destruct (o_all o); apply alike_same.
  - destruct files as [|p r]; [destruct (o_type o); apply alike_same|]. rewrite (Hn p) by (intros ->; apply E; left; reflexivity).
    destruct (o_type o); [apply alike_same|]. destruct (f' p); apply alike_same.
  - rewrite (assemble_same _ _ _ _ _ _ E). destruct (assemble_segments w f' src data obj run) as [m [x|e]]; apply alike_same.
  - destruct files; apply alike_same.
Qed.
Lemma open_alike w o i c : reads_elsewhere w f f' img c -> alike_run img f f' (open_command w o f img i c) (open_command w o f' img i c).
Proof. intros E. destruct i; cbn [open_command]; apply image_alike || apply flat_alike; exact E. Qed.
End Alike.

Lemma packed_found e b u : unpacked e b = Ok u -> not_container e u -> find_diskimage e b = find_diskimage e u.
Proof. intros U N. unfold find_diskimage, iter_parsers. rewrite (unpacked_plain e u N), U. reflexivity. Qed.
Lemma packed_lines e b u fd : unpacked e b = Ok u -> not_container e u -> segments_command e b fd = segments_command e u fd.
Proof. intros U N. unfold segments_command, file_lines, file_segments. rewrite (unpacked_plain e u N), U. reflexivity. Qed.
