(** The segments of every list are windows that can be saved, and saved windows come
    back. *)
From Coq Require Import String.
From Verif Require Import Base BaseLemmas DiskModel AtariModel SpartaModel ExecModel SegModel SegSpec SegProofs SegProofs2 SegProofs3 SegProofs5 DetectModel.
From Verif Require Import Dos33Model TextModel EditModel SegListModel SegSaveModel.

(** * Windows *)
(** [x] is a window on the arrays of [r], not an empty index selection. *)
Definition part (r : raw) (h : heap) (x : raw) : Prop :=
  raw_ok h x /\ r_data x = r_data r /\ r_style x = r_style r /\ r_extra x = r_extra r /\ r_win x <> WOrder [].
(** [x] is a slice. *)
Definition plain (r : raw) (h : heap) (x : raw) : Prop := part r h x /\ forall o, r_win x <> WOrder o.
(** From [h] to [h'] only annotations of [r] changed. *)
Definition kept (r : raw) (h h' : heap) : Prop :=
  same_shape h h' /\ (forall a, a <> r_style r -> arr h' a = arr h a) /\
  (bytes_ok (arr h (r_style r)) -> bytes_ok (arr h' (r_style r))) /\
  (NoDup (map fst (comments h r)) -> NoDup (map fst (comments h' r))).
Lemma kept_refl r h : kept r h h.
Proof. split; [apply shape_refl|]. auto. Qed.
Lemma kept_trans r h1 h2 h3 : kept r h1 h2 -> kept r h2 h3 -> kept r h1 h3.
Proof.
  intros (A & B & C & D) (A' & B' & C' & D'). split; [exact (shape_trans _ _ _ A A')|]. split; [intros a Ha; rewrite B', B by exact Ha; reflexivity|]. auto.
Qed.
Lemma part_kept r h h' x : kept r h h' -> part r h x -> part r h' x.
Proof. intros (A & _) (X & Y). split; [exact (shape_raw_ok _ _ _ A X)|exact Y]. Qed.
Lemma plain_kept r h h' x : kept r h h' -> plain r h x -> plain r h' x.
Proof. intros A (X & Y). split; [exact (part_kept _ _ _ _ A X)|exact Y]. Qed.
Lemma plain_slice r h x a b : plain r h x -> plain r h (raw_slice h x a b).
Proof.
  intros ((X1 & X2 & X3 & X4 & X5) & Y). destruct (raw_slice_shows h x a b X1) as (R & _ & D1 & D2 & D3).
  assert (N : forall o, r_win (raw_slice h x a b) <> WOrder o).
  { intros o. unfold raw_slice. destruct (nslice _ a b). cbn [r_win]. destruct (r_win x) as [| |o'] eqn:E; try discriminate. destruct (Y o' eq_refl). }
  split; [|exact N]. split; [exact R|]. repeat split; try congruence.
Qed.
Lemma part_indexed r h x o y : plain r h x -> o <> [] -> raw_indexed h x (to_numpy_list o) = Ok y -> part r h y.
Proof.
  intros ((X1 & X2 & X3 & X4 & X5) & Y) Ne E.
  assert (H0 : Forall (fun i => 0 <= i) (to_numpy_list o)).
  { apply Forall_forall. intros i Hi. unfold to_numpy_list in Hi. apply in_map_iff in Hi. destruct Hi as (j & <- & _). unfold u32. apply Z.mod_pos_bound. lia. }
  pose proof (raw_indexed_shows h x _ X1 H0) as S. destruct (pyselect _ _) as [ps|]; [|congruence].
  destruct S as (y' & E' & R & _ & D1 & D2 & D3). rewrite E in E'. injection E' as <-. split; [exact R|]. repeat split; try congruence.
  unfold raw_indexed in E. destruct o as [|p o]; [congruence|]. destruct (r_win x) as [|a b|o'] eqn:Ew; [| |destruct (Y o' eq_refl)].
  - destruct (nindexes _ _); cbn [rbind] in E; [injection E as <-; discriminate|discriminate].
  - destruct (nindexes _ _); cbn [rbind] in E; [injection E as <-; discriminate|discriminate].
Qed.

(** * Annotations *)
Lemma kept_style r h s f ps : part r h s -> Forall (fun p => 0 <= p < zlen (arr h (r_data s))) ps -> (forall x, is_byte (f x)) ->
  kept r h (upd_style f h s ps).
Proof.
  intros (X1 & X2 & X3 & X4 & X5) P F. destruct (upd_style_facts f h s ps X1 P) as (U1 & U2 & U3 & U4 & U5). split.
  - split; [exact U4|]. split; [unfold upd_style, set_arr; cbn [hp_arr]; apply length_replace|rewrite U3; reflexivity].
  - split; [intros a Ha; apply U2; congruence|]. split; [|unfold comments, ext; rewrite U3; auto].
    intros B. rewrite <- X3. unfold bytes_ok. apply Forall_forall. intros v Hv. destruct (In_getb _ _ Hv) as (i & Hi & <-). rewrite U1 by lia.
    destruct (zmem i ps); [apply F|]. apply bytes_ok_getb. rewrite X3. exact B.
Qed.
Lemma data_byte : is_byte (style_bits k_data). Proof. vm_compute. split; congruence. Qed.
Lemma kept_slice r h s a b : part r h s -> Forall (fun p => 0 <= p < zlen (arr h (r_data s))) (win_slice (raw_len h s) (r_win s) a b).
Proof. intros (X & _). rewrite win_slice_shows by exact X. apply pyslice_Forall, shows_range, X. Qed.
Lemma kept_mark r h s : part r h s -> kept r h (mark_data h s).
Proof. intros P. apply kept_style; [exact P|apply (kept_slice r), P|intros _; exact data_byte]. Qed.
Lemma kept_four r h s : part r h s -> kept r h (mark_four h s).
Proof. intros P. apply kept_style; [exact P|apply (kept_slice r), P|intros _; exact data_byte]. Qed.
Lemma kept_comment r h s i t : part r h s -> kept r h (fst (set_comment_at h s i t)).
Proof.
  intros (X1 & X2 & X3 & X4 & X5). unfold set_comment_at. destruct (raw_index s i) as [p|e]; cbn [fst]; [|apply kept_refl].
  split; [apply shape_set_comments|]. split; [reflexivity|]. split; [auto|]. intros N.
  assert (L : (r_extra r < length (hp_ext h))%nat) by (rewrite <- X4; apply X1).
  unfold comments at 1, set_comments. rewrite X4, ext_set_eq by exact L. cbn [e_comments]. unfold comments. rewrite X4. apply nodup_dset. exact N.
Qed.
Lemma kept_each r s notes : forall h, part r h s -> kept r h (fst (each (fun h it => set_comment_at h s (fst it) (snd it)) notes h)).
Proof.
  induction notes as [|it notes IH]; intros h P; cbn [each]; [apply kept_refl|]. pose proof (kept_comment r h s (fst it) (snd it) P) as K.
  destruct (set_comment_at h s (fst it) (snd it)) as [h1 [u|e]]; cbn [fst] in *; [|exact K]. exact (kept_trans _ _ _ _ K (IH h1 (part_kept _ _ _ _ K P))).
Qed.
Lemma kept_annotate r h s notes : part r h s -> kept r h (fst (annotate h s notes)).
Proof. intros P. pose proof (kept_mark r h s P) as K. exact (kept_trans _ _ _ _ K (kept_each r s notes _ (part_kept _ _ _ _ K P))). Qed.

(** * Lists of segments *)
Definition parts (r : raw) (h : heap) (l : list seg) : Prop := Forall (fun s => part r h (g_raw s)) l.
Lemma parts_kept r h h' l : kept r h h' -> parts r h l -> parts r h' l.
Proof. intros K. apply Forall_impl. intros s. apply part_kept, K. Qed.
(** A step that only annotates and, if it succeeds, makes windows. *)
Definition good (r : raw) (h : heap) (m : heap * res (list seg)) : Prop :=
  kept r h (fst m) /\ forall l, snd m = Ok l -> parts r (fst m) l.
Lemma good_pure r h (x : res (list seg)) : (forall l, x = Ok l -> parts r h l) -> good r h (pure h x).
Proof. intros H. split; [apply kept_refl|exact H]. Qed.
Lemma good_bind r h m k : good r h m -> (forall l, kept r h (fst m) -> parts r (fst m) l -> good r (fst m) (k (fst m) l)) -> good r h (hbind m k).
Proof.
  intros (K & P) H. destruct m as [h1 [l|e]]; cbn [hbind fst snd] in *; [|split; [exact K|discriminate]].
  destruct (H l K (P l eq_refl)) as (K2 & P2). split; [exact (kept_trans _ _ _ _ K K2)|exact P2].
Qed.
Lemma kept_bind {A} r h (m : heap * res A) k : kept r h (fst m) -> (forall x, good r (fst m) (k (fst m) x)) -> good r h (hbind m k).
Proof.
  intros K H. destruct m as [h1 [l|e]]; cbn [hbind fst snd] in *; [|split; [exact K|discriminate]].
  destruct (H l) as (K2 & P2). split; [exact (kept_trans _ _ _ _ K K2)|exact P2].
Qed.
Lemma pure_bind {A} r h (x : res A) k : (forall y, x = Ok y -> good r h (k h y)) -> good r h (hbind (pure h x) k).
Proof. intros H. unfold pure, hbind. destruct x; [apply H; reflexivity|split; [apply kept_refl|discriminate]]. Qed.
Lemma good_each {D} (name : D -> list Z) make r ds : (forall h d, plain r h r -> kept r h (fst (make h d)) /\ forall s, snd (make h d) = Ok s -> part r (fst (make h d)) (g_raw s)) ->
  forall h, plain r h r -> good r h (each_file name make r h ds).
Proof.
  intros M. induction ds as [|d ds IH]; intros h P; cbn [each_file].
  - split; [apply kept_refl|]. intros l E. injection E as <-. constructor.
  - destruct (M h d P) as (K & S). destruct (make h d) as [h1 [s|e]]; cbn [fst snd] in *.
    + specialize (IH h1 (plain_kept _ _ _ _ K P)). destruct IH as (K2 & S2). destruct (each_file name make r h1 ds) as [h2 [l|e]]; cbn [hbind fst snd] in *.
      * split; [exact (kept_trans _ _ _ _ K K2)|]. intros l' E. injection E as <-. constructor; [exact (part_kept _ _ _ _ K2 (S s eq_refl))|exact (S2 l eq_refl)].
      * split; [exact (kept_trans _ _ _ _ K K2)|discriminate].
    + destruct (is_invalid_file e); [|split; [exact K|discriminate]].
      specialize (IH h1 (plain_kept _ _ _ _ K P)). destruct IH as (K2 & S2). destruct (each_file name make r h1 ds) as [h2 [l|e']]; cbn [hbind fst snd] in *.
      * split; [exact (kept_trans _ _ _ _ K K2)|]. intros l' E. injection E as <-. constructor; [|exact (S2 l eq_refl)]. cbn [g_raw].
        apply (part_kept _ h); [exact (kept_trans _ _ _ _ K K2)|apply P].
      * split; [exact (kept_trans _ _ _ _ K K2)|discriminate].
Qed.
Lemma plain_r r h : raw_ok h r -> r_win r = WAll -> plain r h r.
Proof. intros R W. unfold plain, part. rewrite W. repeat split; try exact R; try discriminate; apply R. Qed.

Section L.
  Variable r : raw.
  Ltac win := repeat match goal with |- part _ _ (raw_slice _ _ _ _) => apply plain_slice | |- plain _ _ (raw_slice _ _ _ _) => apply plain_slice end; try assumption; try (apply proj1; assumption).
  Ltac ones := unfold parts; repeat (apply Forall_cons; [cbn [g_raw]; win|]); apply Forall_nil.
  Lemma head_parts h hd : plain r h r -> parts r h (atari_head_segs h r hd).
  Proof.
    intros P. unfold atari_head_segs, header_seg. apply Forall_app. split; [destruct (0 <? _); [|constructor]|].
    - constructor; [|constructor]. cbn [g_raw]. win.
    - constructor; [|constructor]. cbn [g_raw]. win.
  Qed.
  Lemma boot_parts h hd b rec n l : plain r h r -> boot_segs h r hd b rec n = Ok l -> parts r h l.
  Proof.
    intros P. unfold boot_segs. destruct (get_sectors _ _ _ _) as [data|]; cbn [rbind]; [|discriminate]. destruct (view_rec _ _) as [v|]; cbn [rbind]; [|discriminate].
    destruct (_ =? 0); [|intros E; injection E as <-; constructor]. destruct (get_sector_slice _ _ _) as [[x y]|]; cbn [rbind]; [|discriminate].
    intros E. injection E as <-. ones.
  Qed.
  Lemma parts_app h a b : parts r h a -> parts r h b -> parts r h (a ++ b).
  Proof. intros A B. apply Forall_app. split; assumption. Qed.

  (** Atari DOS *)
  Lemma atari_vtoc_good h im : plain r h r -> good r h (atari_vtoc_segs h r im).
  Proof.
    intros P. unfold atari_vtoc_segs. apply pure_bind. intros p _. set (s := raw_slice h r _ _). assert (Ps : plain r h s) by (apply plain_slice; exact P).
    apply kept_bind; [apply kept_annotate, Ps|]. intros u. pose proof (kept_annotate r h s vtoc_notes (proj1 Ps)) as K. set (h1 := fst (annotate h s vtoc_notes)) in *.
    pose proof (plain_kept _ _ _ _ K P) as P1. pose proof (plain_kept _ _ _ _ K Ps) as Ps1.
    destruct (0 <? a_vtoc2 im); [|split; [apply kept_refl|intros l E; injection E as <-; apply Forall_cons; [apply Ps1|apply Forall_nil]]].
    apply pure_bind. intros q _. set (t := raw_slice h1 r _ _). assert (Pt : plain r h1 t) by (apply plain_slice; exact P1).
    apply kept_bind; [apply kept_annotate, Pt|]. intros u2. pose proof (kept_annotate r h1 t vtoc2_notes (proj1 Pt)) as K2. set (h2 := fst (annotate h1 t vtoc2_notes)) in *.
    split; [apply kept_refl|]. intros l E. injection E as <-. constructor; [exact (part_kept _ _ _ _ K2 (proj1 Ps1))|]. constructor; [exact (part_kept _ _ _ _ K2 (proj1 Pt))|constructor].
  Qed.
  Lemma atari_dir_good h im : plain r h r -> good r h (atari_dir_segs h r im).
  Proof.
    intros P. unfold atari_dir_segs. apply pure_bind. intros p _. set (s := raw_slice h r _ _). assert (Ps : plain r h s) by (apply plain_slice; exact P).
    apply kept_bind; [apply kept_annotate, Ps|]. intros u. pose proof (kept_annotate r h s (dir_notes 64 0 0) (proj1 Ps)) as K. set (h1 := fst (annotate h s _)) in *.
    split; [apply kept_refl|]. intros l E. injection E as <-. constructor; [exact (part_kept _ _ _ _ K (proj1 Ps))|constructor].
  Qed.
  Lemma atari_file_part im h d : plain r h r -> kept r h (fst (atari_file_seg r im h d)) /\ forall s, snd (atari_file_seg r im h d) = Ok s -> part r (fst (atari_file_seg r im h d)) (g_raw s).
  Proof.
    intros P. unfold atari_file_seg, pure. cbn [fst snd]. split; [apply kept_refl|]. intros s. unfold file_segment.
    destruct (start_read d); cbn [rbind]; [|discriminate]. destruct (read_runs _ _ _ _ _ _ _) as [runs|]; cbn [rbind]; [|discriminate].
    destruct (run_positions runs) as [|p o] eqn:E; cbn [rbind]; [intros X; injection X as <-; apply P|].
    destruct (raw_indexed _ _ _) as [x|] eqn:Ex; cbn [rbind]; [|discriminate]. intros X. injection X as <-. cbn [g_raw]. exact (part_indexed r h r (p :: o) x P ltac:(discriminate) Ex).
  Qed.
  Lemma atari_good h im : plain r h r -> good r h (atari_parse_segments h r im).
  Proof.
    intros P. unfold atari_parse_segments. cbv zeta. apply good_bind; [apply good_pure; intros l; apply boot_parts, P|]. cbn [pure fst]. intros b _ Pb.
    apply good_bind; [apply atari_vtoc_good, P|]. intros c K1 Pc. pose proof (plain_kept _ _ _ _ K1 P) as P1. set (h1 := fst (atari_vtoc_segs h r im)) in *.
    apply good_bind; [apply atari_dir_good, P1|]. intros d K2 Pd. pose proof (plain_kept _ _ _ _ K2 P1) as P2. set (h2 := fst (atari_dir_segs h1 r im)) in *.
    apply good_bind; [apply good_each; [intros h0 d0 P0; apply atari_file_part; exact P0|exact P2]|]. intros e K3 Pe. set (h3 := fst (each_file _ _ _ _ _)) in *.
    split; [apply kept_refl|]. intros l E. injection E as <-. pose proof (kept_trans _ _ _ _ K2 K3) as K23. pose proof (kept_trans _ _ _ _ K1 K23) as K13.
    apply parts_app; [exact (parts_kept _ _ _ _ K13 (head_parts h _ P))|]. apply parts_app; [exact (parts_kept _ _ _ _ K13 Pb)|].
    apply parts_app; [exact (parts_kept _ _ _ _ K23 Pc)|]. apply parts_app; [exact (parts_kept _ _ _ _ K3 Pd)|exact Pe].
  Qed.

  (** DOS 3.3 *)
  Lemma boot3_parts h hd : plain r h r -> forall ls l, boot_list3 h r hd ls = Ok l -> parts r h l.
  Proof.
    intros P. induction ls as [|[[[a b] addr] name] ls IH]; intros l; cbn [boot_list3]; [intros E; injection E as <-; constructor|].
    destruct (slice_bounds3 hd a b) as [[x y]|]; cbn [rbind]; [|discriminate]. destruct (boot_list3 h r hd ls) as [l'|]; cbn [rbind]; [|discriminate].
    intros E. injection E as <-. constructor; [cbn [g_raw]; win|exact (IH l' eq_refl)].
  Qed.
  Lemma vtoc3_good h im : plain r h r -> good r h (vtoc_segs3 h r im).
  Proof.
    intros P. unfold vtoc_segs3. apply pure_bind. intros p _. set (s := raw_slice h r _ _). assert (Ps : plain r h s) by (apply plain_slice; exact P).
    apply kept_bind; [apply kept_annotate, Ps|]. intros u. pose proof (kept_annotate r h s vtoc_notes3 (proj1 Ps)) as K. set (h1 := fst (annotate h s _)) in *.
    split; [apply kept_refl|]. intros l E. injection E as <-. constructor; [exact (part_kept _ _ _ _ K (proj1 Ps))|constructor].
  Qed.
  Lemma runs_head pos n l : 0 < n -> run_positions ((pos, n) :: l) <> [].
  Proof. intros Hn E. unfold run_positions in E. cbn [flat_map fst snd] in E. apply app_eq_nil in E. destruct E as [E _]. rewrite zrange_cons in E by lia. discriminate. Qed.
  Lemma catalog3_good h im : plain r h r -> 0 < h_fdir (i_hdr im) -> good r h (catalog_segs3 h r im).
  Proof.
    intros P F. unfold catalog_segs3. apply pure_bind. intros runs Er. apply pure_bind. intros s Es.
    assert (Ps : part r h s).
    { apply (part_indexed r h r (run_positions runs) s P); [|exact Es]. unfold fuel33 in Er. cbn [catalog_runs] in Er. destruct (Z.ltb_spec 0 (h_fdir (i_hdr im))); [|lia].
      destruct (assert_valid3 _ _); cbn [rbind] in Er; [|discriminate]. destruct (get_raw3 _ _ _) as [[x pos]|]; cbn [rbind] in Er; [|discriminate].
      destruct (link_of x); cbn [rbind] in Er; [|discriminate]. destruct (catalog_runs _ _ _ _) as [rest|]; cbn [rbind] in Er; [|discriminate]. injection Er as <-. apply runs_head. lia. }
    cbv zeta. apply kept_bind; [apply kept_annotate, Ps|]. intros u. match goal with |- context[annotate h s ?n] => pose proof (kept_annotate r h s n Ps) as K end. set (h1 := fst (annotate h s _)) in *.
    split; [apply kept_refl|]. intros l E. injection E as <-. constructor; [exact (part_kept _ _ _ _ K Ps)|constructor].
  Qed.
  Lemma file3_part im h d : plain r h r -> kept r h (fst (file_seg3 r im h d)) /\ forall s, snd (file_seg3 r im h d) = Ok s -> part r (fst (file_seg3 r im h d)) (g_raw s).
  Proof.
    intros P. assert (Q : kept r h (fst (file_segment3 h r im d)) /\ forall x, snd (file_segment3 h r im d) = Ok x -> part r (fst (file_segment3 h r im d)) x).
    { unfold file_segment3. assert (Z0 : forall (e : exn), kept r h (fst (h, @Err raw e)) /\ forall x, snd (h, @Err raw e) = Ok x -> part r (fst (h, @Err raw e)) x) by (intros e; split; [apply kept_refl|discriminate]).
      destruct (negb (d3_sane d)); [apply Z0|]. destruct (get_tslist _ _ _ _) as [[t [|n0 m]]|e]; try apply Z0. destruct (read_map _ _ _) as [runs|e]; [|apply Z0].
      destruct (run_positions runs) as [|p o]; [split; [apply kept_refl|intros x E; injection E as <-; apply P]|]. destruct (raw_indexed _ _ _) as [x|e] eqn:Ex; [|apply Z0].
      pose proof (part_indexed r h r (p :: o) x P ltac:(discriminate) Ex) as Px. destruct (d3_type d =? 4); [|split; [apply kept_refl|intros y E; injection E as <-; exact Px]].
      destruct (get_raw3 _ _ _) as [[s q]|e]; [|apply Z0]. destruct (zlen s <? 2); [apply Z0|]. cbn [fst snd].
      destruct (0 <? _); [|split; [apply kept_refl|intros y E; injection E as <-; exact Px]]. pose proof (kept_four r h x Px) as K. split; [exact K|]. intros y E. injection E as <-. exact (part_kept _ _ _ _ K Px). }
    unfold file_seg3. destruct Q as (K & Q). destruct (file_segment3 h r im d) as [h1 [x|e]]; cbn [fst snd hbind] in *; [|split; [exact K|discriminate]].
    unfold pure. cbn [fst snd]. split; [exact K|]. intros s. specialize (Q x eq_refl).
    destruct (get_tslist _ _ _ _) as [[t m]|]; cbn [rbind]; [|discriminate]. destruct (read_map _ _ _) as [runs|]; cbn [rbind]; [|discriminate].
    destruct (run_positions runs); [intros E; injection E as <-; exact Q|]. destruct (d3_type d =? 4); [|intros E; injection E as <-; exact Q].
    destruct (get_raw3 _ _ _) as [[s0 q]|]; cbn [rbind]; [|discriminate]. intros E; injection E as <-; exact Q.
  Qed.
  Lemma dos33_good h im : plain r h r -> 0 < h_fdir (i_hdr im) -> good r h (parse_segments3 h r im).
  Proof.
    intros P F. unfold parse_segments3. cbv zeta. apply good_bind; [apply good_pure; intros l; apply boot3_parts, P|]. cbn [pure fst]. intros b _ Pb.
    apply good_bind; [apply vtoc3_good, P|]. intros c K1 Pc. pose proof (plain_kept _ _ _ _ K1 P) as P1. set (h1 := fst (vtoc_segs3 h r im)) in *.
    apply good_bind; [apply catalog3_good; assumption|]. intros d K2 Pd. pose proof (plain_kept _ _ _ _ K2 P1) as P2. set (h2 := fst (catalog_segs3 h1 r im)) in *.
    apply good_bind; [apply good_each; [intros h0 d0 P0; apply file3_part; exact P0|exact P2]|]. intros e K3 Pe. set (h3 := fst (each_file _ _ _ _ _)) in *.
    split; [apply kept_refl|]. intros l E. injection E as <-. pose proof (kept_trans _ _ _ _ K2 K3) as K23. pose proof (kept_trans _ _ _ _ K1 K23) as K13.
    apply (parts_app h3 (head_segs3 h r (i_hdr im))); [apply (parts_kept _ _ _ _ K13); unfold head_segs3, header_seg; ones|]. apply parts_app; [exact (parts_kept _ _ _ _ K13 Pb)|].
    apply parts_app; [exact (parts_kept _ _ _ _ K23 Pc)|]. apply parts_app; [exact (parts_kept _ _ _ _ K3 Pd)|exact Pe].
  Qed.

  (** SpartaDOS *)
  Lemma sparta_file_part im h dt : plain r h r -> kept r h (fst (sparta_file_seg r im h dt)) /\ forall s, snd (sparta_file_seg r im h dt) = Ok s -> part r (fst (sparta_file_seg r im h dt)) (g_raw s).
  Proof.
    intros P. destruct dt as [d t]. unfold sparta_file_seg, pure. cbn [fst snd]. split; [apply kept_refl|]. intros s.
    destruct (sfile_runs _ _ _ _) as [runs|]; cbn [rbind]; [|discriminate]. destruct (run_positions runs) as [|p o]; [intros E; injection E as <-; apply P|].
    destruct (raw_indexed _ _ _) as [x|] eqn:Ex; cbn [rbind]; [|discriminate]. intros E. injection E as <-. exact (part_indexed r h r (p :: o) x P ltac:(discriminate) Ex).
  Qed.
  Lemma sparta_good h im : plain r h r -> good r h (sparta_parse_segments h r im).
  Proof.
    intros P. unfold sparta_parse_segments. cbv zeta. apply good_bind.
    { apply good_pure. intros l. unfold sparta_boot_segs. destruct (get_sector_slice _ _ _) as [[x y]|]; cbn [rbind]; [|discriminate]. intros E. injection E as <-.
      constructor; [cbn [g_raw]; win|]. destruct (0 <? _); ones. }
    cbn [pure fst]. intros b _ Pb. apply good_bind.
    { apply good_pure. intros l. unfold sparta_vtoc_segs. destruct (sbitmap_bounds im) as [[x y]|]; cbn [rbind]; [|discriminate]. intros E. injection E as <-. ones. }
    cbn [pure fst]. intros c _ Pc. apply good_bind.
    { unfold sparta_dir_segs. destruct (s_rootd im) as [d|]; [|split; [apply kept_refl|discriminate]]. destruct (sparta_file_part im h (d, root_stamp im d) P) as (K & Q).
      destruct (sparta_file_seg r im h (d, root_stamp im d)) as [h1 [s|e]]; cbn [fst snd hbind] in *; [|split; [exact K|discriminate]].
      split; [exact K|]. intros l E. injection E as <-. constructor; [exact (Q s eq_refl)|constructor]. }
    intros d K1 Pd. set (h1 := fst (sparta_dir_segs h r im)) in *. pose proof (plain_kept _ _ _ _ K1 P) as P1. apply pure_bind. intros l0 _.
    apply good_bind; [apply good_each; [intros h0 d0 P0; apply sparta_file_part; exact P0|exact P1]|]. intros e K2 Pe. set (h2 := fst (each_file _ _ _ _ _)) in *.
    split; [apply kept_refl|]. intros l E. injection E as <-. pose proof (kept_trans _ _ _ _ K1 K2) as K12.
    apply parts_app; [exact (parts_kept _ _ _ _ K12 (head_parts h _ P))|]. apply parts_app; [exact (parts_kept _ _ _ _ K12 Pb)|].
    apply parts_app; [exact (parts_kept _ _ _ _ K12 Pc)|]. apply parts_app; [exact (parts_kept _ _ _ _ K2 Pd)|exact Pe].
  Qed.

  (** Executables, cartridges *)
  Lemma kept_mark_slice h x a b : part r h x -> kept r h (mark_slice h x a b).
  Proof. intros P. apply kept_style; [exact P|apply (kept_slice r), P|intros _; exact data_byte]. Qed.
  Lemma xex_good b fuel : forall h pos spos first, plain r h r -> good r h (xex_loop fuel h r b pos spos first).
  Proof.
    induction fuel as [|f IH]; intros h pos spos first P; cbn [xex_loop]; [split; [apply kept_refl|discriminate]|].
    destruct (negb (pos <? _)); [split; [apply kept_refl|intros l E; injection E as <-; constructor]|].
    destruct (negb (pos + 1 <? _)); [split; [apply kept_refl|intros l E; injection E as <-; ones]|].
    destruct (_ =? 0xffff); [apply IH, P|]. destruct first; [split; [apply kept_refl|discriminate]|].
    destruct (zlen (slice b pos (pos + 4)) <? 4); [split; [apply kept_refl|intros l E; injection E as <-; ones]|].
    pose proof (kept_mark_slice h r spos (pos + 4) (proj1 P)) as K. cbv zeta. set (h1 := mark_slice h r spos (pos + 4)) in *. pose proof (plain_kept _ _ _ _ K P) as P1.
    destruct (_ <? le2 _ _); [split; [exact K|discriminate]|]. set (n := _ - _ + 1). set (x := raw_slice h1 r _ _). assert (Px : plain r h1 x) by (apply plain_slice; exact P1).
    destruct (_ <? n); [split; [exact K|intros l E; injection E as <-; apply Forall_cons; [apply Px|apply Forall_nil]]|].
    specialize (IH h1 (pos + (4 + n)) (pos + (4 + n)) false P1). destruct IH as (K2 & Q). destruct (xex_loop f h1 r b _ _ _) as [h2 [l|e]]; cbn [hbind fst snd] in *.
    - split; [exact (kept_trans _ _ _ _ K K2)|]. intros l' E. injection E as <-. apply Forall_cons; [exact (part_kept _ _ _ _ K2 (proj1 Px))|exact (Q l eq_refl)].
    - split; [exact (kept_trans _ _ _ _ K K2)|discriminate].
  Qed.
  Lemma bin_good h : plain r h r -> good r h (bin_parse_segments h r).
  Proof.
    intros P. unfold bin_parse_segments. cbv zeta. destruct (_ =? 4); [|split; [apply kept_refl|discriminate]]. destruct (negb _); [split; [apply kept_refl|discriminate]|].
    pose proof (kept_mark_slice h r 0 4 (proj1 P)) as K. set (h1 := mark_slice h r 0 4) in *. pose proof (plain_kept _ _ _ _ K P) as P1.
    destruct (_ =? le2 _ _); [|split; [exact K|discriminate]]. split; [exact K|]. intros l E. injection E as <-. ones.
  Qed.
  Lemma bank_parts h c : plain r h r -> forall banks n, parts r h (bank_segs h r c n banks).
  Proof. intros P. induction banks as [|o banks IH]; intros n; cbn [bank_segs]; [apply Forall_nil|]. apply Forall_cons; [cbn [g_raw]; win|apply IH]. Qed.
  Lemma cart_good h c : plain r h r -> good r h (cart_parse_segments h r c).
  Proof.
    intros P. split; [apply kept_refl|]. unfold cart_parse_segments. cbn [fst snd]. intros l E. injection E as <-. apply parts_app; [destruct (0 <? _); ones|].
    apply Forall_cons; [cbn [g_raw]; win|apply bank_parts, P].
  Qed.

  (** The segments are windows on the data of the parser (those of MAME are not), and the
      catalog of a DOS 3.3 disk begins somewhere after its first sector. *)
  Definition restorable (i : image) : Prop := match i with IDos33 a => 0 < h_fdir (i_hdr a) | IMame _ => False | _ => True end.
  Lemma list_parts h p i h' l : raw_ok h r -> r_win r = WAll -> restorable i -> image_segments h r p i = (h', Ok l) -> kept r h h' /\ parts r h' l.
  Proof.
    intros R W C E. pose proof (plain_r r h R W) as P.
    assert (Wh : forall menu m, good r h m -> with_whole r menu m = (h', Ok l) -> kept r h h' /\ parts r h' l).
    { intros menu m (K & Q). unfold with_whole. destruct m as [h1 [l1|e]]; cbn [hbind fst snd] in *; [|discriminate]. intros X. injection X as <- <-.
      split; [exact K|]. constructor; [exact (part_kept _ _ _ _ K (proj1 P))|exact (Q l1 eq_refl)]. }
    unfold image_segments in E. eapply Wh; [|exact E]. clear Wh E. destruct i; cbn [parse_segments].
    - split; [apply kept_refl|]. unfold kboot_parse_segments. cbn [fst snd]. intros l' X. injection X as <-. apply parts_app; [apply head_parts, P|]. ones.
    - apply sparta_good, P.
    - apply atari_good, P.
    - unfold boot_parse_segments. apply good_bind; [apply good_pure; intros l'; apply boot_parts, P|]. cbn [pure fst]. intros l' _ Pl. split; [apply kept_refl|]. intros l2 X. injection X as <-.
      apply parts_app; [apply head_parts, P|exact Pl].
    - split; [apply kept_refl|]. unfold plain_parse_segments. cbn [fst snd]. intros l' X. injection X as <-. apply head_parts, P.
    - apply xex_good, P.
    - apply cart_good, P.
    - destruct C.
    - split; [apply kept_refl|]. cbn [rom_parse_segments fst snd]. intros l' X. injection X as <-. apply Forall_cons; [exact (proj1 P)|apply Forall_nil].
    - apply dos33_good; [exact P|exact C].
    - apply bin_good, P.
  Qed.
End L.

(** * Saved windows *)
Lemma reconstruct_other h r h' base : raw_ok h r -> raw_ok h' base -> r_win base = WAll -> zlen (arr h' (r_data base)) = zlen (arr h (r_data r)) ->
  zlen (arr h (r_data r)) <= 2147483648 -> r_win r <> WOrder [] ->
  exists r', reconstruct h' base (get_state h r) = Ok r' /\ raw_ok h' r' /\ shows h' r' = shows h r /\
    r_data r' = r_data base /\ r_style r' = r_style base /\ r_extra r' = r_extra base.
Proof.
  intros R B Bw Bl Hl Ne. unfold reconstruct, get_state. cbn [st_bounds st_order].
  destruct (byte_bounds h r) as [s e] eqn:Eb. cbn [fst snd].
  destruct (raw_slice_shows h' base (Some s) (Some e) B) as (R' & S' & D1 & D2 & D3). set (r1 := raw_slice h' base (Some s) (Some e)) in *.
  assert (Sb : shows h' base = zrange 0 (zlen (arr h (r_data r)))) by (unfold shows; rewrite Bw, Bl; reflexivity). rewrite Sb in S'.
  pose proof R as (_ & _ & _ & _ & _ & W). unfold byte_bounds in Eb. pose proof (zlen_nonneg (arr h (r_data r))).
  destruct (r_win r) as [|a b|o] eqn:Ew; cbn [win_ok] in W.
  - injection Eb as <- <-. exists r1. split; [reflexivity|]. split; [exact R'|]. split; [|repeat split; assumption].
    rewrite S', pyslice_whole by lia. unfold shows. rewrite Ew. reflexivity.
  - injection Eb as <- <-. exists r1. split; [reflexivity|]. split; [exact R'|]. split; [|repeat split; assumption].
    rewrite S', pyslice_whole by lia. unfold shows. rewrite Ew. reflexivity.
  - injection Eb as <- <-. rewrite pyslice_whole in S' by lia. destruct o as [|p o]; [congruence|].
    assert (Et : to_numpy_list (p :: o) = p :: o).
    { unfold to_numpy_list. rewrite <- (map_id (p :: o)) at 2. apply map_ext_in. intros q Hq. rewrite Forall_forall in W. specialize (W q Hq). unfold u32. apply Z.mod_small. lia. }
    rewrite Et. assert (H0 : Forall (fun i => 0 <= i) (p :: o)) by (eapply Forall_impl; [|exact W]; cbn; intros; lia).
    pose proof (raw_indexed_shows h' r1 (p :: o) R' H0) as RI. rewrite S', pyselect_whole in RI by exact W.
    destruct RI as (r' & E & R2 & S2 & F1 & F2 & F3). exists r'. split; [exact E|]. split; [exact R2|]. split; [|repeat split; congruence].
    rewrite S2. unfold shows. rewrite Ew. reflexivity.
Qed.
