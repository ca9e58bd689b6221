(** Images as object files: the data of their segments is bytes. *)
From Coq Require Import String.
From Verif Require Import Base BaseLemmas DiskModel AtariModel SpartaModel Dos33Model ExecModel ExecSpec ExecProofs SegModel SegProofs DetectModel EditModel SegListModel ObjModel.
From Verif Require CartModel.

(** * The parser that recognised the data accepts it *)
Lemma as_parser_ok {A} (x : res A) y : as_parser x = Ok y -> x = Ok y.
Proof. destruct x as [|[[]| | | | | | | | | | | |]]; cbn; congruence. Qed.
Lemma guess_in {P A} (f : P -> res A) ps p x : guess f ps = Ok (Some (p, x)) -> f p = Ok x.
Proof.
  induction ps as [|q ps IH]; cbn [guess]; [discriminate|]. destruct (f q) as [y|e] eqn:E; [intros H; injection H as <- <-; exact E|].
  destruct e as [[]| | | | | | | | | | | |]; try discriminate. exact IH.
Qed.
Lemma search_in e b fd : forall ms, search e ms b = Ok (Some fd) -> parse e true (f_class fd) b = Ok (f_image fd).
Proof.
  induction ms as [|m ms IH]; cbn [search]; [discriminate|]. destruct (guess_for_mime e m b) as [[[p x]|]|] eqn:G; cbn [rbind]; [|exact IH|discriminate].
  destruct (guess_detail m b); cbn [rbind]; [|discriminate]. intros H. injection H as <-. cbn [f_class f_image]. exact (guess_in _ _ _ _ G).
Qed.
Lemma found_parsed e b fd u : unpacked e b = Ok u -> find_diskimage e b = Ok fd -> exists strict, parse_image e strict (f_class fd) u = Ok (f_image fd).
Proof.
  intros U. unfold find_diskimage, iter_parsers. rewrite U. cbn [rbind]. unfold guess_by_size. destruct (e_sig e u) as [m|]; cbn [rbind].
  - destruct (guess (fun p => parse e false p u) (mime_parsers m)) as [[[p x]|]|] eqn:G; cbn [rbind]; try discriminate.
    + intros H. injection H as <-. exists false. apply as_parser_ok. exact (guess_in _ _ _ _ G).
    + destruct (search e mime_parse_order u) as [[f|]|] eqn:Es; cbn [rbind]; try discriminate. intros H. injection H as <-. exists true. apply as_parser_ok. exact (search_in _ _ _ _ Es).
  - destruct (search e mime_parse_order u) as [[f|]|] eqn:Es; cbn [rbind]; try discriminate. intros H. injection H as <-. exists true. apply as_parser_ok. exact (search_in _ _ _ _ Es).
Qed.
Lemma found_unpacked e b fd : find_diskimage e b = Ok fd -> exists u, unpacked e b = Ok u.
Proof. unfold find_diskimage, iter_parsers. destruct (unpacked e b) as [u|]; [eauto|discriminate]. Qed.

(** * All arrays are bytes *)
Definition clean (h : heap) : Prop := forall a, bytes_ok (arr h a).
Definition cleans {A} (m : heap * res A) : Prop := clean (fst m).
Lemma clean_read h x : clean h -> bytes_ok (read_data h x).
Proof.
  intros C. unfold read_data. destruct (r_win x) as [|a b|o]; cbn [win_read]; [apply C|apply bytes_ok_slice, C|]. unfold gather. apply Forall_forall. intros v Hv.
  apply in_map_iff in Hv. destruct Hv as (p & <- & _). apply bytes_ok_getb, C.
Qed.
Lemma clean_bind {A B} (m : heap * res A) (k : heap -> A -> heap * res B) : cleans m -> (forall h x, clean h -> cleans (k h x)) -> cleans (hbind m k).
Proof. intros C K. destruct m as [h [x|e]]; cbn [hbind]; [apply K, C|exact C]. Qed.
Lemma clean_pure {A} h (x : res A) : clean h -> cleans (pure h x). Proof. intros C. exact C. Qed.
Lemma bytes_scatter : forall ps a vals, bytes_ok a -> bytes_ok vals -> bytes_ok (scatter a ps vals).
Proof.
  induction ps as [|p ps IH]; intros a [|v vals] A V; cbn [scatter]; try exact A. inversion V; subst. apply IH; [|assumption]. unfold setn. apply bytes_ok_setslice; [exact A|]. constructor; [assumption|constructor].
Qed.
Lemma bytes_replace v : bytes_ok v -> forall l n a, (forall k, bytes_ok (nth k l [])) -> bytes_ok (nth a (replace n v l) []).
Proof.
  intros V. induction l as [|x l IH]; intros n a C; [destruct n; cbn [replace]; apply C|].
  destruct n as [|n]; cbn [replace]; destruct a as [|a]; cbn [nth]; [exact V|exact (C (S a))|exact (C 0%nat)|]. apply IH. intros k. exact (C (S k)).
Qed.
Lemma clean_style h s ps : clean h -> clean (upd_style (fun _ => style_bits k_data) h s ps).
Proof.
  intros C a. unfold upd_style, set_arr, arr at 1. cbn [hp_arr].
  assert (U : bytes_ok (update (fun _ => style_bits k_data) (arr h (r_style s)) ps)).
  { unfold update. apply bytes_scatter; [apply C|]. apply Forall_forall. intros v Hv. apply in_map_iff in Hv. destruct Hv as (p & <- & _). vm_compute. split; congruence. }
  apply bytes_replace; [exact U|exact C].
Qed.
Lemma clean_annotate h s notes : clean h -> cleans (annotate h s notes).
Proof.
  intros C. unfold annotate. assert (C1 : clean (mark_data h s)) by (apply clean_style, C). revert C1. generalize (mark_data h s). induction notes as [|it notes IH]; intros h1 C1; cbn [each]; [exact C1|].
  unfold set_comment_at. destruct (raw_index s (fst it)); [apply IH; exact C1|exact C1].
Qed.
Lemma clean_new h d h1 x : clean h -> bytes_ok d -> new_raw h d = (h1, x) -> clean h1.
Proof.
  intros C D E. unfold new_raw in E. injection E as <- _. intros a. unfold arr. cbn [hp_arr]. destruct (Nat.lt_ge_cases a (length (hp_arr h))) as [L|L]; [rewrite app_nth1 by exact L; apply C|].
  rewrite app_nth2 by exact L. destruct (a - length (hp_arr h))%nat as [|[|k]]; cbn [nth]; [exact D|apply bytes_ok_zrepeat; unfold is_byte; lia|destruct k; constructor].
Qed.
Lemma clean_each {D} (name : D -> list Z) make r ds : (forall h d, clean h -> cleans (make h d)) -> forall h, clean h -> cleans (each_file name make r h ds).
Proof.
  intros M. induction ds as [|d ds IH]; intros h C; cbn [each_file]; [exact C|]. pose proof (M h d C) as X. destruct (make h d) as [h1 [s|e]]; unfold cleans in X; cbn [fst] in X.
  - apply clean_bind; [apply IH, X|]. intros h2 l C2. exact C2.
  - destruct (is_invalid_file e); [|exact X]. apply clean_bind; [apply IH, X|]. intros h2 l C2. exact C2.
Qed.
Lemma clean_file3 r im h d : clean h -> cleans (file_seg3 r im h d).
Proof.
  intros C. unfold file_seg3. apply clean_bind; [|intros h1 x C1; exact C1]. unfold file_segment3. destruct (negb _); [exact C|]. destruct (get_tslist _ _ _ _) as [[t [|n0 m]]|]; try exact C.
  destruct (read_map _ _ _) as [runs|]; [|exact C]. destruct (run_positions runs) as [|p o]; [exact C|]. destruct (raw_indexed _ _ _) as [y|]; [|exact C]. destruct (d3_type d =? 4); [|exact C].
  destruct (get_raw3 _ _ n0) as [[q z]|]; [|exact C]. destruct (_ <? 2); [exact C|]. unfold cleans. cbn [fst]. destruct (0 <? _); [apply clean_style, C|exact C].
Qed.
Lemma clean_xex r b : forall fuel h pos spos first, clean h -> cleans (xex_loop fuel h r b pos spos first).
Proof.
  induction fuel as [|f IH]; intros h pos spos first C; cbn [xex_loop]; [exact C|]. repeat (match goal with |- cleans (if ?c then _ else _) => destruct c end; [exact C || (apply IH; exact C)|]). cbv zeta.
  assert (C1 : clean (mark_slice h r spos (pos + 4))) by (apply clean_style, C). destruct (_ <? _); [exact C1|]. destruct (_ <? _); [exact C1|]. apply clean_bind; [apply IH, C1|]. intros h2 l C2. exact C2.
Qed.
Definition members_ok (i : image) : Prop := match i with IMame l => Forall (fun z => bytes_ok (z_data z)) l | _ => True end.
Lemma clean_image r h p i : clean h -> members_ok i -> cleans (image_segments h r p i).
Proof.
  intros C M. unfold image_segments, with_whole. apply clean_bind; [|intros h1 l C1; exact C1]. destruct i as [k|a|a|hd b|hd b|x|c|l|b|a|x]; cbn [parse_segments members_ok] in *; try exact C.
  - unfold sparta_parse_segments. cbv zeta. apply clean_bind; [exact C|]. intros h1 b C1. apply clean_bind; [exact C1|]. intros h2 c C2. apply clean_bind.
    { unfold sparta_dir_segs. destruct (s_rootd a); [|exact C2]. apply clean_bind; [exact C2|]. intros h3 s0 C3. exact C3. }
    intros h3 d C3. apply clean_bind; [exact C3|]. intros h4 l C4. apply clean_bind; [apply clean_each; [intros h5 [d5 t5] C5; exact C5|exact C4]|]. intros h5 e C5. exact C5.
  - unfold atari_parse_segments. cbv zeta. apply clean_bind; [exact C|]. intros h1 b C1. apply clean_bind.
    { unfold atari_vtoc_segs. apply clean_bind; [exact C1|]. intros h2 p2 C2. cbv zeta. apply clean_bind; [apply clean_annotate, C2|]. intros h3 u3 C3. destruct (0 <? _); [|exact C3].
      apply clean_bind; [exact C3|]. intros h4 p4 C4. cbv zeta. apply clean_bind; [apply clean_annotate, C4|]. intros h5 u5 C5. exact C5. }
    intros h2 c C2. apply clean_bind; [unfold atari_dir_segs; apply clean_bind; [exact C2|]; intros h3 p3 C3; cbv zeta; apply clean_bind; [apply clean_annotate, C3|]; intros h4 u4 C4; exact C4|].
    intros h3 d C3. apply clean_bind; [apply clean_each; [intros h4 d4 C4; exact C4|exact C3]|]. intros h4 e C4. exact C4.
  - unfold boot_parse_segments. apply clean_bind; [exact C|]. intros h1 l C1. exact C1.
  - apply clean_xex, C.
  - unfold mame_parse_segments. destruct (new_raw h (flat_map z_data l)) as [h1 x] eqn:E. apply (clean_new h (flat_map z_data l) h1 x C); [|exact E]. clear - M.
    induction M as [|z l Z M IH]; [constructor|]. cbn [flat_map]. apply Forall_app. split; assumption.
  - unfold parse_segments3. cbv zeta. apply clean_bind; [exact C|]. intros h1 b C1. apply clean_bind; [unfold vtoc_segs3; apply clean_bind; [exact C1|]; intros h2 p2 C2; cbv zeta; apply clean_bind; [apply clean_annotate, C2|]; intros h3 u3 C3; exact C3|].
    intros h2 c C2. apply clean_bind.
    { unfold catalog_segs3. apply clean_bind; [exact C2|]. intros h3 p3 C3. apply clean_bind; [exact C3|]. intros h4 s4 C4. cbv zeta. apply clean_bind; [apply clean_annotate, C4|]. intros h5 u5 C5. exact C5. }
    intros h3 d C3. apply clean_bind; [apply clean_each; [intros h4 d4 C4; apply clean_file3, C4|exact C3]|]. intros h4 e C4. exact C4.
  - unfold bin_parse_segments. cbv zeta. destruct (_ =? 4); [|exact C]. destruct (negb _); [exact C|]. destruct (_ =? _); unfold cleans; cbn [fst]; apply clean_style, C.
Qed.

(** * The data of object files *)
Lemma objects_bytes h : clean h -> forall l xs, object_segs h l = Ok xs -> Forall (fun s => bytes_ok (x_data s)) xs.
Proof.
  intros C. induction l as [|s l IH]; intros xs; cbn [object_segs]; [intros E; injection E as <-; constructor|].
  assert (X : forall x, object_seg h s = Ok x -> bytes_ok (x_data x)).
  { intros x. unfold object_seg. cbv zeta. destruct (g_kind s); try (intros E; injection E as <-; apply clean_read, C); destruct (r_win (g_raw s)); try (intros E; injection E as <-; apply clean_read, C);
      destruct (0 <? _); try discriminate; intros E; injection E as <-; apply clean_read, C. }
  destruct (object_seg h s) as [x|]; cbn [rbind]; [|discriminate]. destruct (object_segs h l) as [ys|]; cbn [rbind]; [|discriminate]. intros E. injection E as <-. constructor; [exact (X x eq_refl)|exact (IH ys eq_refl)].
Qed.
Lemma reports_bytes ps : bytes_ok (encode ps) -> forall pos, Forall (fun s => bytes_ok (x_data s)) (reports pos ps).
Proof.
  induction ps as [|p q IH]; intros B pos; cbn [reports]; [constructor|]. cbn [encode flat_map] in B. apply Forall_app in B. destruct B as (B1 & B2). apply Forall_app. split; [|apply IH; exact B2].
  destruct p; cbn [report encode_piece] in *; [constructor|..]; (constructor; [cbn [x_data]|constructor]); try exact B1; repeat (apply Forall_app in B1; destruct B1 as (_ & B1)); exact B1.
Qed.
(** What an image file consists of is bytes: the file unpacked, and the members of a zip file. *)
Definition unpacks_bytes (e : env) (b : list Z) : Prop := forall u, unpacked e b = Ok u -> bytes_ok u /\ forall l, e_zip e u = Zip l -> Forall (fun z => bytes_ok (z_data z)) l.
Theorem object_bytes e b fd ss : unpacks_bytes e b -> find_diskimage e b = Ok fd -> parser_segs e b fd = Ok ss -> Forall (fun s => bytes_ok (x_data s)) ss.
Proof.
  intros Ub D P. destruct (found_unpacked _ _ _ D) as (u & U). destruct (Ub u U) as (B & Z). destruct (found_parsed _ _ _ _ U D) as (strict & Q).
  assert (G : file_objects e b fd = Ok ss -> members_ok (f_image fd) -> Forall (fun s => bytes_ok (x_data s)) ss).
  { intros E M. unfold file_objects, file_segments in E. rewrite U in E. cbn [rbind] in E. destruct (new_raw (mkHp [] []) u) as [h r] eqn:N.
    assert (C : clean h) by (apply (clean_new (mkHp [] []) u h r); [intros a; unfold arr; cbn [hp_arr]; destruct a; constructor|exact B|exact N]).
    pose proof (clean_image r h (f_class fd) (f_image fd) C M) as C1. destruct (image_segments h r (f_class fd) (f_image fd)) as [h1 [l|]]; cbn [rbind] in E; [|discriminate]. exact (objects_bytes h1 C1 l ss E). }
  unfold parser_segs in P. destruct (f_image fd) as [k|a|a|hd d|hd d|x|c|l|d|a|x] eqn:I; try (apply G; [exact P|exact Logic.I]).
  - assert (x = ss) as -> by congruence. clear - B Q. destruct (f_class fd); cbn [parse_image] in Q;
      try (exfalso; revert Q; unfold cart_image, rom_image, mame_image, prodos_image; repeat (match goal with |- context[rbind ?x _] => destruct x; cbn [rbind] | |- context[match ?x with _ => _ end] => destruct x end; try discriminate); fail).
    destruct (snd (parse_xex u (zrepeat 0 (zlen u)))) as [segs|] eqn:Ex; [|discriminate]. assert (segs = ss) as -> by congruence. apply (parse_xex_iff u _ B) in Ex. destruct Ex as (ps & _ & _ & Eb & ->). apply reports_bytes. rewrite <- Eb. exact B.
  - apply G; [exact P|]. cbn [members_ok]. apply Z. clear - Q. destruct (f_class fd); cbn [parse_image] in Q;
      try (exfalso; revert Q; unfold cart_image, rom_image, prodos_image; repeat (match goal with |- context[rbind ?x _] => destruct x; cbn [rbind] | |- context[match ?x with _ => _ end] => destruct x end; try discriminate); fail).
    unfold mame_image in Q. destruct (e_zip e u) as [|l'|]; try discriminate. destruct (existsb _ l'); [discriminate|]. destruct l' as [|z l']; [discriminate|]. congruence.
  - assert (ss = [x]) as -> by congruence. constructor; [|constructor]. clear - B Q. destruct (f_class fd); cbn [parse_image] in Q;
      try (exfalso; revert Q; unfold cart_image, rom_image, mame_image, prodos_image; repeat (match goal with |- context[rbind ?x _] => destruct x; cbn [rbind] | |- context[match ?x with _ => _ end] => destruct x end; try discriminate); fail).
    destruct (parse_bsave u) as [s|] eqn:Ps; cbn [rbind] in Q; [|discriminate]. assert (s = x) as -> by congruence. unfold parse_bsave in Ps. cbv zeta in Ps.
    repeat (match type of Ps with context[if ?c then _ else _] => destruct c end; try discriminate). injection Ps as <-. cbn [x_data]. apply bytes_ok_slice, B.
Qed.
