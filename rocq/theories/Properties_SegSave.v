(** * C89: the saved list of segments of a disk image comes back *)
From Coq Require Import String.
From Verif Require Import Base BaseLemmas DiskModel AtariModel SpartaModel ExecModel SegModel SegSpec SegProofs SegProofs2 SegProofs5 DetectModel.
From Verif Require Import Dos33Model TextModel EditModel SegListModel SegSaveModel SegSaveProofs.
From Verif Require Import EditProofs EditAtari Properties_Edit SegProofs3 SegListSpec SegListProofs SegListAtari Dos33Geom SegList33.
From Verif Require Import Dos33Model.
From Verif Require Properties_Sparta Properties_SegList Properties_Detect.
From Verif Require CartModel.

(** [s'] is the segment [s] again: the same kind, name, load address and positions, on
    the data [base]. *)
Record back (h h' : heap) (base : raw) (s s' : seg) : Prop := mkBack {
  b_kind : g_kind s' = g_kind s;
  b_name : g_name s' = g_name s;
  b_origin : g_origin s' = g_origin s;
  b_ok : raw_ok h' (g_raw s');
  b_data : r_data (g_raw s') = r_data base;
  b_style : r_style (g_raw s') = r_style base;
  b_extra : r_extra (g_raw s') = r_extra base;
  b_shows : shows h' (g_raw s') = shows h (g_raw s)
}.
Lemma back_len h h' base s s' : raw_ok h (g_raw s) -> back h h' base s s' -> raw_len h' (g_raw s') = raw_len h (g_raw s).
Proof. intros R B. rewrite <- (zlen_shows h' _ (b_ok _ _ _ _ _ B)), (b_shows _ _ _ _ _ B). apply zlen_shows, R. Qed.
Lemma back_text h h' base s s' : raw_ok h (g_raw s) -> back h h' base s s' -> seg_text h' s' = seg_text h s.
Proof.
  intros R B. unfold seg_text. rewrite (back_len _ _ _ _ _ R B), (b_kind _ _ _ _ _ B), (b_name _ _ _ _ _ B), (b_origin _ _ _ _ _ B). reflexivity.
Qed.
Lemma items_back h r h' base l : parts r h l -> raw_ok h' base -> r_win base = WAll -> zlen (arr h' (r_data base)) = zlen (arr h (r_data r)) ->
  zlen (arr h (r_data r)) <= 2147483648 ->
  exists l', reconstruct_items h' base (map (save_seg h) l) = Ok (map Live l') /\ Forall2 (back h h' base) l l'.
Proof.
  intros P B Bw Bl Hl. induction P as [|s l (X1 & X2 & X3 & X4 & X5) P IH]; cbn [map reconstruct_items save_seg reconstruct_raw].
  - exists []. split; [reflexivity|constructor].
  - destruct (reconstruct_other h (g_raw s) h' base X1 B Bw ltac:(rewrite X2; exact Bl) ltac:(rewrite X2; exact Hl) X5) as (y & E & Ry & Sy & D1 & D2 & D3).
    destruct IH as (l' & El & F). exists (mkSeg (g_kind s) (g_name s) (g_origin s) y :: l'). rewrite E. cbn [rbind]. rewrite El. cbn [rbind map]. split; [reflexivity|].
    constructor; [|exact F]. constructor; try reflexivity; assumption.
Qed.
Lemma fresh_raw h0 data h1 base : new_raw h0 data = (h1, base) -> raw_ok h1 base /\ r_win base = WAll /\ arr h1 (r_data base) = data /\ read_data h1 base = data /\
  arr h1 (r_style base) = zrepeat 0 (zlen data) /\ comments h1 base = [].
Proof.
  intros E. unfold new_raw in E. injection E as <- <-. unfold raw_ok, comments, ext, read_data. cbn [r_data r_style r_extra r_win hp_arr hp_ext]. rewrite arr_app_0, arr_app_1, !app_length. cbn [length].
  rewrite zlen_zrepeat by apply zlen_nonneg. rewrite app_nth2 by lia. rewrite Nat.sub_diag. cbn [nth extra0 e_comments]. repeat split; try lia; reflexivity.
Qed.

(** A parser that accepted the data makes its image object again. *)
Lemma parsed_get_image e strict p b i : parse_image e strict p b = Ok i -> get_image e (Format p) b = Ok tt.
Proof.
  unfold parse_image, get_image. destruct p; try (intros _; reflexivity); unfold cart_image.
  - destruct (kboot_open b); cbn [rbind]; [reflexivity|discriminate].
  - destruct (open_sparta b); cbn [rbind]; [reflexivity|discriminate].
  - destruct (open_image b); cbn [rbind]; [reflexivity|discriminate].
  - destruct (atari_header b) as [h|]; cbn [rbind]; [|discriminate]. destruct (boot_check h b) as [[]|]; cbn [rbind]; [reflexivity|discriminate].
  - destruct (atari_header b); cbn [rbind]; [reflexivity|discriminate].
  - destruct (CartModel.open_cart b t); cbn [rbind]; [reflexivity|discriminate].
  - destruct (CartModel.open_cart b t); cbn [rbind]; [reflexivity|discriminate].
  - intros ->. reflexivity.
  - intros ->. reflexivity.
  - intros ->. reflexivity.
  - intros ->. reflexivity.
  - intros ->. reflexivity.
  - destruct (open33 b); cbn [rbind]; [reflexivity|discriminate].
  - intros ->. reflexivity.
Qed.

(** The segments of the image are listed, annotations and bytes are changed, the parser
    is saved; later it is restored, by another process, on data of the same size that its
    format accepts.  [h1] and [base] stand for that data in the other process. *)
Theorem C89_saved_list_partial e k h r p i h' l h'' h0 data h1 base :
  raw_ok h r -> r_win r = WAll -> raw_len h r <= 2147483648 -> restorable i ->
  image_segments h r p i = (h', Ok l) -> same_shape h' h'' ->
  new_raw h0 data = (h1, base) -> zlen data = raw_len h r -> get_image e k data = Ok tt ->
  exists l', reconstruct_segments e h1 base (save_parser h'' k l) = Ok (mkParser k (map Live l')) /\
    Forall2 (back h'' h1 base) l l' /\ segments_lines h1 l' = segments_lines h'' l /\
    Forall2 (fun s s' => read_data h1 (g_raw s') = map (getb data) (shows h'' (g_raw s))) l l'.
Proof.
  intros R W Hl C E Sh N Zd G. destruct (list_parts r h p i h' l R W C E) as (K & P). assert (Rl : raw_len h r = zlen (arr h (r_data r))) by (unfold raw_len; rewrite W; reflexivity).
  destruct (fresh_raw _ _ _ _ N) as (B & Bw & Ba & Br & _). pose proof (proj1 (shape_trans _ _ _ (proj1 K) Sh) (r_data r)) as L.
  assert (P2 : parts r h'' l) by (eapply Forall_impl; [|exact P]; intros s (X & Y); split; [exact (shape_raw_ok _ _ _ Sh X)|exact Y]).
  destruct (items_back h'' r h1 base l P2 B Bw ltac:(congruence) ltac:(lia)) as (l' & El & F). exists l'. unfold reconstruct_segments, save_parser. cbn [p_class p_items].
  rewrite Br, G. cbn [rbind]. rewrite El. cbn [rbind]. split; [reflexivity|]. split; [exact F|]. clear - F P2 Ba. split.
  - unfold segments_lines. induction F as [|s s' l l' X F IH]; [reflexivity|]. inversion P2 as [|a b P3 P4]; subst. cbn [map]. rewrite (IH P4), (back_text _ _ _ _ _ (proj1 P3) X). reflexivity.
  - induction F as [|s s' l l' X F IH]; [constructor|]. inversion P2 as [|a b P3 P4]; subst. constructor; [|exact (IH P4)].
    rewrite read_data_shows by apply X. rewrite (b_data _ _ _ _ _ X), (b_shows _ _ _ _ _ X). reflexivity.
Qed.
Print Assumptions C89_saved_list_partial.

(** Restored on the data it was made from, every segment shows what it showed. *)
Theorem C89_same_data_partial e strict p h r i h' l h0 h1 base :
  raw_ok h r -> r_win r = WAll -> raw_len h r <= 2147483648 -> restorable i ->
  parse_image e strict p (read_data h r) = Ok i -> image_segments h r p i = (h', Ok l) ->
  new_raw h0 (read_data h r) = (h1, base) ->
  exists l', reconstruct_segments e h1 base (save_parser h' (Format p) l) = Ok (mkParser (Format p) (map Live l')) /\
    segments_lines h1 l' = segments_lines h' l /\
    Forall2 (fun s s' => g_kind s' = g_kind s /\ read_data h1 (g_raw s') = read_data h' (g_raw s) /\ forall n, seg_label s' n = seg_label s n) l l'.
Proof.
  intros R W Hl C Pi E N. assert (Zd : zlen (read_data h r) = raw_len h r) by (rewrite read_data_shows, zlen_map by exact R; apply zlen_shows, R).
  destruct (C89_saved_list_partial e (Format p) h r p i h' l h' h0 _ h1 base R W Hl C E (shape_refl h') N Zd (parsed_get_image _ _ _ _ _ Pi)) as (l' & El & F & T & D).
  exists l'. split; [exact El|]. split; [exact T|]. destruct (list_parts r h p i h' l R W C E) as ((K1 & K2 & _) & P). clear T El E.
  assert (Rd : read_data h r = arr h' (r_data r)).
  { unfold read_data. rewrite W. symmetry. apply K2. apply R. }
  revert P D. induction F as [|s s' l l' X F IH]; intros P D; [constructor|]. inversion P as [|a b P3 P4]; subst. inversion D as [|a b c d D3 D4]; subst. constructor; [|exact (IH P4 D4)].
  destruct P3 as (P3 & Pd & _). split; [exact (b_kind _ _ _ _ _ X)|]. split; [rewrite D3, (read_data_shows h') by exact P3; rewrite Rd, Pd; reflexivity|].
  intros n. unfold seg_label. rewrite (b_kind _ _ _ _ _ X). reflexivity.
Qed.
Print Assumptions C89_same_data_partial.

(** With the session of the whole data, which is saved apart, every segment has its
    comments again, and the bits of its styles that a session keeps. *)
Theorem C89_annotations_partial e k h r p i h' l h'' h0 data h1 base :
  raw_ok h r -> r_win r = WAll -> raw_len h r <= 2147483648 -> restorable i ->
  image_segments h r p i = (h', Ok l) -> same_shape h' h'' ->
  bytes_ok (arr h'' (r_style r)) -> NoDup (map fst (comments h'' r)) ->
  new_raw h0 data = (h1, base) -> zlen data = raw_len h r -> get_image e k data = Ok tt ->
  let h2 := restore_session h1 base (serialize_session h'' r) in
  exists l', reconstruct_segments e h2 base (save_parser h'' k l) = Ok (mkParser k (map Live l')) /\
    segments_lines h2 l' = segments_lines h'' l /\
    Forall2 (fun s s' => read_data h2 (g_raw s') = map (getb data) (shows h'' (g_raw s)) /\
      forall n, 0 <= n < raw_len h'' (g_raw s) ->
        get_comment h2 (g_raw s') n = get_comment h'' (g_raw s) n /\
        getb (read_style h2 (g_raw s')) n = Z.land (getb (read_style h'' (g_raw s)) n) 0x47) l l'.
Proof.
  intros R W Hl C E Sh Bo Nd N Zd G. destruct (list_parts r h p i h' l R W C E) as (K & P). assert (Rl : raw_len h r = zlen (arr h (r_data r))) by (unfold raw_len; rewrite W; reflexivity).
  destruct (fresh_raw _ _ _ _ N) as (B & Bw & Ba & Br & Bs & Bc). pose proof (proj1 (shape_trans _ _ _ (proj1 K) Sh) (r_data r)) as L.
  pose proof (shape_raw_ok _ _ _ (shape_trans _ _ _ (proj1 K) Sh) R) as R2.
  assert (Shw : shows h1 base = shows h'' r) by (unfold shows; rewrite Bw, W; cbn; do 1 f_equal; congruence).
  destruct (restore_session_spec h'' r h1 base R2 B Shw Bo Nd ltac:(rewrite Bc; constructor)) as (S1 & _ & S3 & S4 & S5). cbv zeta in *.
  set (h2 := restore_session h1 base (serialize_session h'' r)) in *. pose proof (shape_raw_ok _ _ _ S4 B) as B2.
  assert (Ba2 : arr h2 (r_data base) = data) by (rewrite S3; [exact Ba|apply B]).
  assert (P2 : parts r h'' l) by (eapply Forall_impl; [|exact P]; intros s (X & Y); split; [exact (shape_raw_ok _ _ _ Sh X)|exact Y]).
  destruct (items_back h'' r h2 base l P2 B2 Bw ltac:(congruence) ltac:(lia)) as (l' & El & F). exists l'. unfold reconstruct_segments, save_parser. cbn [p_class p_items].
  assert (Br2 : read_data h2 base = data) by (unfold read_data; rewrite Bw; exact Ba2). rewrite Br2, G. cbn [rbind]. rewrite El. cbn [rbind]. split; [reflexivity|]. clear El E P. split.
  - unfold segments_lines. induction F as [|s s' l l' X F IH]; [reflexivity|]. inversion P2 as [|a b P3 P4]; subst a b. cbn [map]. rewrite (IH P4), (back_text _ _ _ _ _ (proj1 P3) X). reflexivity.
  - induction F as [|s s' l l' X F IH]; [constructor|]. inversion P2 as [|a b P3 P4]; subst a b. constructor; [|exact (IH P4)].
    destruct P3 as (X1 & X2 & X3 & X4 & _). pose proof (b_ok _ _ _ _ _ X) as Xo. split; [rewrite read_data_shows by exact Xo; rewrite (b_data _ _ _ _ _ X), (b_shows _ _ _ _ _ X), Ba2; reflexivity|].
    intros n Hn. pose proof (back_len _ _ _ _ _ X1 X) as Lb. pose proof (zlen_shows _ _ X1) as Lz. pose proof (shows_range _ _ X1) as Rg. rewrite Forall_forall in Rg.
    pose proof (Rg _ (getb_In (shows h'' (g_raw s)) n ltac:(lia))) as Hp. set (q := getb (shows h'' (g_raw s)) n) in *.
    assert (Cm : forall m : Z, dget m (comments h2 (g_raw s')) = dget m (comments h'' (g_raw s))).
    { intros m. unfold comments. rewrite (b_extra _ _ _ _ _ X), X4. fold (comments h2 base) (comments h'' r). rewrite S5, Bc. cbn [dget]. destruct (dget m (comments h'' r)); reflexivity. }
    split.
    + rewrite !get_comment_eq by (first [assumption|lia]). rewrite (b_shows _ _ _ _ _ X), Cm. reflexivity.
    + rewrite !read_style_shows by assumption. rewrite (b_shows _ _ _ _ _ X), !getb_map by lia. fold q. rewrite (b_style _ _ _ _ _ X), X3, S1.
      * rewrite Bs, getb_zrepeat by (rewrite X2 in Hp; lia). reflexivity.
      * unfold shows. rewrite W. cbn [positions]. apply In_zrange. rewrite X2 in Hp. exact Hp.
Qed.
Print Assumptions C89_annotations_partial.

(** * What does not come back *)
(** A parser is restored once: afterwards, as before it was saved, its segments cannot be
    given other data. *)
Theorem C89_again_refuted e k h r p i h' l h0 data h1 base q :
  raw_ok h r -> r_win r = WAll -> raw_len h r <= 2147483648 -> restorable i ->
  image_segments h r p i = (h', Ok l) ->
  new_raw h0 data = (h1, base) -> zlen data = raw_len h r -> get_image e k data = Ok tt ->
  reconstruct_segments e h1 base (save_parser h' k l) = Ok q ->
  reconstruct_segments e h1 base q = Err EAttribute.
Proof.
  intros R W Hl C E N Zd G Ep. destruct (C89_saved_list_partial e k h r p i h' l h' h0 data h1 base R W Hl C E (shape_refl h') N Zd G) as (l' & El & F & _).
  rewrite El in Ep. injection Ep as <-. unfold reconstruct_segments. cbn [p_class p_items]. destruct (fresh_raw _ _ _ _ N) as (_ & _ & _ & -> & _). rewrite G. cbn [rbind].
  assert (Ne : l <> []).
  { assert (Wh : forall menu m, with_whole r menu m = (h', Ok l) -> l <> []).
    { intros menu [x [l1|y]]; unfold with_whole; cbn [hbind]; [|discriminate]. intros X. injection X as _ <-. discriminate. }
    exact (Wh _ _ E). }
  destruct F as [|s s' l l' _ _]; [congruence|]. reflexivity.
Qed.
Print Assumptions C89_again_refuted.
(** The parser of raw data has no image class: it cannot be restored. *)
Theorem C89_raw_refuted e h base h' l : reconstruct_segments e h base (save_parser h' Raw l) = Err EType.
Proof. reflexivity. Qed.
(** A catalog without sectors comes back as the whole disk. *)
Definition no_catalog : list Z := zrepeat 0 69671 ++ [122] ++ zrepeat 0 12 ++ [35; 16] ++ zrepeat 0 73674.
Lemma no_catalog_parsed e : parse_image e false PDos33 no_catalog = Ok (IDos33 (mkI no_catalog (H3 0) [] true)).
Proof. vm_cast_no_check (eq_refl (Ok (IDos33 (mkI no_catalog (H3 0) [] true)))). Qed.
Lemma empty_catalog_list h r b : image_raw h r b -> zlen b = 143360 -> r_win r = WAll ->
  exists h' l s, image_segments h r PDos33 (IDos33 (mkI b (H3 0) [] true)) = (h', Ok l) /\ In s l /\ g_name s = txt "Catalog" /\
    r_data (g_raw s) = r_data r /\ r_win (g_raw s) = WOrder [] /\ zlen (arr h' (r_data r)) = 143360.
Proof.
  intros Ir Hb W. pose proof (image_raw_len _ _ _ Ir) as Hlen. destruct Ir as (R & Nd & Hl & Rb). assert (L : raw_len h r = 143360) by lia.
  unfold image_segments, with_whole, parse_segments, parse_segments3, pure. cbn [i_hdr i_files i_bytes].
  destruct (boot_list3_ok h r 0 [(0, 0, 0x800, "Boot 1"%string); (1, 9, 0x3700, "Boot 2"%string); (0x0a, 0x0b, 0x1b00, "Relocator"%string); (0x0c, 0x0c + 25, 0x1d00, "Boot 3"%string)] R L) as (bs & Eb & Mb).
  { repeat (constructor; [lia|]). constructor. }
  unfold boot_segs3. rewrite Eb. cbn [hbind]. unfold vtoc_segs3, pure. cbn [i_hdr]. rewrite get_pos3_in by lia. cbn [hbind fst snd].
  pose proof (slice_window r h (272 * 256) (272 * 256 + (0 + 256)) R ltac:(lia) ltac:(lia)) as W1. set (s1 := raw_slice h r (Some (272 * 256)) _) in *.
  destruct (vtoc_notes3_ok (256 * 272)) as (V1 & _).
  change (zrange (272 * 256) (272 * 256 + (0 + 256))) with (zrange (256 * 272) (256 * 272 + 256)) in W1.
  destruct (marks_annotate r s1 _ vtoc_notes3 h R Nd W1) as (h1 & E1 & K1); [rewrite zlen_zrange'; exact V1|]. rewrite E1. cbn [hbind].
  unfold catalog_segs3, pure. cbn [i_hdr i_bytes h_fdir H3 catalog_runs]. change (catalog_runs (fuel33 (H3 0)) (H3 0) b 0) with (@Ok (list (Z * Z)) []). cbn [hbind].
  change (run_positions []) with (@nil Z). cbn [to_numpy_list map]. unfold raw_indexed. rewrite W. cbn [nindexes rbind map hbind].
  set (s2 := mkR (r_data r) (r_style r) (r_extra r) (WOrder [])). cbv zeta. change (raw_len h1 s2) with 0. cbn [Z.to_nat catalog_notes3].
  destruct (annotate h1 s2 []) as [h2 x] eqn:E2. assert (Ex : x = Ok tt) by (unfold annotate in E2; cbn [each] in E2; congruence). subst x.
  assert (Eh : h2 = mark_data h1 s2) by (unfold annotate in E2; cbn [each] in E2; congruence). cbn [hbind each_file].
  eexists h2, _, (mkSeg KDefault (txt "Catalog") 0 s2). split; [reflexivity|]. split; [right; do 3 (apply in_or_app; right); left; reflexivity|].
  cbn [g_name g_raw s2 r_data r_win]. repeat (split; [reflexivity|]). destruct (marks_raw r _ _ _ _ r K1 R) as (R1 & _ & L1).
  assert (P2 : raw_ok h1 s2) by (destruct R1 as (A1 & A2 & A3 & A4 & A5 & A6); unfold raw_ok, s2; cbn [r_data r_style r_extra r_win win_ok]; auto 8).
  assert (F2 : Forall (fun p => 0 <= p < zlen (arr h1 (r_data s2))) (win_slice (raw_len h1 s2) (r_win s2) None None)).
  { rewrite win_slice_shows by exact P2. apply pyslice_Forall, shows_range, P2. }
  destruct (upd_style_facts (fun _ => style_bits k_data) h1 s2 _ P2 F2) as (_ & _ & _ & Z2 & _). rewrite Eh. unfold mark_data. rewrite Z2.
  unfold raw_len in L1, L. rewrite W in L1, L. lia.
Qed.
Theorem C89_catalog_refuted e h0 h1 base : new_raw h0 no_catalog = (h1, base) ->
  exists h r i h' l s s', raw_ok h r /\ r_win r = WAll /\ read_data h r = no_catalog /\
  parse_image e false PDos33 no_catalog = Ok i /\ image_segments h r PDos33 i = (h', Ok l) /\
  In s l /\ g_name s = txt "Catalog" /\ read_data h' (g_raw s) = [] /\
  reconstruct_raw h1 base (save_seg h' s) = Ok (Live s') /\ g_name s' = txt "Catalog" /\ read_data h1 (g_raw s') = no_catalog /\ no_catalog <> [].
Proof.
  pose proof (no_catalog_parsed e) as Ep. assert (Lb : zlen no_catalog = 143360) by (unfold no_catalog; rewrite !zlen_app, !zlen_zrepeat by lia; reflexivity).
  generalize dependent no_catalog. intros b Ep Lb N. pose proof (new_raw_image (mkHp [] []) b ltac:(lia)) as Ir. set (h := fst (new_raw (mkHp [] []) b)) in *. set (r := snd (new_raw (mkHp [] []) b)) in *.
  destruct (empty_catalog_list h r b Ir Lb eq_refl) as (h' & l & s & El & Hs & Ns & Ds & Ws & Zs). destruct (fresh_raw _ _ _ _ N) as (B & Bw & Ba & Br & _).
  exists h, r, (IDos33 (mkI b (H3 0) [] true)), h', l, s, (mkSeg (g_kind s) (g_name s) (g_origin s) (raw_slice h1 base (Some 0) (Some 143360))).
  split; [apply Ir|]. split; [reflexivity|]. split; [apply Ir|]. split; [exact Ep|]. split; [exact El|]. split; [exact Hs|]. split; [exact Ns|].
  split; [unfold read_data; rewrite Ws; reflexivity|]. split; [|split; [exact Ns|split]].
  - unfold save_seg, reconstruct_raw, reconstruct, get_state, byte_bounds. cbn [st_bounds st_order fst snd]. rewrite Ws, Ds. cbn [fst snd rbind]. rewrite Zs. reflexivity.
  - cbn [g_raw]. destruct (raw_slice_shows h1 base (Some 0) (Some 143360) B) as (R' & S' & D1 & _). rewrite read_data_shows by exact R'. rewrite S', D1, Ba.
    replace (shows h1 base) with (zrange 0 143360) by (unfold shows; rewrite Bw, Ba, Lb; reflexivity). rewrite pyslice_whole by lia. rewrite <- Lb. apply map_range.
  - clear - Lb. intros ->. cbn in Lb. lia.
Qed.
Print Assumptions C89_catalog_refuted.

(** * Example *)
(** A SpartaDOS disk is listed, saved and restored. *)
Example C89_example e : exists h r i h' l, raw_ok h r /\ r_win r = WAll /\ raw_len h r <= 2147483648 /\ restorable i /\ read_data h r = Properties_SegList.sparta_demo /\
  parse_image e false PSparta Properties_SegList.sparta_demo = Ok i /\ image_segments h r PSparta i = (h', Ok l) /\ zlen l = 9 /\
  bytes_ok (arr h' (r_style r)) /\ NoDup (map fst (comments h' r)).
Proof.
  destruct (fresh_raw (mkHp [] []) Properties_SegList.sparta_demo _ _ eq_refl) as (R & Rw & _ & Rd & Rs & Rc). eexists _, _, _, _, _.
  split; [exact R|]. split; [exact Rw|]. split; [vm_compute; discriminate|]. split; [|split; [exact Rd|split; [vm_compute; reflexivity|split; [vm_compute; reflexivity|split; [vm_compute; reflexivity|split]]]]].
  - exact Logic.I.
  - apply Properties_Sparta.bytes_okb. vm_compute. reflexivity.
  - constructor.
Qed.
(** A comment made on the first byte of A.TXT is there again. *)
Example C89_comment_example : exists i l p2 s2,
  let h := fst (new_raw (mkHp [] []) Properties_SegList.sparta_demo) in
  let r := snd (new_raw (mkHp [] []) Properties_SegList.sparta_demo) in
  open_sparta Properties_SegList.sparta_demo = Ok i /\ image_segments h r PSparta (ISparta i) = (h, Ok l) /\
  let h' := fst (set_comment_at h (g_raw (nth 8 l (mkSeg KDefault [] 0 r))) 3 [104; 105]) in
  let h2 := restore_session h r (serialize_session h' r) in
  reconstruct_segments Properties_Detect.env0 h2 r (save_parser h' (Format PSparta) l) = Ok p2 /\ nth_error (p_items p2) 8 = Some (Live s2) /\
  get_comment h2 (g_raw s2) 3 = Ok [104; 105] /\ comments h2 r = [(771, [104; 105])].
Proof. eexists _, _, _, _. cbv zeta. split; [vm_compute; reflexivity|]. split; [vm_compute; reflexivity|]. split; [vm_compute; reflexivity|]. split; [reflexivity|]. split; vm_compute; reflexivity. Qed.
