(** C90: every recognised image is listed by the segments command, and can be an object
    file of the assemble and boot commands. *)
From Coq Require Import String.
From Verif Require Import Base BaseLemmas DiskModel AtariModel AtariSpec AtariGeom SpartaModel ExecModel SegModel SegSpec SegProofs SegProofs2 TextModel DetectModel DetectSpec.
From Verif Require Import Dos33Model Dos33Spec Dos33Geom Dos33Files Dos33Ops DetectDsk Properties_Detect3 EditModel EditAtari SegList33 SegListModel SegListSpec SegListProofs SegListAtari SegListOther SegListExec SegSaveProofs SegListTotal ObjModel ObjBytes.
From Verif Require Import ExecModel ExecSpec ExecProofs CliModel MainModel MainProofs MainProofs2 ObjProofs Properties_SegList2.
From Verif Require CartModel SegProofs6 Properties_SegSave Properties_SegList Properties_Edit Properties_Main Properties_Main2 Properties_Detect Properties_Sparta.
Import Properties_Main2.

(** * The segments command *)
(** It lists every recognised image and changes no file; the list is that of C88, of the
    image as it was read. *)
Theorem C90_segments_listed w o f img b fd u : img <> [46] -> f img = Some b -> find_diskimage (w_env w) b = Ok fd -> unpacked (w_env w) b = Ok u -> bytes_ok u ->
  exists h0 r h l strict, new_raw (mkHp [] []) u = (h0, r) /\ parse_image (w_env w) strict (f_class fd) u = Ok (f_image fd) /\
    image_segments h0 r (f_class fd) (f_image fd) = (h, Ok l) /\ main w o f img KSegments = (f, map MLine (segments_lines h l), Ok tt).
Proof.
  intros N F D U B. destruct (file_listed (w_env w) b fd u U B D) as (h0 & r & h & l & E1 & E2 & E3). destruct (found_parsed _ _ _ _ U D) as (strict & P).
  exists h0, r, h, l, strict. split; [exact E1|]. split; [exact P|]. split; [exact E2|].
  cbn [main]. rewrite (not_dot _ N), F, D. unfold segments_command, file_lines. rewrite E3. reflexivity.
Qed.
Print Assumptions C90_segments_listed.

(** The same for any data in memory (C88). *)
Theorem C88_always_listed e strict p h r b im : r_win r = WAll -> bytes_ok b -> raw_ok h r -> read_data h r = b -> parse_image e strict p b = Ok im ->
  exists h' l, image_segments h r p im = (h', Ok l).
Proof. intros W. apply always_listed. exact W. Qed.
Print Assumptions C88_always_listed.
(** What is used is bytes. *)
Theorem C90_object_bytes w f n b fd run m l run' : f n = Some b -> n <> [46] -> find_diskimage (w_env w) b = Ok fd -> unpacks_bytes (w_env w) b -> obj_segs w f [n] run = (m, Ok (l, run')) ->
  Forall (fun s => bytes_ok (i_data s)) l.
Proof.
  intros F N D U E. refine (obj_bytes w f [n] [n] run m l run' _ (fun x H => H) E). intros p d [<-|[]] Fp. rewrite F in Fp. injection Fp as <-. exact U.
Qed.
Print Assumptions C90_object_bytes.

(** * Executables *)
(** The segments that parsing finds are the segments of the list; the container segment
    before them changes nothing. *)
Definition seen (x : xseg) : bool * Z * list Z := (x_runad x, x_origin x, x_data x).
Lemma take_seen : forall ss ss', map seen ss = map seen ss' -> forall run, take_segs ss run = take_segs ss' run.
Proof.
  induction ss as [|s r IH]; intros [|s' r'] E run; try discriminate; [reflexivity|]. cbn [map] in E. unfold seen in E at 1 3. injection E as E1 E2 E3 E4. cbn [take_segs].
  unfold run_address. rewrite E1, E2, E3. destruct (x_runad s'); [|rewrite (IH _ E4); reflexivity]. destruct (_ <? 2); cbn [rbind]; [reflexivity|]. apply IH, E4.
Qed.
Definition is_run (s : seg) : bool := match g_kind s with KRun _ _ => true | _ => false end.
Lemma flat_objects h l : Forall (fun s => flat (g_raw s)) l -> object_segs h l = Ok (map (fun s => mkX (is_run s) NoName 0 0 (g_origin s) (read_data h (g_raw s))) l).
Proof.
  induction 1 as [|s l U F IH]; [reflexivity|]. cbn [object_segs map]. rewrite IH.
  assert (X : object_seg h s = Ok (mkX (is_run s) NoName 0 0 (g_origin s) (read_data h (g_raw s)))).
  { unfold object_seg, is_run. cbv zeta. destruct (g_kind s); try reflexivity; destruct (r_win (g_raw s)) as [| |w] eqn:Ew; try reflexivity; destruct (U w Ew). }
  rewrite X. reflexivity.
Qed.
Lemma flat_xex r b : flat r -> forall fuel h pos spos first l, snd (xex_loop fuel h r b pos spos first) = Ok l -> Forall (fun s => flat (g_raw s)) l.
Proof.
  intros Fr. induction fuel as [|f IH]; intros h pos spos first l; cbn [xex_loop]; [discriminate|].
  destruct (negb (pos <? zlen b)); [intros E; injection E as <-; constructor|].
  destruct (negb _); [intros E; injection E as <-; constructor; [cbn [g_raw]; apply flat_slice, Fr|constructor]|].
  destruct (_ =? 0xffff); [apply IH|]. destruct first; [discriminate|]. destruct (_ <? 4); [intros E; injection E as <-; constructor; [cbn [g_raw]; apply flat_slice, Fr|constructor]|].
  cbv zeta. destruct (_ <? _); [discriminate|]. destruct (_ <? _); [intros E; injection E as <-; constructor; [cbn [g_raw]; apply flat_slice, Fr|constructor]|].
  match goal with |- context[xex_loop f ?a r b ?c ?d false] => pose proof (IH a c d false) as X; destruct (xex_loop f a r b c d false) as [h2 [l2|e]] end; cbn [hbind snd] in *; [|discriminate].
  intros E. injection E as <-. constructor; [cbn [g_raw]; apply flat_slice, Fr|exact (X l2 eq_refl)].
Qed.
Lemma lines_runs ps : forall pos, map (fun e => match n_kind e with KRun _ _ => true | _ => false end) (piece_lines pos ps) = map x_runad (reports pos ps).
Proof.
  induction ps as [|p q IH]; intros pos; [reflexivity|]. cbn [piece_lines reports]. rewrite !map_app, IH. f_equal. destruct p; cbn; try reflexivity. destruct (origin =? 0x2e0) eqn:E; rewrite ?E; reflexivity.
Qed.
Lemma reports_loaded ps : forall pos, map (fun x => (x_origin x, x_data x)) (reports pos ps) = flat_map loaded ps.
Proof. induction ps as [|p q IH]; intros pos; [reflexivity|]. cbn [reports flat_map]. rewrite map_app, IH. f_equal. destruct p; reflexivity. Qed.
Lemma seen_split (xs : list xseg) : map seen xs = combine (combine (map x_runad xs) (map fst (map (fun x => (x_origin x, x_data x)) xs))) (map snd (map (fun x => (x_origin x, x_data x)) xs)).
Proof. induction xs as [|x xs IH]; [reflexivity|]. cbn [map combine fst snd]. rewrite IH. reflexivity. Qed.
Theorem C90_executable_segments e b fd u ss : unpacked e b = Ok u -> bytes_ok u -> zlen u <= 2147483648 -> find_diskimage e b = Ok fd ->
  (f_image fd = IXex ss \/ exists s, f_image fd = IBin s /\ ss = [s]) ->
  exists xs, file_objects e b fd = Ok xs /\ forall run, take_segs xs run = take_segs ss run.
Proof.
  intros U B L D C. destruct (file_listed e b fd u U B D) as (h0 & r & h & l & E1 & E2 & E3). destruct (found_parsed _ _ _ _ U D) as (strict & P).
  destruct (opened_raw u h0 r E1) as (R & W & Q). pose proof (flat_r r W) as Fr.
  assert (Ir : image_raw h0 r u). { pose proof (Properties_Edit.new_raw_image (mkHp [] []) u L) as X. rewrite E1 in X. exact X. }
  assert (Whole : forall run s ss, g_kind s = KDefault -> g_origin s = 0 -> take_segs (mkX (is_run s) NoName 0 0 (g_origin s) (read_data h (g_raw s)) :: ss) run = take_segs ss run).
  { intros run s ss0 K0 O0. cbn [take_segs x_runad x_origin x_data]. unfold is_run. rewrite K0, O0. destruct (take_segs ss0 run) as [[a c]|]; reflexivity. }
  unfold file_objects. rewrite E3. cbn [rbind]. destruct C as [C|(s & C & ->)].
  - assert (Cl : f_class fd = PXex).
    { rewrite C in P. destruct (f_class fd); cbn [parse_image] in P; try reflexivity; exfalso; revert P; unfold cart_image, rom_image, mame_image, prodos_image;
      repeat (match goal with |- context[rbind ?x _] => destruct x; cbn [rbind] | |- context[match ?x with _ => _ end] => destruct x end; try discriminate). }
    rewrite Cl, C in *. destruct (C88_xex_list e strict h0 r u _ B Ir P) as (ps & h' & l' & P1 & P2 & P3 & P4 & P5 & P6 & _ & P7). rewrite E2 in P5. assert (h' = h /\ l' = l) as [-> ->] by (split; congruence).
    assert (ss = reports 0 ps) as -> by congruence.
    assert (Fl : Forall (fun s => flat (g_raw s)) l).
    { unfold image_segments, with_whole, parse_segments, xex_parse_segments in E2. pose proof (flat_xex r (read_data h0 r) Fr (S (length (read_data h0 r))) h0 0 0 true) as X.
      destruct (xex_loop _ _ _ _ _ _ _) as [h1 [l1|]]; cbn [hbind] in E2; [|discriminate]. injection E2 as _ <-. constructor; [exact Fr|exact (X l1 eq_refl)]. }
    rewrite (flat_objects h l Fl). eexists. split; [reflexivity|]. inversion P7 as [|s0 e0 segs es S0 S1]; subst l. cbn [map]. intros run. rewrite Whole by (first [exact (si_kind _ _ _ _ S0)|exact (si_origin _ _ _ _ S0)]).
    apply take_seen. rewrite !seen_split. rewrite reports_loaded, <- lines_runs. rewrite !map_map. cbn [x_runad x_origin x_data fst snd].
    pose proof P6 as (_ & _ & _ & P8). rewrite P3 in P8. pose proof (C88_xex_shows h r ps _ _ P1 P8 P7) as X. cbn [tl] in X. rewrite <- X. rewrite !map_map. cbn [fst snd].
    f_equal. f_equal. clear - S1. induction S1 as [|s e l es X _ IH]; [reflexivity|]. cbn [map]. rewrite IH. unfold is_run. rewrite (si_kind _ _ _ _ X). reflexivity.
  - assert (Cl : f_class fd = PBin).
    { rewrite C in P. destruct (f_class fd); cbn [parse_image] in P; try reflexivity; exfalso; revert P; unfold cart_image, rom_image, mame_image, prodos_image;
      repeat (match goal with |- context[rbind ?x _] => destruct x; cbn [rbind] | |- context[match ?x with _ => _ end] => destruct x end; try discriminate). }
    rewrite Cl, C in *. destruct (C88_bin_list e strict h0 r u _ B Ir P) as (h' & l' & P1 & P2 & P3 & P4 & P5 & _ & P6). rewrite E2 in P4. assert (h' = h /\ l' = l) as [-> ->] by (split; congruence).
    assert (Es : s = mkX false NoName 0 4 (le2 (getb u 0) (getb u 1)) (slice u 4 (zlen u))) by congruence.
    assert (Fl : Forall (fun s => flat (g_raw s)) l).
    { unfold image_segments, with_whole, parse_segments, bin_parse_segments in E2. cbv zeta in E2. destruct (_ =? 4); [|discriminate]. destruct (negb _); [discriminate|].
      destruct (_ =? _); cbn [hbind] in E2; [|discriminate]. injection E2 as _ <-. constructor; [exact Fr|]. constructor; [cbn [g_raw]; apply flat_slice, Fr|constructor]. }
    rewrite (flat_objects h l Fl). eexists. split; [reflexivity|]. inversion P6 as [|s0 e0 segs es S0 S1]; subst l. inversion S1 as [|s1 e1 segs1 es1 S2 S3]; subst segs. inversion S3; subst segs1. cbn [map]. intros run.
    rewrite Whole by (first [exact (si_kind _ _ _ _ S0)|exact (si_origin _ _ _ _ S0)]). apply take_seen. cbn [map]. unfold seen. rewrite Es. cbn [x_runad x_origin x_data]. unfold is_run.
    rewrite (si_kind _ _ _ _ S2), (si_origin _ _ _ _ S2), (si_bytes _ _ _ _ S2). cbn [n_kind n_origin n_at]. pose proof P5 as (_ & _ & _ & ->). rewrite slice_map_range by lia. reflexivity.
Qed.
Print Assumptions C90_executable_segments.

(** * Other images *)
(** Every segment of the list that has an address is used, in the order of the list, at
    its address and with the bytes it shows; no address to run is found. *)
Theorem C90_objects_partial w f n b fd u : n <> [46] -> f n = Some b -> find_diskimage (w_env w) b = Ok fd -> unpacked (w_env w) b = Ok u -> bytes_ok u -> plain_image (f_image fd) ->
  exists h l ss, file_segments (w_env w) b fd = Ok (h, l) /\ segs_in w f n ss /\ used ss = loads h l /\ start_of ss = None /\ runs_whole ss /\
    forall run, obj_segs w f [n] run = ([], Ok (loads h l, run)).
Proof.
  intros N F D U B C. destruct (file_listed (w_env w) b fd u U B D) as (h0 & r & h & l & E1 & E2 & E3). destruct (opened_raw u h0 r E1) as (R & W & Q).
  pose proof (u_image r W h0 (f_class fd) (f_image fd) C) as X. rewrite E2 in X. specialize (X l eq_refl). destruct (usable_objects h l X) as (ss & O1 & O2 & O3 & O4 & _).
  assert (P : parser_segs (w_env w) b fd = Ok ss).
  { unfold parser_segs, file_objects. rewrite E3. cbn [rbind]. rewrite O1. destruct (f_image fd); try reflexivity; destruct C. }
  exists h, l, ss. split; [exact E3|]. split; [split; [exact N|]; exists b, fd; auto|]. split; [exact O2|]. split; [exact O3|]. split; [intros s Hs Hr; rewrite (O4 s Hs) in Hr; discriminate|].
  intros run. cbn [obj_segs]. rewrite (not_dot _ N), F, D, P. cbn [rbind]. rewrite (take_none ss O4), O2. cbn [rbind]. rewrite app_nil_r. reflexivity.
Qed.
Print Assumptions C90_objects_partial.

(** * DOS 3.3 *)
(** The segment of a file is an indexed one, unless it has no address. *)
Definition filed (s : seg) : Prop := (forall a b, g_kind s <> KRun a b) /\ (g_origin s = 0 \/ exists o, r_win (g_raw s) = WOrder o).
Lemma raw_indexed_order h r ix x : raw_indexed h r ix = Ok x -> exists o, r_win x = WOrder o.
Proof. unfold raw_indexed. destruct (r_win r); destruct (nindexes _ _); cbn [rbind]; try discriminate; intros E; injection E as <-; cbn [r_win]; eauto. Qed.
Lemma file3_filed r im h d s : snd (file_seg3 r im h d) = Ok s -> filed s.
Proof.
  unfold file_seg3. destruct (file_segment3 h r im d) as [h1 [x|]] eqn:F; cbn [hbind snd]; [|discriminate]. unfold pure. cbn [snd]. revert F. unfold file_segment3. destruct (negb _); [discriminate|].
  destruct (get_tslist _ _ _ _) as [[t [|n0 m]]|]; try discriminate. cbn [rbind]. destruct (read_map _ _ _) as [runs|]; [|discriminate]. cbn [rbind].
  destruct (run_positions runs) as [|p o]; [intros _ E; injection E as <-; split; [discriminate|left; reflexivity]|]. destruct (raw_indexed h r _) as [y|] eqn:X; [|discriminate]. apply raw_indexed_order in X.
  cbn [List.hd]. destruct (d3_type d =? 4).
  - destruct (get_raw3 _ _ n0) as [[q z]|]; [|discriminate]. destruct (_ <? 2); [discriminate|]. intros E. assert (x = y) as -> by congruence. cbn [rbind]. intros E2. injection E2 as <-. split; [discriminate|right; exact X].
  - intros _ E2. injection E2 as <-. split; [discriminate|left; reflexivity].
Qed.
Lemma each_filed {D} (name : D -> list Z) make r ds : (forall h d s, snd (make h d) = Ok s -> filed s) -> forall h l, snd (each_file name make r h ds) = Ok l -> Forall2 (fun _ => filed) ds l.
Proof.
  intros M. induction ds as [|d ds IH]; intros h l; cbn [each_file]; [intros E; injection E as <-; constructor|]. pose proof (M h d) as X. destruct (make h d) as [h1 [s|e]]; cbn [snd] in X.
  - specialize (IH h1). destruct (each_file name make r h1 ds) as [h2 [l2|]]; cbn [hbind snd] in *; [|discriminate]. intros E. injection E as <-. constructor; [exact (X s eq_refl)|exact (IH l2 eq_refl)].
  - destruct (is_invalid_file e); [|discriminate]. specialize (IH h1). destruct (each_file name make r h1 ds) as [h2 [l2|]]; cbn [hbind snd] in *; [|discriminate]. intros E. injection E as <-.
    constructor; [split; [discriminate|left; reflexivity]|exact (IH l2 eq_refl)].
Qed.
Lemma dos33_split h r im l : r_win r = WAll -> snd (image_segments h r PDos33 (IDos33 im)) = Ok l -> exists a e, l = a ++ e /\ Forall usable a /\ Forall2 (fun _ => filed) (i_files im) e.
Proof.
  intros W. pose proof (flat_r r W) as Fl. unfold image_segments, with_whole, parse_segments, parse_segments3. cbv zeta.
  destruct (boot_segs3 h r (i_hdr im)) as [b|] eqn:B; cbn [pure hbind snd]; [|discriminate].
  assert (Ub : Forall usable b).
  { revert B. unfold boot_segs3. cbn [boot_list3]. do 4 (destruct (slice_bounds3 _ _ _) as [[? ?]|]; cbn [rbind]; [|discriminate]). intros E. injection E as <-. all_usable. }
  destruct (vtoc_segs3 h r im) as [h1 [c|]] eqn:C; cbn [hbind snd]; [|discriminate].
  assert (Uc : Forall usable c).
  { assert (X : usables (vtoc_segs3 h r im)) by (unfold vtoc_segs3; apply u_any; intros h2 p; cbv zeta; apply u_any; intros h3 u; apply u_ok; all_usable). rewrite C in X. exact (X c eq_refl). }
  destruct (catalog_segs3 h1 r im) as [h2 [d|]] eqn:D; cbn [hbind snd]; [|discriminate].
  assert (Ud : Forall usable d).
  { assert (X : usables (catalog_segs3 h1 r im)) by (unfold catalog_segs3; apply u_any; intros h3 p; apply u_any; intros h4 s; cbv zeta; apply u_any; intros h5 u; apply u_ok; all_usable). rewrite D in X. exact (X d eq_refl). }
  pose proof (each_filed d3_name (file_seg3 r im) r (i_files im) (file3_filed r im) h2) as X.
  destruct (each_file d3_name (file_seg3 r im) r h2 (i_files im)) as [h3 [e|]]; cbn [hbind snd] in *; [|discriminate]. intros E. injection E as <-.
  exists (whole_seg r (menu_name PDos33) :: head_segs3 h r (i_hdr im) ++ b ++ c ++ d), e. split; [cbn [app]; rewrite <- !app_assoc; reflexivity|]. split; [|exact (X e eq_refl)].
  constructor; [unfold whole_seg; one_usable|]. repeat (apply Forall_app; split); try assumption. unfold head_segs3, header_seg. all_usable.
Qed.
Lemma objects_fail h a : forall l, Forall usable l \/ Forall (fun s => usable s \/ filed s) l -> In a l -> 0 < g_origin a -> filed a -> object_segs h l = Err EType.
Proof.
  intros l U. assert (V : Forall (fun s => usable s \/ filed s) l) by (destruct U as [U|U]; [eapply Forall_impl; [|exact U]; intros s; auto|exact U]). clear U.
  induction V as [|s l Q V IH]; intros I P F; [destruct I|]. cbn [object_segs].
  assert (K : forall x y, g_kind s <> KRun x y) by (destruct Q as [Q|Q]; apply Q).
  assert (T : (exists x, object_seg h s = Ok x) \/ object_seg h s = Err EType).
  { unfold object_seg. cbv zeta. destruct (g_kind s); try (left; eexists; reflexivity); destruct (r_win (g_raw s)); try (left; eexists; reflexivity); destruct (0 <? g_origin s); eauto. }
  destruct I as [->|I].
  - destruct F as (_ & [F|(o & F)]); [lia|]. unfold object_seg. cbv zeta. rewrite F. destruct (Z.ltb_spec 0 (g_origin a)); [|lia]. destruct (g_kind a) eqn:Ek; try reflexivity. destruct (K meta start eq_refl).
  - rewrite (IH I P F). destruct T as [(x & T)|T]; rewrite T; reflexivity.
Qed.
Lemma app_split {A} (a b c d : list A) : length b = length d -> a ++ b = c ++ d -> a = c /\ b = d.
Proof.
  intros L E. assert (length a = length c) by (apply (f_equal (@length A)) in E; rewrite !app_length in E; lia). revert c E H. induction a as [|x a IH]; intros [|y c] E H; try discriminate; [auto|].
  cbn [app] in E. injection E as -> E. destruct (IH c E ltac:(cbn in H; lia)) as (-> & ->). auto.
Qed.
Lemma forall2_len {A B} (P : A -> B -> Prop) l l' : Forall2 P l l' -> length l = length l'. Proof. induction 1; cbn; congruence. Qed.
Lemma forall2_in {A B} (P : A -> B -> Prop) l l' x : Forall2 P l l' -> In x l -> exists y, In y l' /\ P x y.
Proof. induction 1 as [|a b l l' Q F IH]; intros I; [destruct I|]. destruct I as [<-|I]; [exists b; split; [left; reflexivity|exact Q]|]. destruct (IH I) as (y & Y1 & Y2). exists y. split; [right; exact Y1|exact Y2]. Qed.
Lemma forall2_in' {A B} (P : A -> B -> Prop) l l' y : Forall2 P l l' -> In y l' -> exists x, In x l /\ P x y.
Proof. induction 1 as [|a b l l' Q F IH]; intros I; [destruct I|]. destruct I as [<-|I]; [exists a; split; [left; reflexivity|exact Q]|]. destruct (IH I) as (z & Y1 & Y2). exists z. split; [right; exact Y1|exact Y2]. Qed.

(** A file of type B that is loaded above address 4 *)
Definition loadable (im : img33) (d : ent) : Prop := In d (i_files im) /\ exists data, find_file3 im (d3_name d) = Ok data /\ 0 < origin3 (d3_type d) data.

Lemma dos33_objects e im : consistent3 im -> unpacked e (i_bytes im) = Ok (i_bytes im) -> detected3 e im ->
  let fd := mkFound M_dsk None PDos33 (IDos33 im) in
  ((exists d, loadable im d) -> parser_segs e (i_bytes im) fd = Err EType) /\
  ((forall d, ~ loadable im d) -> exists cat k ss, dos33_disk (i_bytes im) cat k /\ parser_segs e (i_bytes im) fd = Ok ss /\ used ss = line_loads (i_bytes im) (fixed3 cat) /\
     start_of ss = None /\ forall s, In s ss -> x_runad s = false).
Proof.
  intros C U D fd. destruct (consistent3_vtoc im C) as (L & _ & Hb).
  destruct (file_listed e _ fd _ U Hb D) as (h0 & r & h & l & E1 & E2 & E3). destruct (opened_raw _ h0 r E1) as (R & W & Q).
  assert (Ir : image_raw h0 r (i_bytes im)). { pose proof (Properties_Edit.new_raw_image (mkHp [] []) (i_bytes im) ltac:(lia)) as X. rewrite E1 in X. exact X. }
  destruct (Properties_SegList.C88_dos33_list h0 r im C Ir) as (cat & k & h' & fixed & files & area & D1 & D2 & (_ & _ & _ & D3) & _ & _ & F1 & F2).
  cbn [fd f_class f_image] in E2. rewrite E2 in D2. assert (h' = h /\ l = fixed ++ files) as [-> ->] by (split; congruence).
  destruct (dos33_split h0 r im (fixed ++ files) W ltac:(rewrite E2; reflexivity)) as (a & e0 & S1 & S2 & S3).
  destruct (app_split fixed files a e0) as (-> & ->); [rewrite <- (forall2_len _ _ _ F2), <- (forall2_len _ _ _ S3); reflexivity|exact S1|]. clear S1.
  assert (P : parser_segs e (i_bytes im) fd = object_segs h (a ++ e0)) by (change (parser_segs e (i_bytes im) fd) with (file_objects e (i_bytes im) fd); unfold file_objects; rewrite E3; reflexivity). rewrite P. split.
  - intros (d & Hd & data & G1 & G2). destruct (forall2_in _ _ _ d F2 Hd) as (s & Hs & tl & dl & data' & X).
    assert (data' = data) as -> by (pose proof (df_data _ _ _ _ _ _ _ _ X); congruence).
    apply (objects_fail h s).
    + right. apply Forall_app. split; [eapply Forall_impl; [|exact S2]; intros; left; assumption|]. clear - S3. induction S3; constructor; auto.
    + apply in_or_app. right. exact Hs.
    + rewrite (si_origin _ _ _ _ (df_seg _ _ _ _ _ _ _ _ X)). exact G2.
    + destruct (forall2_in' _ _ _ s S3 Hs) as (_ & _ & Y). exact Y.
  - intros N.
    assert (Z0 : Forall (fun s => usable s /\ g_origin s <= 0) e0).
    { apply Forall_forall. intros s Hs. destruct (forall2_in' _ _ _ s F2 Hs) as (d & Hd & tl & dl & data & X). destruct (forall2_in' _ _ _ s S3 Hs) as (_ & _ & (Y1 & Y2)).
      pose proof (si_origin _ _ _ _ (df_seg _ _ _ _ _ _ _ _ X)) as O. cbn [n_origin entry3] in O.
      assert (g_origin s <= 0). { destruct (Z.le_gt_cases (g_origin s) 0); [assumption|]. destruct (N d). split; [exact Hd|]. exists data. split; [exact (df_data _ _ _ _ _ _ _ _ X)|]. lia. }
      split; [|assumption]. split; [exact Y1|left; assumption]. }
    assert (Ua : Forall usable (a ++ e0)) by (apply Forall_app; split; [exact S2|eapply Forall_impl; [|exact Z0]; intros s (X & _); exact X]).
    destruct (usable_objects h _ Ua) as (ss & O1 & O2 & O3 & O4 & _). exists cat, k, ss. split; [exact D1|]. split; [exact O1|]. split; [|split; [exact O3|exact O4]].
    rewrite O2, loads_app, (loads_lines h r _ a _ D3 F1). assert (X : loads h e0 = []).
    { clear - Z0. unfold loads. induction Z0 as [|s l (_ & X) _ IH]; [reflexivity|]. cbn [flat_map]. rewrite IH. destruct (Z.ltb_spec 0 (g_origin s)); [lia|reflexivity]. }
    rewrite X, app_nil_r. reflexivity.
Qed.

(** Without files of type B, the four parts of DOS in the first tracks are used. *)
Theorem C90_dos33_object_partial w f n im : n <> [46] -> f n = Some (i_bytes im) -> consistent3 im -> unpacked (w_env w) (i_bytes im) = Ok (i_bytes im) -> detected3 (w_env w) im ->
  (forall d, ~ loadable im d) ->
  let b := i_bytes im in
  forall run, obj_segs w f [n] run = ([], Ok ([mkI 0x800 (slice b 0 256); mkI 0x3700 (slice b 256 2560); mkI 0x1b00 (slice b 2560 3072); mkI 0x1d00 (slice b 3072 9728)], run)).
Proof.
  intros N F C U D L b run. destruct (proj2 (dos33_objects (w_env w) im C U D) L) as (cat & k & ss & D1 & O1 & O2 & O3 & O4).
  cbn [obj_segs]. rewrite (not_dot _ N), F, D, O1. cbn [rbind]. rewrite (take_none ss O4), O2. cbn [rbind]. rewrite app_nil_r. do 3 f_equal.
  pose proof (k3_size _ _ _ D1) as Hl. unfold line_loads, fixed3, boot_entry3. cbn [flat_map n_origin n_at Z.ltb Z.compare app]. fold b in Hl |- *. rewrite !slice_map_range by lia. reflexivity.
Qed.
Print Assumptions C90_dos33_object_partial.
(** With one, nothing is made: the segment of the file cannot be taken, and the command
    ends in a TypeError, on every image and whatever else is to be assembled. *)
Theorem C90_dos33_binary_refuted w o f n im d : n <> [46] -> f n = Some (i_bytes im) -> consistent3 im -> unpacked (w_env w) (i_bytes im) = Ok (i_bytes im) -> detected3 (w_env w) im ->
  loadable im d -> (forall run, obj_segs w f [n] run = ([], Err EType)) /\
  forall img src data run a c, boot_class img <> None -> all_source_segs w f src = Ok a -> data_segs f data = Ok c -> main w o f img (KBoot src data [n] run) = (f, [], Err EType).
Proof.
  intros N F C U D L. pose proof (proj1 (dos33_objects (w_env w) im C U D) (ex_intro _ d L)) as P.
  assert (O : forall run, obj_segs w f [n] run = ([], Err EType)) by (intros run; cbn [obj_segs]; rewrite (not_dot _ N), F, D, P; reflexivity).
  split; [exact O|]. intros img src data run a c K A B. cbn [main]. unfold boot_command, assemble_segments. rewrite A, B, O. destruct (boot_class img); [reflexivity|destruct (K eq_refl)].
Qed.
Print Assumptions C90_dos33_binary_refuted.

(** * Cartridges, KBoot disks, ROMs, MAME files *)
Lemma opened w f n b fd u : n <> [46] -> f n = Some b -> find_diskimage (w_env w) b = Ok fd -> unpacked (w_env w) b = Ok u -> bytes_ok u -> zlen u <= 2147483648 -> plain_image (f_image fd) ->
  exists h0 r h l strict, image_raw h0 r u /\ parse_image (w_env w) strict (f_class fd) u = Ok (f_image fd) /\ image_segments h0 r (f_class fd) (f_image fd) = (h, Ok l) /\
    forall run, obj_segs w f [n] run = ([], Ok (loads h l, run)).
Proof.
  intros N F D U B L C. destruct (file_listed (w_env w) b fd u U B D) as (h0 & r & h & l & E1 & E2 & E3). destruct (found_parsed _ _ _ _ U D) as (strict & P).
  assert (Ir : image_raw h0 r u). { pose proof (Properties_Edit.new_raw_image (mkHp [] []) u L) as X. rewrite E1 in X. exact X. }
  destruct (C90_objects_partial w f n b fd u N F D U B C) as (h' & l' & ss & S1 & _ & _ & _ & _ & S2). rewrite E3 in S1. injection S1 as -> ->. exists h0, r, h', l', strict. auto.
Qed.
(** The parts of a cartridge, the fixed one first, at the addresses of its type *)
Theorem C90_cart_object w f n b fd u t : n <> [46] -> f n = Some b -> find_diskimage (w_env w) b = Ok fd -> unpacked (w_env w) b = Ok u -> bytes_ok u -> zlen u <= 2147483648 ->
  f_class fd = PCart8 t \/ f_class fd = PCart52 t ->
  exists c off, In c CartModel.known_cart_types /\ CartModel.ct_type c = t /\ (off = 0 \/ off = 16) /\ zlen u = off + CartModel.ct_size c * 1024 /\
    forall run, obj_segs w f [n] run = ([], Ok (line_loads u (main_line c off :: bank_lines c off), run)).
Proof.
  intros N F D U B L Cl. destruct (found_parsed _ _ _ _ U D) as (st & P0).
  assert (Pl : plain_image (f_image fd)).
  { revert P0. destruct Cl as [-> | ->]; cbn [parse_image]; unfold cart_image; (destruct (CartModel.open_cart u t); cbn [rbind]; [|discriminate]; destruct st; [destruct (checked _ _)|destruct (CartModel.cart_relaxed _)]; cbn [rbind]; try discriminate; intros E; injection E as <-; exact Logic.I). }
  destruct (opened w f n b fd u N F D U B L Pl) as (h0 & r & h & l & strict & Ir & P & E & O).
  destruct (C88_cart_list (w_env w) strict (f_class fd) t h0 r u (f_image fd) Cl B Ir P) as (c & off & menu & l' & C1 & C2 & C3 & C4 & _ & C5 & C6). rewrite E in C5. assert (h = h0 /\ l = l') as [-> ->] by (split; congruence).
  exists c, off. repeat (split; [assumption|]). intros run. rewrite O. pose proof Ir as (_ & _ & _ & Rb). rewrite (loads_lines h0 r u _ _ Rb C6). unfold line_loads at 1. cbn [flat_map n_origin Z.ltb Z.compare app]. rewrite flat_map_app.
  unfold cart_head. destruct (0 <? off); reflexivity.
Qed.
Print Assumptions C90_cart_object.
(** The executable on a KBoot disk is taken as a piece of data, and loaded at the address
    that is the position of sector 4 in the image. *)
Theorem C90_kboot_refuted w f n b fd u : n <> [46] -> f n = Some b -> find_diskimage (w_env w) b = Ok fd -> unpacked (w_env w) b = Ok u -> bytes_ok u -> zlen u <= 2147483648 ->
  f_class fd = PKBoot -> exists k size, f_image fd = IKBoot k /\ get_pos (k_hdr k) 4 = Ok (k_start k, size) /\ forall run, obj_segs w f [n] run = ([], Ok ([mkI (k_start k) (kboot_file k)], run)).
Proof.
  intros N F D U B L Cl. destruct (found_parsed _ _ _ _ U D) as (st & P0).
  assert (Pl : exists k size, f_image fd = IKBoot k /\ get_pos (k_hdr k) 4 = Ok (k_start k, size) /\ 0 < k_start k).
  { revert P0. rewrite Cl. cbn [parse_image]. destruct (kboot_open u) as [k0|] eqn:K; cbn [rbind]; [|discriminate]. destruct (checked _ _); cbn [rbind]; [|discriminate]. intros E. injection E as <-.
    unfold kboot_open in K. cbv zeta in K. destruct (check_size _ _) as [hd|] eqn:Hc; cbn [rbind] in K; [|discriminate]. pose proof (header_facts u hd B Hc) as Fa.
    destruct (get_pos hd 4) as [[start sz]|] eqn:P; cbn [rbind] in K; [|discriminate]. destruct (_ <=? _) in K; [discriminate|]. destruct (_ || _) in K; [discriminate|]. injection K as <-. eexists _, sz. split; [reflexivity|].
    cbn [k_hdr k_start]. split; [exact P|]. unfold get_pos in P. destruct (negb _) in P; [discriminate|]. pose proof (hf_off _ _ Fa) as Fo. pose proof (hf_ssize _ _ Fa) as Fz.
    destruct (hf_init _ _ Fa) as [[I1 I2]|[I1 I2]]; rewrite I1, I2 in P; [replace (4 <=? 0) with false in P by lia|replace (4 <=? 3) with false in P by lia];
      apply (f_equal (fun x => match x with Ok (p, _) => p | Err _ => 0 end)) in P; cbv beta iota in P; rewrite <- P; clear - Fz Fo; lia. }
  destruct Pl as (k0 & size & Pk & Pg & Pp). destruct (opened w f n b fd u N F D U B L ltac:(rewrite Pk; exact Logic.I)) as (h0 & r & h & l & strict & Ir & P & E & O).
  rewrite Cl in P, E. destruct (Properties_SegList.C88_kboot_list (w_env w) strict h0 r u (f_image fd) B Ir P) as (k & l' & K1 & K2 & K3 & K4 & l0 & s & K5 & K6). assert (k0 = k) as -> by congruence.
  rewrite E in K3. assert (h = h0 /\ l = l') as [-> ->] by (split; congruence).
  exists k, size. split; [exact K1|]. split; [exact Pg|]. intros run. rewrite O. do 3 f_equal. pose proof Ir as (_ & _ & _ & Rb). rewrite K5 in K4.
  apply Forall2_app_inv_r in K4. destruct K4 as (a & c & A1 & A2 & A3). inversion A2 as [|s' e' c' es' A4 A5]; subst c. inversion A5; subst c'. destruct (app_split l0 [s] a [s'] eq_refl A3) as (<- & A6). injection A6 as <-.
  rewrite K5, loads_app, (loads_lines h0 r u _ _ Rb A1). change (line_loads u (image_head "KBoot Disk Image" (k_hdr k) (zlen u))) with (@nil iseg). cbn [app]. unfold loads. cbn [flat_map].
  rewrite (si_origin _ _ _ _ A4), K6. cbn [n_origin]. destruct (Z.ltb_spec 0 (k_start k)); [reflexivity|lia].
Qed.
Print Assumptions C90_kboot_refuted.
(** A ROM has no address and is not used. *)
Theorem C90_rom_refuted w f n b fd u : n <> [46] -> f n = Some b -> find_diskimage (w_env w) b = Ok fd -> unpacked (w_env w) b = Ok u -> bytes_ok u -> zlen u <= 2147483648 ->
  f_class fd = P2600 \/ f_class fd = PStarpath \/ f_class fd = PVectrex \/ f_class fd = PRom -> forall run, obj_segs w f [n] run = ([], Ok ([], run)).
Proof.
  intros N F D U B L Cl. destruct (found_parsed _ _ _ _ U D) as (st & P0).
  assert (Pl : plain_image (f_image fd)).
  { revert P0. destruct Cl as [-> |[-> |[-> | ->]]]; cbn [parse_image]; unfold rom_image; destruct (CartModel.open_rom _); cbn [rbind]; try discriminate; intros E; injection E as <-; exact Logic.I. }
  destruct (opened w f n b fd u N F D U B L Pl) as (h0 & r & h & l & strict & Ir & P & E & O).
  destruct (C88_rom_list (w_env w) strict (f_class fd) h0 r u (f_image fd) Cl Ir P) as (l' & C5 & C6). rewrite E in C5. assert (h = h0 /\ l = l') as [-> ->] by (split; congruence).
  intros run. rewrite O. pose proof Ir as (_ & _ & _ & Rb). rewrite (loads_lines h0 r u _ _ Rb C6). reflexivity.
Qed.
Print Assumptions C90_rom_refuted.
(** Of a MAME file, every member is used but the first, at the address that is its
    place among the data of all members. *)
Theorem C90_mame_refuted w f n b fd u : n <> [46] -> f n = Some b -> find_diskimage (w_env w) b = Ok fd -> unpacked (w_env w) b = Ok u -> bytes_ok u -> zlen u <= 2147483648 ->
  f_class fd = PMame -> exists z l, e_zip (w_env w) u = Zip (z :: l) /\
  (Forall (fun z => z_size z = zlen (z_data z)) (z :: l) -> z_data z <> [] ->
   forall run, obj_segs w f [n] run = ([], Ok (map (fun k => mkI (placed (z :: l) (S k)) (z_data (nth k l z))) (seq 0 (length l)), run))).
Proof.
  intros N F D U B L Cl. destruct (found_parsed _ _ _ _ U D) as (st & P0).
  assert (Ir0 : exists h r, image_raw h r u) by (eexists _, _; apply (Properties_Edit.new_raw_image (mkHp [] [])); exact L). destruct Ir0 as (h' & r' & Ir').
  rewrite Cl in P0. destruct (C88_mame_list (w_env w) st h' r' u _ Ir' P0) as (ms & E1 & E2 & E3 & _).
  destruct (opened w f n b fd u N F D U B L ltac:(rewrite E1; exact Logic.I)) as (h0 & r & h & l & strict & Ir & P & E & O). rewrite Cl in P, E.
  destruct ms as [|z ms]; [destruct (E3 eq_refl)|]. exists z, ms. split; [exact E2|]. intros Sz Nz run.
  destruct (C88_mame_list (w_env w) strict h0 r u _ Ir P) as (ms' & X1 & X2 & _ & X3). assert (ms' = z :: ms) as -> by congruence. destruct (X3 Sz) as (h1 & wh & segs & Y1 & Y2 & Y3 & Y4 & Y5 & Y6).
  rewrite E in Y1. assert (h1 = h /\ l = wh :: segs) as [-> ->] by (split; congruence). rewrite O. do 3 f_equal.
  assert (W0 : g_origin wh = 0). { unfold image_segments, with_whole in E. destruct (parse_segments _ _ _) as [hh [ll|]]; cbn [hbind] in E; [|discriminate]. assert (wh = whole_seg r (menu_name PMame)) as -> by congruence. reflexivity. }
  unfold loads. cbn [flat_map]. rewrite W0. cbn [Z.ltb Z.compare app].
  inversion Y5 as [|z0 s0 ms0 ss0 (_ & A1) A2]; subst. cbn [flat_map]. rewrite (Y6 0%nat s0 eq_refl). change (placed (z :: ms) 0) with 0. cbn [Z.ltb Z.compare app].
  assert (G : forall k, 0 < placed (z :: ms) (S k)).
  { intros k. unfold placed. cbn [firstn flat_map]. rewrite zlen_app. pose proof (zlen_nonneg (flat_map z_data (firstn k ms))). destruct (z_data z) as [|q t]; [destruct (Nz eq_refl)|]. rewrite zlen_cons. pose proof (zlen_nonneg t). lia. }
  assert (K : forall j ds ss, Forall2 (fun z s => g_name s = z_name z /\ read_data h (g_raw s) = z_data z) ds ss -> (forall i, g_origin (nth i ss s0) = placed (z :: ms) (S (j + i)) \/ length ss <= i)%nat ->
     flat_map (fun s => if 0 <? g_origin s then [mkI (g_origin s) (read_data h (g_raw s))] else []) ss = map (fun i => mkI (placed (z :: ms) (S (j + i))) (z_data (nth i ds z))) (seq 0 (length ds))).
  { intros j ds ss H. revert j. induction H as [|d s ds ss (_ & H1) H IH]; intros j Hn; [reflexivity|]. cbn [flat_map length seq map nth].
    destruct (Hn 0%nat) as [Ho|Ho]; [|cbn in Ho; lia]. cbn [nth] in Ho. rewrite Ho, H1. pose proof (G (j + 0)%nat). destruct (Z.ltb_spec 0 (placed (z :: ms) (S (j + 0)))); [|lia]. cbn [app]. f_equal.
    rewrite (IH (S j)). - rewrite <- seq_shift, map_map. apply map_ext. intros i. cbn [nth]. do 2 f_equal. f_equal. lia.
    - intros i. destruct (Hn (S i)) as [X|X]; [left; cbn [nth] in X; rewrite X; do 2 f_equal; lia|right; cbn in X; lia]. }
  rewrite (K 0%nat ms ss0 A2); [reflexivity|]. intros i. destruct (Nat.lt_ge_cases i (length ss0)) as [Hi|Hi]; [left|right; exact Hi]. apply (Y6 (S i)). cbn [nth_error]. apply List.nth_error_nth'. exact Hi.
Qed.
Print Assumptions C90_mame_refuted.
