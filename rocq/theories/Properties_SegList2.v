(** C88 for the other formats: executables, cartridges, ROM images, MAME files.  The
    vocabulary is that of Properties_SegList.v. *)
From Coq Require Import String.
From Verif Require Import Base BaseLemmas DiskModel AtariModel SegModel SegSpec SegProofs SegProofs2 SegProofs5 TextModel EditModel EditProofs EditAtari SegListModel SegListSpec SegListProofs SegListAtari Properties_Edit.
From Verif Require Import DetectModel ExecModel ExecSpec ExecProofs SegListExec.
From Verif Require CartModel CartProofs Properties_Cart Properties_SegList Properties_Sparta Properties_SegSave Properties_Detect.

(** * Atari executables *)
Lemma whole_made r h menu : raw_ok h r -> made r h (whole_seg r menu) (mkEn KDefault menu 0 (zrange 0 (raw_len h r))).
Proof. intros R. split; [apply whole_window; exact R|]. repeat split. Qed.
(** Every executable that is accepted: a line for the file and one for every piece, in
    order; the addresses in the file are marked as data. *)
Theorem C88_xex_list e strict h r b im : bytes_ok b -> image_raw h r b -> parse_image e strict PXex b = Ok im ->
  exists ps h' l, pieces_ok ps /\ begins_ok ps /\ b = encode ps /\ im = IXex (reports 0 ps) /\
    image_segments h r PXex im = (h', Ok l) /\ image_raw h' r b /\ marks h r (heads 0 ps) [] h' /\
    Forall2 (seg_is h' r) l (mkEn KDefault (txt "XEX (Atari 8-bit executable)") 0 (zrange 0 (zlen b)) :: piece_lines 0 ps).
Proof.
  intros Hb Ir E. pose proof (image_raw_len _ _ _ Ir) as Hl. pose proof Ir as (R & Nd & _ & Rb). cbn [parse_image] in E.
  destruct (snd (parse_xex b (zrepeat 0 (zlen b)))) as [segs|] eqn:Ex; [|discriminate]. injection E as <-.
  apply (parse_xex_iff b _ Hb) in Ex. destruct Ex as (ps & P1 & P2 & -> & ->).
  destruct (xex_list r ps (S (length (encode ps))) h [] 0 true P1 Hb ltac:(lia) (fun _ => P2) R Nd ltac:(cbn [app]; lia) ltac:(cbn; lia)) as (h' & l & El & M & F).
  cbn [app] in El, M, F. change (zlen (@nil Z)) with 0 in El, M, F. rewrite zrange_nil in M by lia.
  exists ps, h', (whole_seg r (menu_name PXex) :: l). split; [exact P1|]. split; [exact P2|]. split; [reflexivity|]. split; [reflexivity|].
  split; [unfold image_segments, with_whole, parse_segments, xex_parse_segments; rewrite Rb; rewrite El; reflexivity|]. split; [exact (marks_image r _ _ _ _ _ Ir M)|].
  split; [destruct (existsb has_head ps) in M; exact M|]. destruct (marks_raw r _ _ _ _ r M R) as (R' & _ & L'). apply made_all; [exact R'|]. constructor; [|exact F].
  rewrite Hl, <- L'. apply whole_made. exact R'.
Qed.
Print Assumptions C88_xex_list.
(** What the lines show is what the pieces load. *)
Definition loaded (p : piece) : list (Z * list Z) :=
  match p with PMark => [] | PSeg o d => [(o, d)] | PCutByte x => [(0, [x])] | PCutHead l => [(0, l)] | PCutData o _ d => [(o, d)] end.
Lemma lines_show ps : forall pre, pieces_ok ps ->
  map (fun e => (n_origin e, map (getb (pre ++ encode ps)) (n_at e))) (piece_lines (zlen pre) ps) = flat_map loaded ps.
Proof.
  induction ps as [|p q IH]; intros pre Hok; [reflexivity|]. destruct (pieces_cons p q Hok) as (Hp & Hw & Hr). cbn [piece_lines flat_map encode]. fold (encode q). rewrite map_app. pose proof (zlen_nonneg pre) as H0.
  assert (Tl : map (fun e => (n_origin e, map (getb (pre ++ encode_piece p ++ encode q)) (n_at e))) (piece_lines (zlen pre + zlen (encode_piece p)) q) = flat_map loaded q).
  { rewrite <- zlen_app, app_assoc. apply IH. exact Hr. }
  rewrite Tl. f_equal.
  assert (Sh : forall a m d t, a = zlen pre + zlen m -> encode_piece p ++ t = m ++ d ++ t -> map (getb (pre ++ encode_piece p ++ t)) (zrange a (a + zlen d)) = d).
  { intros a m d t -> ->. pose proof (zlen_nonneg m). pose proof (zlen_nonneg d). pose proof (zlen_nonneg t). rewrite <- slice_map_range by (rewrite ?zlen_app; lia). rewrite app_assoc.
    rewrite <- (zlen_app pre m). rewrite slice_app_r by lia. rewrite Z.sub_diag. replace (zlen (pre ++ m) + zlen d - zlen (pre ++ m)) with (zlen d) by lia. apply slice_app_full_l. }
  destruct p as [|o d|x|l|o y d]; cbn [piece_line loaded map n_origin n_at]; try reflexivity.
  - rewrite (Sh _ (put2 o ++ put2 (o + zlen d - 1)) d); [reflexivity|rewrite zlen_app, !zlen_put2; reflexivity|cbn [encode_piece]; rewrite <- !app_assoc; reflexivity].
  - cbn [encode_piece]. rewrite getb_app_r by lia. rewrite Z.sub_diag. reflexivity.
  - rewrite (Sh _ [] l); [reflexivity|cbn; lia|reflexivity].
  - rewrite (Sh _ (put2 o ++ put2 y) d); [reflexivity|rewrite zlen_app, !zlen_put2; reflexivity|cbn [encode_piece]; rewrite <- !app_assoc; reflexivity].
Qed.
Theorem C88_xex_shows h r ps l e : pieces_ok ps -> read_data h r = encode ps -> Forall2 (seg_is h r) l (e :: piece_lines 0 ps) ->
  map (fun s => (g_origin s, read_data h (g_raw s))) (tl l) = flat_map loaded ps.
Proof.
  intros Hok Rb F. inversion F as [|w x l' es W F']; subst. cbn [tl]. rewrite <- (lines_show ps [] Hok). cbn [app]. change (zlen (@nil Z)) with 0. rewrite <- Rb. clear - F'.
  induction F' as [|s e l es P F IH]; [reflexivity|]. cbn [map]. rewrite IH, (si_origin _ _ _ _ P), (si_bytes _ _ _ _ P). reflexivity.
Qed.
Print Assumptions C88_xex_shows.

(** * Apple executables *)
Theorem C88_bin_list e strict h r b im : bytes_ok b -> image_raw h r b -> parse_image e strict PBin b = Ok im ->
  let start := le2 (getb b 0) (getb b 1) in
  exists h' l, 4 <= zlen b /\ le2 (getb b 2) (getb b 3) = zlen b - 4 /\ im = IBin (mkX false NoName 0 4 start (slice b 4 (zlen b))) /\
    image_segments h r PBin im = (h', Ok l) /\ image_raw h' r b /\ marks h r (zrange 0 4) [] h' /\
    Forall2 (seg_is h' r) l [mkEn KDefault (txt "BIN (Apple ][ executable)") 0 (zrange 0 (zlen b));
                             mkEn (KAt 0 4) (txt "BSAVE data") start (zrange 4 (zlen b))].
Proof.
  intros Hb Ir E start. pose proof (image_raw_len _ _ _ Ir) as Hl. pose proof Ir as (R & Nd & _ & Rb). cbn [parse_image] in E. unfold parse_bsave in E. cbv zeta in E.
  pose proof (zlen_nonneg b) as H0. set (count := le2 (getb b 2) (getb b 3)) in *.
  destruct (Z.eqb_spec (zlen (slice b 0 4)) 4) as [L4|]; cbn [rbind] in E; [|discriminate].
  destruct (Z.eqb_spec count (zlen b - 4)) as [Ec|]; cbn [negb rbind] in E; [|discriminate]. assert (Hb4 : 4 <= zlen b) by (rewrite zlen_slice_min in L4 by lia; lia).
  assert (Ls : zlen (slice b 4 (4 + count)) =? count = true) by (rewrite zlen_slice by lia; lia). rewrite Ls in E. cbn [rbind] in E.
  assert (Ei : im = IBin (mkX false NoName 0 4 start (slice b 4 (4 + count)))) by (unfold start; congruence). clear E. subst im.
  pose proof (marks_slice r h 0 4 R Nd ltac:(lia) ltac:(lia)) as M. set (h1 := mark_slice h r 0 4) in *. destruct (marks_raw r _ _ _ _ r M R) as (R' & _ & L').
  exists h1, [whole_seg r (menu_name PBin); mkSeg (KAt 0 4) (txt "BSAVE data") start (raw_slice h1 r (Some 4) (Some (4 + count)))]. split; [exact Hb4|]. split; [exact Ec|]. split; [do 3 f_equal; lia|]. split.
  { unfold image_segments, with_whole, parse_segments, bin_parse_segments. rewrite Rb. cbv zeta. rewrite L4. fold count. rewrite Ls. replace (count =? zlen b - 4) with true by lia. reflexivity. }
  replace (4 + count) with (zlen b) by lia. split; [exact (marks_image r _ _ _ _ _ Ir M)|].
  split; [exact M|]. apply made_all; [exact R'|]. constructor; [rewrite Hl, <- L'; apply whole_made; exact R'|]. constructor; [|constructor]. split; [|repeat split].
  apply slice_window; [exact R'|lia|lia].
Qed.
Print Assumptions C88_bin_list.

(** * Cartridges *)
(** Every cartridge that is accepted, with a header or without. *)
Theorem C88_cart_list e strict p t h r b im : p = PCart8 t \/ p = PCart52 t -> bytes_ok b -> image_raw h r b -> parse_image e strict p b = Ok im ->
  exists c off menu l, In c CartModel.known_cart_types /\ CartModel.ct_type c = t /\ (off = 0 \/ off = 16) /\ zlen b = off + CartModel.ct_size c * 1024 /\
    (t <> 0 -> menu = txt (CartModel.ct_name c) ++ txt " Cartridge") /\
    image_segments h r p im = (h, Ok l) /\
    Forall2 (seg_is h r) l (mkEn KDefault menu 0 (zrange 0 (zlen b)) :: cart_head off ++ main_line c off :: bank_lines c off).
Proof.
  intros Hp Hb Ir E. pose proof (image_raw_len _ _ _ Ir) as Hl. pose proof Ir as (R & Nd & _ & Rb).
  destruct (cart_accepted e strict p t b im Hb Hp E) as (c & ty & nm & sz & crc & off & hd & Hc & Ht & Ho & Zb & Es & ->). rewrite <- Ht in Es.
  destruct (cart_made r h R c ty nm sz crc off hd Hc ltac:(lia) ltac:(lia) Es) as (l & El & F).
  exists c, off, (menu_name p), (whole_seg r (menu_name p) :: l). split; [exact Hc|]. split; [exact Ht|]. split; [exact Ho|]. split; [exact Zb|]. split.
  - intros Hn. assert (Fi : find (fun x => CartModel.ct_type x =? t) (tl CartModel.known_cart_types) = Some c).
    { rewrite <- Ht. apply CartProofs.find_type.
      - pose proof CartProofs.table_nodup as N. destruct CartModel.known_cart_types as [|a l0]; [constructor|]. cbn [map tl] in *. inversion N; assumption.
      - assert (Hc2 : List.hd c CartModel.known_cart_types = c \/ In c (tl CartModel.known_cart_types)) by exact Hc. destruct Hc2 as [Hc2|Hc2]; [|exact Hc2].
        exfalso. apply Hn. rewrite <- Ht, <- Hc2. reflexivity. }
    destruct Hp as [->| ->]; cbn [menu_name]; rewrite Fi; reflexivity.
  - split; [unfold image_segments, with_whole, parse_segments; cbn [CartModel.ci_hdr]; rewrite El; reflexivity|]. apply made_all; [exact R|]. constructor; [rewrite Hl; apply whole_made; exact R|exact F].
Qed.
Print Assumptions C88_cart_list.
(** The switched parts in order and the fixed part after them make up the data. *)
Theorem C88_cart_tiles c off : In c CartModel.known_cart_types ->
  concat (map n_at (bank_lines c off)) ++ n_at (main_line c off) = zrange off (off + CartModel.ct_size c * 1024).
Proof.
  intros Hc. pose proof (CartProofs.cart_wf c Hc) as W. unfold CartProofs.wf_cart in W. unfold main_line, bank_lines.
  destruct (CartModel.ct_main c) as [[[ms mo] ma]|]; [|reflexivity]. destruct (CartModel.ct_bank c) as [[[bs bo] ba]|]; rewrite !andb_true_iff in W.
  - destruct W as [[[W1 W2] W3] [[[[[B1 B2] B3] B4] B5] B6]]. rewrite map_map. cbn [n_at]. set (n := CartModel.ct_size c) in *.
    assert (Q : n - ms = (n - ms) / bs * bs) by (pose proof (Z.div_mod (n - ms) bs ltac:(lia)); nia). assert (0 <= (n - ms) / bs) by (apply Z.div_pos; lia).
    replace ((n - ms) / bs + 1) with (1 + (n - ms) / bs) by lia. rewrite banks_tile by lia. replace (off + (1 - 1) * bs * 1024) with off by lia.
    replace ((1 - 1 + (n - ms) / bs) * bs) with (n - ms) by nia. symmetry. apply zrange_app; nia.
  - destruct W as [[[W1 W2] W3] [W4 W5]]. cbn [map concat app n_at]. f_equal. nia.
Qed.
Print Assumptions C88_cart_tiles.

(** * ROM images *)
Theorem C88_rom_list e strict p h r b im : p = P2600 \/ p = PStarpath \/ p = PVectrex \/ p = PRom -> image_raw h r b -> parse_image e strict p b = Ok im ->
  exists l, image_segments h r p im = (h, Ok l) /\
    Forall2 (seg_is h r) l [mkEn KDefault (match p with P2600 => txt "Atari 2600 Cartridge" | PStarpath => txt "Atari 2600 Starpath Cassette" | PVectrex => txt "Vectrex Cartridge" | _ => txt "ROM Image" end) 0 (zrange 0 (zlen b));
                            mkEn KObj (txt "Main Bank") 0 (zrange 0 (zlen b))].
Proof.
  intros Hp Ir E. pose proof (image_raw_len _ _ _ Ir) as Hl. pose proof Ir as (R & Nd & _ & Rb). assert (E' : rom_image b = Ok im) by (destruct Hp as [->|[->|[->| ->]]]; exact E).
  unfold rom_image in E'. destruct (CartModel.open_rom b) as [b'|]; cbn [rbind] in E'; [|discriminate]. injection E' as <-. eexists. split; [reflexivity|].
  apply made_all; [exact R|]. rewrite Hl. constructor; [|constructor; [split; [apply whole_window; exact R|repeat split]|constructor]].
  destruct Hp as [->|[->|[->| ->]]]; apply whole_made; exact R.
Qed.
Print Assumptions C88_rom_list.

(** * MAME *)
(** Every member of the zip file is listed at its place among the members put one after
    the other, and shows what was unpacked. *)
Definition placed (l : list zipent) (n : nat) : Z := zlen (flat_map z_data (firstn n l)).
Theorem C88_mame_list e strict h r b im : image_raw h r b -> parse_image e strict PMame b = Ok im ->
  exists l, im = IMame l /\ e_zip e b = Zip l /\ l <> [] /\
    (Forall (fun z => z_size z = zlen (z_data z)) l ->
     exists h' w segs, image_segments h r PMame im = (h', Ok (w :: segs)) /\ read_data h' r = b /\ g_name w = txt "MAME ROM Zipfile" /\ read_data h' (g_raw w) = b /\
       Forall2 (fun z s => g_name s = z_name z /\ read_data h' (g_raw s) = z_data z) l segs /\
       forall n s, nth_error segs n = Some s -> g_origin s = placed l n).
Proof.
  intros Ir E. cbn [parse_image] in E. unfold mame_image in E. destruct (e_zip e b) as [|l|x] eqn:Ez; try discriminate. destruct (existsb _ l); [discriminate|].
  assert (Ei : im = IMame l /\ l <> []) by (destruct l; [discriminate|injection E as <-; split; [reflexivity|discriminate]]). destruct Ei as (-> & Hn). exists l. split; [reflexivity|]. split; [reflexivity|]. split; [exact Hn|]. intros Hs.
  destruct Ir as (R & Nd & _ & Rb). unfold image_segments, with_whole, parse_segments, mame_parse_segments. destruct (new_raw h (flat_map z_data l)) as [h1 x] eqn:En.
  destruct (Properties_SegSave.fresh_raw _ _ _ _ En) as (Rx & Wx & Ax & Dx & _). cbn [hbind]. exists h1, (whole_seg r (menu_name PMame)). eexists. split; [reflexivity|].
  assert (Eb : read_data h1 r = b).
  { rewrite <- Rb. unfold new_raw in En. injection En as <- _. destruct R as (R1 & R2 & R3 & R4 & R5 & R6). unfold read_data. cbn [hp_arr]. unfold arr. cbn [hp_arr]. rewrite app_nth1 by exact R1. reflexivity. }
  split; [exact Eb|]. split; [reflexivity|]. split; [exact Eb|].
  assert (G : forall l2 l1, l = l1 ++ l2 -> let off := zlen (flat_map z_data l1) in
    Forall2 (fun z s => g_name s = z_name z /\ read_data h1 (g_raw s) = z_data z) l2 (mame_segs h1 x off l2) /\
    forall n s, nth_error (mame_segs h1 x off l2) n = Some s -> g_origin s = off + zlen (flat_map z_data (firstn n l2))).
  { induction l2 as [|z l2 IH]; intros l1 El off; [split; [constructor|intros [|n] s; discriminate]|]. cbn [mame_segs].
    assert (Hz : z_size z = zlen (z_data z)) by (rewrite Forall_forall in Hs; apply Hs; rewrite El; apply in_or_app; right; left; reflexivity).
    destruct (IH (l1 ++ [z]) ltac:(rewrite El, <- app_assoc; reflexivity)) as (F & O). rewrite flat_map_app, zlen_app in F, O. cbn [flat_map] in F, O. rewrite app_nil_r in F, O. fold off in F, O. rewrite Hz in *. split.
    - constructor; [|exact F]. split; [reflexivity|]. cbn [g_raw].
      assert (Lx : raw_len h1 x = zlen (flat_map z_data l)) by (unfold raw_len; rewrite Wx, Ax; reflexivity). pose proof (zlen_nonneg (flat_map z_data l1)) as N1. pose proof (zlen_nonneg (z_data z)) as N2.
      assert (Ed : flat_map z_data l = flat_map z_data l1 ++ z_data z ++ flat_map z_data l2) by (rewrite El, flat_map_app; reflexivity).
      assert (Lt : zlen (flat_map z_data l) = off + (zlen (z_data z) + zlen (flat_map z_data l2))) by (rewrite Ed, !zlen_app; reflexivity). pose proof (zlen_nonneg (flat_map z_data l2)) as N3.
      pose proof (slice_window x h1 off (off + zlen (z_data z)) Rx ltac:(unfold off in *; lia) ltac:(lia)) as W. rewrite (read_data_shows h1 _ (wn_ok _ _ _ _ W)), (wn_shows _ _ _ _ W), (wn_data _ _ _ _ W), Ax.
      unfold shows at 1. rewrite Wx, Ax. cbn [positions]. rewrite map_map, Ed. rewrite (map_ext_in _ (fun p => getb (flat_map z_data l1 ++ z_data z ++ flat_map z_data l2) p)).
      + rewrite <- slice_map_range by (rewrite ?zlen_app; unfold off in *; lia). rewrite slice_app_r by (unfold off; lia). unfold off. rewrite Z.sub_diag. replace (zlen (flat_map z_data l1) + zlen (z_data z) - zlen (flat_map z_data l1)) with (zlen (z_data z)) by lia. apply slice_app_full_l.
      + intros p Hp. apply In_zrange in Hp. rewrite getb_zrange by (rewrite <- Ed; unfold off in *; lia). f_equal.
    - intros [|n] s Hn2; cbn [nth_error firstn flat_map] in *; [injection Hn2 as <-; cbn [g_origin]; change (zlen (@nil Z)) with 0; lia|]. rewrite zlen_app. rewrite (O n s Hn2). lia. }
  destruct (G l [] eq_refl) as (F & O). cbn [flat_map] in F, O. change (zlen (@nil Z)) with 0 in F, O. split; [exact F|]. intros n s Hs2. exact (O n s Hs2).
Qed.
Print Assumptions C88_mame_list.

(** * Marks that stay *)
(** Recognising data changes its annotations: when an executable is refused because of the
    addresses of a segment, the marks made before stay, and are shown in the list of the
    format that takes the data in the end. *)
Definition refused_demo : list Z := [255; 255; 5; 0; 3; 0; 7; 7].
Theorem C88_trace_refuted : exists h r h1 l s, image_raw h r refused_demo /\ read_style h r = zrepeat 0 8 /\
  (exists f, find_diskimage Properties_Detect.env0 refused_demo = Ok f /\ f_class f = PRom) /\
  xex_parse_segments h r = (h1, Err (EAtr InvalidBinaryFile)) /\
  image_segments h1 r PRom (IRom refused_demo) = (h1, Ok l) /\ nth_error l 1 = Some s /\
  read_style h1 (g_raw s) = zrepeat (style_bits k_data) 6 ++ [0; 0].
Proof.
  eexists _, _, _, _, _. split; [apply (new_raw_image (mkHp [] [])); vm_compute; discriminate|]. split; [vm_compute; reflexivity|].
  split; [|split; [vm_compute; reflexivity|split; [vm_compute; reflexivity|split; [vm_compute; reflexivity|vm_compute; reflexivity]]]].
  eexists. split; vm_compute; reflexivity.
Qed.
Print Assumptions C88_trace_refuted.

(** * Examples *)
Definition xex_demo : list Z := [255; 255; 0; 32; 2; 32; 1; 2; 3; 255; 255; 224; 2; 225; 2; 0; 32; 0; 48; 9; 48; 5].
Example C88_xex_example e : bytes_ok xex_demo /\ (exists h r, image_raw h r xex_demo) /\
  let ps := [PMark; PSeg 0x2000 [1; 2; 3]; PMark; PSeg 0x2e0 [0; 32]; PCutData 0x3000 0x3009 [5]] in
  pieces_ok ps /\ xex_demo = encode ps /\ parse_image e true PXex xex_demo = Ok (IXex (reports 0 ps)) /\ heads 0 ps = zrange 0 6 ++ zrange 9 15 ++ zrange 17 21 /\
  map Properties_SegList.line_text (piece_lines 0 ps) = map txt [" $2000-$2003 ($0003 @ $0006)"; " $02e0-$02e2 ($0002 @ $000f)"; "Incomplete Data $3000-$3001 ($0001 @ $0015)"]%string.
Proof.
  split; [apply Properties_Sparta.bytes_okb; reflexivity|]. split; [eexists _, _; apply (new_raw_image (mkHp [] [])); vm_compute; discriminate|]. cbv zeta.
  split; [|vm_compute; auto]. cbn. unfold zlen. cbn. repeat split; try lia.
Qed.
Definition bin_demo : list Z := [0; 8; 3; 0; 1; 2; 3].
Example C88_bin_example e : bytes_ok bin_demo /\ (exists h r, image_raw h r bin_demo) /\ exists im, parse_image e true PBin bin_demo = Ok im.
Proof.
  split; [apply Properties_Sparta.bytes_okb; reflexivity|]. split; [eexists _, _; apply (new_raw_image (mkHp [] [])); vm_compute; discriminate|]. eexists. vm_compute. reflexivity.
Qed.
(** A cartridge of 2 KB with a header; and the lines of an XEGS cartridge of 32 KB without one. *)
Definition cart_demo : list Z := CartModel.cart_magic ++ [0; 0; 0; 57; 0; 0; 0; 0; 0; 0; 0; 0] ++ zrepeat 7 2048.
Example C88_cart_example e : bytes_ok cart_demo /\ (exists h r, image_raw h r cart_demo) /\ (exists im, parse_image e true (PCart8 57) cart_demo = Ok im) /\
  exists c, In c CartModel.known_cart_types /\ CartModel.ct_type c = 12 /\
    map (fun x => (n_name x, n_origin x, zlen (n_at x), hd 0 (n_at x))) (main_line c 0 :: bank_lines c 0) =
    [(txt "Main Bank", 0xa000, 8192, 24576); (txt "Bank #1", 0x8000, 8192, 0); (txt "Bank #2", 0x8000, 8192, 8192); (txt "Bank #3", 0x8000, 8192, 16384)].
Proof.
  split; [apply Properties_Sparta.bytes_okb; vm_compute; reflexivity|]. split; [eexists _, _; apply (new_raw_image (mkHp [] [])); vm_compute; discriminate|]. split; [eexists; vm_compute; reflexivity|].
  exists (CartModel.c_banked 12 "XEGS 32 KB" 32 8 24 0xa000 8 0 0x8000). split; [do 11 right; left; reflexivity|]. split; [reflexivity|].
  unfold main_line, bank_lines. cbn [CartModel.c_banked CartModel.ct_main CartModel.ct_bank CartModel.ct_size]. change (zrange 1 ((32 - 8) / 8 + 1)) with [1; 2; 3]. cbn [map n_name n_origin n_at].
  rewrite !zlen_zrange by lia. rewrite (zrange_cons (0 + (32 - 8) * 1024)), (zrange_cons (0 + (1 - 1) * 8 * 1024)), (zrange_cons (0 + (2 - 1) * 8 * 1024)), (zrange_cons (0 + (3 - 1) * 8 * 1024)) by lia. reflexivity.
Qed.
Example C88_rom_example e : (exists h r, image_raw h r (zrepeat 1 64)) /\ exists im, parse_image e true PRom (zrepeat 1 64) = Ok im.
Proof. split; [eexists _, _; apply (new_raw_image (mkHp [] [])); vm_compute; discriminate|]. eexists. vm_compute. reflexivity. Qed.
(** A zip file with two members. *)
Definition zip_demo : list Z := [80; 75; 3; 4; 9; 9; 9; 9].
Definition members : list zipent := [mkZip (txt "a.bin") 16 (zrepeat 1 16); mkZip (txt "b.bin") 32 (zrepeat 2 32)].
Definition zip_env : env := mkEnv (fun _ => NotPacked) (fun _ => NotPacked) (fun _ => NotPacked) (fun b => if zlist_eqb b zip_demo then Zip members else NotZip) (fun _ => None).
Example C88_mame_example : (exists h r, image_raw h r zip_demo) /\ parse_image zip_env true PMame zip_demo = Ok (IMame members) /\ Forall (fun z => z_size z = zlen (z_data z)) members.
Proof.
  split; [eexists _, _; apply (new_raw_image (mkHp [] [])); vm_compute; discriminate|]. split; [vm_compute; reflexivity|]. repeat (constructor; [vm_compute; reflexivity|]). constructor.
Qed.

(** * C89 for MAME files is false *)
(** The saved bounds are those of the unpacked data; restored, they are used on the zip
    file. *)
Theorem C89_mame_refuted : exists h r h' l s h1 base p2 s2,
  image_raw h r zip_demo /\ r_win r = WAll /\ parse_image zip_env true PMame zip_demo = Ok (IMame members) /\
  image_segments h r PMame (IMame members) = (h', Ok l) /\ nth_error l 1 = Some s /\ g_name s = txt "a.bin" /\ read_data h' (g_raw s) = zrepeat 1 16 /\
  new_raw (mkHp [] []) zip_demo = (h1, base) /\
  SegSaveModel.reconstruct_segments zip_env h1 base (SegSaveModel.save_parser h' (SegSaveModel.Format PMame) l) = Ok p2 /\
  nth_error (SegSaveModel.p_items p2) 1 = Some (SegSaveModel.Live s2) /\ g_name s2 = txt "a.bin" /\ read_data h1 (g_raw s2) = zip_demo.
Proof.
  eexists _, _, _, _, _, _, _, _, _. split; [apply (new_raw_image (mkHp [] [])); vm_compute; discriminate|].
  repeat (split; [vm_compute; reflexivity|]). vm_compute; reflexivity.
Qed.
Print Assumptions C89_mame_refuted.
