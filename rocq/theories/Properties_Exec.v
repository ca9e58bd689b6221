(** C23-C27: executables. *)
From Verif Require Import Base BaseLemmas DiskModel AtariModel AtariHeader ExecModel ExecSpec ExecProofs ExecProofs2.

(** * C23: Atari executable round trip *)
(** What a reader sees of a segment. *)
Definition seen (s : xseg) : Z * list Z := (x_origin s, x_data s).
Definition given (s : iseg) : Z * list Z := (i_origin s, i_data s).
(** The address execution starts at: the one asked for or the first segment's. *)
Definition wanted (segs : list iseg) (run : option Z) : Z :=
  match run with
  | Some a => if a =? 0 then i_origin (hd (mkI 0 []) segs) else a
  | None => i_origin (hd (mkI 0 []) segs)
  end.
Lemma encode_xex l : [255; 255] ++ flat_map xenc l = encode (PMark :: map (fun s => PSeg (i_origin s) (i_data s)) l).
Proof.
  unfold encode. cbn [flat_map encode_piece]. f_equal. induction l as [|s r IH]; [reflexivity|]. cbn [flat_map map encode_piece]. rewrite <- IH. reflexivity.
Qed.
Lemma pieces_xex l : Forall seg_ok l -> pieces_ok (PMark :: map (fun s => PSeg (i_origin s) (i_data s)) l).
Proof.
  intros H. apply whole_cons; [exact I|]. induction H as [|s r H1 H2 IH]; [exact I|]. cbn [map]. apply whole_cons; [|exact IH].
  destruct H1 as (A & B & C & D). cbn [whole]. auto.
Qed.
Lemma bytes_ok_put2 v : bytes_ok (put2 v).
Proof. unfold put2, bytes_ok, is_byte, u8. repeat constructor; Z.to_euclidean_division_equations; lia. Qed.
Lemma bytes_xex l : Forall seg_ok l -> bytes_ok ([255; 255] ++ flat_map xenc l).
Proof.
  intros H. apply bytes_ok_app. split; [repeat constructor; lia|]. induction H as [|s r H1 H2 IH]; [constructor|].
  cbn [flat_map]. apply bytes_ok_app. split; [|exact IH]. unfold xenc. apply bytes_ok_app. split; [apply bytes_ok_put2|].
  apply bytes_ok_app. split; [apply bytes_ok_put2|]. apply H1.
Qed.
Lemma reports_xex l : forall p, map seen (reports p (map (fun s => PSeg (i_origin s) (i_data s)) l)) = map given l /\
  Forall (fun s => x_name s = NoName /\ x_runad s = (x_origin s =? 0x2e0)) (reports p (map (fun s => PSeg (i_origin s) (i_data s)) l)).
Proof.
  induction l as [|s r IH]; intros p; [split; [reflexivity|constructor]|]. cbn [map reports report app].
  destruct (IH (p + zlen (encode_piece (PSeg (i_origin s) (i_data s))))) as [I1 I2]. split.
  - f_equal. exact I1.
  - constructor; [split; reflexivity|exact I2].
Qed.
Lemma parse_xex_file l st : Forall seg_ok l -> exists rep,
  snd (parse_xex ([255; 255] ++ flat_map xenc l) st) = Ok rep /\ map seen rep = map given l /\
  Forall (fun s => x_name s = NoName /\ x_runad s = (x_origin s =? 0x2e0)) rep.
Proof.
  intros H. exists (reports 0 (PMark :: map (fun s => PSeg (i_origin s) (i_data s)) l)). split.
  - apply parse_xex_iff; [apply bytes_xex; exact H|]. eexists. split; [apply pieces_xex; exact H|]. split; [exact I|]. split; [apply encode_xex|reflexivity].
  - cbn [reports report app]. apply reports_xex.
Qed.

Theorem C23_xex_round_trip_partial name segs run x ty st :
  Forall seg_ok segs -> ends_with (map lower name) t_xex = true ->
  create_executable name segs run = Ok (x, ty) ->
  exists rep, snd (parse_xex x st) = Ok rep /\
    map seen rep =
      (if existsb (fun s => i_origin s =? 0x2e0) segs then [] else [(0x2e0, put2 (wanted segs run))]) ++ map given segs /\
    Forall (fun s => x_name s = NoName /\ x_runad s = (x_origin s =? 0x2e0)) rep.
Proof.
  intros Hs Hn E. unfold create_executable in E. rewrite Hn in E. destruct (get_xex segs run) as [d|e] eqn:G; [|discriminate E].
  cbn [rbind] in E. injection E as <- _.
  destruct (get_xex_spec _ _ _ G) as [[G1 G2]|[G1 (a & G2 & G3)]]; rewrite G1; subst d.
  - apply parse_xex_file. exact Hs.
  - assert (W : wanted segs run = a).
    { unfold xex_run, truthy in G2. unfold wanted. destruct run as [r|].
      - destruct (r =? 0); [destruct segs; [discriminate|injection G2 as <-; reflexivity]|].
        destruct (has_addr segs r); [injection G2 as <-; reflexivity|discriminate].
      - destruct segs; [discriminate|injection G2 as <-; reflexivity]. }
    rewrite W. apply (parse_xex_file (with_run segs a)). constructor; [|exact Hs].
    unfold seg_ok. cbn [i_origin i_data]. rewrite zlen_put2. repeat split; try lia. apply bytes_ok_put2.
Qed.
Print Assumptions C23_xex_round_trip_partial.
(** The run address segment says where to run. *)
Theorem C23_run_address_partial segs run x st :
  Forall seg_ok segs -> existsb (fun s => i_origin s =? 0x2e0) segs = false -> get_xex segs run = Ok x ->
  exists r rest, snd (parse_xex x st) = Ok (r :: rest) /\ x_runad r = true /\ run_address r = Ok (wanted segs run).
Proof.
  intros Hs Hn G.
  destruct (C23_xex_round_trip_partial t_xex segs run x [88; 69; 88] st Hs eq_refl) as (rep & P & M & F).
  { unfold create_executable. change (ends_with (map lower t_xex) t_xex) with true. cbn iota. rewrite G. reflexivity. }
  rewrite Hn in M. cbn [app] in M. destruct rep as [|r rest]; [discriminate|]. cbn [map] in M. injection M as M1 M2 M3.
  exists r, rest. split; [exact P|]. inversion F as [|? ? F1 F2]; subst. destruct F1 as [_ F1]. split; [rewrite F1, M1; reflexivity|].
  unfold run_address. rewrite M2. rewrite slice_all by (rewrite zlen_put2; lia). rewrite zlen_put2. cbn [Z.ltb Z.compare Pos.compare Pos.compare_cont].
  rewrite le2_put2. f_equal. apply u16_id.
  assert (W : 0 <= wanted segs run < 65536); [|exact W].
  destruct (get_xex_spec _ _ _ G) as [[G1 G2]|[G1 (a & G2 & G3)]]; [congruence|].
  unfold xex_run, truthy in G2. unfold wanted.
  assert (Hd : forall s l, segs = s :: l -> 0 <= i_origin (hd (mkI 0 []) segs) < 65536).
  { intros s l ->. inversion Hs as [|? ? Hs1 _]; subst. cbn [hd]. destruct Hs1 as (? & _). lia. }
  assert (Ha : forall r0, has_addr segs r0 = true -> 0 <= r0 < 65536).
  { intros r0 H. unfold has_addr in H. apply existsb_exists in H. destruct H as (s & H1 & H2). rewrite Forall_forall in Hs. destruct (Hs s H1) as (A & B & C & D). lia. }
  destruct run as [r0|].
  - destruct (r0 =? 0); [destruct segs; [discriminate|eapply Hd; reflexivity]|].
    destruct (has_addr segs r0) eqn:E; [apply Ha; exact E|discriminate].
  - destruct segs; [discriminate|eapply Hd; reflexivity].
Qed.
Print Assumptions C23_run_address_partial.
(** When a file is made at all. *)
Theorem C23_accepted_iff name segs run : ends_with (map lower name) t_xex = true ->
  (exists x, create_executable name segs run = Ok (x, [88; 69; 88])) <->
  (existsb (fun s => i_origin s =? 0x2e0) segs = true \/
   match truthy run with Some a => existsb (fun s => covers s a) segs = true | None => segs <> [] end).
Proof.
  intros Hn. unfold create_executable, get_xex. rewrite Hn.
  destruct (existsb (fun s => i_origin s =? 736) segs) eqn:E; cbn [rbind].
  - split; [intros _; left; reflexivity|]. intros _. eexists; reflexivity.
  - unfold xex_run. destruct (truthy run) as [a|].
    + change (has_addr segs a) with (existsb (fun s => covers s a) segs).
      destruct (existsb (fun s => covers s a) segs); cbn [rbind]; split; intros H.
      * right; reflexivity. * eexists; reflexivity. * destruct H; discriminate. * destruct H; discriminate.
    + destruct segs as [|s l]; cbn [rbind]; split; intros H.
      * destruct H; discriminate. * destruct H as [H|H]; [discriminate|congruence]. * right; congruence. * eexists; reflexivity.
Qed.
Print Assumptions C23_accepted_iff.
Example C23_example :
  Forall seg_ok [mkI 0x600 [1; 2; 3]; mkI 0x4000 [255; 255]; mkI 0x600 [9]] /\
  ends_with (map lower [65; 46; 88; 101; 120]) t_xex = true /\
  exists x, create_executable [65; 46; 88; 101; 120] [mkI 0x600 [1; 2; 3]; mkI 0x4000 [255; 255]; mkI 0x600 [9]] (Some 0x4001) = Ok (x, [88; 69; 88]).
Proof.
  split; [repeat constructor; cbn; lia|]. split; [reflexivity|]. eexists. vm_compute. reflexivity.
Qed.
(** A segment at 65535 fits in memory but its address looks like a marker. *)
Theorem C23_last_address_refuted : exists segs x rep,
  Forall (fun s => 1 <= zlen (i_data s) /\ 0 <= i_origin s /\ i_origin s + zlen (i_data s) <= 65536 /\ bytes_ok (i_data s)) segs /\
  get_xex segs None = Ok x /\ snd (parse_xex x x) = Ok rep /\ map seen (tl rep) <> map given segs.
Proof.
  exists [mkI 65535 [7]]. eexists. eexists. split; [repeat constructor; cbn; lia|]. split; [vm_compute; reflexivity|].
  split; [vm_compute; reflexivity|]. vm_compute. discriminate.
Qed.
Print Assumptions C23_last_address_refuted.
(** An empty segment makes the file unreadable. *)
Theorem C23_empty_segment_refuted : exists segs x, get_xex segs None = Ok x /\ snd (parse_xex x x) = Err (EAtr InvalidBinaryFile).
Proof. exists [mkI 0x600 [1]; mkI 0x700 []]. eexists. split; vm_compute; reflexivity. Qed.
Print Assumptions C23_empty_segment_refuted.

(** * C24: the parser *)
Theorem C24_parser_total b st :
  (exists segs, snd (parse_xex b st) = Ok segs) \/ snd (parse_xex b st) = Err (EAtr InvalidBinaryFile).
Proof. exact (parse_xex_total b st). Qed.
Print Assumptions C24_parser_total.
Theorem C24_parser_accepts_exactly_the_grammar b st : bytes_ok b -> forall segs,
  (snd (parse_xex b st) = Ok segs <->
   exists ps, pieces_ok ps /\ begins_ok ps /\ b = encode ps /\ segs = reports 0 ps).
Proof. exact (parse_xex_iff b st). Qed.
Print Assumptions C24_parser_accepts_exactly_the_grammar.

(** Every complete segment is the piece of the file after its header, and pieces do not overlap. *)
Definition honest (b : list Z) (s : xseg) : Prop :=
  x_dstart s = x_meta s + 4 /\ 0 <= x_meta s /\ x_dstart s + zlen (x_data s) <= zlen b /\
  slice b (x_dstart s) (x_dstart s + zlen (x_data s)) = x_data s /\
  le2 (getb b (x_meta s)) (getb b (x_meta s + 1)) = x_origin s /\
  le2 (getb b (x_meta s + 2)) (getb b (x_meta s + 3)) = x_origin s + zlen (x_data s) - 1.
Fixpoint in_file_order (from : Z) (l : list xseg) : Prop :=
  match l with
  | [] => True
  | s :: r => from <= x_meta s /\ in_file_order (x_dstart s + zlen (x_data s)) r
  end.
Definition complete (s : xseg) : bool := match x_name s with NoName => true | _ => false end.
Lemma in_file_order_le p q l : p <= q -> in_file_order q l -> in_file_order p l.
Proof. destruct l; cbn [in_file_order]; [auto|]. intros; split; [lia|tauto]. Qed.
Lemma seg_honest pre o d r : 0 <= o < 65535 -> 1 <= zlen d -> o + zlen d <= 65536 ->
  honest (pre ++ (put2 o ++ put2 (o + zlen d - 1) ++ d) ++ r) (mkX (o =? 0x2e0) NoName (zlen pre) (zlen pre + 4) o d).
Proof.
  intros Ho Hd Hod. pose proof (zlen_nonneg pre). pose proof (zlen_nonneg r). unfold honest. cbn [x_dstart x_meta x_data x_origin].
  split; [reflexivity|]. split; [lia|]. split; [rewrite !zlen_app, !zlen_put2; lia|].
  split; [|split].
  - rewrite <- !app_assoc. rewrite slice_app_r by lia. replace (zlen pre + 4 - zlen pre) with 4 by lia.
    replace (zlen pre + 4 + zlen d - zlen pre) with (4 + zlen d) by lia.
    rewrite (slice_app_r (put2 o)) by (rewrite zlen_put2; lia). rewrite zlen_put2.
    rewrite (slice_app_r (put2 _)) by (rewrite zlen_put2; lia). rewrite zlen_put2.
    replace (4 - 2 - 2) with 0 by lia. replace (4 + zlen d - 2 - 2) with (zlen d) by lia. rewrite slice_app_l by lia. apply slice_full.
  - rewrite <- !app_assoc. pose proof (le2_at pre (put2 (o + zlen d - 1) ++ d ++ r) o 0 (zlen pre)) as L.
    specialize (L ltac:(lia) ltac:(lia) ltac:(lia) [] eq_refl). cbn [app] in L. exact L.
  - rewrite <- !app_assoc. pose proof (le2_at pre (d ++ r) (o + zlen d - 1) 2 (zlen pre + 2)) as L.
    specialize (L ltac:(lia) ltac:(lia) ltac:(lia) (put2 o) (zlen_put2 o)). replace (zlen pre + 3) with (zlen pre + 2 + 1) by lia. exact L.
Qed.
Lemma reports_honest ps : forall pre, pieces_ok ps ->
  Forall (honest (pre ++ encode ps)) (filter complete (reports (zlen pre) ps)) /\
  in_file_order (zlen pre) (filter complete (reports (zlen pre) ps)).
Proof.
  induction ps as [|p r IH]; intros pre H; [split; constructor|]. destruct (pieces_cons _ _ H) as (H1 & H2 & H3).
  unfold encode. cbn [flat_map]. fold (encode r). cbn [reports]. rewrite filter_app.
  destruct (IH (pre ++ encode_piece p) H3) as [I1 I2]. rewrite zlen_app in I1, I2. rewrite <- app_assoc in I1.
  pose proof (zlen_nonneg (encode_piece p)) as Zn.
  destruct p as [|o d|x|l|o e d]; cbn [report filter complete x_name app].
  - split; [exact I1|]. eapply in_file_order_le; [|exact I2]. lia.
  - destruct H1 as [H1|H1]; [|destruct H1]. cbn [whole] in H1. destruct H1 as (A & B & C). split.
    + constructor; [|exact I1]. apply seg_honest; assumption.
    + cbn [in_file_order x_meta x_dstart x_data]. split; [lia|].
      assert (Z4 : zlen (encode_piece (PSeg o d)) = 4 + zlen d) by (cbn [encode_piece]; rewrite !zlen_app, !zlen_put2; lia).
      rewrite Z4 in I2 |- *. rewrite Z.add_assoc in I2 |- *. exact I2.
  - split; [exact I1|]. eapply in_file_order_le; [|exact I2]. lia.
  - split; [exact I1|]. eapply in_file_order_le; [|exact I2]. lia.
  - split; [exact I1|]. eapply in_file_order_le; [|exact I2]. lia.
Qed.
Theorem C24_segments_are_disjoint_pieces_partial b st segs : bytes_ok b -> snd (parse_xex b st) = Ok segs ->
  Forall (honest b) (filter complete segs) /\ in_file_order 0 (filter complete segs).
Proof.
  intros Hb E. apply parse_xex_iff in E; [|exact Hb]. destruct E as (ps & P & _ & -> & ->). exact (reports_honest ps [] P).
Qed.
Print Assumptions C24_segments_are_disjoint_pieces_partial.
Example C24_example : bytes_ok [255; 255; 0; 6; 2; 6; 1; 2; 3; 255; 255; 0; 7; 0; 7; 9; 1] /\
  exists segs, snd (parse_xex [255; 255; 0; 6; 2; 6; 1; 2; 3; 255; 255; 0; 7; 0; 7; 9; 1] []) = Ok segs /\ zlen (filter complete segs) = 2 /\ zlen segs = 3.
Proof. split; [repeat constructor; unfold is_byte; lia|]. eexists. split; [vm_compute; reflexivity|]. split; reflexivity. Qed.
(** Truncated pieces are reported at the wrong place. *)
Theorem C24_truncated_position_refuted : exists b segs s, bytes_ok b /\ snd (parse_xex b []) = Ok segs /\ In s segs /\
  slice b (x_dstart s) (x_dstart s + zlen (x_data s)) <> x_data s.
Proof.
  exists [255; 255; 7]. eexists. eexists. split; [repeat constructor; unfold is_byte; lia|]. split; [vm_compute; reflexivity|].
  split; [left; reflexivity|]. vm_compute. discriminate.
Qed.
Print Assumptions C24_truncated_position_refuted.
Theorem C24_short_header_position_refuted : exists b segs s, bytes_ok b /\ snd (parse_xex b []) = Ok segs /\ In s segs /\
  x_name s = ShortHeader /\ slice b (x_dstart s) (x_dstart s + zlen (x_data s)) <> x_data s.
Proof.
  exists [255; 255; 0; 6; 4]. eexists. eexists. split; [repeat constructor; unfold is_byte; lia|]. split; [vm_compute; reflexivity|].
  split; [left; reflexivity|]. split; [reflexivity|]. vm_compute. discriminate.
Qed.
Print Assumptions C24_short_header_position_refuted.

(** * C25: BSAVE *)
Theorem C25_bsave_loads_the_segments_partial segs run lo hi :
  fits segs lo hi -> lo < 65536 -> hi - lo < 65536 -> (truthy run = None \/ truthy run = Some lo) ->
  exists f, get_bsave segs run = Ok f /\ loads_as f lo (hi - lo) (memory segs).
Proof. intros. apply get_bsave_plain; assumption. Qed.
Print Assumptions C25_bsave_loads_the_segments_partial.
Theorem C25_bsave_jumps_to_run_address_partial segs run r lo hi :
  fits segs lo hi -> truthy run = Some r -> r <> lo -> 0 <= r < 65536 ->
  existsb (fun s => covers s r) segs = true -> 3 <= lo < 65536 -> hi - lo + 3 < 65536 ->
  exists f, get_bsave segs run = Ok f /\
    loads_as f (lo - 3) (hi - lo + 3)
      (fun a => if a =? lo - 3 then 0x4c else if a =? lo - 2 then r mod 256 else if a =? lo - 1 then r / 256 else memory segs a).
Proof. intros. apply get_bsave_run; try assumption; lia. Qed.
Print Assumptions C25_bsave_jumps_to_run_address_partial.
Theorem C25_run_address_outside_is_refused segs run r lo hi :
  fits segs lo hi -> truthy run = Some r -> r <> lo ->
  existsb (fun s => covers s r) segs = false -> get_bsave segs run = Err (EAtr InvalidBinaryFile).
Proof. apply get_bsave_outside. Qed.
Print Assumptions C25_run_address_outside_is_refused.
(** What [memory] means: the last segment covering an address wins, gaps are zero. *)
Theorem C25_memory_is_last_writer segs a :
  (existsb (fun s => covers s a) segs = false -> memory segs a = 0) /\
  (forall before s after, segs = before ++ s :: after -> covers s a = true ->
     existsb (fun t => covers t a) after = false -> memory segs a = getb (i_data s) (a - i_origin s)).
Proof.
  split; [apply memory_uncovered|]. intros before s after -> Hs Ha. induction before as [|t l IH]; cbn [app memory].
  - rewrite Ha, Hs. reflexivity.
  - replace (existsb (fun t0 => covers t0 a) (l ++ s :: after)) with true; [exact IH|].
    rewrite existsb_app. cbn [existsb]. rewrite Hs, orb_true_r. reflexivity.
Qed.
Print Assumptions C25_memory_is_last_writer.
(** Reading the file back. *)
Theorem C25_bsave_round_trip f base len m : 0 <= len -> loads_as f base len m ->
  parse_bsave f = Ok (mkX false NoName 0 4 base (map m (zrange base (base + len)))).
Proof. apply parse_bsave_loads. Qed.
Print Assumptions C25_bsave_round_trip.
Theorem C25_save_segment_round_trip origin data : 0 <= origin < 65536 -> zlen data < 65536 ->
  parse_bsave (bsave_saver origin data) = Ok (mkX false NoName 0 4 origin data).
Proof.
  intros Ho Hd. pose proof (zlen_nonneg data) as Hn.
  assert (L : loads_as (bsave_saver origin data) origin (zlen data) (fun a => getb data (a - origin))).
  { unfold loads_as, bsave_saver. split; [change (le2 (u8 origin) (u8 (origin / 256)) = origin); apply le2_u8; lia|].
    split; [change (le2 (u8 (zlen data)) (u8 (zlen data / 256)) = zlen data); apply le2_u8; lia|].
    split; [rewrite !zlen_app, !zlen_put2; lia|]. intros a Ha. rewrite app_assoc.
    assert (Z4 : zlen (put2 origin ++ put2 (zlen data)) = 4) by reflexivity.
    rewrite (getb_app_r (put2 origin ++ put2 (zlen data)) data) by lia. f_equal. lia. }
  rewrite (parse_bsave_loads _ _ _ _ Hn L). do 2 f_equal. apply list_ext_getb.
  - unfold zlen at 1. rewrite map_length. fold (zlen (zrange origin (origin + zlen data))). rewrite zlen_zrange by lia. lia.
  - intros i Hi. unfold zlen in Hi at 1. rewrite map_length in Hi. fold (zlen (zrange origin (origin + zlen data))) in Hi. rewrite zlen_zrange in Hi by lia.
    unfold getb at 1. rewrite (nth_indep _ 0 ((fun a => getb data (a - origin)) 0)).
    + rewrite (map_nth (fun a => getb data (a - origin))). rewrite nth_zrange by lia. f_equal. lia.
    + rewrite map_length. pose proof (zlen_zrange origin (origin + zlen data) ltac:(lia)) as Hz. unfold zlen at 1 in Hz. lia.
Qed.
Print Assumptions C25_save_segment_round_trip.
Example C25_example :
  let segs := [mkI 0x800 [1; 2; 3; 4]; mkI 0x802 [9]; mkI 0x80a [5; 6]] in
  fits segs 0x800 0x80c /\ truthy (Some 0x803) = Some 0x803 /\ existsb (fun s => covers s 0x803) segs = true /\
  get_bsave segs (Some 0x803) = Ok [0xfd; 7; 15; 0; 0x4c; 3; 8; 1; 2; 9; 4; 0; 0; 0; 0; 0; 0; 5; 6].
Proof.
  cbn zeta. split; [|split; [reflexivity|split; [reflexivity|vm_compute; reflexivity]]].
  unfold fits. split; [lia|]. split; [lia|]. split.
  - intros s [<- |[<- |[<- |[]]]]; cbn; lia.
  - split; [apply Exists_cons_hd; reflexivity|]. apply Exists_cons_tl, Exists_cons_tl, Exists_cons_hd. reflexivity.
Qed.
(** The length field is 16 bits: a file holding all of memory says its length is 0
    and cannot be read back. *)
Lemma bsave_header_length segs : fits segs 0 65536 ->
  exists f, get_bsave segs None = Ok f /\ zlen f = 65540 /\ le2 (getb f 2) (getb f 3) = 0.
Proof.
  intros H. destruct (fits_bounds _ _ _ H) as [B1 B2]. destruct H as (_ & _ & H3 & _ & _).
  unfold get_bsave. rewrite B1, B2. cbn [truthy]. unfold bsave_image.
  change (65536 - 0 + 4 <? 0) with false. change (65536 - 0 <? 0) with false. cbn iota. eexists. split; [reflexivity|].
  set (img := setslice (setslice (zrepeat 0 (65536 - 0 + 4)) 0 (put2 0)) 2 (put2 (65536 - 0))).
  assert (Z0 : zlen (zrepeat 0 (65536 - 0 + 4)) = 65540) by (rewrite zlen_zrepeat; lia).
  assert (Z1 : zlen (setslice (zrepeat 0 (65536 - 0 + 4)) 0 (put2 0)) = 65540) by (rewrite zlen_setslice; rewrite ?zlen_put2, ?Z0; lia).
  assert (Zi : zlen img = 65540) by (unfold img; rewrite zlen_setslice; rewrite ?zlen_put2, ?Z1; lia).
  assert (Hs : forall s, In s segs -> 0 <= i_origin s /\ i_origin s + zlen (i_data s) - 0 + 4 <= zlen img) by (intros s Hs; specialize (H3 s Hs); lia).
  rewrite zlen_bsave_fill by exact Hs. split; [exact Zi|]. rewrite !bsave_fill_head by (first [lia|exact Hs]). unfold img.
  rewrite !getb_setslice by (rewrite ?zlen_put2, ?Z1, ?Z0; lia). reflexivity.
Qed.
Theorem C25_whole_memory_refuted : exists segs f, fits segs 0 65536 /\ get_bsave segs None = Ok f /\
  parse_bsave f = Err (EAtr InvalidBinaryFile).
Proof.
  assert (F : fits [mkI 0 (zrepeat 1 65536)] 0 65536).
  { unfold fits. split; [lia|]. split; [lia|]. split; [intros s [<- |[]]; cbn [i_origin i_data]; rewrite zlen_zrepeat by lia; lia|].
    split; apply Exists_cons_hd; cbn [i_origin i_data]; [reflexivity|rewrite zlen_zrepeat by lia; lia]. }
  destruct (bsave_header_length _ F) as (f & E & Zf & L). exists [mkI 0 (zrepeat 1 65536)], f. split; [exact F|]. split; [exact E|].
  unfold parse_bsave. rewrite zlen_slice by lia. replace (4 - 0 =? 4) with true by lia. rewrite L, Zf. reflexivity.
Qed.
Print Assumptions C25_whole_memory_refuted.

(** * C26: KBoot *)
Theorem C26_kboot_file_is_the_executable_partial x : 1 <= zlen x < 65536 ->
  exists b, add_atr_header (add_xexboot_header x) = Ok b /\ exists k, kboot_open b = Ok k /\ kboot_file k = x.
Proof. intros H. apply (kboot_round x ltac:(lia) (add_xexboot_header x) eq_refl H). Qed.
Print Assumptions C26_kboot_file_is_the_executable_partial.
Theorem C26_create_boot_image_partial segs run x : get_xex segs None = Ok x -> zlen x < 65536 ->
  exists b, kboot_create segs run = Ok b /\ exists k, kboot_open b = Ok k /\ kboot_file k = x.
Proof.
  intros E H. rewrite (kboot_create_atr _ _ _ E). apply (kboot_round x ltac:(lia) _ eq_refl). split; [|exact H].
  destruct (get_xex_spec _ _ _ E) as [[_ ->]|[_ (a & _ & ->)]]; rewrite zlen_app; change (zlen [255; 255]) with 2;
    match goal with |- context [zlen (flat_map ?f ?l)] => pose proof (zlen_nonneg (flat_map f l)) end; lia.
Qed.
Print Assumptions C26_create_boot_image_partial.
Theorem C26_large_executable_is_refused segs run x : get_xex segs None = Ok x -> 65536 <= zlen x < 200000000 ->
  exists b, kboot_create segs run = Ok b /\ kboot_open b = Err (EAtr InvalidDiskImage).
Proof. intros E H. rewrite (kboot_create_atr _ _ _ E). apply (kboot_refused x ltac:(lia) _ eq_refl). lia. Qed.
Print Assumptions C26_large_executable_is_refused.
Theorem C26_large_executable_refuted : exists segs b, Forall seg_ok segs /\ kboot_create segs None = Ok b /\
  kboot_open b = Err (EAtr InvalidDiskImage).
Proof.
  set (segs := [mkI 0 (zrepeat 0 60000); mkI 0 (zrepeat 0 6000)]). exists segs.
  assert (F : Forall seg_ok segs).
  { assert (G : forall n, 1 <= n <= 65536 -> seg_ok (mkI 0 (zrepeat 0 n))).
    { intros n Hn. unfold seg_ok. cbn [i_origin i_data]. rewrite zlen_zrepeat by lia. repeat (split; [lia|]).
      apply bytes_ok_zrepeat. unfold is_byte. lia. }
    constructor; [apply G; lia|]. constructor; [apply G; lia|constructor]. }
  assert (E : exists x, get_xex segs None = Ok x /\ zlen x = 66016).
  { unfold get_xex, xex_run. eexists. split; [reflexivity|]. rewrite xex_bytes_spec.
    - cbn [segs flat_map]. unfold xenc. cbn [i_origin i_data]. rewrite !zlen_app, !zlen_put2, !zlen_zrepeat by lia. reflexivity.
    - rewrite xex_total_spec. cbn [xsizes]. unfold xsize. cbn [i_data]. rewrite zlen_put2. lia. }
  destruct E as (x & E & Zx). destruct (C26_large_executable_is_refused segs None x E ltac:(lia)) as (b & H1 & H2). exists b. auto.
Qed.
Print Assumptions C26_large_executable_refuted.
Example C26_example : exists x, get_xex [mkI 0x600 [1; 2; 3]; mkI 0x700 [4]] None = Ok x /\ zlen x < 65536.
Proof. eexists. split; [vm_compute; reflexivity|]. cbn. lia. Qed.

(** * C27: the run address of a boot image *)
(** Whatever is asked, the image runs the first segment. *)
Theorem C27_boot_image_runs_first_segment_partial segs run b st :
  Forall seg_ok segs -> existsb (fun s => i_origin s =? 0x2e0) segs = false ->
  kboot_create segs run = Ok b ->
  (exists x, get_xex segs None = Ok x /\ zlen x < 65536) ->
  exists k r rest, kboot_open b = Ok k /\ snd (parse_xex (kboot_file k) st) = Ok (r :: rest) /\
    run_address r = Ok (i_origin (hd (mkI 0 []) segs)).
Proof.
  intros Hs Hn E (x & Ex & Hx). destruct (C26_create_boot_image_partial segs run x Ex Hx) as (b' & E' & k & Ek & Kx).
  rewrite E in E'. injection E' as <-. destruct (C23_run_address_partial segs None x st Hs Hn Ex) as (r & rest & P & _ & R).
  exists k, r, rest. split; [exact Ek|]. rewrite Kx. auto.
Qed.
Print Assumptions C27_boot_image_runs_first_segment_partial.
Theorem C27_run_address_ignored_refuted : exists segs run b k r rest,
  Forall seg_ok segs /\ existsb (fun s => covers s run) segs = true /\ kboot_create segs (Some run) = Ok b /\
  kboot_open b = Ok k /\ snd (parse_xex (kboot_file k) []) = Ok (r :: rest) /\ x_runad r = true /\ run_address r <> Ok run.
Proof.
  exists [mkI 0x600 [1; 2; 3]; mkI 0x700 [4]], 0x700. eexists. eexists. eexists. eexists.
  split; [repeat constructor; cbn; lia|]. split; [reflexivity|]. split; [vm_compute; reflexivity|].
  split; [vm_compute; reflexivity|]. split; [vm_compute; reflexivity|]. split; [reflexivity|]. vm_compute. discriminate.
Qed.
Print Assumptions C27_run_address_ignored_refuted.
Example C27_example : Forall seg_ok [mkI 0x600 [1; 2; 3]; mkI 0x700 [4]] /\
  existsb (fun s => i_origin s =? 0x2e0) [mkI 0x600 [1; 2; 3]; mkI 0x700 [4]] = false /\
  exists b, kboot_create [mkI 0x600 [1; 2; 3]; mkI 0x700 [4]] (Some 0x701) = Ok b.
Proof. split; [repeat constructor; cbn; lia|]. split; [reflexivity|]. eexists. vm_compute. reflexivity. Qed.
