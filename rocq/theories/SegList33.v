(** The segments of a consistent DOS 3.3 disk. *)
From Coq Require Import String.
From Verif Require Import Base BaseLemmas DiskModel DirLemmas SegModel SegSpec SegProofs SegProofs2 TextModel DetectModel EditModel EditProofs EditAtari
  SegListModel SegListSpec SegListProofs SegListAtari.
From Verif Require Import Dos33Model Dos33Spec Dos33Geom Dos33Vtoc Dos33Dir Dos33Files Dos33Write Dos33Ops Edit33.

Lemma order3_at l : order3 l = sectors_at3 l.
Proof. unfold order3, sectors_at3. apply flat_map_ext. intros n. f_equal; lia. Qed.
Lemma zlen_sectors_at3 l : zlen (sectors_at3 l) = 256 * zlen l.
Proof.
  induction l as [|n l IH]; [reflexivity|]. cbn [sectors_at3 flat_map]. fold (sectors_at3 l). rewrite zlen_app, IH, zlen_zrange', zlen_cons. lia.
Qed.

(** * Boot segments *)
Lemma more_size3_in f m : forall n, 0 <= n + 1 -> n + Z.of_nat m < 560 -> more_size3 (H3 f) m n = Ok (256 * Z.of_nat m).
Proof.
  induction m as [|m IH]; intros n Hn L; [reflexivity|]. cbn [more_size3]. rewrite get_pos3_in by lia. cbn [rbind]. rewrite IH by lia. cbn [rbind]. f_equal. lia.
Qed.
Lemma slice_bounds3_in f a b : 0 <= a <= b -> b < 560 -> slice_bounds3 (H3 f) a b = Ok (256 * a, 256 * b + 256).
Proof.
  intros A B. unfold slice_bounds3. rewrite get_pos3_in by lia. cbn [rbind]. rewrite more_size3_in by lia. cbn [rbind]. f_equal. f_equal; lia.
Qed.
Lemma boot_list3_ok h r f l : raw_ok h r -> raw_len h r = 143360 -> Forall (fun x => let '(a, b, _, _) := x in 0 <= a <= b /\ b < 560) l ->
  exists s, boot_list3 h r (H3 f) l = Ok s /\ Forall2 (made r h) s (map (fun x => let '(a, b, addr, name) := x in boot_entry3 name addr a b) l).
Proof.
  intros R L. induction 1 as [|[[[a b] addr] name] l (A & B) F (s & E & M)]; cbn [boot_list3 map]; [exists []; split; [reflexivity|constructor]|].
  rewrite slice_bounds3_in by lia. cbn [rbind]. rewrite E. cbn [rbind]. eexists. split; [reflexivity|]. constructor; [|exact M].
  split; [|auto]. cbn [g_raw n_at boot_entry3]. apply slice_window; [exact R|lia|lia].
Qed.

(** * Notes *)
Lemma track_notes_range count : forall t index, 0 <= index -> Forall (fun it => 0 <= fst it < index + 4 * Z.of_nat count) (track_notes count t index).
Proof.
  induction count as [|c IH]; intros t index Hi; [constructor|]. cbn [track_notes]. constructor; [cbn [fst]; lia|].
  eapply Forall_impl; [|apply (IH (t + 1) (index + 4)); lia]. intros it. cbv beta. lia.
Qed.
Lemma track_notes_at p size count : forall t index, 0 <= index -> index + 4 * Z.of_nat count <= size ->
  note_list (zrange p (p + size)) (track_notes count t index) =
  map (fun i => (p + index + 4 * (i - t), txt "Free sectors in track " ++ dec i)) (zrange t (t + Z.of_nat count)).
Proof.
  induction count as [|c IH]; intros t index Hi L; [rewrite (zrange_nil t) by lia; reflexivity|].
  rewrite (zrange_cons t) by lia. cbn [track_notes map]. unfold note_list. cbn [map fst snd]. fold (note_list (zrange p (p + size)) (track_notes c (t + 1) (index + 4))).
  rewrite IH by lia. rewrite getb_zrange by lia. f_equal.
  - f_equal. lia.
  - replace (t + 1 + Z.of_nat c) with (t + Z.of_nat (S c)) by lia. apply map_ext. intros i. f_equal. lia.
Qed.
Lemma entry_notes3_range count : forall n index, 0 <= index -> Forall (fun it => 0 <= fst it < index + 35 * Z.of_nat count) (entry_notes3 count n index).
Proof.
  induction count as [|c IH]; intros n index Hi; [constructor|]. cbn [entry_notes3 app]. repeat (constructor; [cbn [fst]; lia|]).
  eapply Forall_impl; [|apply (IH (n + 1) (index + 35)); lia]. intros it. cbv beta. lia.
Qed.
Lemma entry_notes3_at ps q a count : (forall i, 0 <= i < 256 -> getb ps (a + i) = q + i) -> forall n index, a <= index -> index + 35 * Z.of_nat count <= a + 256 ->
  note_list ps (entry_notes3 count n index) = flat_map (fun i => named_fields i (q + (index - a) + 35 * (i - n)) entry_fields3) (zrange n (n + Z.of_nat count)).
Proof.
  intros G. induction count as [|c IH]; intros n index Hi L; [rewrite (zrange_nil n) by lia; reflexivity|].
  rewrite (zrange_cons n) by lia. cbn [flat_map entry_notes3]. unfold note_list. rewrite map_app. fold (note_list ps (entry_notes3 c (n + 1) (index + 0x23))).
  rewrite IH by lia. f_equal.
  - assert (G' : forall i, 0 <= index + i - a < 256 -> getb ps (index + i) = q + (index - a) + i).
    { intros i Hr. replace (index + i) with (a + (index + i - a)) by lia. rewrite G by lia. lia. }
    unfold named_fields, entry_fields3. cbn [map fst snd]. rewrite !G' by lia. unfold file_note. rewrite Z.sub_diag, Z.mul_0_r, !Z.add_0_r. reflexivity.
  - replace (n + 1 + Z.of_nat c) with (n + Z.of_nat (S c)) by lia. apply flat_map_ext. intros i. f_equal. lia.
Qed.
Definition cat_fields (q j : Z) : list (Z * list Z) :=
  fields_at q catalog_fields3 ++ flat_map (fun i => named_fields (7 * j + i) (q + 11 + 35 * i) entry_fields3) (zrange 0 7).
Lemma catalog_notes3_ok cat len : len = 256 * zlen cat -> forall c fuel m, 0 <= m -> zlen cat = m + Z.of_nat c -> (c <= fuel)%nat ->
  Forall (fun it => 0 <= fst it < len) (catalog_notes3 fuel len (7 * m) (256 * m)) /\
  note_list (sectors_at3 cat) (catalog_notes3 fuel len (7 * m) (256 * m)) = flat_map (fun j => cat_fields (256 * getb cat j) j) (zrange m (zlen cat)).
Proof.
  intros El. assert (G : forall m, 0 <= m < zlen cat -> forall i, 0 <= i < 256 -> getb (sectors_at3 cat) (256 * m + i) = 256 * getb cat m + i).
  { clear El. induction cat as [|n cat IH]; intros m Hm i Hi; [unfold zlen in Hm; cbn [length] in Hm; lia|]. rewrite zlen_cons in Hm. cbn [sectors_at3 flat_map]. fold (sectors_at3 cat).
    destruct (Z.eq_dec m 0) as [->|N].
    - rewrite getb_app_l by (rewrite zlen_zrange'; lia). rewrite getb_zrange by lia. rewrite getb_cons0. lia.
    - rewrite getb_app_r by (rewrite zlen_zrange'; lia). rewrite zlen_zrange'. replace (256 * m + i - Z.max 0 (256 * n + 256 - 256 * n)) with (256 * (m - 1) + i) by lia.
      rewrite IH by lia. rewrite (getb_consS n cat m) by lia. reflexivity. }
  induction c as [|c IH]; intros fuel m Hm Hc Hf.
  - rewrite zrange_nil by lia. destruct fuel as [|f]; cbn [catalog_notes3]; [split; [constructor|reflexivity]|]. replace (256 * m <? len) with false by lia. split; [constructor|reflexivity].
  - destruct fuel as [|f]; [lia|]. cbn [catalog_notes3]. replace (256 * m <? len) with true by lia.
    replace (256 * m + 0x0b + 7 * 0x23) with (256 * (m + 1)) by lia. replace (7 * m + 7) with (7 * (m + 1)) by lia.
    destruct (IH f (m + 1) ltac:(lia) ltac:(lia) ltac:(lia)) as (F1 & F2). split.
    + apply Forall_app. split; [repeat (constructor; [cbn [fst]; lia|]); constructor|]. apply Forall_app. split; [|exact F1].
      eapply Forall_impl; [|apply (entry_notes3_range 7 (7 * m) (256 * m + 0x0b)); lia]. intros it. cbv beta. lia.
    + rewrite (zrange_cons m) by lia. cbn [flat_map]. unfold note_list in F2 |- *. rewrite !map_app, F2, app_assoc. f_equal.
      unfold cat_fields. specialize (G m ltac:(lia)). f_equal.
      * unfold fields_at, catalog_fields3. cbn [map fst snd]. rewrite !G by lia. reflexivity.
      * pose proof (entry_notes3_at (sectors_at3 cat) _ _ 7 G (7 * m) (256 * m + 0x0b) ltac:(lia) ltac:(lia)) as E. unfold note_list in E. rewrite E. clear.
        replace (zrange (7 * m) (7 * m + Z.of_nat 7)) with (map (fun i => 7 * m + i) (zrange 0 7)).
        -- rewrite flat_map_concat_map, map_map, <- flat_map_concat_map. apply flat_map_ext. intros i. f_equal. lia.
        -- change (zrange 0 7) with [0;1;2;3;4;5;6]. cbn [map]. rewrite !zrange_cons, zrange_nil by lia. repeat (f_equal; try lia).
Qed.
Lemma vtoc_notes3_ok p : Forall (fun it => 0 <= fst it < 256) vtoc_notes3 /\
  note_list (zrange p (p + 256)) vtoc_notes3 = fields_at p vtoc_fields3 ++ map (fun t => (p + 56 + 4 * t, txt "Free sectors in track " ++ dec t)) (zrange 0 35).
Proof.
  unfold vtoc_notes3. split.
  - apply Forall_app. split; [repeat (constructor; [cbn [fst]; lia|]); constructor|]. eapply Forall_impl; [|apply (track_notes_range 35 0 56); lia].
    intros it. cbv beta. lia.
  - unfold note_list. rewrite map_app. fold (note_list (zrange p (p + 256)) (track_notes 35 0 0x38)). f_equal.
    + unfold fields_at, vtoc_fields3. cbn [map fst snd]. rewrite !getb_zrange by lia. reflexivity.
    + rewrite track_notes_at by lia. apply map_ext. intros i. f_equal. lia.
Qed.
Lemma catalog_runs_ok f b n l : zlen b = 143360 -> links b n l -> forall fuel, (length l <= fuel)%nat ->
  catalog_runs fuel (H3 f) b n = Ok (map (fun m => (m * 256, 256)) l).
Proof.
  intros Hb. induction 1 as [|n l Hn Ni Li IH]; intros fuel Hf.
  - destruct fuel; reflexivity.
  - destruct fuel as [|fu]; [cbn [length] in Hf; lia|]. cbn [catalog_runs length] in *. replace (0 <? n) with true by lia.
    rewrite assert_valid3_in by lia. cbn [rbind]. rewrite get_raw3_in by lia. cbn [rbind]. rewrite link_of_sec by (assumption || lia). cbn [rbind].
    rewrite IH by lia. reflexivity.
Qed.

(** * Files *)
Lemma each_file_marks {D} (name : D -> list Z) make r b (P : heap -> D -> seg -> list Z -> Prop) ds :
  (forall h area notes h' d s a, image_raw h r b -> marks h r area notes h' -> P h d s a -> P h' d s a) ->
  (forall h d, In d ds -> image_raw h r b -> exists h' s a, make h d = (h', Ok s) /\ marks h r a [] h' /\ P h' d s a) ->
  forall h, image_raw h r b -> exists h' l, each_file name make r h ds = (h', Ok (map fst l)) /\ marks h r (flat_map snd l) [] h' /\
    Forall2 (fun d x => P h' d (fst x) (snd x)) ds l.
Proof.
  intros Mono. induction ds as [|d ds IH]; intros H h I; cbn [each_file].
  - exists h, []. split; [reflexivity|]. split; [apply marks_refl|constructor].
  - destruct (H h d (or_introl eq_refl) I) as (h1 & s & a & E & M & Ps). rewrite E. pose proof (marks_image r _ _ _ _ b I M) as I1.
    destruct (IH (fun h x Hx => H h x (or_intror Hx)) h1 I1) as (h2 & l & E2 & M2 & P2). rewrite E2. cbn [hbind].
    exists h2, ((s, a) :: l). split; [reflexivity|]. split; [exact (marks_trans r _ _ _ _ _ _ _ (proj1 I) M M2)|]. constructor; [|exact P2].
    exact (Mono _ _ _ _ _ _ _ I1 M2 Ps).
Qed.
Lemma marks_four h r s ps : raw_ok h r -> NoDup (shows h r) -> window r h s ps -> 4 <= zlen ps -> marks h r (slice ps 0 4) [] (mark_four h s).
Proof.
  intros R Nd W L. pose proof (window_slice r h s ps (Some 0) (Some 4) R W) as W'.
  replace (pyslice ps (Some 0) (Some 4)) with (slice ps 0 4) in W' by (unfold pyslice, bound; f_equal; cbn [Z.ltb Z.compare]; lia).
  pose proof (marks_style r h _ _ (fun _ => style_bits k_data) R Nd W' (fun x => eq_refl)) as M. unfold mark_four. rewrite win_slice_shows by apply W.
  destruct (raw_slice_shows h s (Some 0) (Some 4) (wn_ok _ _ _ _ W)) as (_ & X2 & _ & X4 & _). rewrite X2 in M. unfold upd_style in M |- *. rewrite X4 in M. exact M.
Qed.
Lemma sectors_of3_det im n t d t' d' : sectors_of3 im n t d -> sectors_of3 im n t' d' -> t = t' /\ d = d'.
Proof.
  intros (cat & k & i & D & (Hi & L & N & A)) (cat' & k' & j & D' & (Hj & L' & N' & A')). destruct (disk_det _ _ _ _ _ D D') as [<- <-].
  assert (i = j) as <- by (apply (live_names _ cat k D); auto; congruence). exact (file_at_det _ _ _ _ _ _ A A').
Qed.

(** How a file is called in the list: a star if locked, the letter of its type, the
    number of sectors and the name. *)
Definition label3 (d : ent) : list Z :=
  (if d3_lock d =? 0 then txt " " else txt "*") ++ type_text (d3_type d) ++ txt " " ++ pad0 3 (dec (d3_count d)) ++ txt " " ++ d3_name d.
Definition entry3 (d : ent) (dl data : list Z) : entry := mkEn KObj (label3 d) (origin3 (d3_type d) data) (sectors_at3 dl).
Record dos33_file (h : heap) (r : raw) (im : img33) (d : ent) (s : seg) (tl dl data : list Z) : Prop := mkDF {
  df_sectors : sectors_of3 im (d3_name d) tl dl;
  df_data : find_file3 im (d3_name d) = Ok data;
  df_seg : seg_is h r s (entry3 d dl data);
  df_read : read_data h (g_raw s) = data
}.
(** The bytes of the header of a file of type B. *)
Definition head_bytes (d : ent) (dl data : list Z) : list Z := if 0 <? origin3 (d3_type d) data then slice (sectors_at3 dl) 0 4 else [].
Definition file_made (r : raw) (im : img33) (h : heap) (d : ent) (s : seg) (a : list Z) : Prop :=
  exists tl dl data, sectors_of3 im (d3_name d) tl dl /\ find_file3 im (d3_name d) = Ok data /\ made r h s (entry3 d dl data) /\
    map (getb (i_bytes im)) (sectors_at3 dl) = data /\ a = head_bytes d dl data.

Lemma file_made_ok r im h d : consistent3 im -> In d (i_files im) -> image_raw h r (i_bytes im) ->
  exists h' s a, file_seg3 r im h d = (h', Ok s) /\ marks h r a [] h' /\ file_made r im h' d s a.
Proof.
  intros Co Hin Ir. destruct (consistent3_view im Co) as (cat & k & Ei & D). pose proof (image_raw_len _ _ _ Ir) as Hlen. pose proof Ir as (R & Nd & Hl & Rb).
  set (b := i_bytes im) in *. pose proof (k3_size _ _ _ D) as Hb. rewrite Ei in Hin. cbn [view3 i_files] in Hin.
  apply (in_files3 b cat k D) in Hin. destruct Hin as (i & Hi & L & Ed). destruct (k3_files _ _ _ D i Hi L) as (_ & _ & tl & dl & A & Ne & Nd' & Q).
  assert (F : file_in3 b cat k (d3_name d) i tl dl) by (split; [exact Hi|]; split; [exact L|]; split; [rewrite Ed; symmetry; apply d3_name_parse|exact A]).
  destruct (find_of_file_in3 b cat k _ i tl dl D F) as (Ef & _). rewrite <- Ei in Ef.
  pose proof (e3_range b cat k _ i tl dl D F) as Rg. pose proof (order3_ok dl Rg (NoDup_app_right _ _ Nd')) as Oc. pose proof (contents_order3 b dl Hb Rg) as Ec.
  rewrite <- Hb, Hlen in Oc. destruct (order_window r h _ R Hl Oc) as (x & Ex & W). rewrite order3_at in *.
  assert (Eh : i_hdr im = H3 (fdir3 b)) by (rewrite Ei; reflexivity).
  assert (St : from_ts (d3_track d) (d3_sector d) = x_start (slot3 b cat i)) by (rewrite Ed; apply d3_start_parse; intros C; destruct L; contradiction).
  assert (Ct : d3_count d = x_count (slot3 b cat i)) by (rewrite Ed; reflexivity).
  pose proof (get_tslist_spec (fdir3 b) b (slot3 b cat i) d tl dl Hb A St Ct) as Gt.
  destruct dl as [|n0 dl]; [congruence|]. assert (Hn0 : 0 <= n0 < 560) by (inversion Rg; assumption).
  pose proof (read_map_spec (fdir3 b) b (n0 :: dl) Hb Rg) as Rm.
  assert (Z4 : 4 <= zlen (sectors_at3 (n0 :: dl))) by (rewrite zlen_sectors_at3, zlen_cons; pose proof (zlen_nonneg dl); lia).
  destruct (sectors_at3 (n0 :: dl)) as [|p o] eqn:E0; [unfold zlen in Z4; cbn [length] in Z4; lia|].
  set (data := contents3 b (n0 :: dl)) in *.
  assert (Or : (if d3_type d =? 4 then getb (sec b n0) 0 + 256 * getb (sec b n0) 1 - 4 else 0) = origin3 (d3_type d) data).
  { unfold origin3, data. destruct (d3_type d =? 4); [|reflexivity]. cbn [contents3 flat_map].
    rewrite !getb_app_l by (rewrite zlen_sec by assumption; lia). reflexivity. }
  assert (Su : dos33_summary d = (if d3_lock d =? 0 then txt " " else txt "*") ++ type_text (d3_type d)).
  { unfold dos33_summary. replace (d3_del d) with false; [destruct (d3_lock d =? 0); reflexivity|].
    destruct (d3_del d) eqn:Edel; [|reflexivity]. exfalso. rewrite Ed in Edel; apply d3_del_parse in Edel. destruct L. contradiction. }
  unfold file_seg3, file_segment3, pure. rewrite Eh. fold b. rewrite Gt, Rm. rewrite run_positions3, order3_at, E0.
  replace (d3_sane d) with true by (rewrite Ed; symmetry; apply (sane_entry b cat k D); assumption). cbn [negb]. rewrite Ex.
  rewrite get_raw3_in by assumption. rewrite zlen_sec by assumption. cbn [Z.ltb Z.compare Pos.compare Pos.compare_cont].
  assert (Fin : forall h1, window r h1 x (p :: o) -> file_made r im h1 d (mkSeg KObj (dos33_summary d ++ txt " " ++ pad0 3 (dec (d3_count d)) ++ txt " " ++ d3_name d) (origin3 (d3_type d) data) x)
     (if 0 <? origin3 (d3_type d) data then slice (p :: o) 0 4 else [])).
  { intros h1 W1. exists tl, (n0 :: dl), data. split; [exists cat, k, i; split; [exact D|exact F]|]. split; [exact Ef|]. split.
    - split; [cbn [g_raw n_at entry3]; rewrite E0; exact W1|]. split; [reflexivity|]. split; [|reflexivity]. cbn [g_name n_name entry3]. unfold label3. rewrite Su, <- app_assoc. reflexivity.
    - split; [fold b; rewrite E0; symmetry; exact Ec|]. unfold head_bytes. rewrite E0. reflexivity. }
  destruct (d3_type d =? 4) eqn:T; cbn [hbind rbind List.hd]; rewrite Rm; cbn [rbind]; rewrite run_positions3, order3_at, E0; rewrite ?get_raw3_in by assumption; cbn [rbind].
  - rewrite Or. destruct (0 <? origin3 (d3_type d) data) eqn:O; eexists _, _, _; (split; [reflexivity|]).
    + pose proof (marks_four h r x (p :: o) R Nd W Z4) as M. split; [exact M|]. apply Fin. exact (window_marks r _ _ _ _ _ _ R M W).
    + split; [apply marks_refl|]. apply Fin. exact W.
  - rewrite <- Or in Fin. eexists _, _, _. split; [reflexivity|]. split; [apply marks_refl|]. apply Fin. exact W.
Qed.

Lemma dos33_list_ok h r im cat k : consistent3 im -> dos33_disk (i_bytes im) cat k -> image_raw h r (i_bytes im) ->
  exists h' fixed files area, image_segments h r PDos33 (IDos33 im) = (h', Ok (fixed ++ files)) /\
    marks h r (sectors_at3 [272] ++ sectors_at3 cat ++ area) (notes3 cat) h' /\
    (forall p, In p area <-> exists d tl dl data, In d (i_files im) /\ sectors_of3 im (d3_name d) tl dl /\ find_file3 im (d3_name d) = Ok data /\ In p (head_bytes d dl data)) /\
    Forall2 (seg_is h' r) fixed (fixed3 cat) /\
    Forall2 (fun d s => exists tl dl data, dos33_file h' r im d s tl dl data) (i_files im) files.
Proof.
  intros Co D Ir. destruct (consistent3_view im Co) as (cat' & k' & Ei & D'). destruct (disk_det _ _ _ _ _ D D') as [<- <-]. clear D'.
  pose proof (image_raw_len _ _ _ Ir) as Hlen. pose proof Ir as (R & Nd & Hl & Rb). set (b := i_bytes im) in *. pose proof (k3_size _ _ _ D) as Hb.
  assert (Eh : i_hdr im = H3 (fdir3 b)) by (rewrite Ei; reflexivity).
  assert (L : raw_len h r = 143360) by lia.
  unfold image_segments, with_whole, parse_segments, parse_segments3, pure. rewrite Eh.
  destruct (boot_list3_ok h r (fdir3 b) [(0, 0, 0x800, "Boot 1"%string); (1, 9, 0x3700, "Boot 2"%string); (0x0a, 0x0b, 0x1b00, "Relocator"%string); (0x0c, 0x0c + 25, 0x1d00, "Boot 3"%string)] R L) as (bs & Eb & Mb).
  { repeat (constructor; [lia|]). constructor. }
  unfold boot_segs3. rewrite Eb. cbn [hbind].
  (* VTOC *)
  unfold vtoc_segs3, pure. rewrite Eh, get_pos3_in by lia. cbn [hbind fst snd].
  pose proof (slice_window r h (272 * 256) (272 * 256 + (0 + 256)) R ltac:(lia) ltac:(lia)) as W1. set (s1 := raw_slice h r (Some (272 * 256)) _) in *.
  destruct (vtoc_notes3_ok (256 * 272)) as (V1 & V2).
  change (zrange (272 * 256) (272 * 256 + (0 + 256))) with (zrange (256 * 272) (256 * 272 + 256)) in W1.
  destruct (marks_annotate r s1 _ vtoc_notes3 h R Nd W1) as (h1 & E1 & K1); [rewrite zlen_zrange'; exact V1|]. rewrite V2 in K1. rewrite E1. cbn [hbind].
  destruct (marks_raw r _ _ _ _ r K1 R) as (R1 & S1 & L1). pose proof (window_marks r _ _ _ _ _ _ R K1 W1) as W1'.
  (* catalog *)
  unfold catalog_segs3, pure. rewrite Eh. cbn [h_fdir H3]. fold b. pose proof (k3_cat _ _ _ D) as Kc.
  rewrite (catalog_runs_ok (fdir3 b) b (fdir3 b) cat Hb Kc) by (pose proof (links_len _ _ _ Kc); rewrite fuel33_H3; lia). cbn [hbind]. rewrite run_positions3.
  assert (Rc : Forall (fun n => 0 <= n < 560) cat) by (eapply Forall_impl; [|exact (links_in _ _ _ Kc)]; cbn; lia).
  pose proof (order3_ok cat Rc (links_nodup _ _ _ Kc)) as Oc. rewrite <- L, <- L1 in Oc. destruct (order_window r h1 _ R1 ltac:(lia) Oc) as (s2 & E2 & W2). rewrite order3_at in *.
  rewrite E2. cbn [hbind]. rewrite (window_len r _ _ _ W2), zlen_sectors_at3.
  destruct (catalog_notes3_ok cat (256 * zlen cat) eq_refl (length cat) (Z.to_nat (256 * zlen cat)) 0 ltac:(lia) eq_refl ltac:(unfold zlen; lia)) as (C1 & C2).
  change (7 * 0) with 0 in C1, C2. change (256 * 0) with 0 in C1, C2.
  destruct (marks_annotate r s2 _ (catalog_notes3 (Z.to_nat (256 * zlen cat)) (256 * zlen cat) 0 0) h1 R1 ltac:(rewrite S1; exact Nd) W2) as (h2 & E3 & K2); [rewrite zlen_sectors_at3; exact C1|].
  rewrite C2 in K2. rewrite E3. cbn [hbind]. pose proof (marks_trans r _ _ _ _ _ _ _ R K1 K2) as K12. pose proof (window_marks r _ _ _ _ _ _ R1 K2 W2) as W2'.
  pose proof (marks_image r _ _ _ _ b Ir K12) as Ir2.
  (* files *)
  destruct (each_file_marks d3_name (file_seg3 r im) r b (file_made r im) (i_files im)) with (h := h2) as (h3 & l & E4 & K3 & Fl).
  { intros hx ar no hy d s a Ix Mx (tl & dl & data & F1 & F2 & (F3 & F4) & F5). exists tl, dl, data. split; [exact F1|]. split; [exact F2|]. split; [|exact F5].
    split; [exact (window_marks r _ _ _ _ _ _ (proj1 Ix) Mx F3)|exact F4]. }
  { intros hx d Hd Ix. exact (file_made_ok r im hx d Co Hd Ix). }
  { exact Ir2. }
  rewrite E4. cbn [hbind]. destruct Ir2 as (R2 & _). pose proof (marks_trans r _ _ _ _ _ _ _ R K12 K3) as K123. destruct (marks_raw r _ _ _ _ r K123 R) as (R3 & S3 & L3).
  pose proof (marks_image r _ _ _ _ b Ir K123) as Ir3.
  exists h3, ((whole_seg r (txt "DOS 3.3 Disk Image") :: head_segs3 h r (H3 (fdir3 b))) ++ bs ++ [mkSeg (KTrack 272 1 0 0 256) (txt "VTOC") 0 s1] ++ [mkSeg KDefault (txt "Catalog") 0 s2]),
    (map fst l), (flat_map snd l).
  split; [cbn [app]; rewrite <- !app_assoc; reflexivity|]. split; [|split; [|split]].
  - assert (X : marks h r (sectors_at3 [272] ++ sectors_at3 cat ++ flat_map snd l) (notes3 cat ++ []) h3); [|rewrite app_nil_r in X; exact X].
    rewrite app_assoc. unfold notes3. rewrite app_assoc. exact K123.
  - intros p. rewrite in_flat_map. clear - Fl. split.
    + intros ((s & a) & Hs & Hp). cbn [snd] in Hp. induction Fl as [|d x ds l0 Px Fl IH]; [destruct Hs|]. destruct Hs as [->|Hs].
      * destruct Px as (tl & dl & data & P1 & P2 & _ & _ & P5). cbn [snd] in P5. subst a. exists d, tl, dl, data. split; [left; reflexivity|]. auto.
      * destruct (IH Hs) as (d' & tl & dl & data & I1 & I2). exists d', tl, dl, data. split; [right; exact I1|exact I2].
    + intros (d & tl & dl & data & Hd & P1 & P2 & Hp). induction Fl as [|d' x ds l0 Px Fl IH]; [destruct Hd|]. destruct Hd as [->|Hd].
      * exists x. split; [left; reflexivity|]. destruct Px as (tl' & dl' & data' & Q1 & Q2 & _ & _ & Q5). rewrite Q5.
        destruct (sectors_of3_det _ _ _ _ _ _ P1 Q1) as [<- <-]. replace data' with data by congruence. exact Hp.
      * destruct (IH Hd) as (y & Hy & Hy'). exists y. split; [right; exact Hy|exact Hy'].
  - apply made_all; [exact R3|].
    pose proof (made_marks r _ _ _ _ _ _ R K123 Mb) as Mb'.
    assert (Mh : Forall2 (made r h3) (whole_seg r (txt "DOS 3.3 Disk Image") :: head_segs3 h r (H3 (fdir3 b)))
      [mkEn KDefault (txt "DOS 3.3 Disk Image") 0 (zrange 0 143360); mkEn KObj (txt "DOS 3.3 Header") 0 []; mkEn (KTrack 0 560 0 0 256) (txt "Raw disk sectors") 0 (zrange 0 143360)]).
    { apply (made_marks r _ _ _ _ _ _ R K123). unfold head_segs3. repeat apply Forall2_cons; [| | |apply Forall2_nil]; (split; [cbn [g_raw n_at whole_seg header_seg]|auto]).
      - rewrite <- L. apply whole_window. exact R.
      - change (@nil Z) with (zrange 0 0). apply slice_window; [exact R|lia|lia].
      - rewrite <- L. apply slice_window_end; [exact R|lia]. }
    change (fixed3 cat) with ([mkEn KDefault (txt "DOS 3.3 Disk Image") 0 (zrange 0 143360); mkEn KObj (txt "DOS 3.3 Header") 0 []; mkEn (KTrack 0 560 0 0 256) (txt "Raw disk sectors") 0 (zrange 0 143360)] ++
      [boot_entry3 "Boot 1" 0x800 0 0; boot_entry3 "Boot 2" 0x3700 1 9; boot_entry3 "Relocator" 0x1b00 10 11; boot_entry3 "Boot 3" 0x1d00 12 37] ++
      [mkEn (KTrack 272 1 0 0 256) (txt "VTOC") 0 (sectors_at3 [272]); mkEn KDefault (txt "Catalog") 0 (sectors_at3 cat)]).
    apply Forall2_join; [exact Mh|]. apply Forall2_join; [exact Mb'|]. constructor; [|constructor; [|constructor]].
    + split; [|auto]. exact (window_marks r _ _ _ _ _ _ R2 K3 (window_marks r _ _ _ _ _ _ R1 K2 W1')).
    + split; [|auto]. exact (window_marks r _ _ _ _ _ _ R2 K3 W2').
  - clear - Fl R3 Ir3. induction Fl as [|d x ds l0 (tl & dl & data & P1 & P2 & P3 & P4 & _) Fl IH]; [constructor|]. cbn [map]. constructor; [|exact IH].
    exists tl, dl, data. pose proof (made_seg r _ _ _ R3 P3) as Sg. constructor; [exact P1|exact P2|exact Sg|].
    rewrite (si_bytes _ _ _ _ Sg). cbn [n_at entry3]. destruct Ir3 as (_ & _ & _ & ->). exact P4.
Qed.
