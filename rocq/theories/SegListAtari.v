(** The segments of a consistent Atari DOS disk. *)
From Coq Require Import String.
From Verif Require Import Base BaseLemmas DiskModel DirLemmas AtariModel AtariSpec AtariGeom AtariDir AtariVtoc AtariChain AtariOps AtariProps
  ExecModel SegModel SegSpec SegProofs SegProofs2 TextModel DetectModel EditModel EditProofs EditAtari SegListModel SegListSpec SegListProofs.

(** * Headers *)
Lemma hdr_shape b hd : hdr_of b = Ok hd -> 368 <= h_max hd -> 128 <= h_ssize hd ->
  ((h_isize hd = 0 /\ h_ninit hd = 0) \/ (h_isize hd = 128 /\ h_ninit hd = 3)) /\
  (h_offset hd = 0 \/ h_offset hd = 16) /\ 0 < h_image_size hd.
Proof.
  unfold hdr_of. intros E M S1.
  assert (R : (h_offset (read_header b) = 0 \/ h_offset (read_header b) = 16) /\ h_isize (read_header b) = 0 /\ h_ninit (read_header b) = 0).
  { unfold read_header, atr_header. destruct (_ =? 16); [|cbn; auto]. destruct (negb _); cbn; auto. }
  destruct R as (R1 & R2 & R3). unfold check_size in E. rewrite R2, R3 in E.
  repeat match type of E with context [if ?c then _ else _] => destruct c end; try discriminate; injection E as <-; cbn in *;
    (split; [lia|]); (split; [exact R1|]); try lia.
Qed.
Lemma more_first hd m : h_ninit hd <= h_max hd -> 0 <= h_ninit hd -> forall n, 1 <= n -> n + Z.of_nat m <= h_max hd ->
  more_sectors hd m n = Ok (first_bytes hd (n + Z.of_nat m) - first_bytes hd n).
Proof.
  intros N0 N1. induction m as [|m IH]; intros n Hn L; cbn [more_sectors]; [f_equal; unfold first_bytes; replace (n + Z.of_nat 0) with n by lia; lia|].
  unfold get_pos, sector_valid. replace (negb _) with false by lia. replace (n + Z.of_nat (S m)) with (n + 1 + Z.of_nat m) by lia.
  destruct (Z.leb_spec (n + 1) (h_ninit hd)); cbn [rbind]; rewrite IH by lia; cbn [rbind]; f_equal; unfold first_bytes.
  - set (q := n + 1 + Z.of_nat m). replace (Z.min (n + 1) _) with (n + 1) by lia. replace (Z.min n _) with n by lia.
    replace (Z.max 0 (n + 1 - h_ninit hd)) with 0 by lia. replace (Z.max 0 (n - h_ninit hd)) with 0 by lia. ring.
  - set (q := n + 1 + Z.of_nat m). replace (Z.min (n + 1) _) with (h_ninit hd) by lia. replace (Z.min n _) with (h_ninit hd) by lia.
    replace (Z.max 0 (n + 1 - h_ninit hd)) with (n + 1 - h_ninit hd) by lia. replace (Z.max 0 (n - h_ninit hd)) with (n - h_ninit hd) by lia. ring.
Qed.
Lemma first_slice hd n : 1 <= h_max hd -> 0 <= h_ninit hd <= h_max hd -> 0 <= n <= h_max hd ->
  get_sector_slice hd 1 n = Ok (h_offset hd, h_offset hd + first_bytes hd (Z.max 1 n)).
Proof.
  intros M N Hn. unfold get_sector_slice, get_pos, sector_valid. replace (negb _) with false by lia.
  assert (F : first_bytes hd 1 = if 1 <=? h_ninit hd then h_isize hd else h_ssize hd).
  { unfold first_bytes. destruct (Z.leb_spec 1 (h_ninit hd)).
    - replace (Z.min 1 (h_ninit hd)) with 1 by lia. replace (Z.max 0 (1 - h_ninit hd)) with 0 by lia. ring.
    - assert (E : h_ninit hd = 0) by lia. rewrite E. change (Z.min 1 0) with 0. change (Z.max 0 (1 - 0)) with 1. ring. }
  pose proof (more_first hd (Z.to_nat (n - 1)) ltac:(lia) ltac:(lia) 1 ltac:(lia) ltac:(lia)) as E.
  replace (1 + Z.of_nat (Z.to_nat (n - 1))) with (Z.max 1 n) in E by lia. rewrite F in E.
  destruct (Z.leb_spec 1 (h_ninit hd)); cbn [rbind]; rewrite E; cbn [rbind]; f_equal; f_equal; try ring.
  - assert (N0 : h_ninit hd = 0) by lia. rewrite N0. ring.
  - assert (N0 : h_ninit hd = 0) by lia. rewrite N0. ring.
Qed.
Lemma first_bytes_fit hd b n : hgeo hd b -> (h_isize hd = 0 /\ h_ninit hd = 0) \/ (h_isize hd = 128 /\ h_ninit hd = 3) -> 0 <= h_offset hd ->
  1 <= n <= h_max hd -> 128 <= first_bytes hd n /\ h_offset hd + first_bytes hd n <= zlen b.
Proof.
  intros G I O N. pose proof (hg_ss _ _ G) as S1. pose proof (hg_fit _ _ G) as F. pose proof (hg_max _ _ G) as M. unfold spos, geom_of in F. cbn [g_off g_ss g_skew] in F.
  assert (A : n * h_ssize hd <= h_max hd * h_ssize hd) by nia. assert (B : 3 * h_ssize hd <= h_max hd * h_ssize hd) by nia.
  unfold first_bytes. destruct I as [[I1 I2]|[I1 I2]]; rewrite I1, I2 in *.
  - replace (Z.min n 0) with 0 by lia. replace (Z.max 0 (n - 0)) with n by lia. nia.
  - assert (Z.min n 3 = 3 /\ Z.max 0 (n - 3) = n - 3 /\ 3 <= n \/ Z.min n 3 = n /\ Z.max 0 (n - 3) = 0 /\ n <= 3) as [(-> & -> & ?)|(-> & -> & ?)] by lia; [|lia].
    assert (0 <= (n - 3) * h_ssize hd) by nia. lia.
Qed.
Lemma contig_in hd b : hgeo hd b -> forall m n start count, start <> 0 -> 4 <= n -> n + Z.of_nat m <= h_max hd + 1 ->
  contig_loop hd (zrange n (n + Z.of_nat m)) start count = Ok (start, count + Z.of_nat m * h_ssize hd).
Proof.
  intros G. induction m as [|m IH]; intros n start count S0 N L.
  - rewrite zrange_nil by lia. cbn [contig_loop]. f_equal. f_equal. lia.
  - rewrite zrange_cons by lia. cbn [contig_loop]. rewrite (get_pos_in hd b G) by lia. cbn [rbind]. replace (start =? 0) with false by lia.
    replace (n + Z.of_nat (S m)) with (n + 1 + Z.of_nat m) by lia. rewrite IH by lia. f_equal. f_equal. lia.
Qed.
Lemma get_contiguous_8 hd b : hgeo hd b -> get_contiguous hd 361 8 = Ok (spos (geom_of hd) 361, 8 * h_ssize hd).
Proof.
  intros G. pose proof (hg_max _ _ G) as M. unfold get_contiguous. rewrite zrange_cons by lia. cbn [contig_loop].
  rewrite (get_pos_in hd b G) by lia. cbn [rbind Z.eqb]. pose proof (spos_bounds hd b G 361 ltac:(lia)).
  change (361 + 8) with (362 + Z.of_nat 7). change (361 + 1) with 362. rewrite (contig_in hd b G) by lia. f_equal. f_equal. lia.
Qed.

(** * Notes *)
Lemma dir_notes_range count : forall n index, 0 <= index -> Forall (fun it => 0 <= fst it < index + 16 * Z.of_nat count) (dir_notes count n index).
Proof.
  induction count as [|c IH]; intros n index Hi; [constructor|]. cbn [dir_notes app]. repeat (constructor; [cbn [fst]; lia|]).
  eapply Forall_impl; [|apply (IH (n + 1) (index + 16)); lia]. intros it. cbv beta. lia.
Qed.
Lemma dir_notes_at p size count : forall n index, 0 <= index -> index + 16 * Z.of_nat count <= size ->
  note_list (zrange p (p + size)) (dir_notes count n index) =
  flat_map (fun i => named_fields i (p + index + 16 * (i - n)) slot_fields) (zrange n (n + Z.of_nat count)).
Proof.
  induction count as [|c IH]; intros n index Hi L; [rewrite (zrange_nil n) by lia; reflexivity|].
  rewrite (zrange_cons n) by lia. cbn [flat_map dir_notes]. unfold note_list. rewrite map_app. fold (note_list (zrange p (p + size)) (dir_notes c (n + 1) (index + 16))).
  rewrite IH by lia. f_equal.
  - unfold named_fields, slot_fields. cbn [map fst snd]. rewrite !getb_zrange by lia. unfold file_note. rewrite Z.sub_diag. rewrite Z.mul_0_r, !Z.add_assoc, !Z.add_0_r. reflexivity.
  - replace (n + 1 + Z.of_nat c) with (n + Z.of_nat (S c)) by lia. apply flat_map_ext. intros i. f_equal. lia.
Qed.

(** * Files *)
Lemma each_file_ok {D} (name : D -> list Z) make r (P : D -> seg -> Prop) h ds :
  (forall d, In d ds -> exists s, make h d = (h, Ok s) /\ P d s) -> exists l, each_file name make r h ds = (h, Ok l) /\ Forall2 P ds l.
Proof.
  induction ds as [|d ds IH]; intros H; cbn [each_file]; [exists []; split; [reflexivity|constructor]|].
  destruct (H d (or_introl eq_refl)) as (s & -> & Ps). destruct IH as (l & -> & Pl); [intros x Hx; apply H; right; exact Hx|]. cbn [hbind].
  exists (s :: l). split; [reflexivity|]. constructor; assumption.
Qed.

Record atari_file (h : heap) (r : raw) (im : aimg) (d : dirent) (s : seg) (c data : list Z) : Prop := mkAF {
  af_sectors : sectors_of im (filename d) c;
  af_data : find_file im (filename d) = Ok data;
  af_seg : seg_is h r s (mkEn KDefault (file_label d) 0 (file_bytes_at (geom_of (a_hdr im)) (a_bytes im) c));
  af_read : read_data h (g_raw s) = data
}.
Lemma atari_file_ok h r im d : consistent im -> image_raw h r (a_bytes im) -> In d (a_files im) ->
  exists s, atari_file_seg r im h d = (h, Ok s) /\ exists c data, atari_file h r im d s c data.
Proof.
  intros Co Ir Hin. destruct (consistent_view im Co) as (k & Ei & G & D & Hh). pose proof (image_raw_len _ _ _ Ir) as Hlen. destruct Ir as (R & Nd & Hl & Rb).
  set (hd := a_hdr im) in *. set (b := a_bytes im) in *. set (g := geom_of hd) in *.
  rewrite Ei in Hin. cbn [view a_files] in Hin. apply filter_In in Hin. destruct Hin as [Hin Hu]. unfold entries in Hin. apply in_map_iff in Hin.
  destruct Hin as (i & Ed & Hi). apply In_zrange in Hi. fold g in Ed. assert (L : e_live (slot g b i)) by (rewrite <- Ed in Hu; apply d_inuse_live in Hu; exact Hu).
  destruct (dk_files _ _ _ D i Hi L) as (_ & _ & c & C & Ne & Fr). assert (F : file_in g b k (filename d) i c).
  { split; [exact Hi|]. split; [exact L|]. split; [|exact C]. rewrite <- Ed. symmetry. apply e_name_filename. }
  pose proof (find_of_file_in hd b k _ i c G D F) as Ef. fold g in Ef. rewrite <- Ei in Ef.
  pose proof (chain_fit hd b _ _ _ C) as Fc. pose proof (order_chain_ok hd b G c Fc (chain_NoDup _ _ _ _ _ C)) as Oc.
  pose proof (contents_order hd b G (dk_bytes _ _ _ D) c Fc) as Ec. fold g in Oc, Ec. rewrite Hlen in Oc.
  destruct (order_window r h _ R Hl Oc) as (x & Ex & W).
  assert (Hm : asks (d_my d) (d_num d) (owner (slot g b i) i)) by (rewrite <- Ed; apply asks_owner; lia).
  unfold atari_file_seg, pure. fold hd b.
  replace (file_segment h r im d) with (raw_indexed h r (to_numpy_list (order_of g b c)))
    by (rewrite <- Ed; symmetry; apply (file_segment_chain h r hd b k im i c); assumption || reflexivity).
  rewrite Ex. cbn [rbind].
  destruct (chain_reads hd b G _ _ _ _ _ Hm C (chain_fuel hd) []) as [Rr _]; [exact (chain_length hd b G _ _ _ C)|intros []|intros m _ []|].
  replace (d_start d) with (e_start (slot g b i)) by (rewrite <- Ed; reflexivity).
  rewrite Rr. cbn [rbind]. pose proof (run_positions_chain g b c) as E0. fold g in E0 |- *. rewrite E0.
  destruct (order_of g b c) as [|p o] eqn:Eo; [exfalso; apply Ne; rewrite Ec; reflexivity|].
  eexists. split; [reflexivity|]. exists c, (contents g b c).
  assert (S0 : seg_is h r (mkSeg KDefault (filename d ++ txt " " ++ dec (d_count d) ++ txt "s@" ++ dec (e_start (slot g b i))) 0 x)
     (mkEn KDefault (file_label d) 0 (file_bytes_at g b c))).
  { apply (window_seg r h _ _ R); try reflexivity.
    - cbn [g_raw n_at]. unfold file_bytes_at. fold (order_of g b c). rewrite Eo. exact W.
    - cbn [g_name n_name]. unfold file_label. rewrite <- Ed. reflexivity. }
  constructor; [exists k, i; split; [exact D|exact F]|exact Ef|exact S0|].
  rewrite (si_bytes _ _ _ _ S0). cbn [n_at]. unfold file_bytes_at. fold (order_of g b c). rewrite Rb, Ec, Eo. reflexivity.
Qed.

(** * The list *)
Lemma marks_image r h area notes h' b : image_raw h r b -> marks h r area notes h' -> image_raw h' r b.
Proof.
  intros (R & Nd & Hl & Rb) M. assert (Ns : r_data r <> r_style r) by apply R. destruct (marks_raw r _ _ _ _ r M R) as (R1 & S1 & L1). split; [exact R1|]. split; [rewrite S1; exact Nd|].
  split; [rewrite L1; exact Hl|]. rewrite read_data_shows by exact R1. rewrite S1, (mk_arr _ _ _ _ _ M) by congruence. rewrite <- Rb. symmetry. apply read_data_shows. exact R.
Qed.

Lemma head_made h r hd : raw_ok h r -> 0 < h_image_size hd -> (h_offset hd = 0 \/ h_offset hd = 16) -> h_offset hd <= raw_len h r -> forall menu,
  Forall2 (made r h) (whole_seg r (txt menu) :: atari_head_segs h r hd) (image_head menu hd (raw_len h r)).
Proof.
  intros R I O L menu. unfold atari_head_segs, image_head, whole_seg. replace (0 <? h_image_size hd) with true by lia. cbn [app].
  repeat apply Forall2_cons; [| | |apply Forall2_nil]; (split; [cbn [g_raw n_at]|split; [reflexivity|split; [|reflexivity]]]).
  - apply whole_window. exact R.
  - reflexivity.
  - apply slice_window; [exact R|lia|lia].
  - cbn [g_name n_name header_seg]. unfold atari_format. destruct O as [->| ->]; reflexivity.
  - apply slice_window_end; [exact R|lia].
  - reflexivity.
Qed.
Lemma pyslice_range p q a b : 0 <= a <= b -> b <= q - p -> pyslice (zrange p q) (Some a) (Some b) = zrange (p + a) (p + b).
Proof.
  intros A B. unfold pyslice, bound. replace (a <? 0) with false by lia. replace (b <? 0) with false by lia. rewrite zlen_zrange'.
  replace (Z.max 0 (Z.min _ a)) with a by lia. replace (Z.max 0 (Z.min _ b)) with b by lia. apply slice_zrange; lia.
Qed.
Lemma pyslice_range_end p q a : 0 <= a <= q - p -> pyslice (zrange p q) (Some a) None = zrange (p + a) q.
Proof.
  intros A. unfold pyslice, bound. replace (a <? 0) with false by lia. rewrite zlen_zrange'.
  replace (Z.max 0 (Z.min _ a)) with a by lia. rewrite slice_zrange by lia. f_equal. lia.
Qed.
Lemma boot_made h r hd b rec n data : raw_ok h r -> get_sectors hd b rec rec = Ok data -> 4 <= n <= zlen data ->
  0 <= getb data 1 <= h_max hd -> 1 <= h_max hd -> 0 <= h_ninit hd <= h_max hd -> 0 <= h_offset hd ->
  n <= first_bytes hd (Z.max 1 (getb data 1)) -> h_offset hd + first_bytes hd (Z.max 1 (getb data 1)) <= raw_len h r ->
  exists l, boot_segs h r hd b rec n = Ok l /\
    Forall2 (made r h) l (if getb data 0 =? 0 then boot_entries (h_offset hd) (first_bytes hd (Z.max 1 (getb data 1))) (le2 (getb data 2) (getb data 3)) n else []).
Proof.
  intros R Ed Hn D1 M Ni O B1 B2. unfold boot_segs. rewrite Ed. cbn [rbind]. unfold view_rec. rewrite (zlen_slice data 0 n) by lia.
  replace (n - 0 =? 0) with false by lia. replace (n - 0 =? n) with true by lia. cbn [rbind]. rewrite !getb_slice by lia. cbn [Z.add].
  destruct (getb data 0 =? 0); [|exists []; split; [reflexivity|constructor]].
  rewrite (first_slice hd (getb data 1)) by lia. cbn [rbind]. set (off := h_offset hd) in *. set (size := first_bytes hd _) in *.
  eexists. split; [reflexivity|]. assert (W : window r h (raw_slice h r (Some off) (Some (off + size))) (zrange off (off + size))) by (apply slice_window; [exact R|lia|lia]).
  unfold boot_entries. repeat apply Forall2_cons; [| | |apply Forall2_nil]; (split; [cbn [g_raw n_at]|split; [reflexivity|split; reflexivity]]).
  - exact W.
  - pose proof (window_slice r h _ _ (Some 0) (Some n) R W) as X. rewrite pyslice_range in X by lia. rewrite Z.add_0_r in X. exact X.
  - pose proof (window_slice r h _ _ (Some n) None R W) as X. rewrite pyslice_range_end in X by lia. exact X.
Qed.

Lemma atari_vtoc_ok h r im k : let hd := a_hdr im in let b := a_bytes im in let g := geom_of hd in let second := h_image_size hd =? 133120 in
  image_raw h r b -> hgeo hd b -> im = view hd b k ->
  exists h2 l, atari_vtoc_segs h r im = (h2, Ok l) /\
    marks h r (sectors_at g 360 1 ++ (if second then sectors_at g 1024 1 else []))
      (fields_at (spos g 360) vtoc_fields ++ (if second then fields_at (spos g 1024) vtoc2_fields else [])) h2 /\
    Forall2 (made r h2) l ([mkEn (KRaw 360 1 128 3 (h_ssize hd)) (txt "VTOC") 0 (sectors_at g 360 1)] ++
      (if second then [mkEn (KRaw 1024 1 128 3 (h_ssize hd)) (txt "VTOC2") 0 (sectors_at g 1024 1)] else [])).
Proof.
  intros hd b g second Ir G Ei. pose proof (image_raw_len _ _ _ Ir) as Hlen. destruct Ir as (R & Nd & Hl & Rb).
  pose proof (hg_max _ _ G) as M. pose proof (hg_ss _ _ G) as SS.
  assert (Vt : a_fvtoc im = 360 /\ a_nvtoc im = 1 /\ a_vtoc2 im = if second then 1024 else 0) by (rewrite Ei; auto). destruct Vt as (V1 & V2 & V3).
  pose proof (spos_bounds hd b G 360 ltac:(lia)) as P0. fold g in P0.
  unfold atari_vtoc_segs, pure. fold hd. rewrite V1, V2, V3. rewrite (get_contiguous_1 hd b G) by lia. cbn [hbind fst snd]. fold g.
  pose proof (slice_window r h (spos g 360) (spos g 360 + h_ssize hd) R ltac:(lia) ltac:(lia)) as W1.
  set (s1 := raw_slice h r (Some (spos g 360)) _) in *. destruct (marks_annotate r s1 _ vtoc_notes h R Nd W1) as (h1 & E1 & K1).
  { rewrite zlen_zrange'. unfold vtoc_notes. repeat (constructor; [cbn [fst]; lia|]). constructor. }
  rewrite E1. cbn [hbind]. destruct (marks_raw r _ _ _ _ r K1 R) as (R1 & S1 & L1). pose proof (window_marks r _ _ _ _ _ _ R K1 W1) as W1'.
  replace (zrange (spos g 360) (spos g 360 + h_ssize hd)) with (sectors_at g 360 1) in * by (unfold sectors_at; change (g_ss g) with (h_ssize hd); rewrite Z.mul_1_l; reflexivity).
  replace (note_list _ _) with (fields_at (spos g 360) vtoc_fields) in K1.
  2: { unfold note_list, vtoc_notes, sectors_at. cbn [map fst snd]. change (g_ss g) with (h_ssize hd). rewrite !getb_zrange by lia. reflexivity. }
  destruct second eqn:E2; cbn [Z.ltb Z.compare].
  - assert (M2 : 1024 <= h_max hd) by (apply (hg_ed _ _ G); unfold second in E2; lia). pose proof (spos_bounds hd b G 1024 ltac:(lia)) as P2. fold g in P2.
    rewrite (get_contiguous_1 hd b G) by lia. cbn [hbind fst snd]. fold g.
    pose proof (slice_window r h1 (spos g 1024) (spos g 1024 + h_ssize hd) R1 ltac:(lia) ltac:(lia)) as W2.
    set (s2 := raw_slice h1 r (Some (spos g 1024)) _) in *. destruct (marks_annotate r s2 _ vtoc2_notes h1 R1 ltac:(rewrite S1; exact Nd) W2) as (h2 & E3 & K2).
    { rewrite zlen_zrange'. unfold vtoc2_notes. repeat (constructor; [cbn [fst]; lia|]). constructor. }
    rewrite E3. cbn [hbind]. eexists _, _. split; [reflexivity|]. pose proof (window_marks r _ _ _ _ _ _ R1 K2 W2) as W2'.
    replace (zrange (spos g 1024) (spos g 1024 + h_ssize hd)) with (sectors_at g 1024 1) in * by (unfold sectors_at; change (g_ss g) with (h_ssize hd); rewrite Z.mul_1_l; reflexivity).
    replace (note_list _ _) with (fields_at (spos g 1024) vtoc2_fields) in K2.
    2: { unfold note_list, vtoc2_notes, sectors_at. cbn [map fst snd]. change (g_ss g) with (h_ssize hd). rewrite !getb_zrange by lia. reflexivity. }
    split; [exact (marks_trans r _ _ _ _ _ _ _ R K1 K2)|]. cbn [app]. constructor; [split; [exact (window_marks r _ _ _ _ _ _ R1 K2 W1')|auto]|].
    constructor; [split; [exact W2'|auto]|constructor].
  - eexists _, _. split; [reflexivity|]. rewrite !app_nil_r. split; [exact K1|]. constructor; [split; [exact W1'|auto]|constructor].
Qed.

Lemma atari_list_ok h r im : consistent im -> image_raw h r (a_bytes im) ->
  let g := geom_of (a_hdr im) in let second := h_image_size (a_hdr im) =? 133120 in
  exists h' fixed files, image_segments h r PAtariDos (IAtariDos im) = (h', Ok (fixed ++ files)) /\
    marks h r (atari_area g second) (atari_notes g second) h' /\
    Forall2 (seg_is h' r) fixed (atari_fixed (a_hdr im) (a_bytes im)) /\
    Forall2 (fun d s => exists c data, atari_file h' r im d s c data) (a_files im) files.
Proof.
  intros Co Ir g second. destruct (consistent_view im Co) as (k & Ei & G & D & Hh). pose proof (image_raw_len _ _ _ Ir) as Hlen.
  pose proof Ir as (R & Nd & Hl & Rb). set (hd := a_hdr im) in *. set (b := a_bytes im) in *.
  pose proof (hg_max _ _ G) as M. pose proof (hg_ss _ _ G) as SS. pose proof (hg_ninit _ _ G) as NI.
  destruct (hdr_shape b hd Hh M ltac:(lia)) as (Is & Off & Isz).
  pose proof (spos_bounds hd b G 360 ltac:(lia)) as P0. fold g in P0.
  pose proof (get_sectors_in hd b 360 360 G ltac:(lia) ltac:(lia) ltac:(lia)) as Gs. rewrite spos_succ in Gs. fold g in Gs. fold (sector g b 360) in Gs.
  pose proof (zlen_sector hd b G 360 ltac:(lia)) as Zs. fold g in Zs.
  assert (Y : is_byte (getb (sector g b 360) 1)) by (apply bytes_ok_getb, bytes_ok_slice; exact (dk_bytes _ _ _ D)). unfold is_byte in Y.
  destruct (first_bytes_fit hd b (Z.max 1 (getb (sector g b 360) 1)) G Is ltac:(lia) ltac:(lia)) as (B1 & B2).
  destruct (boot_made h r hd b 360 20 (sector g b 360) R Gs ltac:(lia) ltac:(lia) ltac:(lia) ltac:(lia) ltac:(lia) ltac:(lia) ltac:(lia)) as (boot & Eb & Mb).
  pose proof (head_made h r hd R Isz Off ltac:(lia) "Atari DOS Disk Image") as Mh. rewrite <- Hlen in Mh.
  unfold image_segments, with_whole, parse_segments, atari_parse_segments, pure. fold hd b. rewrite Eb. cbn [hbind].
  destruct (atari_vtoc_ok h r im k Ir G Ei) as (h2 & vs & Ev & K12 & Mv). fold hd b g second in Ev, K12, Mv. rewrite Ev. cbn [hbind].
  destruct (marks_raw r _ _ _ _ r K12 R) as (R2 & S2 & L2).
  (* directory *)
  unfold atari_dir_segs, pure. fold hd. rewrite (get_contiguous_8 hd b G). cbn [hbind fst snd]. fold g.
  pose proof (spos_bounds hd b G 361 ltac:(lia)) as P3. pose proof (spos_bounds hd b G 368 ltac:(lia)) as P4. fold g in P3, P4.
  rewrite (spos_diff g 361 368) in P4. change (g_ss g) with (h_ssize hd) in P4.
  pose proof (slice_window r h2 (spos g 361) (spos g 361 + 8 * h_ssize hd) R2 ltac:(lia) ltac:(lia)) as W3.
  set (s3 := raw_slice h2 r (Some (spos g 361)) _) in *. destruct (marks_annotate r s3 _ (dir_notes 64 0 0) h2 R2 ltac:(rewrite S2; exact Nd) W3) as (h3 & E3 & K3).
  { rewrite zlen_zrange'. eapply Forall_impl; [|apply (dir_notes_range 64 0 0); lia]. intros it. cbv beta. lia. }
  rewrite E3. cbn [hbind]. pose proof (marks_trans r _ _ _ _ _ _ _ R K12 K3) as K123. destruct (marks_raw r _ _ _ _ r K123 R) as (R3 & S3 & L3).
  pose proof (window_marks r _ _ _ _ _ _ R2 K3 W3) as W3'.
  (* files *)
  pose proof (marks_image r _ _ _ _ b Ir K123) as Ir3.
  destruct (each_file_ok filename (atari_file_seg r im) r (fun d s => exists c data, atari_file h3 r im d s c data) h3 (a_files im)) as (fs & Ef & Mf).
  { intros d Hd. exact (atari_file_ok h3 r im d Co Ir3 Hd). }
  rewrite Ef. cbn [hbind]. exists h3, ((whole_seg r (txt "Atari DOS Disk Image") :: atari_head_segs h r hd) ++ boot ++ vs ++ [mkSeg (KRaw 361 8 128 3 (h_ssize hd)) (txt "Directory") 0 s3]), fs.
  split; [cbn [app]; rewrite <- !app_assoc; reflexivity|]. split; [|split; [|exact Mf]].
  - replace (atari_area g second) with ((sectors_at g 360 1 ++ (if second then sectors_at g 1024 1 else [])) ++ zrange (spos g 361) (spos g 361 + 8 * h_ssize hd))
      by (unfold atari_area; rewrite <- app_assoc; reflexivity).
    replace (atari_notes g second) with ((fields_at (spos g 360) vtoc_fields ++ (if second then fields_at (spos g 1024) vtoc2_fields else [])) ++
         note_list (zrange (spos g 361) (spos g 361 + 8 * h_ssize hd)) (dir_notes 64 0 0)); [exact K123|].
    unfold atari_notes. rewrite <- app_assoc. f_equal. f_equal. rewrite dir_notes_at by lia. change (0 + Z.of_nat 64) with 64.
    apply flat_map_ext. intros i. f_equal. lia.
  - apply made_all; [exact R3|]. unfold atari_fixed. fold g second.
    pose proof (made_marks r _ _ _ _ _ _ R K123 Mh) as Mh'. pose proof (made_marks r _ _ _ _ _ _ R K123 Mb) as Mb'. pose proof (made_marks r _ _ _ _ _ _ R2 K3 Mv) as Mv'.
    apply Forall2_join; [exact Mh'|]. apply Forall2_join; [exact Mb'|]. rewrite app_assoc. apply Forall2_join; [exact Mv'|].
    constructor; [|constructor]. split; [exact W3'|auto].
Qed.
