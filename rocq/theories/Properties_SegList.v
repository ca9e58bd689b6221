(** C88: the list of segments of a disk image.

    Vocabulary: [image_raw h r b] says that the raw data [r] of the image holds the bytes
    [b]; [image_segments] makes the list; an [entry] is a line of it with the positions of
    the bytes it shows; [seg_is h r s e] says that the segment [s] is what the line [e]
    says; [marks h r area notes h'] says that listing changed annotations only: [area] is
    marked as data and the comments [notes] were made. *)
From Coq Require Import String.
From Verif Require Import Base BaseLemmas DiskModel DirLemmas AtariModel AtariSpec AtariGeom AtariDir AtariVtoc AtariChain AtariSectors AtariWrite AtariDelete AtariShred AtariOps AtariSession AtariMore AtariBlank AtariHeader AtariProps AtariDemo
  SpartaModel SpartaSpec ExecModel SegModel SegSpec SegProofs SegProofs2 TextModel DetectModel EditModel EditProofs EditAtari Properties_Edit
  SegListModel SegListSpec SegListProofs SegListAtari SegListOther SegListSparta.
From Verif Require Import Dos33Model Dos33Spec Dos33Geom Dos33Files Dos33Ops Dos33Session Dos33Demo Dos33Dir SegList33.
From Verif Require Properties_Sparta.

(** * Atari DOS *)
(** The list of a consistent disk: all of the image, header, sectors, (boot sectors,) VTOC,
    directory and one segment for every file, showing the file. *)
Theorem C88_atari_list_partial h r im : consistent im -> image_raw h r (a_bytes im) ->
  let g := geom_of (a_hdr im) in let second := h_image_size (a_hdr im) =? 133120 in
  exists h' fixed files, image_segments h r PAtariDos (IAtariDos im) = (h', Ok (fixed ++ files)) /\
    image_raw h' r (a_bytes im) /\ marks h r (atari_area g second) (atari_notes g second) h' /\
    Forall2 (seg_is h' r) fixed (atari_fixed (a_hdr im) (a_bytes im)) /\
    Forall2 (fun d s => exists c data, atari_file h' r im d s c data) (a_files im) files.
Proof.
  intros C R. destruct (atari_list_ok h r im C R) as (h' & fixed & files & E & M & F1 & F2). exists h', fixed, files.
  split; [exact E|]. split; [exact (marks_image r _ _ _ _ _ R M)|]. auto.
Qed.
Print Assumptions C88_atari_list_partial.

(** No byte is shown by the segments of two files, and none by a file's segment and those
    of the boot sectors (before sector 4), the VTOC or the directory. *)
Lemma file_byte g b c p : In p (file_bytes_at g b c) -> exists n, In n c /\ spos g n <= p < spos g n + link_used (sector g b n).
Proof. unfold file_bytes_at. intros H. apply in_flat_map in H. destruct H as (n & H1 & H2). apply In_zrange in H2. exists n. auto. Qed.
Lemma chain_owner g b f n c : chain g b f n c -> forall m, In m c -> link_used (sector g b m) <= g_ss g - 3.
Proof. intros C m Hm. apply chain_used in C. rewrite Forall_forall in C. apply (C m Hm). Qed.
Theorem C88_atari_apart im n c n' c' p : consistent im -> sectors_of im n c -> sectors_of im n' c' ->
  let g := geom_of (a_hdr im) in let b := a_bytes im in
  In p (file_bytes_at g b c) ->
  (In p (file_bytes_at g b c') -> n' = n) /\ ~ In p (atari_area g (h_image_size (a_hdr im) =? 133120)) /\ spos g 4 <= p.
Proof.
  intros Co (k & i & D & F) (k' & j & D' & F') g b Hp. destruct (consistent_view im Co) as (k0 & Ei & G & _ & _). fold b in G.
  destruct F as (Hi & L & N & C). destruct F' as (Hj & L' & N' & C'). fold g b in C, C', N, N'.
  destruct (file_byte _ _ _ _ Hp) as (x & Hx & Px). pose proof (chain_owner _ _ _ _ _ C x Hx) as O2.
  pose proof (chain_data _ _ _ _ _ C) as Cd. rewrite Forall_forall in Cd. destruct (Cd x Hx) as (X1 & X2 & X3).
  assert (Gs : g_ss g = h_ssize (a_hdr im)) by reflexivity. assert (Apart : forall y, spos g y <= p < spos g y + g_ss g -> y = x).
  { intros y Py. destruct (Z.eq_dec y x) as [|Ny]; [assumption|]. pose proof (spos_apart (a_hdr im) b G y x Ny) as A. fold g in A. lia. }
  split; [|split].
  - intros Hq. destruct (file_byte _ _ _ _ Hq) as (y & Hy & Py). pose proof (chain_owner _ _ _ _ _ C' y Hy) as O2'.
    assert (y = x) by (apply Apart; lia). subst y. rewrite <- (slots_unique _ _ _ _ G D D') in Hj.
    destruct (Z.eq_dec j i) as [Q|Q]; [subst j; congruence|]. exfalso. destruct (dk_files _ _ _ D i Hi L) as (Ap & _).
    exact (Ap j c c' x Hj Q L' C C' Hx Hy).
  - intros Ha. unfold atari_area in Ha. rewrite !in_app_iff in Ha. unfold sectors_at in Ha.
    assert (B : forall m num, 1 <= num -> In p (zrange (spos g m) (spos g m + num * g_ss g)) -> exists y, m <= y < m + num /\ y = x).
    { intros m num Hn Hr. apply In_zrange in Hr. assert (S0 : 0 < g_ss g) by (rewrite Gs; pose proof (hg_ss _ _ G); lia).
      exists (m + (p - spos g m) / g_ss g). assert (0 <= (p - spos g m) / g_ss g < num) by (split; [apply Z.div_pos; lia|apply Z.div_lt_upper_bound; lia]).
      split; [lia|]. apply Apart. unfold spos in *. pose proof (Z.div_mod (p - (g_off g + (m - 1) * g_ss g - g_skew g)) (g_ss g) ltac:(lia)) as Q.
      pose proof (Z.mod_pos_bound (p - (g_off g + (m - 1) * g_ss g - g_skew g)) (g_ss g) S0). nia. }
    destruct Ha as [Ha|[Ha|Ha]].
    + destruct (B 360 1 ltac:(lia) Ha) as (y & Hy & ->). lia.
    + destruct (_ =? _) in Ha; [|destruct Ha]. destruct (B 1024 1 ltac:(lia) Ha) as (y & Hy & ->). lia.
    + destruct (B 361 8 ltac:(lia) Ha) as (y & Hy & ->). lia.
  - unfold spos in *. assert (0 < g_ss g) by (rewrite Gs; pose proof (hg_ss _ _ G); lia). nia.
Qed.
Print Assumptions C88_atari_apart.

(** The full claim is false: boot sectors are looked for in the VTOC instead of the first
    sector.  A disk with the mark of DOS 2 there has no segment for them, whatever is in
    its boot sectors. *)
Theorem C88_boot_sectors_refuted h r im h' l s : consistent im -> image_raw h r (a_bytes im) ->
  getb (sector (geom_of (a_hdr im)) (a_bytes im) 360) 0 = 2 ->
  image_segments h r PAtariDos (IAtariDos im) = (h', Ok l) -> In s l -> g_name s <> txt "Boot Sectors" \/ g_kind s = KDefault.
Proof.
  intros C R V E Hs. destruct (atari_list_ok h r im C R) as (h1 & fixed & files & E1 & _ & F1 & F2). rewrite E1 in E. injection E as <- <-.
  apply in_app_or in Hs. destruct Hs as [Hs|Hs].
  - left. unfold atari_fixed in F1. cbv zeta in F1. rewrite V in F1. cbn [Z.eqb] in F1.
    assert (X : Forall (fun e => n_name e <> txt "Boot Sectors") (atari_fixed (a_hdr im) (a_bytes im))).
    { unfold atari_fixed. cbv zeta. rewrite V. cbn [Z.eqb]. unfold image_head. cbn [app].
      destruct (h_offset (a_hdr im) =? 0); destruct (_ =? 133120); cbn [app]; repeat (constructor; [cbn [n_name]; discriminate|]); constructor. }
    unfold atari_fixed in X. cbv zeta in X. rewrite V in X. cbn [Z.eqb] in X.
    clear E1. revert X Hs. induction F1 as [|x e xs es P Ps IH]; intros X Hs; [destruct Hs|]. inversion X as [|y ys X1 X2]; subst. destruct Hs as [<-|Hs]; [rewrite (si_name _ _ _ _ P); exact X1|exact (IH X2 Hs)].
  - right. revert Hs. clear - F2. induction F2 as [|d x ds xs (c & data & P) Ps IH]; intros Hs; [destruct Hs|]. destruct Hs as [<-|Hs]; [exact (si_kind _ _ _ _ (af_seg _ _ _ _ _ _ _ P))|exact (IH Hs)].
Qed.
Print Assumptions C88_boot_sectors_refuted.

(** * DOS 3.3 *)
Theorem C88_dos33_list h r im : consistent3 im -> image_raw h r (i_bytes im) ->
  exists cat k h' fixed files area, dos33_disk (i_bytes im) cat k /\ image_segments h r PDos33 (IDos33 im) = (h', Ok (fixed ++ files)) /\
    image_raw h' r (i_bytes im) /\ marks h r (sectors_at3 [272] ++ sectors_at3 cat ++ area) (notes3 cat) h' /\
    (forall p, In p area <-> exists d tl dl data, In d (i_files im) /\ sectors_of3 im (d3_name d) tl dl /\ find_file3 im (d3_name d) = Ok data /\ In p (head_bytes d dl data)) /\
    Forall2 (seg_is h' r) fixed (fixed3 cat) /\
    Forall2 (fun d s => exists tl dl data, dos33_file h' r im d s tl dl data) (i_files im) files.
Proof.
  intros C R. destruct (consistent3_view im C) as (cat & k & _ & D). destruct (dos33_list_ok h r im cat k C D R) as (h' & fixed & files & area & E & M & A & F1 & F2).
  exists cat, k, h', fixed, files, area. split; [exact D|]. split; [exact E|]. split; [exact (marks_image r _ _ _ _ _ R M)|]. auto.
Qed.
Print Assumptions C88_dos33_list.
Theorem C88_dos33_apart im n tl dl n' tl' dl' p : sectors_of3 im n tl dl -> sectors_of3 im n' tl' dl' -> In p (sectors_at3 dl) ->
  (In p (sectors_at3 dl') -> n' = n) /\ ~ In p (sectors_at3 [272]) /\ (forall cat k, dos33_disk (i_bytes im) cat k -> ~ In p (sectors_at3 cat)).
Proof.
  intros (cat & k & i & D & (Hi & L & N & A)) (cat' & k' & j & D' & (Hj & L' & N' & A')) Hp. destruct (disk_det _ _ _ _ _ D D') as [<- <-].
  unfold sectors_at3 in *. apply in_flat_map in Hp. destruct Hp as (x & Hx & Px). apply In_zrange in Px.
  assert (U : forall l, In p (flat_map (fun n => zrange (256 * n) (256 * n + 256)) l) -> In x l).
  { intros l Hl. apply in_flat_map in Hl. destruct Hl as (y & Hy & Py). apply In_zrange in Py. replace x with y by lia. exact Hy. }
  destruct (k3_files _ _ _ D i Hi L) as (_ & _ & t0 & d0 & A0 & _ & _ & F0). destruct (file_at_det _ _ _ _ _ _ A A0) as [<- <-].
  destruct (F0 x (in_or_app _ _ _ (or_intror Hx))) as (Dx & _). unfold data_sector3 in Dx. split; [|split].
  - intros Hq. apply U in Hq. assert (i = j) as <- by (apply (k3_own _ _ _ D i j tl dl tl' dl' x); auto; apply in_or_app; right; assumption). congruence.
  - intros Hq. apply U in Hq. destruct Hq as [<-|[]]. tauto.
  - intros c2 k2 D2 Hq. destruct (disk_det _ _ _ _ _ D D2) as [<- <-]. apply U in Hq. tauto.
Qed.
Print Assumptions C88_dos33_apart.

(** * Boot disks, unidentified disks, KBoot disks: nothing is changed *)
Theorem C88_boot_list e strict h r b im : bytes_ok b -> image_raw h r b -> parse_image e strict PBoot b = Ok im ->
  exists hd l, im = IBoot hd b /\ hdr_of b = Ok hd /\ image_segments h r PBoot im = (h, Ok l) /\
    Forall2 (seg_is h r) l (image_head "Atari Boot Disk Image" hd (zlen b) ++ boot_lines hd b).
Proof. intros Hb (R & _ & _ & Rb). exact (boot_list_ok e strict h r b im Hb R Rb). Qed.
Print Assumptions C88_boot_list.
Theorem C88_unidentified_list e strict h r b im : bytes_ok b -> image_raw h r b -> parse_image e strict PUnidentified b = Ok im -> 128 < zlen b ->
  exists hd l, im = IUnidentified hd b /\ hdr_of b = Ok hd /\ image_segments h r PUnidentified im = (h, Ok l) /\
    Forall2 (seg_is h r) l (image_head "Atari Disk Image" hd (zlen b)).
Proof. intros Hb (R & _ & _ & Rb). exact (plain_list_ok e strict h r b im Hb R Rb). Qed.
Print Assumptions C88_unidentified_list.
Theorem C88_kboot_list e strict h r b im : bytes_ok b -> image_raw h r b -> parse_image e strict PKBoot b = Ok im ->
  exists k l, im = IKBoot k /\ hdr_of b = Ok (k_hdr k) /\ image_segments h r PKBoot im = (h, Ok l) /\
    Forall2 (seg_is h r) l (image_head "KBoot Disk Image" (k_hdr k) (zlen b) ++ [mkEn KObj (txt "KBoot Executable") (k_start k) (zrange (k_start k) (k_start k + k_size k))]) /\
    exists l0 s, l = l0 ++ [s] /\ read_data h (g_raw s) = kboot_file k.
Proof. intros Hb (R & _ & _ & Rb). exact (kboot_list_ok e strict h r b im Hb R Rb). Qed.
Print Assumptions C88_kboot_list.

(** * SpartaDOS *)
(** Every image that is accepted as one is listed; every line of a file shows what
    reading the file returns. *)
Theorem C88_sparta_list_partial e strict h r b im : bytes_ok b -> image_raw h r b -> parse_image e strict PSparta b = Ok im ->
  exists a d l files s, im = ISparta a /\ open_sparta b = Ok a /\ s_rootd a = Some d /\ stamps a = Ok l /\ map fst l = s_files a /\
    let hd := s_hdr a in
    let g := geom_of hd in
    (43 <= first_bytes hd 1 -> 4 <= boot_word g b 16 -> 1 <= boot_byte g b 15 -> boot_word g b 16 + boot_byte g b 15 < 65536 ->
     exists fixed, image_segments h r PSparta im = (h, Ok (fixed ++ s :: files)) /\
       Forall2 (seg_is h r) fixed (sparta_fixed hd b) /\
       (exists data, sget_file a d = Ok data /\ read_data h (g_raw s) = data /\ g_name s = sfilename d) /\
       Forall2 (fun dt s => sparta_line h r a (fst dt) (snd dt) s) l files).
Proof. intros Hb (R & _ & Hl & Rb). exact (sparta_list_ok e strict h r b im Hb R Hl Rb). Qed.
Print Assumptions C88_sparta_list_partial.

(** * Every image *)
(** The header and the sectors are consecutive and make up the image. *)
Theorem C88_header_and_sectors menu hd b h r l rest : raw_ok h r -> read_data h r = b -> 0 <= h_offset hd <= zlen b ->
  Forall2 (seg_is h r) l (image_head menu hd (zlen b) ++ rest) ->
  exists whole head sectors l', l = whole :: head :: sectors :: l' /\ read_data h (g_raw whole) = b /\
    read_data h (g_raw head) ++ read_data h (g_raw sectors) = b /\ zlen (read_data h (g_raw head)) = h_offset hd.
Proof.
  intros R Rb O F. unfold image_head in F. cbn [app] in F. inversion F as [|w e1 l1 r1 W F1]; subst l. inversion F1 as [|x e2 l2 r2 X F2]; subst l1. inversion F2 as [|y e3 l3 r3 Y F3]; subst l2.
  subst. exists w, x, y, l3. split; [reflexivity|]. rewrite (si_bytes _ _ _ _ W), (si_bytes _ _ _ _ X), (si_bytes _ _ _ _ Y). cbn [n_at].
  split; [apply map_range|]. rewrite <- map_app. split; [|rewrite zlen_map, zlen_zrange by lia; lia].
  rewrite <- (map_range (read_data h r)) at 3. f_equal. symmetry. apply zrange_app; lia.
Qed.
Print Assumptions C88_header_and_sectors.

(** What is printed of a segment: its name, its load address and its length, or the
    numbers of its sectors. *)
Definition line_text (e : entry) : list Z :=
  match n_kind e with
  | KDefault => n_name e ++ txt " ($" ++ hexn (zlen (n_at e)) ++ txt " bytes" ++
      (if 0 <? n_origin e then txt " @ " ++ hex4 (n_origin e) else []) ++ txt ")"
  | KObj => n_name e ++ txt " $" ++ hex4 (n_origin e) ++ txt "-$" ++ hex4 (n_origin e + zlen (n_at e)) ++ txt " ($" ++ hex4 (zlen (n_at e)) ++ txt " @ $0000)"
  | KAt _ start | KRun _ start => n_name e ++ txt " $" ++ hex4 (n_origin e) ++ txt "-$" ++ hex4 (n_origin e + zlen (n_at e)) ++
      txt " ($" ++ hex4 (zlen (n_at e)) ++ txt " @ $" ++ hex4 start ++ txt ")"
  | KRaw first num _ _ _ | KTrack first num _ _ _ =>
      n_name e ++ (if 1 <? num then txt " (sectors " ++ dec first ++ txt "-" ++ dec (first + num - 1) ++ txt ")" else txt " (sector " ++ dec first ++ txt ")")
  | KEmpty _ | KFailed _ => n_name e ++ txt " (empty file)"
  end.
Theorem C88_text h r l es : Forall2 (seg_is h r) l es -> Forall (fun e => forall t, n_kind e = KEmpty t -> t = []) es -> segments_lines h l = map line_text es.
Proof.
  unfold segments_lines. induction 1 as [|s e l es P F IH]; intros K; [reflexivity|]. inversion K as [|x y K1 K2]; subst. cbn [map]. rewrite (IH K2). f_equal. clear IH K2 K.
  assert (L : raw_len h (g_raw s) = zlen (n_at e)).
  { rewrite <- (zlen_shows h _ (si_ok _ _ _ _ P)), (si_shows _ _ _ _ P), zlen_map. reflexivity. }
  unfold seg_text, line_text. rewrite L, (si_name _ _ _ _ P), (si_origin _ _ _ _ P), (si_kind _ _ _ _ P). destruct (n_kind e) as [| |f n a b c|f n a b c|a b|a b|t|x] eqn:Ek; try reflexivity.
  - unfold sectors_text. destruct (1 <? n); reflexivity.
  - unfold sectors_text. destruct (1 <? n); reflexivity.
  - rewrite (K1 t eq_refl). reflexivity.
Qed.
Print Assumptions C88_text.

(** Comments made by listing are not marked as comments: the style of every commented byte
    of the VTOC is that of data. *)
Theorem C88_comment_mark_refuted h r im : consistent im -> image_raw h r (a_bytes im) ->
  exists h' l, image_segments h r PAtariDos (IAtariDos im) = (h', Ok l) /\
    let p := spos (geom_of (a_hdr im)) 360 in
    dget (getb (shows h r) p) (comments h' r) = Some (txt "Type code") /\
    Z.land (getb (arr h' (r_style r)) (getb (shows h r) p)) (style_bits k_comment) = 0.
Proof.
  intros C R. destruct (atari_list_ok h r im C R) as (h' & fixed & files & E & M & _). exists h', (fixed ++ files). split; [exact E|]. cbv zeta.
  pose proof (image_raw_len _ _ _ R) as Hlen. destruct (consistent_view im C) as (k & Ei & G & D & Hh). set (g := geom_of (a_hdr im)) in *.
  pose proof (spos_bounds (a_hdr im) (a_bytes im) G 360 ltac:(pose proof (hg_max _ _ G); lia)) as B. fold g in B.
  assert (Gs : g_ss g = h_ssize (a_hdr im)) by reflexivity. pose proof (hg_ss _ _ G) as Ss.
  assert (P : 0 <= spos g 360 < raw_len h r) by lia. split.
  - rewrite (mk_note _ _ _ _ _ M _ P). unfold atari_notes. rewrite !rev_app_distr, !dget_app.
    assert (N1 : forall (l : list (Z * list Z)) q, Forall (fun it => fst it <> q) l -> dget q (rev l) = None).
    { intros l q Fl. assert (Fr : Forall (fun it => fst it <> q) (rev l)) by (apply Forall_rev; exact Fl). induction Fr as [|[a v] t H _ IH]; [reflexivity|]. cbn [dget fst] in *.
      destruct (Z.eqb_spec q a); [congruence|exact IH]. }
    rewrite (N1 (flat_map _ _)).
    2: { apply Forall_forall. intros [q t] Hq. apply in_flat_map in Hq. destruct Hq as (i & Hi & Hq). apply In_zrange in Hi. unfold named_fields, slot_fields in Hq. cbn [map fst snd] in Hq.
         pose proof (spos_apart (a_hdr im) (a_bytes im) G 360 361 ltac:(lia)) as A. fold g in A. unfold spos in A |- *. cbn [fst].
         repeat (destruct Hq as [Hq|Hq]; [apply (f_equal fst) in Hq; cbn [fst] in Hq; rewrite <- Hq; unfold spos; lia|]). destruct Hq. }
    rewrite (N1 (if h_image_size (a_hdr im) =? 133120 then _ else _)).
    2: { destruct (_ =? _); [|constructor]. apply Forall_forall. intros [q t] Hq. unfold fields_at, vtoc2_fields in Hq. cbn [map fst snd] in Hq. cbn [fst].
         repeat (destruct Hq as [Hq|Hq]; [apply (f_equal fst) in Hq; cbn [fst] in Hq; rewrite <- Hq; unfold spos; lia|]). destruct Hq. }
    unfold fields_at, vtoc_fields. cbn [map fst snd rev app]. cbn [dget].
    repeat match goal with |- context [?p =? ?q] => first [replace (p =? q) with false by lia|replace (p =? q) with true by lia] end. reflexivity.
  - rewrite (mk_style _ _ _ _ _ M _ P). replace (zmem (spos g 360) (atari_area g _)) with true; [reflexivity|]. symmetry. apply zmem_In.
    unfold atari_area, sectors_at. apply in_or_app. left. apply In_zrange. lia.
Qed.
Print Assumptions C88_comment_mark_refuted.

(** * Examples *)
Lemma find3_In n ds d : find_name3 n ds = Some d -> In d ds /\ d3_name d = n.
Proof.
  induction ds as [|x ds IH]; [discriminate|]. cbn [find_name3]. destruct (zlist_eqb n (d3_name x)) eqn:E; intros H.
  - injection H as <-. apply zlist_eqb_eq in E. split; [left; reflexivity|auto].
  - destruct (IH H). split; [right; assumption|assumption].
Qed.
Lemma found3 im n data : find_file3 im n = Ok data -> exists d, In d (i_files im) /\ d3_name d = n.
Proof. unfold find_file3. destruct (find_name3 n (i_files im)) as [d|] eqn:E; [|discriminate]. intros _. exists d. exact (find3_In _ _ _ E). Qed.
Example C88_atari_example : exists h r im h' l, consistent im /\ image_raw h r (a_bytes im) /\ find_file im hello = Ok text /\
  image_segments h r PAtariDos (IAtariDos im) = (h', Ok l) /\ exists s, In s l /\ g_kind s = KDefault /\ read_data h' (g_raw s) = text.
Proof.
  destruct small_image as (im & C & F & B). assert (B' : zlen (a_bytes im) <= 2147483648) by lia.
  pose proof (new_raw_image (mkHp [] []) _ B') as R. set (h := fst _) in R. set (r := snd _) in R.
  destruct (C88_atari_list_partial h r im C R) as (h' & fixed & files & E & R' & M & F1 & F2).
  exists h, r, im, h', (fixed ++ files). repeat (split; [assumption|]).
  assert (X : exists d, In d (a_files im) /\ filename d = hello).
  { unfold find_file in F. destruct (find_name hello (a_files im)) as [d|] eqn:Ed; [|discriminate]. exists d. split; [exact (find_name_In _ _ _ Ed)|]. symmetry. exact (find_name_eq _ _ _ Ed). }
  destruct X as (d & Hd & Nd). revert Hd. clear - F2 Nd F. induction F2 as [|d0 s ds ss (c & data & P) Ps IH]; intros Hd; [destruct Hd|]. destruct Hd as [->|Hd].
  - exists s. split; [apply in_or_app; right; left; reflexivity|]. split; [exact (si_kind _ _ _ _ (af_seg _ _ _ _ _ _ _ P))|].
    rewrite (af_read _ _ _ _ _ _ _ P). pose proof (af_data _ _ _ _ _ _ _ P) as E. rewrite Nd, F in E. congruence.
  - destruct (IH Hd) as (x & Hx & K). exists x. split; [|exact K]. apply in_app_or in Hx. apply in_or_app. destruct Hx; [left; assumption|right; right; assumption].
Qed.
Example C88_dos33_example : exists h r im h' l, consistent3 im /\ image_raw h r (i_bytes im) /\ find_file3 im HELLO = Ok hello_data /\
  image_segments h r PDos33 (IDos33 im) = (h', Ok l) /\ exists s, In s l /\ read_data h' (g_raw s) = hello_data.
Proof.
  pose proof full_consistent as C. pose proof (proj1 full_read) as F. generalize dependent full_im. intros im C F. destruct (consistent3_view im C) as (cat & k & Ei & D).
  assert (B : zlen (i_bytes im) <= 2147483648) by (rewrite (k3_size _ _ _ D); lia).
  pose proof (new_raw_image (mkHp [] []) _ B) as R. set (h := fst _) in R. set (r := snd _) in R.
  destruct (C88_dos33_list h r im C R) as (cat' & k' & h' & fixed & files & area & D' & E & _ & _ & _ & _ & F2).
  exists h, r, im, h', (fixed ++ files). repeat (split; [assumption|]).
  assert (X : exists d, In d (i_files im) /\ d3_name d = HELLO).
  { exact (found3 _ _ _ F). }
  destruct X as (d & Hd & Nd). revert Hd. clear - F2 Nd F. induction F2 as [|d0 s ds ss (tl & dl & data & P) Ps IH]; intros Hd; [destruct Hd|]. destruct Hd as [->|Hd].
  - exists s. split; [apply in_or_app; right; left; reflexivity|].
    rewrite (df_read _ _ _ _ _ _ _ _ P). pose proof (df_data _ _ _ _ _ _ _ _ P) as E. rewrite Nd, F in E. congruence.
  - destruct (IH Hd) as (x & Hx & K). exists x. split; [|exact K]. apply in_app_or in Hx. apply in_or_app. destruct Hx; [left; assumption|right; right; assumption].
Qed.

(** A boot disk of five sectors whose first two are loaded to $0700. *)
Definition boot_demo : list Z := [0; 2; 0; 7; 0; 7] ++ zrepeat 1 634.
Example C88_boot_example e : bytes_ok boot_demo /\ (exists h r, image_raw h r boot_demo) /\ exists hd, parse_image e false PBoot boot_demo = Ok (IBoot hd boot_demo) /\
  map line_text (image_head "Atari Boot Disk Image" hd (zlen boot_demo) ++ boot_lines hd boot_demo) =
  map txt ["Atari Boot Disk Image ($280 bytes)"; "XFD Header $0000-$0000 ($0000 @ $0000)"; "Raw disk sectors (sectors 1-5)";
           "Boot Sectors $0700-$0800 ($0100 @ $0000)"; "Boot Header $0700-$0706 ($0006 @ $0000)"; "Boot Code $0706-$0800 ($00fa @ $0000)"]%string.
Proof.
  split; [apply Properties_Sparta.bytes_okb; reflexivity|]. split; [eexists _, _; apply (new_raw_image (mkHp [] [])); vm_compute; discriminate|].
  eexists. split; [vm_compute; reflexivity|vm_compute; reflexivity].
Qed.
Example C88_unidentified_example e : exists hd, parse_image e false PUnidentified boot_demo = Ok (IUnidentified hd boot_demo) /\ 128 < zlen boot_demo.
Proof. eexists. split; vm_compute; reflexivity. Qed.
(** A KBoot disk with an executable of 100 bytes. *)
Definition kboot_demo : list Z := [0; 3; 0; 7; 0; 7; 0; 0; 0; 100; 0; 0] ++ zrepeat 9 372 ++ zrepeat 5 128.
Example C88_kboot_example e : exists k, parse_image e false PKBoot kboot_demo = Ok (IKBoot k) /\ kboot_file k = zrepeat 5 100 /\
  map line_text (image_head "KBoot Disk Image" (k_hdr k) (zlen kboot_demo) ++ [mkEn KObj (txt "KBoot Executable") (k_start k) (zrange (k_start k) (k_start k + k_size k))]) =
  map txt ["KBoot Disk Image ($200 bytes)"; "XFD Header $0000-$0000 ($0000 @ $0000)"; "Raw disk sectors (sectors 1-4)"; "KBoot Executable $0180-$01e4 ($0064 @ $0000)"]%string.
Proof. eexists. split; [vm_compute; reflexivity|]. split; vm_compute; reflexivity. Qed.

(** A SpartaDOS disk: sector 1 boot record, 3 map and 5 data of the root directory, 4
    bitmap, 6 map and 7-8 data of A.TXT. *)
Definition sparta_demo : list Z :=
  Properties_Sparta.boot_rec 8 3 4 ++ Properties_Sparta.pad [] ++ Properties_Sparta.map_sec 0 [5] ++ Properties_Sparta.pad [0; 0] ++
  Properties_Sparta.pad (Properties_Sparta.entry 0x28 0 46 [77; 65; 73; 78] [] ++ Properties_Sparta.entry 0x08 6 200 [65] [84; 88; 84]) ++
  Properties_Sparta.map_sec 0 [7; 8] ++ Properties_Sparta.body 1 128 ++ Properties_Sparta.body 50 128.
(** The full claim is false: the header of the boot sectors is listed twice, and there is
    no segment of all boot sectors. *)
Theorem C88_sparta_boot_refuted e : exists h r a h' l, image_raw h r sparta_demo /\ parse_image e false PSparta sparta_demo = Ok (ISparta a) /\
  image_segments h r PSparta (ISparta a) = (h', Ok l) /\
  segments_lines h' l = map txt ["Sparta DOS Disk Image ($400 bytes)"; "XFD Header $0000-$0000 ($0000 @ $0000)"; "Raw disk sectors (sectors 1-8)";
    "Boot Header $0700-$072b ($002b @ $0000)"; "Boot Header $0700-$072b ($002b @ $0000)"; "Boot Code $072b-$0780 ($0055 @ $0000)";
    "Bitmap (sector 4)"; "MAIN ($2e bytes)"; "A.TXT 200@6 1/2/90 12:30:0 ($c8 bytes)"]%string.
Proof.
  eexists _, _, _, _, _. split; [apply (new_raw_image (mkHp [] [])); vm_compute; discriminate|].
  split; [vm_compute; reflexivity|]. split; [vm_compute; reflexivity|]. vm_compute. reflexivity.
Qed.
Print Assumptions C88_sparta_boot_refuted.
Example C88_sparta_example e : exists a, parse_image e false PSparta sparta_demo = Ok (ISparta a) /\ bytes_ok sparta_demo /\
  let hd := s_hdr a in let g := geom_of hd in
  43 <= first_bytes hd 1 /\ 4 <= boot_word g sparta_demo 16 /\ 1 <= boot_byte g sparta_demo 15 /\ boot_word g sparta_demo 16 + boot_byte g sparta_demo 15 < 65536.
Proof.
  eexists. split; [vm_compute; reflexivity|]. split; [apply Properties_Sparta.bytes_okb; vm_compute; reflexivity|]. vm_compute. intuition congruence.
Qed.
