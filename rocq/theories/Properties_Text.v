(** C85, C86: what `list`, `crc` and `vtoc` print. *)
From Coq Require Import String.
From Verif Require Import Base BaseLemmas DiskModel AtariModel SpartaModel Dos33Model CliModel CliProofs TextModel TextSpec TextProofs TextOpen
  AtariSpec AtariGeom AtariVtoc AtariChain AtariWrite AtariOps AtariDemo Dos33Spec Dos33Geom Dos33Files Dos33Vtoc Dos33Alloc Dos33Ops Dos33Demo.
From Verif Require Properties_Sparta.
Import List.

(** * C85: listings *)
Section Pair.
Context {E V : Type} (P : E -> Prop) (line : E -> list Z) (view : E -> V).
Hypothesis Hcode : forall show, code (fun e : E * Z => P (fst e) /\ 0 <= snd e) (fun e => line (fst e) ++ shown_tail show (snd e) ++ [10])
  (fun e => (view (fst e), if show then snd e else 0)).
Lemma pair_same (read1 read2 : E -> res (list Z)) crc (show : bool) (l1 l2 : list E) c1 c2 :
  (forall x, 0 <= crc x < 2 ^ 32) -> Forall P l1 -> Forall P l2 ->
  Forall2 (has_crc read1 crc show) l1 c1 -> Forall2 (has_crc read2 crc show) l2 c2 ->
  flat_map (fun e => line (fst e) ++ shown_tail show (snd e) ++ [10]) (combine l1 c1) = flat_map (fun e => line (fst e) ++ shown_tail show (snd e) ++ [10]) (combine l2 c2) ->
  map view l1 = map view l2 /\ (show = true -> sums read1 crc l1 = sums read2 crc l2).
Proof.
  intros Hc P1 P2 F1 F2 E0.
  destruct (lines_same P line view Hcode show l1 l2 c1 c2 P1 P2 (has_crc_nonneg _ _ _ _ _ Hc F1) (has_crc_nonneg _ _ _ _ _ Hc F2) (Forall2_len _ _ _ F1) (Forall2_len _ _ _ F2) E0) as [Hv Hs].
  split; [exact Hv|]. intros ->. rewrite (has_crc_sums _ _ _ _ F1), (has_crc_sums _ _ _ _ F2), (Hs eq_refl). reflexivity.
Qed.
End Pair.

(** Two Atari DOS images listed with the same text have the same header, the same numbers of
    sectors and files, and their listed files agree in number, flags, first sector, name,
    extension and number of sectors; with --crc also in the checksums of their contents. *)
Theorem C85_atari_list crc img show files b1 b2 im1 im2 t : (forall x, 0 <= crc x < 2 ^ 32) ->
  bytes_ok b1 -> open_image b1 = Ok im1 -> bytes_ok b2 -> open_image b2 = Ok im2 ->
  atari_list crc img show files im1 = (t, Ok tt) -> atari_list crc img show files im2 = (t, Ok tt) ->
  let l1 := selected dirent filename files (a_files im1) in
  let l2 := selected dirent filename files (a_files im2) in
  (header_view (a_hdr im1), a_total im1, a_free im1, zlen (a_files im1)) = (header_view (a_hdr im2), a_total im2, a_free im2, zlen (a_files im2)) /\
  map atari_view l1 = map atari_view l2 /\
  (show = true -> sums (AtariModel.get_file im1) crc l1 = sums (AtariModel.get_file im2) crc l2).
Proof.
  intros Hc Hb1 Ho1 Hb2 Ho2 T1 T2. cbv zeta.
  destruct (list_lines _ _ _ _ _ _ _ _ _ _ T1) as (c1 & F1 & E1). destruct (list_lines _ _ _ _ _ _ _ _ _ _ T2) as (c2 & F2 & E2).
  rewrite E1 in E2. do 2 apply app_inv_head in E2. unfold atari_head in E2.
  pose proof (code_format "Atari DOS" (a_hdr im1, (a_total im1, a_free im1, zlen (a_files im1))) (a_hdr im2, (a_total im2, a_free im2, zlen (a_files im2)))
    (flat_map (fun e => atari_line (fst e) ++ shown_tail show (snd e) ++ [10]) (combine (selected dirent filename files (a_files im1)) c1))
    (flat_map (fun e => atari_line (fst e) ++ shown_tail show (snd e) ++ [10]) (combine (selected dirent filename files (a_files im2)) c2)) Logic.I Logic.I) as K.
  cbn [fst snd] in K. rewrite <- !app_assoc in K. cbn [app] in K. destruct (K E2) as [Hh Hl]. split; [congruence|].
  apply (pair_same line_ok atari_line atari_view code_atari _ _ crc show _ _ c1 c2 Hc); try assumption;
    apply Forall_selected; [apply (open_lines b1)|apply (open_lines b2)]; assumption.
Qed.
Print Assumptions C85_atari_list.

(** The same for DOS 3.3: number, lock, known type, sectors, name up to blanks at its end,
    track and sector of the sector list. *)
Theorem C85_dos33_list crc img show files b1 b2 im1 im2 t : (forall x, 0 <= crc x < 2 ^ 32) ->
  bytes_ok b1 -> open33 b1 = Ok im1 -> bytes_ok b2 -> open33 b2 = Ok im2 ->
  dos33_list crc img show files im1 = (t, Ok tt) -> dos33_list crc img show files im2 = (t, Ok tt) ->
  let l1 := selected _ (fun e => d3_name (snd e)) files (numbered im1) in
  let l2 := selected _ (fun e => d3_name (snd e)) files (numbered im2) in
  map dos33_view l1 = map dos33_view l2 /\
  (show = true -> sums (fun e => get_file3 im1 (snd e)) crc l1 = sums (fun e => get_file3 im2 (snd e)) crc l2).
Proof.
  intros Hc Hb1 Ho1 Hb2 Ho2 T1 T2. cbv zeta.
  destruct (list_lines _ _ _ _ _ _ _ _ _ _ T1) as (c1 & F1 & E1). destruct (list_lines _ _ _ _ _ _ _ _ _ _ T2) as (c2 & F2 & E2).
  rewrite E1 in E2. do 2 apply app_inv_head in E2. unfold dos33_head in E2. apply app_inv_head in E2. injection E2 as E2.
  apply (pair_same line3_ok dos33_line dos33_view code_dos33 _ _ crc show _ _ c1 c2 Hc); try assumption; apply Forall_selected; apply numbered_ok.
  - rewrite (proj1 (numbered_files b1 im1 Ho1)). exact Hb1.
  - rewrite (proj1 (numbered_files b2 im2 Ho2)). exact Hb2.
Qed.
Print Assumptions C85_dos33_list.
(** The numbered entries are the files of the image. *)
Theorem C85_dos33_numbered b im : open33 b = Ok im -> map snd (numbered im) = i_files im.
Proof. intros H. apply (numbered_files b im H). Qed.
Print Assumptions C85_dos33_numbered.

Theorem C85_sparta_list crc img show files b1 b2 im1 im2 d1 d2 t : (forall x, 0 <= crc x < 2 ^ 32) ->
  bytes_ok b1 -> open_sparta b1 = Ok im1 -> stamps im1 = Ok d1 -> bytes_ok b2 -> open_sparta b2 = Ok im2 -> stamps im2 = Ok d2 ->
  sparta_list crc img show files im1 = (t, Ok tt) -> sparta_list crc img show files im2 = (t, Ok tt) ->
  let l1 := selected _ (fun e => sfilename (fst e)) files d1 in
  let l2 := selected _ (fun e => sfilename (fst e)) files d2 in
  (header_view (s_hdr im1), s_total im1, s_free im1, zlen (s_files im1)) = (header_view (s_hdr im2), s_total im2, s_free im2, zlen (s_files im2)) /\
  map sparta_view l1 = map sparta_view l2 /\
  (show = true -> sums (fun e => sget_file im1 (fst e)) crc l1 = sums (fun e => sget_file im2 (fst e)) crc l2).
Proof.
  intros Hc Hb1 Ho1 S1 Hb2 Ho2 S2 T1 T2. cbv zeta. unfold sparta_list in T1, T2. rewrite S1 in T1. rewrite S2 in T2.
  destruct (list_lines _ _ _ _ _ _ _ _ _ _ T1) as (c1 & F1 & E1). destruct (list_lines _ _ _ _ _ _ _ _ _ _ T2) as (c2 & F2 & E2).
  rewrite E1 in E2. do 2 apply app_inv_head in E2. unfold sparta_head in E2.
  pose proof (code_format "Sparta DOS" (s_hdr im1, (s_total im1, s_free im1, zlen (s_files im1))) (s_hdr im2, (s_total im2, s_free im2, zlen (s_files im2)))
    (flat_map (fun e => sparta_line (fst e) ++ shown_tail show (snd e) ++ [10]) (combine (selected _ (fun e => sfilename (fst e)) files d1) c1))
    (flat_map (fun e => sparta_line (fst e) ++ shown_tail show (snd e) ++ [10]) (combine (selected _ (fun e => sfilename (fst e)) files d2) c2)) Logic.I Logic.I) as K.
  cbn [fst snd] in K. rewrite <- !app_assoc in K. cbn [app] in K. destruct (K E2) as [Hh Hl]. split; [congruence|].
  apply (pair_same lines_ok sparta_line sparta_view code_sparta _ _ crc show _ _ c1 c2 Hc); try assumption;
    apply Forall_selected; [apply (open_slines b1 im1)|apply (open_slines b2 im2)]; assumption.
Qed.
Print Assumptions C85_sparta_list.

(** `list` without --crc prints all the files asked for and ends without an exception. *)
Theorem C85_list_ends crc img files im im3 :
  snd (atari_list crc img false files im) = Ok tt /\ snd (dos33_list crc img false files im3) = Ok tt.
Proof.
  assert (G : forall (E : Type) (line : E -> list Z) read l, snd (print_loop E (list_one E line read crc false) l) = Ok tt).
  { intros E line read l. induction l as [|d l IH]; [reflexivity|]. cbn [print_loop list_one]. destruct (print_loop E (list_one E line read crc false) l). exact IH. }
  unfold atari_list, dos33_list, list_text. split.
  - specialize (G dirent atari_line (AtariModel.get_file im) (selected dirent filename files (a_files im))). destruct (print_loop _ _ _). exact G.
  - specialize (G _ dos33_line (fun e => get_file3 im3 (snd e)) (selected _ (fun e => d3_name (snd e)) files (numbered im3))). destruct (print_loop _ _ _). exact G.
Qed.
Print Assumptions C85_list_ends.

(** The dates are those of the directory that was read when the image was opened. *)
Lemma stamps_ok b im : open_sparta b = Ok im -> exists ds, stamps im = Ok ds.
Proof.
  intros Ho. unfold open_sparta, open_sparta_fuel in Ho. cbv zeta in Ho. destruct (check_size _ _) as [h|]; cbn [rbind] in Ho; [|discriminate].
  destruct (boot_sector_info b h) as [im0|] eqn:Eb; cbn [rbind] in Ho; [|discriminate].
  assert (B0 : s_bytes im0 = b /\ s_rootd im0 = None).
  { unfold boot_sector_info in Eb. destruct (get_sectors h b 1 1) as [r|]; cbn [rbind] in Eb; [|discriminate].
    repeat match type of Eb with context [if ?x then _ else _] => destruct x; try discriminate end; injection Eb as <-; split; reflexivity. }
  destruct B0 as [B0 B1]. unfold sget_directory in Ho. cbv zeta in Ho. rewrite B0 in Ho.
  destruct (sector_map _ _ _ _) as [[[|sector m]|]|]; cbn [rbind] in Ho; try discriminate.
  destruct (sector =? 0); [injection Ho as <-; eexists; reflexivity|].
  destruct (get_raw_bytes _ _ _) as [[[raw p] q]|]; cbn [rbind] in Ho; [|discriminate].
  destruct (parse_sdirent _ 0 _) as [d0|]; cbn [rbind] in Ho; [|discriminate].
  destruct (sget_bytes _ _ _ _) as [s|] eqn:Es; cbn [rbind] in Ho; [|discriminate].
  destruct (sentries _ _ 1 s 23) as [ds0|] eqn:Ee; cbn [rbind] in Ho; [|discriminate]. injection Ho as <-.
  unfold stamps, sget_file. cbn [with_dir s_rootd s_bytes s_hdr]. rewrite B0, Es. eexists. reflexivity.
Qed.
Theorem C85_sparta_ends crc img files b im : open_sparta b = Ok im -> snd (sparta_list crc img false files im) = Ok tt.
Proof.
  intros Ho. unfold sparta_list. destruct (stamps_ok b im Ho) as (ds & ->). unfold list_text.
  generalize (selected (sdirent * list Z) (fun e => sfilename (fst e)) files ds). intros l.
  assert (G : snd (print_loop _ (list_one _ sparta_line (fun e => sget_file im (fst e)) crc false) l) = Ok tt).
  { induction l as [|d l IH]; [reflexivity|]. cbn [print_loop list_one]. destruct (print_loop _ _ l). exact IH. }
  destruct (print_loop _ _ l). exact G.
Qed.
Print Assumptions C85_sparta_ends.

(** All files are listed, or those whose names are given. *)
Theorem C85_selected {E} (name : E -> list Z) files (ds : list E) :
  selected E name [] ds = ds /\
  (files <> [] -> forall d, In d (selected E name files ds) <-> In d ds /\ In (name d) files).
Proof.
  split.
  - unfold selected. induction ds as [|d ds IH]; [reflexivity|]. cbn [filter]. f_equal. exact IH.
  - intros N d. unfold selected. rewrite filter_In. destruct files as [|n l]; [destruct (N eq_refl)|]. rewrite existsb_exists.
    split; intros [H1 H2]; (split; [exact H1|]).
    + destruct H2 as (x & Hx & He). apply zlist_eqb_eq in He. rewrite He. exact Hx.
    + exists (name d). split; [exact H2|apply zlist_eqb_refl].
Qed.
Print Assumptions C85_selected.

(** The numbers are printed so that they can be read: int() gives them back. *)
Theorem C85_numbers n : py_int 10 (dec n) = Ok n.
Proof. apply py_int_dec. Qed.
Print Assumptions C85_numbers.

(** `crc`: lists of files whose names have no line break, printed with the same text, agree
    in the names and the checksums of the contents. *)
Theorem C85_crc_partial {E} (name : E -> list Z) read1 read2 crc files ds1 ds2 t : (forall x, 0 <= crc x < 2 ^ 32) ->
  Forall (fun d => ~ In 10 (name d)) ds1 -> Forall (fun d => ~ In 10 (name d)) ds2 ->
  crc_text E name read1 crc files ds1 = (t, Ok tt) -> crc_text E name read2 crc files ds2 = (t, Ok tt) ->
  map name (selected E name files ds1) = map name (selected E name files ds2) /\
  sums read1 crc (selected E name files ds1) = sums read2 crc (selected E name files ds2).
Proof.
  intros Hc N1 N2 T1 T2. destruct (crc_lines _ _ _ _ _ _ T1) as (c1 & F1 & E1). destruct (crc_lines _ _ _ _ _ _ T2) as (c2 & F2 & E2).
  assert (B : forall (read : E -> res (list Z)) l c, Forall2 (has_crc read crc true) l c -> Forall (fun c => 0 <= c < 2 ^ 32) c).
  { intros read l c F. induction F as [|x y l m Hx F IH]; constructor; [|exact IH]. destruct Hx as (z & _ & <-). apply Hc. }
  assert (A : forall l c, Forall (fun d => ~ In 10 (name d)) l -> Forall (fun c => 0 <= c < 2 ^ 32) c -> Forall (fun e : E * Z => ~ In 10 (name (fst e)) /\ 0 <= snd e < 2 ^ 32) (combine l c)).
  { intros l c Hl Hc'. rewrite Forall_forall in Hl, Hc'. apply Forall_forall. intros [x y] H. split; [apply Hl; apply (in_combine_l _ _ _ _ H)|apply Hc'; apply (in_combine_r _ _ _ _ H)]. }
  rewrite E1 in E2.
  pose proof (code_list _ _ _ (code_crc name) ltac:(intros a _ H; destruct (app_eq_nil _ _ H) as [_ H2]; discriminate) _ _
     (A _ _ (Forall_selected _ name files _ N1) (B _ _ _ F1)) (A _ _ (Forall_selected _ name files _ N2) (B _ _ _ F2)) E2) as M.
  assert (M1 := f_equal (map fst) M). assert (M2 := f_equal (map snd) M). rewrite !map_map in M1, M2. cbn [fst snd] in M1, M2.
  rewrite (map_combine_views name) in M1 by (apply (Forall2_len _ _ _ F1)). rewrite (map_combine_views name) in M1 by (apply (Forall2_len _ _ _ F2)). split; [exact M1|].
  rewrite (has_crc_sums _ _ _ _ F1), (has_crc_sums _ _ _ _ F2). f_equal.
  assert (M3 : map snd (combine (selected E name files ds1) c1) = map snd (combine (selected E name files ds2) c2)) by exact M2.
  rewrite map_combine_snd in M3 by (apply (Forall2_len _ _ _ F1)). rewrite map_combine_snd in M3 by (apply (Forall2_len _ _ _ F2)). exact M3.
Qed.
Print Assumptions C85_crc_partial.
(** With line breaks in names the text of one file can be that of two. *)
Definition sum8 (x : list Z) : Z := zlen x mod 256.
Theorem C85_crc_refuted : exists (read : list Z -> res (list Z)) ds1 ds2 t,
  crc_text (list Z) (fun n => n) read sum8 [] ds1 = (t, Ok tt) /\ crc_text (list Z) (fun n => n) read sum8 [] ds2 = (t, Ok tt) /\
  Forall (fun n => 0 < zlen n <= 29 /\ Forall (fun c => 0 <= c < 128) n) (ds1 ++ ds2) /\ List.length ds1 <> List.length ds2.
Proof.
  exists (fun _ => Ok [0]), [txt "A"; txt "B"], [txt "A: 00000001" ++ 10 :: txt "B"].
  eexists. split; [vm_compute; reflexivity|]. split; [vm_compute; reflexivity|]. split; [|discriminate].
  repeat (constructor; [split; [vm_compute; split; congruence|apply Forall_forall; intros c Hc; vm_compute in Hc; lia]|]). constructor.
Qed.
Print Assumptions C85_crc_refuted.

(** A disk with two files, and its listing. *)
Definition two_disk : list Z :=
  craft 368 (entry 0x42 2 4 (txt "HELLO") ++ entry 0x80 7 9 (txt "GONE") ++ entry 0x63 1 6 (txt "B"))
        [(4, fsec (zrepeat 65 125) 0 5 125); (5, fsec [66] 0 0 1); (6, fsec (txt "XYZ") 2 0 3)].
Definition two_text : list Z :=
  txt "D.ATR: ATR Disk Image (size=47104 (368x128B), crc=0 flags=0 unused=0) Atari DOS Format: 707 usable sectors (707 free), 2 files" ++ 10 ::
  txt "File #0  (.2.u. ) 004 HELLO        002  0000007e" ++ 10 :: txt "File #2  (o2.u.*) 006 B            001  00000003" ++ [10].
Definition two_check (im : aimg) : bool :=
  match atari_list sum8 (txt "D.ATR") true [] im with (t, Ok _) => zlist_eqb t two_text | _ => false end.
Lemma two_check_true : with_open two_disk false two_check = true.
Proof. vm_compute. reflexivity. Qed.
Example C85_example : exists im, open_image two_disk = Ok im /\ bytes_ok two_disk /\ atari_list sum8 (txt "D.ATR") true [] im = (two_text, Ok tt).
Proof.
  destruct (with_open_true _ _ two_check_true) as (im & Ho & E). exists im. split; [exact Ho|]. split; [apply bytes_ok_b; vm_compute; reflexivity|].
  unfold two_check in E. destruct (atari_list sum8 (txt "D.ATR") true [] im) as [t [[]|]]; [|discriminate]. apply zlist_eqb_eq in E. rewrite E. reflexivity.
Qed.
Print Assumptions C85_example.
(** The demo disks of SpartaDOS and DOS 3.3. *)
Definition sparta_text : list Z :=
  txt "D.ATR: XFD Disk Image (size=1152 (9x128B) Sparta DOS Format: 9 usable sectors (1 free), 2 files" ++ 10 ::
  txt "File #1  (..u.  005) A       TXT       200  1/2/90 12:30:0  000000c8" ++ 10 :: txt "File #2  (...d  008) B                  10  1/2/90 12:30:0  0000000a" ++ [10].
Example C85_sparta_example : exists im l, open_sparta Properties_Sparta.demo = Ok im /\ bytes_ok Properties_Sparta.demo /\ stamps im = Ok l /\ sparta_list sum8 (txt "D.ATR") true [] im = (sparta_text, Ok tt).
Proof.
  destruct (open_sparta Properties_Sparta.demo) as [im|e] eqn:Ho; [|vm_compute in Ho; discriminate].
  vm_compute in Ho. injection Ho as <-. eexists. eexists. split; [reflexivity|]. split; [apply bytes_ok_b; vm_compute; reflexivity|]. split; vm_compute; reflexivity.
Qed.
Example C85_dos33_example : exists b im t, bytes_ok b /\ open33 b = Ok im /\ dos33_list sum8 (txt "D.DSK") false [] im = (t, Ok tt).
Proof.
  destruct blank_image as (im & _). pose proof (open33_view _ _ _ demo_full_disk) as O.
  pose proof (C85_list_ends sum8 (txt "D.DSK") [] im) as G.
  match type of O with _ = Ok ?x => specialize (G x); destruct G as [_ G]; destruct (dos33_list sum8 (txt "D.DSK") false [] x) as [t r] eqn:T; cbn [snd] in G; subst r end.
  eexists. eexists. exists t. split; [exact (k3_bytes _ _ _ demo_full_disk)|]. split; [exact O|exact T].
Qed.

(** * C86: the map of free sectors *)
Lemma map_getb m : map (getb m) (zrange 0 (zlen m)) = m.
Proof.
  apply (nth_ext _ _ 0 0).
  - rewrite map_length. pose proof (zlen_nonneg m). pose proof (zlen_zrange 0 (zlen m)). unfold zlen in *. lia.
  - intros n Hn. rewrite map_length in Hn. rewrite (nth_indep _ _ (getb m 0)) by (rewrite map_length; exact Hn). rewrite map_nth.
    pose proof (zlen_nonneg m). pose proof (zlen_zrange 0 (zlen m)). assert (Hz : nth n (zrange 0 (zlen m)) 0 = Z.of_nat n).
    { assert (N : forall k a j, (j < k)%nat -> nth j (zseq_nat a k) 0 = a + Z.of_nat j).
      { induction k as [|k IH]; intros a [|j] Hj; try lia; cbn [zseq_nat nth]; [lia|rewrite IH by lia; lia]. }
      unfold zrange. rewrite N by (unfold zlen in *; lia). lia. }
    rewrite Hz. unfold getb. rewrite Nat2Z.id. reflexivity.
Qed.
Lemma count_ones_nz m : Forall is_bit m -> count_ones m = zlen (nz m).
Proof.
  intros F. unfold count_ones, nz. rewrite <- (map_getb m) at 1. assert (G : forall l, (forall x, In x l -> is_bit (getb m x)) ->
    zlen (filter (fun x => x =? 1) (map (getb m) l)) = zlen (filter (fun i => negb (getb m i =? 0)) l)).
  { induction l as [|x l IH]; intros H; [reflexivity|]. cbn [map filter]. specialize (IH (fun y Hy => H y (or_intror Hy))).
    destruct (H x (or_introl eq_refl)) as [E|E]; rewrite E; [exact IH|]. change (1 =? 1) with true. change (negb (1 =? 0)) with true. cbv iota. rewrite !zlen_cons, IH. reflexivity. }
  apply G. intros x Hx. apply In_zrange in Hx. rewrite Forall_forall in F. apply F. unfold getb. apply nth_In. unfold zlen in Hx. lia.
Qed.
(** On a valid Atari disk `vtoc` prints, at a place that depends on the number only, 1 for
    every sector that is free and 0 for every other one, and the number of free sectors.
    Sector 720 has no bit and is shown as in use. *)
Theorem C86_atari_vtoc_partial im : consistent im ->
  exists t, atari_vtoc_text im = Ok t /\
    (forall track s, 0 <= track < 40 -> 0 <= s < 18 ->
       let n := 18 * track + s + 1 in
       getb t (49 * track + 12 + 2 * s) = if n <? 720 then 48 + free_bit (geom_of (a_hdr im)) (a_bytes im) n else 48) /\
    slice t (40 * 49) (zlen t) = 10 :: txt " (" ++ dec (free_count (geom_of (a_hdr im)) (a_bytes im)) ++ txt " free)".
Proof.
  intros C. destruct (consistent_view im C) as (k & E & G & D & _). unfold atari_vtoc_text. rewrite E, get_vtoc_object_view by assumption. cbn [rbind].
  pose proof (zlen_smap _ _ G) as L. eexists. split; [reflexivity|]. cbn [view a_hdr a_bytes].
  destruct (vtoc_text_spec 40 18 1 (smap_of (a_hdr im) (a_bytes im))) as [A B]; [lia..|]. split.
  - intros track s Ht Hs. cbv zeta. change 49 with (2 * 18 + 13). rewrite A by assumption. rewrite (getb_smap _ _ G) by lia.
    destruct (18 * track + s + 1 <? 720); reflexivity.
  - change (40 * 49) with (40 * (2 * 18 + 13)). rewrite B. do 4 f_equal. rewrite (free_count_nz _ _ G). f_equal.
    apply count_ones_nz. apply Forall_forall. intros x Hx. apply (In_nth _ _ 0) in Hx. destruct Hx as (m & Hm & <-).
    rewrite <- (Nat2Z.id m). fold (getb (smap_of (a_hdr im) (a_bytes im)) (Z.of_nat m)).
    rewrite (getb_smap _ _ G) by (unfold zlen in L; lia). destruct (Z.of_nat m <? 720); [apply free_bit_bit; exact G|left; reflexivity].
Qed.
Print Assumptions C86_atari_vtoc_partial.

(** On a valid DOS 3.3 disk, for every sector of every track. *)
Theorem C86_dos33_vtoc im : consistent3 im ->
  exists t, dos33_vtoc_text im = Ok t /\
    (forall track s, 0 <= track < 35 -> 0 <= s < 16 ->
       getb t (45 * track + 12 + 2 * s) = 48 + free_bit3 (i_bytes im) (16 * track + s)) /\
    slice t (35 * 45) (zlen t) = 10 :: txt " (" ++ dec (free_count3 (i_bytes im)) ++ txt " free)".
Proof.
  intros C. destruct (consistent3_view im C) as (cat & k & E & D). pose proof (k3_size _ _ _ D) as Hl. pose proof (k3_bytes _ _ _ D) as Hb.
  unfold dos33_vtoc_text. rewrite E. unfold get_smap3. cbn [view3 i_hdr i_bytes]. rewrite get_raw3_in by lia. cbn [rbind]. change (parse_vtoc3 (sec (i_bytes im) 272)) with (smap3 (i_bytes im)).
  pose proof (zlen_smap3 _ Hl) as L. eexists. split; [reflexivity|].
  destruct (vtoc_text_spec 35 16 0 (smap3 (i_bytes im))) as [A B]; [lia..|]. split.
  - intros track s Ht Hs. change 45 with (2 * 16 + 13). rewrite A by assumption. rewrite (getb_smap3 _ Hl Hb) by lia. replace (16 * track + s + 0) with (16 * track + s) by lia.
    replace (16 * track + s <? 800) with true by lia. reflexivity.
  - change (35 * 45) with (35 * (2 * 16 + 13)). rewrite B. do 4 f_equal. rewrite (free_count3_list _), <- (nz_smap3 _ Hl Hb). f_equal. apply count_ones_nz. apply bits_smap3; assumption.
Qed.
Print Assumptions C86_dos33_vtoc.
Example C86_example : (exists im, consistent im /\ free_count (geom_of (a_hdr im)) (a_bytes im) = 707) /\ exists im, consistent3 im.
Proof.
  split.
  - destruct blank_image as (im & _ & C & _ & F & _). exists im. split; [apply tidy_consistent; exact C|exact F].
  - pose proof (open33_view _ _ _ demo_full_disk) as O. destruct (open33_consistent _ _ _ _ demo_full_disk O) as [C _]. eexists. exact C.
Qed.
