(** C99: a disk image without a header and the same with an ATR header are the same disk. *)
From Verif Require Import Base BaseLemmas DiskModel AtariModel AtariHeader AtariGeom AtariSession AtariWrap AtariSpec AtariBlank AtariDemo.

Definition no_header (data : list Z) : Prop := h_offset (read_header data) = 0.
Lemma no_header_xfd data : no_header data -> read_header data = xfd_header.
Proof.
  unfold no_header, read_header. destruct (atr_header (slice data 0 16)) as [h|e] eqn:E; [|reflexivity]. unfold atr_header in E. destruct (zlen _ =? 16); [|discriminate E]. destruct (negb _); [discriminate E|]. injection E as <-. cbn [h_offset]. discriminate.
Qed.
(** The header that is put in front, and what is read from it again. *)
Lemma wrapped_header data : exists h h0, check_size xfd_header (zlen data) = Ok h0 /\ bare h0 /\ add_atr_header data = Ok (atr_encode h ++ data) /\
  zlen (atr_encode h) = 16 /\ check_size (read_header (atr_encode h ++ data)) (zlen data) = Ok (up_hdr h0) /\ h_offset (read_header (atr_encode h ++ data)) = 16.
Proof.
  unfold add_atr_header. destruct (check_size (mkH 16 0 128 0 0 128 0 0 0 0) (zlen data)) as [h|e] eqn:E.
  2:{ exfalso. unfold check_size in E. destruct (_ || _); [discriminate E|]. destruct (_ || _); [discriminate E|]. destruct (_ || _); discriminate E. }
  assert (R : exists i, read_header (atr_encode h ++ data) = mkH 16 i (u16 (h_ssize h)) 0 0 128 0 (u32 (h_crc h)) (u32 (h_unused h)) (u8 (h_flags h))).
  { unfold read_header. assert (S : slice (atr_encode h ++ data) 0 16 = atr_encode h) by (rewrite <- (zlen_atr_encode h); apply slice_app_full_l). rewrite S. clear S. eexists. unfold atr_header. rewrite zlen_atr_encode. cbn [Z.eqb Pos.eqb].
    transitivity (mkH 16 ((u8 (h_image_size h / 16 / 65536) * 256 * 256 + le2 (u8 (h_image_size h / 16 mod 65536)) (u8 (h_image_size h / 16 mod 65536 / 256))) * 16)
      (le2 (u8 (h_ssize h)) (u8 (h_ssize h / 256))) 0 0 128 0 (le4 (u8 (h_crc h)) (u8 (h_crc h / 256)) (u8 (h_crc h / 65536)) (u8 (h_crc h / 16777216)))
      (le4 (u8 (h_unused h)) (u8 (h_unused h / 256)) (u8 (h_unused h / 65536)) (u8 (h_unused h / 16777216))) (u8 (h_flags h))); [reflexivity|]. rewrite !le4_put4, !le2_u8. reflexivity. }
  destruct R as [i R]. pose proof (zlen_nonneg data) as Hz. unfold check_size in E.
  exists h. rewrite R. cbn [h_offset rbind]. unfold check_size. cbn [h_offset h_ssize h_isize h_ninit h_crc h_unused h_flags xfd_header] in *.
  destruct ((zlen data =? 92160) || (zlen data =? 92176)); [|destruct ((zlen data =? 184320) || (zlen data =? 184336)); [|destruct ((zlen data =? 183936) || (zlen data =? 183952))]];
    cbn [Z.eqb Pos.eqb] in E; injection E as <-; cbn [h_ssize h_crc h_unused h_flags]; (eexists; split; [reflexivity|]; split; [|split; [reflexivity|]; split; [apply zlen_atr_encode|split; reflexivity]]).
  1-3: (repeat split; cbn [h_ssize h_max h_ninit h_isize]; try (vm_compute; congruence); tauto).
  split; [reflexivity|]. cbn [h_ssize h_max h_ninit h_isize]. split; [reflexivity|]. split; [|left; reflexivity]. apply Z.add_nonneg_nonneg; [|reflexivity]. apply Z.div_pos; lia.
Qed.

(** Reading gives the same bytes, unless the file is one of those that are read as the whole
    image (C15). *)
Definition same_file (x y : res (list Z)) (all all' : list Z) : Prop := x = y \/ (x = Ok all /\ y = Ok all').

(** Both files are opened or refused alike; then any operations end alike on both, the files and
    the free space stay the same, and the bytes differ only by the header. *)
Theorem C99_same_disk data : no_header data ->
  exists H, zlen H = 16 /\ add_atr_header data = Ok (H ++ data) /\
  match open_image data, open_image (H ++ data) with
  | Err x, Err y => x = y
  | Ok im, Ok im' => forall ops,
      let (im1, rs) := outcomes im ops in
      let (im1', rs') := outcomes im' ops in
      rs' = rs /\ a_bytes im1' = H ++ a_bytes im1 /\ a_files im1' = a_files im1 /\ a_total im1' = a_total im1 /\ a_free im1' = a_free im1 /\
      forall n, same_file (find_file im1 n) (find_file im1' n) (a_bytes im1) (a_bytes im1')
  | _, _ => False
  end.
Proof.
  intros Hn. destruct (wrapped_header data) as (h & h0 & E0 & B & A & H16 & E1 & E2). set (H := atr_encode h) in *. clearbody H. exists H. split; [exact H16|]. split; [exact A|].
  unfold open_image. rewrite (no_header_xfd data Hn), E2. change (h_offset xfd_header) with 0. rewrite Z.sub_0_r, E0. rewrite zlen_app, H16. replace (16 + zlen data - 16) with (zlen data) by lia. rewrite E1. cbn [rbind].
  change (mkA (H ++ data) (up_hdr h0) 0 0 [] true 360 1 0) with (up H (mkA data h0 0 0 [] true 360 1 0)).
  destruct (metadata_up H H16 (mkA data h0 0 0 [] true 360 1 0)) as [M O]; [split; [exact B|reflexivity]|]. rewrite M. destruct (get_metadata (mkA data h0 0 0 [] true 360 1 0)) as [im [u|e]]; cbn [fst snd] in *; [|reflexivity].
  intros ops. destruct (outcomes_up H H16 ops im O) as [P O1]. rewrite P. destruct (outcomes im ops) as [im1 rs]. cbn [fst snd] in *. repeat (split; [reflexivity|]).
  intros n. destruct (find_file_up H H16 im1 n O1) as [X|[X Y]]; [left; symmetry; exact X|right; split; assumption].
Qed.
Print Assumptions C99_same_disk.

(** A formatted disk of 720 sectors without a header: a file is written, and another one that is
    not there is deleted. *)
Definition bare_disk : list Z := zrepeat 0 (359 * 128) ++ fmt_vtoc 128 720 ++ zrepeat 0 (360 * 128).
Definition bare_ops : list op := [OWrite hello text; ODelete other].
Definition bare_run (data : list Z) : bool :=
  (h_offset (read_header data) =? 0) &&
  match open_image data with
  | Ok im => let (im1, rs) := outcomes im bare_ops in
      match rs with [Ok _; Err (EAtr FileNotFound)] => ok_is (find_file im1 hello) text | _ => false end
  | Err _ => false
  end.
Lemma bare_run_spec data : bare_run data = true -> no_header data /\ exists im, open_image data = Ok im /\
  snd (outcomes im bare_ops) = [Ok tt; Err (EAtr FileNotFound)] /\ find_file (fst (outcomes im bare_ops)) hello = Ok text.
Proof.
  unfold bare_run, no_header. intros E. apply andb_prop in E. destruct E as [E1 E2]. split; [lia|]. destruct (open_image data) as [im|e]; [|discriminate E2]. exists im. split; [reflexivity|].
  destruct (outcomes im bare_ops) as [im1 rs]. cbn [fst snd]. destruct rs as [|[[]|e] [|[u|[[] | | | | | | | | | | | |]] [|r l]]]; try discriminate E2. split; [reflexivity|]. apply ok_is_eq. exact E2.
Qed.
Example C99_example : no_header bare_disk /\ exists im, open_image bare_disk = Ok im /\
  snd (outcomes im bare_ops) = [Ok tt; Err (EAtr FileNotFound)] /\ find_file (fst (outcomes im bare_ops)) hello = Ok text.
Proof. apply bare_run_spec. vm_compute. reflexivity. Qed.
