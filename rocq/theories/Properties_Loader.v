(** C94, C95: headers for bare cartridge data; the loader for an editor. *)
From Coq Require Import String.
From Verif Require Import Base BaseLemmas DiskModel CartModel CartProofs DetectModel ObjBytes LoaderModel.
From Verif Require Import DetectErrors2 DetectErrors3 CliModel AtariModel Dos33Model DetectSpec CliInst MainModel MainProofs MainInst Properties_Detect Properties_Detect4 TextModel.
Import List.

(** * C94 *)
(** The data follow a header of 16 bytes that starts with the letters CART. *)
Theorem C94_header_partial data :
  zlen (add_cart_header data) = 16 + zlen data /\ slice (add_cart_header data) 0 4 = txt "CART" /\
  slice (add_cart_header data) 16 (zlen (add_cart_header data)) = data.
Proof.
  assert (L : zlen (add_cart_header data) = 16 + zlen data) by (unfold add_cart_header; rewrite zlen_app; reflexivity).
  split; [exact L|]. split; [reflexivity|]. pose proof (zlen_nonneg data). rewrite L. unfold add_cart_header.
  change 16 with (zlen (header_array created_header)) at 1. rewrite slice_app_r by (change (zlen (header_array created_header)) with 16; lia).
  change (zlen (header_array created_header)) with 16. replace (16 - 16) with 0 by lia. replace (16 + zlen data - 16) with (zlen data) by lia. apply slice_full.
Qed.
Print Assumptions C94_header_partial.
(** The header has no type: whatever the data and the type asked for, the image is refused,
    and it is never recognised as a cartridge. *)
Theorem C94_refused_refuted data t : open_cart (add_cart_header data) t = Err (EAtr InvalidDiskImage).
Proof.
  unfold open_cart. destruct (get_cart t) as [c|x] eqn:E.
  - cbn [rbind]. unfold add_cart_header. rewrite slice_app_l by (change (zlen (header_array created_header)) with 16; lia). reflexivity.
  - cbn [rbind]. unfold get_cart in E. destruct (find _ _); [discriminate|]. injection E as <-. reflexivity.
Qed.
Print Assumptions C94_refused_refuted.
Theorem C94_recognised_refuted e data fd c : unpacked e (add_cart_header data) = Ok (add_cart_header data) ->
  find_diskimage e (add_cart_header data) = Ok fd -> f_image fd <> ICart c.
Proof.
  intros U F. destruct (found_parsed e _ fd _ U F) as (strict & P). intros E. rewrite E in P. revert P. generalize (f_class fd). intros p P.
  destruct p; cbn [parse_image] in P; unfold cart_image, rom_image, mame_image, prodos_image in P; rewrite ?C94_refused_refuted in P; cbn [rbind] in P.
  all: repeat match type of P with
    | match ?r with _ => _ end = _ => destruct r; cbn [rbind] in P; try discriminate P
    | (if ?b then _ else _) = _ => destruct b; cbn [rbind] in P; try discriminate P
    | (let! _ := ?r in _) = _ => destruct r; cbn [rbind] in P; try discriminate P
    end.
  all: discriminate P.
Qed.
Print Assumptions C94_recognised_refuted.
(** The kinds that data of a size could be are looked up by type instead of size. *)
Theorem C94_possible_refuted :
  (exists i c, nth_error known_cart_types (Z.to_nat i) = Some c /\ ct_size c * 1024 = 8192 /\ ~ In i (possible_types 8192)) /\
  (exists i c, nth_error known_cart_types (Z.to_nat i) = Some c /\ ct_size c * 1024 <> 8192 /\ In i (possible_types 8192)).
Proof.
  split; [exists 4|exists 25]; eexists; (split; [vm_compute; reflexivity|]); (split; [vm_compute; congruence|]); vm_compute; intuition congruence.
Qed.
Print Assumptions C94_possible_refuted.

(** * C95 *)
(** The loader answers with the kind and the parser that the commands use, answers nothing
    when they report an error, and raises what they raise. *)
Theorem C95_as_commands w o f img c b : opens c -> img <> [46] -> f img = Some b ->
  match identify_mime (w_env w) (Some b) with
  | Ok (Some fd) => main w o f img c = open_command w o f img (f_image fd) c
  | Ok None => main w o f img c = (f, [MError img], Ok tt)
  | Err x => main w o f img c = (f, [], Err x)
  end.
Proof.
  intros Ho N F. unfold identify_mime. destruct (find_diskimage (w_env w) b) as [fd|x] eqn:D.
  - apply main_opened with (b := b); assumption.
  - destruct Ho as (C1 & C2 & C3). destruct x as [a| | | | | | | | | | | |]; [destruct a|..]; destruct c;
      try (unfold main; rewrite (not_dot _ N), F, D; reflexivity); exfalso; (apply C1; exact Logic.I) || (apply C2; exact Logic.I) || (apply C3; exact Logic.I).
Qed.
Print Assumptions C95_as_commands.
(** A compressed file is identified as what it contains. *)
Theorem C95_compressed e b u : e_gzip e b = Unpacked u -> not_container e u -> identify_mime e (Some b) = identify_mime e (Some u).
Proof. intros G N. unfold identify_mime. rewrite (C45_compressed_same e b u G N). reflexivity. Qed.
Print Assumptions C95_compressed.
(** Disks stay identified as such, with the files that are on them, whatever is done with
    them. *)
Theorem C95_disks e im im3 : disk e im -> disk3 e im3 ->
  (exists fd, identify_mime e (Some (a_bytes im)) = Ok (Some fd) /\ f_image fd = IAtariDos im) /\
  (exists fd, identify_mime e (Some (i_bytes im3)) = Ok (Some fd) /\ f_image fd = IDos33 im3).
Proof.
  intros D D3. split.
  - destruct (disk_found e im D) as (fd & F & E). exists fd. split; [|exact E]. unfold identify_mime. change (a_bytes im) with (p_bytes atari_api im). rewrite F. reflexivity.
  - destruct (disk3_found e im3 D3) as (fd & F & E). exists fd. split; [|exact E]. unfold identify_mime. change (i_bytes im3) with (p_bytes dos33_api im3). rewrite F. reflexivity.
Qed.
Print Assumptions C95_disks.
(** For data of the usual shapes the loader fails with an error of the library only. *)
Theorem C95_clean_partial (e : env) (b : list Z) :
  bytes_ok b -> not_container e b -> sig_ok e -> zip_ok e b -> usual_sectors b ->
  ~ jumpman_short b -> ~ sparta_boot_record b ->
  (forall im d x, open_image b = Ok im -> In d (a_files im) -> get_file im d = Err x -> is_atr x = true) ->
  (zlen b = 143360 -> 272 < vtoc_sectors b <= 560 /\ open33 b <> Err EFuel /\
     forall im d x, open33 b = Ok im -> In d (i_files im) -> get_file3 im d = Err x -> is_atr x = true) ->
  library_error (identify_mime e (Some b)).
Proof.
  intros H1 H2 H3 H4 H5 H6 H7 H8 H9. pose proof (C42_detection_partial e b H1 H2 H3 H4 H5 H6 H7 H8 H9) as L. unfold identify_mime.
  destruct (find_diskimage e b) as [fd|x]; [exact Logic.I|]. destruct x as [a| | | | | | | | | | | |]; [destruct a|..]; exact L || exact Logic.I.
Qed.
Print Assumptions C95_clean_partial.
(** Data that make a parser fail make the loader fail. *)
Theorem C95_fails_refuted : exists b, bytes_ok b /\ identify_mime env0 (Some b) = Err EIndex.
Proof. destruct C42_short_disk_refuted as (b & Hb & _ & E). exists b. split; [exact Hb|]. unfold identify_mime. rewrite E. reflexivity. Qed.
Print Assumptions C95_fails_refuted.
Example C95_example : (exists fd, identify_mime env0 (Some [255; 255; 0; 6; 1; 6; 7; 8]) = Ok (Some fd) /\ f_mime fd = M_xex) /\
  identify_mime env0 (Some [1; 2; 3; 4; 5; 6; 7]) = Ok None.
Proof. split; [eexists; split; vm_compute; reflexivity|vm_compute; reflexivity]. Qed.
Example C94_example : zlen (add_cart_header (zrepeat 7 8192)) = 8208 /\ slice (add_cart_header [7; 8]) 0 18 = txt "CART" ++ [255; 255; 255; 255; 0; 0; 0; 0; 0; 0; 0; 0; 7; 8].
Proof. split; vm_compute; reflexivity. Qed.
