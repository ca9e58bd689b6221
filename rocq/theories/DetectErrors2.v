(** Which exceptions opening Atari DOS and SpartaDOS disks can raise. *)
From Verif Require Import Base BaseLemmas DiskModel DirLemmas AtariModel AtariSpec AtariGeom AtariHeader AtariProps SpartaModel Dos33Model ExecModel DetectModel DetectSpec DetectProofs DetectErrors.
From Verif Require CartModel.

(** * Atari DOS *)
Lemma parse_dirents_ends f h num b : zlen b mod 16 = 0 -> (length b <= f)%nat ->
  snd (parse_dirents f h num b) = None.
Proof.
  revert num b. induction f as [|f IH]; intros num b M L.
  - destruct b; [reflexivity|cbn in L; lia].
  - destruct b as [|x r]; [reflexivity|]. set (b := x :: r) in *. cbn [parse_dirents]. unfold b at 1. cbv zeta.
    assert (P : 16 <= zlen b).
    { assert (0 < zlen b) by (unfold b; rewrite zlen_cons; pose proof (zlen_nonneg r); lia).
      Z.to_euclidean_division_equations; lia. }
    rewrite zlen_slice by lia. replace (16 - 0 =? 16) with true by reflexivity. cbn [negb].
    destruct (negb _ && _); [reflexivity|].
    specialize (IH (num + 1) (slice b 16 (zlen b))). rewrite zlen_slice in IH by lia.
    destruct (parse_dirents f h (num + 1) (slice b 16 (zlen b))) as [ds err]. cbn [snd] in *. apply IH.
    + Z.to_euclidean_division_equations; lia.
    + assert (zlen (slice b 16 (zlen b)) = zlen b - 16) by (rewrite zlen_slice; lia). unfold zlen in *. lia.
Qed.

Section AtariOpen.
  Variables (b : list Z) (h : hdr).
  Hypothesis Hb : bytes_ok b.
  Hypothesis Hh : atari_header b = Ok h.
  Hypothesis Hss : 128 <= h_ssize h.
  Hypothesis Hev : h_ssize h mod 2 = 0.

  Lemma get_vtoc_clean im : a_bytes im = b -> a_hdr im = h ->
    clean (snd (get_vtoc im)) /\ a_bytes (fst (get_vtoc im)) = b /\ a_hdr (fst (get_vtoc im)) = h.
  Proof.
    intros EB EH. unfold get_vtoc. rewrite EB, EH. pose proof (clean_one_sector b h 360) as C.
    destruct (get_sectors h b 360 360) as [d|e] eqn:E; cbn [fst snd]; [|auto].
    destruct (one_sector b h Hb Hh Hss 360 d E) as (p & s & P & -> & L). destruct (pos_size b h Hb Hh Hss 360 p s P) as (A & _).
    replace (zlen _ <? 5) with false by lia. cbv zeta. destruct (negb _); cbn [fst snd a_bytes a_hdr]; [repeat split|].
    destruct (_ || _); cbn [fst snd a_bytes a_hdr]; [repeat split|].
    destruct (h_image_size h =? 133120).
    - pose proof (clean_one_sector b h 1024) as C2. destruct (get_sectors h b 1024 1024) as [d2|e] eqn:E2; cbn [fst snd a_bytes a_hdr]; [|auto].
      destruct (one_sector b h Hb Hh Hss 1024 d2 E2) as (p2 & s2 & P2 & -> & L2). destruct (pos_size b h Hb Hh Hss 1024 p2 s2 P2) as (A2 & _).
      replace (zlen _ <? 124) with false by lia. repeat split.
    - repeat split.
  Qed.

  Lemma dir_bytes d : get_sectors h b 361 368 = Ok d -> zlen d = 8 * h_ssize h.
  Proof.
    intros E. unfold get_sectors, get_sector_slice in E.
    change (Z.to_nat (368 - 361)) with 7%nat in E.
    assert (N : h_ninit h <= 3).
    { destruct (hdr_of_facts b h Hb Hh) as (_ & _ & _ & _ & [(B1 & _)|(B1 & _)]); lia. }
    assert (V : forall n, 361 <= n -> clean (get_pos h n) /\ forall p s, get_pos h n = Ok (p, s) -> s = h_ssize h /\
      p = h_ninit h * h_isize h + (n - 1 - h_ninit h) * h_ssize h + h_offset h /\ p + s <= zlen b).
    { intros n Hn. split; [apply clean_get_pos|]. intros p s P. destruct (pos_size b h Hb Hh Hss n p s P) as (_ & X & _).
      unfold get_pos in P. destruct (negb _); [discriminate|]. replace (n <=? h_ninit h) with false in P by lia.
      injection P as <- <-. auto. }
    cbn [more_sectors] in E. change (361 + 1) with 362 in E. change (362 + 1) with 363 in E. change (363 + 1) with 364 in E.
    change (364 + 1) with 365 in E. change (365 + 1) with 366 in E. change (366 + 1) with 367 in E. change (367 + 1) with 368 in E.
    destruct (get_pos h 361) as [[p1 s1]|] eqn:P1; cbn [rbind] in E; [|discriminate].
    destruct (get_pos h 362) as [[p2 s2]|] eqn:P2; cbn [rbind] in E; [|discriminate].
    destruct (get_pos h 363) as [[p3 s3]|] eqn:P3; cbn [rbind] in E; [|discriminate].
    destruct (get_pos h 364) as [[p4 s4]|] eqn:P4; cbn [rbind] in E; [|discriminate].
    destruct (get_pos h 365) as [[p5 s5]|] eqn:P5; cbn [rbind] in E; [|discriminate].
    destruct (get_pos h 366) as [[p6 s6]|] eqn:P6; cbn [rbind] in E; [|discriminate].
    destruct (get_pos h 367) as [[p7 s7]|] eqn:P7; cbn [rbind] in E; [|discriminate].
    destruct (get_pos h 368) as [[p8 s8]|] eqn:P8; cbn [rbind] in E; [|discriminate].
    destruct (proj2 (V 361 ltac:(lia)) _ _ P1) as (Q1 & Q1' & _). destruct (proj2 (V 362 ltac:(lia)) _ _ P2) as (Q2 & _).
    destruct (proj2 (V 363 ltac:(lia)) _ _ P3) as (Q3 & _). destruct (proj2 (V 364 ltac:(lia)) _ _ P4) as (Q4 & _).
    destruct (proj2 (V 365 ltac:(lia)) _ _ P5) as (Q5 & _). destruct (proj2 (V 366 ltac:(lia)) _ _ P6) as (Q6 & _).
    destruct (proj2 (V 367 ltac:(lia)) _ _ P7) as (Q7 & _). destruct (proj2 (V 368 ltac:(lia)) _ _ P8) as (Q8 & Q8' & Q8'').
    destruct (pos_size b h Hb Hh Hss 361 p1 s1 P1) as (_ & _ & O). destruct (hdr_of_facts b h Hb Hh) as (_ & O' & _).
    injection E as <-. rewrite zlen_slice; nia.
  Qed.

  Lemma get_directory_clean im : a_bytes im = b -> a_hdr im = h -> clean (snd (get_directory im)).
  Proof.
    intros EB EH. unfold get_directory. rewrite EB, EH.
    destruct (get_sectors h b 361 368) as [d|e] eqn:E.
    - pose proof (dir_bytes d E) as L.
      pose proof (parse_dirents_ends (length d) h 0 d ltac:(rewrite L; Z.to_euclidean_division_equations; lia) ltac:(lia)) as X.
      destruct (parse_dirents (length d) h 0 d) as [ds err]. cbn [snd] in X. subst err. exact I.
    - cbn [snd]. assert (C : clean (get_sectors h b 361 368)).
      { unfold get_sectors. apply clean_bind; [apply clean_sector_slice|]. intros [x y] _. exact I. }
      rewrite E in C. exact C.
  Qed.

  Lemma open_image_clean : clean (open_image b).
  Proof.
    unfold open_image. unfold atari_header in Hh. cbv zeta in Hh |- *. rewrite Hh. cbn [rbind].
    unfold get_metadata. set (im0 := mkA b h 0 0 [] true 360 1 0).
    destruct (get_vtoc_clean im0 eq_refl eq_refl) as (C & EB & EH).
    destruct (get_vtoc im0) as [im1 [[]|e]]; cbn [fst snd] in *; [|exact C].
    pose proof (get_directory_clean im1 EB EH) as C2. destruct (get_directory im1) as [im2 [ds|e]]; cbn [snd] in C2; [|exact C2].
    destruct (a_sane im2); [exact I|reflexivity].
  Qed.
End AtariOpen.

Lemma file_segments_err {D A} (get : D -> res A) ds e :
  file_segments get ds = Err e -> exists d, In d ds /\ get d = Err e /\ is_invalid_file e = false.
Proof.
  induction ds as [|d r IH]; cbn [file_segments]; [discriminate|].
  destruct (get d) as [a|x] eqn:G.
  - intros H. destruct (IH H) as (d' & Hin & X). exists d'. split; [right; exact Hin|exact X].
  - destruct (is_invalid_file x) eqn:K.
    + intros H. destruct (IH H) as (d' & Hin & X). exists d'. split; [right; exact Hin|exact X].
    + intros H. injection H as <-. exists d. split; [left; reflexivity|]. auto.
Qed.
Lemma file_segments_ok {D A} (get : D -> res A) ds :
  (forall d e, In d ds -> get d = Err e -> is_invalid_file e = true) -> file_segments get ds = Ok tt.
Proof.
  intros H. destruct (file_segments get ds) as [[]|e] eqn:E; [reflexivity|].
  destruct (file_segments_err _ _ _ E) as (d & Hin & G & K). rewrite (H d e Hin G) in K. discriminate.
Qed.

Lemma open_image_hdr b im : open_image b = Ok im -> atari_header b = Ok (a_hdr im) /\ a_bytes im = b.
Proof.
  intros E. destruct (open_image_inv b im E) as (h & Hh & -> & _). split; [exact Hh|]. apply open_image_bytes. exact E.
Qed.

(** A disk that opens: only reading one of its files can raise something that
    is not an exception of the library. *)
Lemma vtoc_bounds_clean im : clean (vtoc_bounds im).
Proof.
  unfold vtoc_bounds, get_contiguous. apply clean_bind; [apply clean_contig|]. intros [p c] _.
  destruct (0 <? a_vtoc2 im); [|exact I]. apply clean_bind; [apply clean_contig|]. intros; exact I.
Qed.
Lemma get_file_no_unsupported im d : get_file im d <> Err (EAtr UnsupportedDiskImage).
Proof.
  unfold get_file, get_file_fuel, start_read. destruct (d_sane d); cbn [rbind]; [|discriminate].
  assert (R : forall f c s, read_runs f (a_hdr im) (a_bytes im) (d_my d) (d_num d) c s <> Err (EAtr UnsupportedDiskImage)).
  { induction f as [|f IH]; intros c s; cbn [read_runs]; [discriminate|].
    unfold read_sector at 1. unfold get_raw_bytes, get_pos. destruct (negb _); cbn [rbind]; [discriminate|].
    destruct (c <=? _); cbn [rbind]; (destruct (_ <? 3); cbn [rbind]; [discriminate|]); (destruct (d_my d); cbn [rbind];
      [|destruct (negb _); cbn [rbind]; [discriminate|]; destruct (zmem _ _); cbn [rbind]; [discriminate|]]);
    (destruct (_ =? 0); [discriminate|]);
    match goal with |- context [read_runs f ?a ?b ?m ?n ?c ?s] => specialize (IH c s); destruct (read_runs f a b m n c s) end; cbn [rbind]; congruence. }
  match goal with |- context [read_runs ?f ?a ?b ?m ?n ?c ?s] => specialize (R f c s); destruct (read_runs f a b m n c s) end; cbn [rbind]; [|congruence].
  destruct (forallb _ _); [discriminate|]. unfold indexed_bytes. destruct (forallb _ _); discriminate.
Qed.

Lemma atari_parse_err e s b x : bytes_ok b -> usual_sectors b ->
  parse e s PAtariDos b = Err x ->
  x = EAtr InvalidSegmentParser \/
  exists im d, open_image b = Ok im /\ In d (a_files im) /\ get_file im d = Err x /\ is_atr x = false.
Proof.
  intros Hb U P. destruct (header_usual b Hb U) as (h & E & S1 & S2 & _). unfold parse in P. cbn [parse_image] in P.
  pose proof (open_image_clean b h Hb E S1 S2) as C.
  destruct (open_image b) as [im|y] eqn:O; cbn [rbind] in P.
  2:{ left. pose proof (as_parser_clean (@Err image y) C) as X. rewrite P in X. exact X. }
  destruct (open_image_hdr b im O) as [Hh Bm]. assert (h = a_hdr im) by congruence. subst h.
  pose proof (clean_checked s _ (clean_atr_strict (a_hdr im) (zlen b))) as CK.
  destruct (checked s _) as [u|y]; cbn [rbind] in P.
  2:{ left. pose proof (as_parser_clean (@Err image y) CK) as X. rewrite P in X. exact X. }
  unfold atari_segments in P. rewrite Bm in P.
  pose proof (clean_boot_segments b (a_hdr im) Hb Hh S1 360 20 ltac:(lia)) as C1.
  destruct (boot_segments (a_hdr im) b 360 20) as [u1|y]; cbn [rbind] in P.
  2:{ left. pose proof (as_parser_clean (@Err image y) C1) as X. rewrite P in X. exact X. }
  pose proof (vtoc_bounds_clean im) as C2. destruct (vtoc_bounds im) as [u2|y]; cbn [rbind] in P.
  2:{ left. pose proof (as_parser_clean (@Err image y) C2) as X. rewrite P in X. exact X. }
  pose proof (clean_contig (a_hdr im) (zrange 361 (361 + 8)) 0 0) as C3. unfold get_contiguous in P.
  destruct (contig_loop _ _ 0 0) as [u3|y]; cbn [rbind] in P.
  2:{ left. pose proof (as_parser_clean (@Err image y) C3) as X. rewrite P in X. exact X. }
  destruct (file_segments (get_file im) (a_files im)) as [u4|y] eqn:F; cbn [rbind] in P; [discriminate|].
  destruct (file_segments_err _ _ _ F) as (d & Hin & G & K).
  destruct (is_atr y) eqn:A.
  - left. destruct y as [a| | | | | | | | | | | |]; try discriminate A. destruct a; cbn [as_parser] in P; injection P as <-; try reflexivity.
    exfalso. exact (get_file_no_unsupported im d G).
  - right. assert (x = y). { destruct y; try discriminate A; cbn [as_parser] in P; congruence. } subst y.
    exists im, d. auto.
Qed.

(** * SpartaDOS: data whose first sector is not a SpartaDOS boot record *)
Definition sparta_boot_record (b : list Z) : Prop :=
  exists h im, atari_header b = Ok h /\ boot_sector_info b h = Ok im.
Lemma sparta_clean b : bytes_ok b -> usual_sectors b -> ~ sparta_boot_record b -> clean (open_sparta b).
Proof.
  intros Hb U N. destruct (header_usual b Hb U) as (h & E & S1 & S2 & _).
  unfold open_sparta, open_sparta_fuel. pose proof E as E'. unfold atari_header in E'. cbv zeta in E' |- *. rewrite E'. cbn [rbind].
  assert (C : clean (boot_sector_info b h)).
  { unfold boot_sector_info. apply clean_bind; [apply clean_one_sector|]. intros d G.
    destruct (one_sector b h Hb E S1 1 d G) as (p & z & P & -> & L). destruct (pos_size b h Hb E S1 1 p z P) as (A & _).
    cbv zeta. assert (L33 : zlen (slice (slice b p (p + z)) 0 33) = 33) by (rewrite zlen_slice_min; lia).
    rewrite L33. change (33 =? 0) with false. change (33 =? 33) with true. cbv beta iota delta [negb].
    match goal with |- clean (if ?c then _ else _) => destruct c end; exact I || reflexivity. }
  destruct (boot_sector_info b h) as [im|y] eqn:B; cbn [rbind]; [|exact C].
  exfalso. apply N. exists h, im. auto.
Qed.
Lemma sparta_refuses e s b : bytes_ok b -> usual_sectors b -> ~ sparta_boot_record b ->
  refuses (parse e s PSparta b).
Proof.
  intros Hb U N. pose proof (sparta_clean b Hb U N) as C. unfold parse. cbn [parse_image].
  destruct (open_sparta b) as [im|y] eqn:O; cbn [rbind].
  - exfalso. apply N. unfold open_sparta, open_sparta_fuel in O. cbv zeta in O.
    destruct (header_usual b Hb U) as (h & E & _). pose proof E as E'. unfold atari_header in E'. cbv zeta in E'. rewrite E' in O. cbn [rbind] in O.
    destruct (boot_sector_info b h) as [im'|] eqn:B; cbn [rbind] in O; [|discriminate]. exists h, im'. auto.
  - unfold refuses. cbn [clean refusal] in C. destruct y as [a| | | | | | | | | | | |]; try discriminate C. destruct a; try discriminate C; reflexivity.
Qed.

