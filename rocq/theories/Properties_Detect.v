(** Format detection: C45 (order of the parsers) and C42 (exceptions). *)
From Verif Require Import Base BaseLemmas DiskModel AtariModel AtariGeom SpartaModel Dos33Model ExecModel DetectModel DetectSpec DetectProofs DetectErrors DetectErrors2 DetectErrors3.
From Verif Require CartModel.

(** * C45 *)

(** The attempts made on unpacked data, in order: when the signature table
    knows the data, the parsers of its mime type without the strict check; then
    the documented order with it. *)
Definition attempts (e : env) (r : list Z) : list (bool * (mime * pclass)) :=
  match e_sig e r with
  | None => []
  | Some m => map (fun p => (false, (m, p))) (mime_parsers m)
  end ++ map (pair true) documented_order.
Definition attempt (e : env) (r : list Z) (a : bool * (mime * pclass)) : res image :=
  parse e (fst a) (snd (snd a)) r.
(** The refinement of the mime type is not looked for after a signature match. *)
Definition refined (a : bool * (mime * pclass)) (r : list Z) : res (option detail) :=
  if fst a then guess_detail (fst (snd a)) r else Ok None.

Lemma find_spec e b r : unpacked e b = Ok r ->
  match find_diskimage e b with
  | Ok f => exists a, first_choice (attempt e r) (attempts e r) a /\ snd a = (f_mime f, f_class f) /\
              attempt e r a = Ok (f_image f) /\ refined a r = Ok (f_detail f)
  | Err x => ((forall a, In a (attempts e r) -> refuses (attempt e r a)) /\ x = EAtr UnsupportedDiskImage) \/
             exists a, first_choice (attempt e r) (attempts e r) a /\
               (attempt e r a = Err x \/ exists im, attempt e r a = Ok im /\ refined a r = Err x)
  end.
Proof.
  intros U. unfold find_diskimage, iter_parsers. rewrite U. cbn [rbind].
  set (sl := match e_sig e r with None => [] | Some m => map (fun p => (false, (m, p))) (mime_parsers m) end).
  assert (EA : attempts e r = sl ++ map (pair true) documented_order) by reflexivity.
  assert (G : match guess_by_size e r with
    | Ok (Some (m, (p, x))) => first_choice (attempt e r) sl (false, (m, p)) /\ attempt e r (false, (m, p)) = Ok x
    | Ok None => forall a, In a sl -> refuses (attempt e r a)
    | Err x => exists a, first_choice (attempt e r) sl a /\ attempt e r a = Err x
    end).
  { unfold guess_by_size, sl. destruct (e_sig e r) as [m|]; [|intros a []].
    pose proof (guess_spec (fun p => parse e false p r) (mime_parsers m)) as G.
    destruct (guess _ _) as [[[p x]|]|x]; cbn [rbind].
    - destruct G as (F & P). split; [|exact P]. exact (first_choice_to_map (fun p => (false, (m, p))) (attempt e r) _ _ F).
    - intros a Ha. apply in_map_iff in Ha. destruct Ha as (p & <- & Hp). exact (G p Hp).
    - destruct G as (p & F & P). exists (false, (m, p)). split; [|exact P].
      exact (first_choice_to_map (fun p => (false, (m, p))) (attempt e r) _ _ F). }
  destruct (guess_by_size e r) as [[[m [p x]]|]|x]; cbn [rbind].
  - destruct G as (F & P). exists (false, (m, p)). rewrite EA. split; [apply first_choice_pre, F|]. split; [reflexivity|]. split; [exact P|reflexivity].
  - pose proof (search_spec e mime_parse_order r) as S0. rewrite pairs_order in S0.
    assert (K : forall mp, first_choice (fun mp => parse e true (snd mp) r) documented_order mp ->
      first_choice (attempt e r) (attempts e r) (true, mp)).
    { intros mp F. rewrite EA. apply first_choice_skip; [exact G|]. exact (first_choice_to_map (pair true) (attempt e r) _ _ F). }
    destruct (search e mime_parse_order r) as [[f|]|x]; cbn [rbind].
    + destruct S0 as (F & P & D). exists (true, (f_mime f, f_class f)). split; [apply K, F|]. split; [reflexivity|]. split; [exact P|exact D].
    + left. split; [|reflexivity]. intros a Ha. rewrite EA in Ha. apply in_app_or in Ha. destruct Ha as [Ha|Ha]; [exact (G a Ha)|].
      apply in_map_iff in Ha. destruct Ha as (mp & <- & Hp). exact (S0 mp Hp).
    + destruct S0 as (m & p & F & P). right. exists (true, (m, p)). split; [apply K, F|].
      destruct P as [P|[[im P] D]]; [left; exact P|right; exists im; split; [exact P|exact D]].
  - destruct G as (a & F & P). right. exists a. rewrite EA. split; [apply first_choice_pre, F|left; exact P].
Qed.

(** Every result of detection is the result of the first attempt that is not a
    refusal, whatever the data and the outside modules answer. *)
Theorem C45_first_accepting (e : env) (b r : list Z) :
  unpacked e b = Ok r ->
  match find_diskimage e b with
  | Ok f => exists a, first_choice (attempt e r) (attempts e r) a /\ snd a = (f_mime f, f_class f) /\
              attempt e r a = Ok (f_image f) /\ refined a r = Ok (f_detail f)
  | Err x => ((forall a, In a (attempts e r) -> refuses (attempt e r a)) /\ x = EAtr UnsupportedDiskImage) \/
             exists a, first_choice (attempt e r) (attempts e r) a /\
               (attempt e r a = Err x \/ exists im, attempt e r a = Ok im /\ refined a r = Err x)
  end.
Proof. exact (find_spec e b r). Qed.
Print Assumptions C45_first_accepting.

(** Conversely the first attempt that accepts decides. *)
Theorem C45_first_wins (e : env) (b r : list Z) (a : bool * (mime * pclass)) (im : image) (d : option detail) :
  unpacked e b = Ok r ->
  first_choice (attempt e r) (attempts e r) a -> attempt e r a = Ok im -> refined a r = Ok d ->
  find_diskimage e b = Ok (mkFound (fst (snd a)) d (snd (snd a)) im).
Proof.
  intros U F P D. pose proof (find_spec e b r U) as S0. destruct (find_diskimage e b) as [f|x].
  - destruct S0 as (a' & F' & E & P' & D'). rewrite <- (first_choice_unique _ _ _ _ F F') in *.
    rewrite P in P'. injection P' as ->. rewrite D in D'. injection D' as ->. rewrite E. destruct f; reflexivity.
  - exfalso. destruct S0 as [(N & _)|(a' & F' & K)]; [exact (first_choice_not_all _ _ _ F N)|].
    rewrite <- (first_choice_unique _ _ _ _ F F') in K. destruct K as [K|(im' & _ & K)]; congruence.
Qed.
Print Assumptions C45_first_wins.
(** Data that every parser refuses is reported as unsupported. *)
Theorem C45_unrecognised (e : env) (b r : list Z) :
  unpacked e b = Ok r -> (forall a, In a (attempts e r) -> refuses (attempt e r a)) ->
  find_diskimage e b = Err (EAtr UnsupportedDiskImage).
Proof.
  intros U N. pose proof (find_spec e b r U) as S0. destruct (find_diskimage e b) as [f|x].
  - exfalso. destruct S0 as (a & F & _). exact (first_choice_not_all _ _ _ F N).
  - destruct S0 as [(_ & ->)|(a & F & _)]; [reflexivity|]. exfalso. exact (first_choice_not_all _ _ _ F N).
Qed.
Print Assumptions C45_unrecognised.
(** Containers: gzip, then bz2, then lzma; one layer is taken off. *)
Theorem C45_containers (e : env) (b : list Z) :
  (forall u, e_gzip e b = Unpacked u -> unpacked e b = Ok u) /\
  (forall u, e_gzip e b = NotPacked -> e_bzip e b = Unpacked u -> unpacked e b = Ok u) /\
  (forall u, e_gzip e b = NotPacked -> e_bzip e b = NotPacked -> e_lzma e b = Unpacked u -> unpacked e b = Ok u) /\
  (not_container e b -> unpacked e b = Ok b).
Proof.
  unfold unpacked, guess_container, known_containers. cbn [unpack_with].
  split; [|split; [|split]].
  - intros u ->. reflexivity.
  - intros u -> ->. reflexivity.
  - intros u -> -> ->. reflexivity.
  - exact (unpacked_plain e b).
Qed.
Print Assumptions C45_containers.
(** A compressed disk is detected as what it contains. *)
Theorem C45_compressed_same (e : env) (b u : list Z) :
  e_gzip e b = Unpacked u -> not_container e u -> find_diskimage e b = find_diskimage e u.
Proof.
  intros G N. unfold find_diskimage, iter_parsers. rewrite (unpacked_plain e u N).
  rewrite (proj1 (C45_containers e b) u G). reflexivity.
Qed.
Print Assumptions C45_compressed_same.
(** The search restricted to some mime types is the same search over the
    remaining ones. *)
Theorem C45_for_system (e : env) (sel : mime -> bool) (b : list Z) :
  match guess_for_system e sel b with
  | Ok (Some f) =>
      first_choice (fun mp => parse e true (snd mp) b) (filter (fun mp => sel (fst mp)) documented_order) (f_mime f, f_class f) /\
      parse e true (f_class f) b = Ok (f_image f)
  | Ok None => forall mp, In mp documented_order -> sel (fst mp) = true -> refuses (parse e true (snd mp) b)
  | Err x => True
  end.
Proof.
  assert (P : pairs (filter sel mime_parse_order) = filter (fun mp => sel (fst mp)) documented_order).
  { rewrite <- pairs_order. generalize mime_parse_order. intros ms. unfold pairs. induction ms as [|m ms IH]; [reflexivity|].
    cbn [filter flat_map]. rewrite filter_app, <- IH. destruct (sel m) eqn:E; cbn [flat_map].
    - f_equal. induction (mime_parsers m) as [|p l IHl]; [reflexivity|]. cbn [map filter fst]. rewrite E. f_equal. exact IHl.
    - replace (filter _ _) with (@nil (mime * pclass)); [reflexivity|]. induction (mime_parsers m) as [|p l IHl]; [reflexivity|].
      cbn [map filter fst]. rewrite E. exact IHl. }
  unfold guess_for_system. pose proof (search_spec e (filter sel mime_parse_order) b) as S0. rewrite P in S0.
  destruct (search _ _ _) as [[f|]|x]; [|intros mp Hin Hs|exact I].
  - destruct S0 as (A & B & _). auto.
  - apply S0. apply filter_In. auto.
Qed.
Print Assumptions C45_for_system.

(** No containers, no zip files, no known signatures *)
Definition env0 : env := mkEnv (fun _ => NotPacked) (fun _ => NotPacked) (fun _ => NotPacked) (fun _ => NotZip) (fun _ => None).
(** A file of eight bytes that a BSAVE parser accepts is a BSAVE file; the ROM
    parser, which would accept it as well, comes later. *)
Definition eight : list Z := [0; 8; 4; 0; 1; 2; 3; 4].
Example C45_bin_before_rom :
  first_choice (attempt env0 eight) (attempts env0 eight) (true, (M_bin, PBin)) /\
  attempt env0 eight (true, (M_rom, PRom)) = Ok (IRom eight) /\
  match find_diskimage env0 eight with Ok (mkFound M_bin None PBin _) => True | _ => False end.
Proof.
  split; [|split; [vm_compute; reflexivity|vm_compute; exact I]].
  assert (E : exists f, find_diskimage env0 eight = Ok f /\ f_mime f = M_bin /\ f_class f = PBin).
  { destruct (find_diskimage env0 eight) as [f|] eqn:E; vm_compute in E; [|discriminate]. exists f. split; [reflexivity|].
    injection E as <-. split; reflexivity. }
  destruct E as (f & E & M & P). pose proof (find_spec env0 eight eight eq_refl) as S0. rewrite E in S0.
  destruct S0 as ([s [m p]] & F & K & _). cbn [snd] in K. rewrite M, P in K. injection K as -> ->.
  destruct s; [exact F|]. exfalso. destruct F as (bf & af & EQ & _).
  assert (I0 : In (false, (M_bin, PBin)) (attempts env0 eight)) by (rewrite EQ; apply in_or_app; right; left; reflexivity).
  cbn in I0. intuition discriminate.
Qed.
(** Seven bytes that no parser wants *)
Example C45_unrecognised_7 : find_diskimage env0 [1; 2; 3; 4; 5; 6; 7] = Err (EAtr UnsupportedDiskImage).
Proof. vm_compute. reflexivity. Qed.
Example C45_xex : match find_diskimage env0 [255; 255; 0; 6; 1; 6; 7; 8] with Ok (mkFound M_xex None PXex _) => True | _ => False end.
Proof. vm_compute. exact I. Qed.

(** * C42 *)

(** The signature table only has entries of the four kinds. *)
Definition sig_ok (e : env) : Prop := forall b m, e_sig e b = Some m -> in_table m (zlen b) = true.
(** zipfile raises only what mame.py turns into a refusal, and the archive has a
    member. *)
Definition zip_ok (e : env) (b : list Z) : Prop :=
  e_zip e b <> Zip [] /\ forall x, e_zip e b = ZipErr x -> refusal x = true.
(** Data that starts like one of the two Jumpman disks but ends before the bytes
    that are checked on them *)
Definition jumpman_short (b : list Z) : Prop :=
  zlen b <= 0x85c /\
  (slice b 0 5 = [0x96; 0x02; 0xd0; 0x05; 0x80] \/ slice b 0 5 = [0x96; 0x02; 0x80; 0x16; 0x80]).

Lemma items_ok b l : (forall i v, In (SAt i v) l -> i < zlen b) -> exists x, check_signature b l = Ok x.
Proof.
  induction l as [|it l IH]; intros H; [exists true; reflexivity|]. assert (H' : forall i v, In (SAt i v) l -> i < zlen b) by (intros; eapply H; right; eassumption).
  specialize (IH H'). destruct it as [x y s|i v]; cbn [check_signature].
  - destruct (zlist_eqb _ _); [exact IH|exists false; reflexivity].
  - specialize (H i v (or_introl eq_refl)). replace (zlen b <=? i) with false by lia. destruct (_ =? _); [exact IH|exists false; reflexivity].
Qed.
Lemma detail_ok m b : ~ jumpman_short b -> exists d, guess_detail m b = Ok d.
Proof.
  intros N. unfold guess_detail.
  assert (K : forall d, In d (details m) -> exists x, check_signature b (magic d) = Ok x).
  { intros d _. destruct (Z.le_gt_cases (zlen b) 0x85c) as [L|L].
    - destruct d; try (apply items_ok; cbn; intuition discriminate).
      + cbn [magic check_signature]. destruct (zlist_eqb (slice b 0 5) _) eqn:E; [|exists false; reflexivity].
        exfalso. apply N. split; [exact L|]. left. apply zlist_eqb_eq. exact E.
      + cbn [magic check_signature]. destruct (zlist_eqb (slice b 0 5) _) eqn:E; [|exists false; reflexivity].
        exfalso. apply N. split; [exact L|]. right. apply zlist_eqb_eq. exact E.
    - apply items_ok. intros i v. destruct d; cbn; intuition; try discriminate;
      match goal with H : SAt _ _ = SAt _ _ |- _ => injection H as <- _; lia end. }
  revert K. generalize (details m). intros l. induction l as [|d l IH]; intros K; [exists None; reflexivity|].
  cbn [first_detail]. destruct (K d (or_introl eq_refl)) as [x ->]. cbn [rbind]. destruct x; [exists (Some d); reflexivity|].
  apply IH. intros d' Hd. apply K. right. exact Hd.
Qed.

(** The parsers that never look inside files: any data, and for the three disk
    parsers any data whose ATR header, if it has one, gives an even sector size
    of at least 128 bytes (or which has a standard size). *)
Definition disk_parser (p : pclass) : bool :=
  match p with PKBoot | PBoot | PUnidentified => true | _ => false end.
Definition flat_parser (p : pclass) : bool :=
  match p with PXex | PCart8 _ | PCart52 _ | P2600 | PStarpath | PVectrex | PRom | PBin => true | _ => false end.
Theorem C42_flat_parsers (e : env) (s : bool) (p : pclass) (b : list Z) :
  flat_parser p = true -> (exists im, parse e s p b = Ok im) \/ refuses (parse e s p b).
Proof.
  intros F. assert (C : clean (parse_image e s p b)).
  { destruct p; try discriminate F; cbn [parse_image]; try apply rom_clean; try apply cart_clean; [apply (xex_clean e s b)|apply (bin_clean e s b)]. }
  pose proof (as_parser_clean _ C) as K. unfold parse, refuses. destruct (as_parser _) as [im|x]; [left; exists im; reflexivity|right; rewrite K; reflexivity].
Qed.
Print Assumptions C42_flat_parsers.
Theorem C42_disk_parsers_partial (e : env) (s : bool) (p : pclass) (b : list Z) :
  disk_parser p = true -> bytes_ok b -> usual_sectors b ->
  (exists im, parse e s p b = Ok im) \/ refuses (parse e s p b).
Proof.
  intros F Hb U. assert (C : clean (parse_image e s p b)).
  { destruct p; try discriminate F; [apply kboot_parse_clean|apply boot_clean|apply unidentified_clean]; assumption. }
  pose proof (as_parser_clean _ C) as K. unfold parse, refuses. destruct (as_parser _) as [im|x]; [left; exists im; reflexivity|right; rewrite K; reflexivity].
Qed.
Print Assumptions C42_disk_parsers_partial.
(** Atari DOS: the only other exceptions are those of reading a file that the
    directory lists. *)
Theorem C42_atari_partial (e : env) (s : bool) (b : list Z) (x : exn) :
  bytes_ok b -> usual_sectors b -> parse e s PAtariDos b = Err x ->
  x = EAtr InvalidSegmentParser \/
  exists im d, open_image b = Ok im /\ In d (a_files im) /\ get_file im d = Err x /\ is_atr x = false.
Proof. exact (atari_parse_err e s b x). Qed.
Print Assumptions C42_atari_partial.
(** Opening an Atari DOS image (without listing its segments) never raises
    anything else than an error of the library. *)
Theorem C42_open_atari_partial (b : list Z) :
  bytes_ok b -> usual_sectors b -> library_error (open_image b).
Proof.
  intros Hb U. destruct (header_usual b Hb U) as (h & E & S1 & S2 & _).
  pose proof (open_image_clean b h Hb E S1 S2) as C. unfold library_error. destruct (open_image b) as [|x]; [exact I|].
  cbn [clean] in C. destruct x as [a| | | | | | | | | | | |]; try discriminate C. reflexivity.
Qed.
Print Assumptions C42_open_atari_partial.
(** DOS 3.3 *)
Theorem C42_dos33_partial (e : env) (s : bool) (b : list Z) (x : exn) :
  bytes_ok b -> 272 < vtoc_sectors b <= 560 -> parse e s PDos33 b = Err x ->
  x = EAtr InvalidSegmentParser \/ (x = EFuel /\ open33 b = Err EFuel) \/
  exists im d, open33 b = Ok im /\ In d (i_files im) /\ get_file3 im d = Err x /\ is_atr x = false.
Proof. exact (dos33_parse_err e s b x). Qed.
Print Assumptions C42_dos33_partial.

(** The whole detection *)
Theorem C42_detection_partial (e : env) (b : list Z) :
  bytes_ok b -> not_container e b -> sig_ok e -> zip_ok e b -> usual_sectors b ->
  ~ jumpman_short b -> ~ sparta_boot_record b ->
  (forall im d x, open_image b = Ok im -> In d (a_files im) -> get_file im d = Err x -> is_atr x = true) ->
  (zlen b = 143360 -> 272 < vtoc_sectors b <= 560 /\ open33 b <> Err EFuel /\
     forall im d x, open33 b = Ok im -> In d (i_files im) -> get_file3 im d = Err x -> is_atr x = true) ->
  library_error (find_diskimage e b).
Proof.
  intros Hb NC SO [Z1 Z2] U NJ NS FA F3.
  pose proof (find_spec e b b (unpacked_plain e b NC)) as S0. unfold library_error.
  destruct (find_diskimage e b) as [f|x]; [exact I|].
  destruct S0 as [(_ & ->)|(a & F & P)]; [reflexivity|].
  destruct P as [P|(im & _ & P)].
  2:{ destruct a as [[] [m p]]; unfold refined in P; cbn [fst snd] in P; [|discriminate].
      destruct (detail_ok m b NJ) as [d D]. congruence. }
  destruct F as (bf & af & EQ & _ & NR).
  assert (Hin : In a (attempts e b)) by (rewrite EQ; apply in_or_app; right; left; reflexivity). clear EQ.
  destruct a as [s [m p]]. unfold attempt in *. cbn [fst snd] in *.
  assert (FL : forall r : res image, (exists im, r = Ok im) \/ refuses r -> r = Err x -> is_atr x = true).
  { intros r [[im E]|R] E'; [congruence|]. unfold refuses in R. rewrite R in E'. injection E' as <-. reflexivity. }
  destruct (flat_parser p) eqn:FP; [exact (FL _ (C42_flat_parsers e s p b FP) P)|].
  destruct (disk_parser p) eqn:DP; [exact (FL _ (C42_disk_parsers_partial e s p b DP Hb U) P)|].
  destruct p; try discriminate FP; try discriminate DP.
  - exact (FL _ (or_intror (sparta_refuses e s b Hb U NS)) P).
  - destruct (atari_parse_err e s b x Hb U P) as [->|(im & d & O & I0 & G & _)]; [reflexivity|]. exact (FA im d x O I0 G).
  - assert (C : clean (parse_image e s PMame b)) by (cbn [parse_image]; apply mame_clean; assumption).
    pose proof (as_parser_clean _ C) as K. unfold parse in P. rewrite P in K. rewrite K. reflexivity.
  - destruct (Z.eq_dec (zlen b) 143360) as [L|L].
    + destruct (F3 L) as (M & NF & R). destruct (dos33_parse_err e s b x Hb M P) as [->|[(_ & O)|(im & d & O & I0 & G & _)]]; [reflexivity|congruence|].
      exact (R im d x O I0 G).
    + exact (FL _ (or_intror (proj1 (dos33_other_size e s b L))) P).
  - unfold parse in P. cbn [parse_image] in P. destruct (prodos_clean b) as [K|K].
    + rewrite K in P. cbn [as_parser] in P. injection P as <-. reflexivity.
    + pose proof (as_parser_clean _ K) as K'. rewrite P in K'. rewrite K'. reflexivity.
Qed.
Print Assumptions C42_detection_partial.
