(** C42 continued: every cause for another exception than the library's. *)
From Verif Require Import Base BaseLemmas DiskModel AtariModel AtariGeom SpartaModel Dos33Model ExecModel DetectModel DetectSpec DetectProofs DetectErrors DetectErrors2 DetectErrors3 DetectErrors4 DetectErrors5 DetectErrors6 AtariDemo DetectStay Properties_Detect Properties_Detect2 Properties_Detect4.

Lemma detail_err m b x : guess_detail m b = Err x -> x = EIndex.
Proof.
  unfold guess_detail. generalize (details m). intros l.
  assert (C : forall s, match check_signature b s with Ok _ => True | Err y => y = EIndex end).
  { induction s as [|[p q v|i v] s IH]; cbn [check_signature]; [exact I| |].
    - destruct (zlist_eqb _ _); [exact IH|exact I].
    - destruct (_ <=? _); [reflexivity|]. destruct (_ =? _); [exact IH|exact I]. }
  induction l as [|d l IH]; cbn [first_detail]; [discriminate|]. specialize (C (magic d)).
  destruct (check_signature b (magic d)) as [[]|y]; cbn [rbind]; [discriminate|exact IH|congruence].
Qed.
(** A listed MyDOS file whose sectors go in a circle *)
Definition mydos_circle (b : list Z) : Prop :=
  exists im d, open_image b = Ok im /\ In d (a_files im) /\ d_mydos d = true /\ forall fuel, get_file_fuel fuel im d = Err EFuel.
(** For every byte string with usual sectors: another exception than one of the library has one
    of these causes. *)
Theorem C42_causes_partial (e : env) (b : list Z) (x : exn) :
  bytes_ok b -> not_container e b -> sig_ok e -> zip_ok e b -> usual_sectors b ->
  find_diskimage e b = Err x ->
  is_atr x = true \/
  (x = EIndex /\ (jumpman_short b \/ large_count_at_end b)) \/
  (x = EFuel /\ mydos_circle b) \/
  (sparta_boot_record b /\ exists h, atari_header b = Ok h /\ sparta_cause h b x) \/
  (zlen b = 143360 /\ dos33_cause b x).
Proof.
  intros Hb NC SO [Z1 Z2] U E0.
  pose proof (find_spec e b b (unpacked_plain e b NC)) as S0. rewrite E0 in S0.
  destruct S0 as [(_ & ->)|(a & F & P)]; [left; reflexivity|].
  destruct P as [P|(im & _ & P)].
  2:{ destruct a as [[] [m p]]; unfold refined in P; cbn [fst snd] in P; [|discriminate].
      pose proof (detail_err m b x P) as ->. right. left. split; [reflexivity|]. left.
      assert (D : ~ ~ jumpman_short b) by (intros N; destruct (detail_ok m b N) as [d D]; congruence).
      assert (Q : jumpman_short b \/ ~ jumpman_short b).
      { unfold jumpman_short. destruct (Z.le_gt_cases (zlen b) 0x85c) as [L|L]; [|right; lia].
        destruct (zlist_eqb (slice b 0 5) [0x96; 0x02; 0xd0; 0x05; 0x80]) eqn:A1; [left; split; [exact L|left; apply zlist_eqb_eq; exact A1]|].
        destruct (zlist_eqb (slice b 0 5) [0x96; 0x02; 0x80; 0x16; 0x80]) eqn:A2; [left; split; [exact L|right; apply zlist_eqb_eq; exact A2]|].
        right. intros (_ & [X|X]); rewrite X in *; discriminate. }
      destruct Q as [Q|Q]; [exact Q|contradiction]. }
  destruct F as (bf & af & EQ & _ & NR).
  assert (Hin : In a (attempts e b)) by (rewrite EQ; apply in_or_app; right; left; reflexivity). clear EQ.
  destruct a as [s [m p]]. unfold attempt in *. cbn [fst snd] in *.
  assert (FL : forall r : res image, (exists im, r = Ok im) \/ refuses r -> r = Err x -> is_atr x = true).
  { intros r [[im E]|R] E'; [congruence|]. unfold refuses in R. rewrite R in E'. injection E' as <-. reflexivity. }
  destruct (flat_parser p) eqn:FP; [left; exact (FL _ (C42_flat_parsers e s p b FP) P)|].
  destruct (disk_parser p) eqn:DP; [left; exact (FL _ (C42_disk_parsers_partial e s p b DP Hb U) P)|].
  destruct p; try discriminate FP; try discriminate DP.
  - destruct (sparta_parse_err e s b x Hb U P) as [K|(h & E & K)]; [left; exact K|].
    destruct (boot_sector_info b h) as [im|y] eqn:B.
    + right. right. right. left. split; [exists h, im; auto|exists h; auto].
    + left. apply (FL _ (or_intror (sparta_refuses e s b Hb U ltac:(intros (h' & im & A1 & A2); congruence))) P).
  - destruct (atari_parse_err e s b x Hb U P) as [->|(im & d & O & I0 & G & _)]; [left; reflexivity|].
    destruct (atari_file_err b im d x Hb U O I0 G) as [K|[(-> & K1 & K2)|(-> & K)]]; [left; exact K| |right; left; auto].
    right. right. left. split; [reflexivity|]. exists im, d. auto.
  - assert (C : clean (parse_image e s PMame b)) by (cbn [parse_image]; apply mame_clean; assumption).
    pose proof (as_parser_clean _ C) as K. unfold parse in P. rewrite P in K. rewrite K. left. reflexivity.
  - destruct (Z.eq_dec (zlen b) 143360) as [L|L]; [|left; exact (FL _ (or_intror (proj1 (dos33_other_size e s b L))) P)].
    destruct (dos33_any e s b x Hb P) as [->|[K|K]]; [left; reflexivity|left; exact K|]. right; right; right; right. auto.
  - unfold parse in P. cbn [parse_image] in P. left. destruct (prodos_clean b) as [K|K].
    + rewrite K in P. cbn [as_parser] in P. injection P as <-. reflexivity.
    + pose proof (as_parser_clean _ K) as K'. rewrite P in K'. rewrite K'. reflexivity.
Qed.
Print Assumptions C42_causes_partial.
(** So arbitrary contents of a disk that is none of the two special cases are recognised or
    refused: whatever its directory, its files and its links are. *)
Theorem C42_any_contents_partial (e : env) (b : list Z) :
  bytes_ok b -> not_container e b -> sig_ok e -> zip_ok e b -> usual_sectors b ->
  zlen b <> 143360 -> 0x85c < zlen b -> ~ sparta_boot_record b ->
  (forall i, zlen b - 127 <= i < zlen b -> getb b i <= 128) ->
  (forall im d, open_image b = Ok im -> In d (a_files im) -> d_mydos d = false) ->
  library_error (find_diskimage e b).
Proof.
  intros H1 H2 H3 H4 H5 L J NS LC NM. unfold library_error. destruct (find_diskimage e b) as [f|x] eqn:F; [exact I|].
  destruct (C42_causes_partial e b x H1 H2 H3 H4 H5 F) as [K|[(_ & [K|K])|[(_ & K)|[(K & _)|(K & _)]]]]; [exact K|..]; exfalso.
  - destruct K as (K & _). lia.
  - destruct K as (i & A & B). specialize (LC i A). lia.
  - destruct K as (im & d & O & Hd & M & _). rewrite (NM im d O Hd) in M. discriminate.
  - exact (NS K).
  - exact (L K).
Qed.
Print Assumptions C42_any_contents_partial.
(** A file whose last sector is the last one of the disk and says that it holds 200 bytes:
    IndexError *)
Definition count_disk : list Z := craft 369 (entry 0x42 1 369 [66]) [(369, fsec [1] 0 0 200)].
Theorem C42_count_refuted : exists b, bytes_ok b /\ usual_sectors b /\ find_diskimage env0 b = Err EIndex.
Proof.
  exists count_disk. split; [apply bytes_ok_b; vm_compute; reflexivity|]. split; [intros _; right; vm_compute; split; [discriminate|reflexivity]|]. vm_compute. reflexivity.
Qed.
Print Assumptions C42_count_refuted.
(** The conditions are met by data that are no disk at all. *)
Definition noise : list Z := flat_map (fun i => [i * i mod 129; 3 * i mod 129]) (zrange 0 1500).
Example C42_any_contents_example : bytes_ok noise /\ not_container env0 noise /\ sig_ok env0 /\ zip_ok env0 noise /\ usual_sectors noise /\
  zlen noise = 3000 /\ ~ sparta_boot_record noise /\ (forall i, 3000 - 127 <= i < 3000 -> getb noise i <= 128) /\ is_ok (open_image noise) = false.
Proof.
  split; [apply bytes_ok_b; vm_compute; reflexivity|]. split; [split; [reflexivity|]; split; [reflexivity|]; split; [reflexivity|]; intros (_ & [X|X] & _); vm_compute in X; discriminate X|]. split; [intros b m H; discriminate H|].
  split; [split; [discriminate|intros x H; discriminate H]|]. split; [intros (_ & H & _); vm_compute in H; discriminate H|]. split; [vm_compute; reflexivity|].
  split; [intros (h & im & A & B); vm_compute in A; injection A as <-; vm_compute in B; discriminate B|]. split; [|vm_compute; reflexivity].
  assert (B : bytes_ok noise) by (apply bytes_ok_b; vm_compute; reflexivity).
  assert (A : forallb (fun v => v <=? 128) noise = true) by (vm_compute; reflexivity).
  intros i Hi. rewrite forallb_forall in A. apply Z.leb_le. apply A. unfold getb. apply nth_In. apply Nat2Z.inj_lt. rewrite Z2Nat.id by lia. change (Z.of_nat (length noise)) with (zlen noise).
  replace (zlen noise) with 3000 by (vm_compute; reflexivity). lia.
Qed.
(** SpartaDOS boot records lead to each of the five exceptions of [sparta_cause]. *)
Definition record_sector (n root : Z) : list Z := zrepeat 0 9 ++ [root; 0; n; 0] ++ zrepeat 0 18 ++ [0x80; 0x11] ++ zrepeat 0 95.
Definition fill (l : list Z) : list Z := l ++ zrepeat 0 (128 - zlen l).
Definition sparta_bad (x : exn) : list Z :=
  match x with
  | EType => sparta_sector
  | EAttribute => [0x96; 0x02; 16; 0; 128; 0; 0; 0; 0; 0; 0; 0; 0; 0; 0; 0] ++ record_sector 2 2 ++ fill []
  | EFuel => record_sector 2 2 ++ fill [2]
  | EIndex => record_sector 2 2 ++ [0; 0; 0; 0] ++ flat_map (fun _ => [2; 0]) (zrange 0 62)
  | _ => record_sector 3 2 ++ fill [0; 0; 0; 0; 3] ++ fill [8; 2; 0; 30; 0; 0]
  end.
Theorem C42_sparta_kinds_refuted (x : exn) : In x [EType; EAttribute; EFuel; EIndex; EValue] ->
  exists b, bytes_ok b /\ usual_sectors b /\ find_diskimage env0 b = Err x.
Proof.
  intros H. exists (sparta_bad x). cbn [In] in H. destruct H as [<-|[<-|[<-|[<-|[<-|[]]]]]]; (split; [apply bytes_ok_b; vm_compute; reflexivity|]; split; [intros (_ & X & _); first [vm_compute in X; discriminate X|right; vm_compute; split; [discriminate|reflexivity]]|vm_compute; reflexivity]).
Qed.
Print Assumptions C42_sparta_kinds_refuted.
