(** C42 continued: DOS 3.3 disks of any number of sectors. *)
From Verif Require Import Base BaseLemmas DiskModel AtariModel AtariGeom SpartaModel Dos33Model Dos33Sectors ExecModel DetectModel DetectSpec DetectProofs DetectErrors DetectErrors2 DetectErrors3 DetectErrors4 DetectErrors5 DetectErrors6 DetectDsk AtariDemo DetectStay Properties_Detect Properties_Detect2 Properties_Detect3 Properties_Detect4 Properties_Detect5.

(** A disk of zeros with some bytes changed *)
Definition patch (ps : list (Z * Z)) (i : Z) : Z :=
  match find (fun p => fst p =? i) ps with Some p => snd p | None => 0 end.
Definition apple_disk (ps : list (Z * Z)) : list Z := map (patch ps) (zrange 0 143360).

Lemma zlen_zero_nil {A} (l : list A) : zlen l = 0 -> l = [].
Proof. destruct l as [|a l]; [reflexivity|]. rewrite zlen_cons. pose proof (zlen_nonneg l). lia. Qed.
Section Patched.
  Variable ps : list (Z * Z).
  Hypothesis HB : Forall (fun p => 0 <= snd p < 256) ps.
  Hypothesis H0 : Forall (fun p => 256 <= fst p) ps.
  Hypothesis HV : patch ps (272 * 256 + 3) = 0.
  Notation b := (apple_disk ps).
  Notation hp := (mkH33 (from_ts (patch ps (272 * 256 + 1)) (patch ps (272 * 256 + 2)))
    (patch ps (272 * 256 + 0x34) * patch ps (272 * 256 + 0x35)) (patch ps (272 * 256 + 0x27))).

  Lemma ad_len : zlen b = 143360.
  Proof. unfold apple_disk. rewrite zlen_map, zlen_zrange by lia. reflexivity. Qed.
  Lemma ad_get i : 0 <= i < 143360 -> getb b i = patch ps i.
  Proof. intros Hi. apply getb_map_zrange. exact Hi. Qed.
  Lemma patch_byte i : 0 <= patch ps i < 256.
  Proof.
    unfold patch. destruct (find _ ps) as [p|] eqn:F; [|lia]. apply find_some in F. destruct F as [F _]. rewrite Forall_forall in HB. apply (HB p F).
  Qed.
  Lemma ad_bytes : bytes_ok b.
  Proof. unfold apple_disk, bytes_ok. apply Forall_forall. intros v Hv. apply in_map_iff in Hv. destruct Hv as (i & <- & _). apply patch_byte. Qed.
  Lemma ad_zero i : 0 <= i < 256 -> getb b i = 0.
  Proof.
    intros Hi. rewrite ad_get by lia. unfold patch. destruct (find _ ps) as [p|] eqn:F; [|reflexivity]. apply find_some in F. destruct F as [F E].
    rewrite Forall_forall in H0. specialize (H0 p F). lia.
  Qed.
  Lemma ad_sec n i : 0 <= n < 560 -> 0 <= i < 256 -> getb (slice b (n * 256) (n * 256 + 256)) i = patch ps (n * 256 + i).
  Proof. intros Hn Hi. rewrite getb_slice by lia. apply ad_get. lia. Qed.
  (** Reading starts with the catalog sector that the VTOC names. *)
  Lemma ad_open x : is_atr x = false -> valid3 hp (h_fdir hp) = true ->
    snd (cat_loop (fuel33 hp) hp b (h_fdir hp)) = Some x -> open33 b = Err x.
  Proof.
    intros NX V CL. pose proof ad_len as L.
    assert (B : boot_info (Dos33Model.mkI b hdr33_0 [] true) = Ok tt).
    { unfold boot_info. cbn [i_hdr i_bytes]. rewrite raw3_0 by (assumption || lia). cbn [rbind].
      destruct (zlist_eqb _ _) eqn:Q.
      - exfalso. apply zlist_eqb_eq in Q. assert (X : getb (slice (slice b (0 * 256) (0 * 256 + 256)) 0 4) 0 = 1) by (rewrite Q; reflexivity).
        rewrite getb_slice in X by lia. rewrite ad_sec in X by lia. rewrite <- ad_get in X by lia. rewrite ad_zero in X by lia. discriminate X.
      - rewrite raw3_0 by (assumption || lia). cbn [rbind]. rewrite !ad_sec by lia. rewrite HV. reflexivity. }
    unfold open33. rewrite L. change (negb (143360 =? 143360)) with false. cbv iota.
    unfold get_metadata3. rewrite B. unfold get_vtoc3. cbn [i_hdr i_bytes]. rewrite raw3_0 by (assumption || lia). cbv zeta. cbn [i_files i_sane].
    rewrite !ad_sec by lia. unfold assert_valid3. rewrite V. unfold get_directory3, get_directory_fuel. cbn [i_hdr i_bytes].
    destruct (cat_loop _ _ _ _) as [ds o]. cbn [snd] in CL. rewrite CL. reflexivity.
  Qed.
  Lemma ad_detect x : is_atr x = false -> valid3 hp (h_fdir hp) = true ->
    snd (cat_loop (fuel33 hp) hp b (h_fdir hp)) = Some x -> find_diskimage env0 b = Err x.
  Proof.
    intros NX V CL. pose proof (ad_open x NX V CL) as O. destruct (env0_unclaimed3 b (ad_zero 0 ltac:(lia))) as (NC & NS & NZ).
    apply dsk_detect_err; try assumption; [apply ad_bytes|apply ad_len|apply zero_boot; [apply ad_bytes|apply ad_len|apply ad_zero]| |intros ->; discriminate NX].
    unfold parse. cbn [parse_image]. rewrite O. cbn [rbind]. destruct x; try discriminate NX; reflexivity.
  Qed.
End Patched.

(** A VTOC of 35 tracks of 32 sectors, with the catalog in track 40: IndexError.  A catalog
    sector that leads to itself: the program never ends. *)
Definition apple_bad (x : exn) : list (Z * Z) :=
  match x with
  | EIndex => [(69633, 40); (69684, 35); (69685, 32)]
  | _ => [(69634, 1); (69684, 35); (69685, 16); (258, 1)]
  end.
Theorem C42_apple_kinds_refuted (x : exn) : In x [EIndex; EFuel] ->
  exists b, bytes_ok b /\ zlen b = 143360 /\ usual_sectors b /\ dos33_cause b x /\ find_diskimage env0 b = Err x.
Proof.
  intros Hx. exists (apple_disk (apple_bad x)). set (ps := apple_bad x). cbn [In] in Hx.
  assert (HB : Forall (fun p => 0 <= snd p < 256) ps) by (destruct Hx as [<-|[<-|[]]]; repeat (constructor; [cbn; lia|]); constructor).
  assert (H0 : Forall (fun p => 256 <= fst p) ps) by (destruct Hx as [<-|[<-|[]]]; repeat (constructor; [cbn; lia|]); constructor).
  assert (HV : patch ps (272 * 256 + 3) = 0) by (destruct Hx as [<-|[<-|[]]]; reflexivity).
  split; [apply ad_bytes; exact HB|]. split; [apply ad_len|].
  split.
  { intros (_ & X & _). rewrite ad_zero in X by (exact H0 || lia). discriminate X. }
  assert (CL : is_atr x = false /\ let hp := mkH33 (from_ts (patch ps (272 * 256 + 1)) (patch ps (272 * 256 + 2)))
    (patch ps (272 * 256 + 0x34) * patch ps (272 * 256 + 0x35)) (patch ps (272 * 256 + 0x27)) in
    valid3 hp (h_fdir hp) = true /\ snd (cat_loop (fuel33 hp) hp (apple_disk ps) (h_fdir hp)) = Some x).
  { destruct Hx as [<-|[<-|[]]]; (split; [reflexivity|]).
    - split; [vm_compute; reflexivity|]. set (hp := mkH33 _ _ _). change (h_fdir hp) with 640.
      unfold fuel33. cbn [cat_loop]. change (0 <? 640) with true. cbv iota. unfold assert_valid3, get_raw3, get_pos3. change (valid3 hp 640) with true. cbn [negb rbind].
      assert (Z0 : slice (apple_disk ps) (640 * 256) (640 * 256 + 256) = []).
      { apply zlen_zero_nil. rewrite zlen_slice_min by lia. rewrite ad_len. lia. }
      rewrite Z0. reflexivity.
    - split; [vm_compute; reflexivity|]. set (hp := mkH33 _ _ _). change (h_fdir hp) with 1.
      generalize (fuel33 hp). induction n as [|n IH]; [reflexivity|]. cbn [cat_loop]. change (0 <? 1) with true. cbv iota.
      unfold assert_valid3, get_raw3, get_pos3. change (valid3 hp 1) with true. cbn [negb rbind]. unfold link_of.
      rewrite zlen_slice by (rewrite ?ad_len; lia). change (1 * 256 + 256 - 1 * 256 <? 3) with false. cbn [rbind]. rewrite !ad_sec by lia.
      change (from_ts (patch ps (1 * 256 + 1)) (patch ps (1 * 256 + 2))) with 1. destruct (cat_loop n hp (apple_disk ps) 1). exact IH. }
  destruct CL as (NX & V & CL). cbv zeta in V, CL. split; [|apply ad_detect; assumption].
  destruct Hx as [<-|[<-|[]]].
  - apply DC_large. unfold vtoc_sectors. rewrite !ad_get by lia. vm_compute. reflexivity.
  - apply DC_circle. left. apply ad_open; assumption.
Qed.
Print Assumptions C42_apple_kinds_refuted.

(** A DOS 3.3 disk with a usual number of sectors is recognised or refused whatever its files
    are, as long as nothing goes in a circle and every listed file has sectors, all on the
    disk. *)
Theorem C42_dos33_contents_partial (e : env) (b : list Z) :
  bytes_ok b -> zlen b = 143360 -> apple_boot b -> unclaimed3 e b -> 272 < vtoc_sectors b <= 560 -> ~ dos33_circle b ->
  (forall im d tl m, open33 b = Ok im -> In d (i_files im) -> get_tslist (fuel33 (i_hdr im)) (i_hdr im) b d = Ok (tl, m) ->
     m <> [] /\ forall n, In n m -> n < vtoc_sectors b) ->
  library_error (find_diskimage e b).
Proof.
  intros Hb L A (NC & NS & NZ) M NCi F. unfold library_error. destruct (find_diskimage e b) as [f|x] eqn:E0; [exact I|].
  pose proof (find_spec e b b (unpacked_plain e b NC)) as S0. rewrite E0 in S0.
  destruct S0 as [(_ & ->)|(a & Fc & P)]; [reflexivity|].
  destruct P as [P|(im & _ & P)].
  2:{ destruct a as [[] [m p]]; unfold refined in P; cbn [fst snd] in P; [|discriminate].
      exfalso. destruct (detail_ok m b) as [d D]; [intros (X & _); lia|congruence]. }
  destruct Fc as (bf & af & EQ & _ & NR).
  assert (Hin : In a (attempts e b)) by (rewrite EQ; apply in_or_app; right; left; reflexivity). clear EQ.
  unfold attempts in Hin. rewrite NS in Hin. cbn [app] in Hin. apply in_map_iff in Hin. destruct Hin as ([m p] & <- & Hin).
  unfold attempt in P. cbn [fst snd] in P.
  assert (FL : forall r : res image, (exists im, r = Ok im) \/ refuses r -> r = Err x -> is_atr x = true).
  { intros r [[im E]|R] E'; [congruence|]. unfold refuses in R. rewrite R in E'. injection E' as <-. reflexivity. }
  assert (Hin' : In (m, p) before_dsk \/ p = PDos33 \/ p = PProdos \/ p = PBin \/ p = PRom).
  { change documented_order with (before_dsk ++ [(M_dsk, PDos33); (M_dsk, PProdos); (M_bin, PBin); (M_rom, PRom)]) in Hin.
    apply in_app_or in Hin. destruct Hin as [Hin|Hin]; [left; exact Hin|right]. cbn [In] in Hin. revert Hin. clear. intuition congruence. }
  destruct Hin' as [K|[->|[->|[K|K]]]].
  - apply (FL _ (or_intror (dsk_early e b Hb L A NZ (m, p) K)) P).
  - destruct (dos33_any e true b x Hb P) as [->|[K|K]]; [reflexivity|exact K|]. exfalso.
    destruct K as [K|im d tl O Hd T|im d tl m' n O Hd T Hn K|K|K]; [lia| | |lia|contradiction].
    + destruct (F im d tl [] O Hd T) as [X _]. congruence.
    + destruct (F im d tl m' O Hd T) as [_ X]. specialize (X n Hn). lia.
  - unfold parse in P. cbn [parse_image] in P. destruct (prodos_clean b) as [K|K].
    + rewrite K in P. cbn [as_parser] in P. injection P as <-. reflexivity.
    + pose proof (as_parser_clean _ K) as K'. rewrite P in K'. rewrite K'. reflexivity.
  - subst p. exact (FL _ (C42_flat_parsers e true PBin b eq_refl) P).
  - subst p. exact (FL _ (C42_flat_parsers e true PRom b eq_refl) P).
Qed.
Print Assumptions C42_dos33_contents_partial.
(** Non-vacuity: a disk with one file whose second sector is that of its own list of sectors
    and whose third is the VTOC. *)
Definition odd_disk : list Z := apple_disk
  [(69633, 17); (69634, 15); (69684, 35); (69685, 16);
   (287 * 256 + 11, 18); (287 * 256 + 12, 0); (287 * 256 + 13, 4); (287 * 256 + 14, 193); (287 * 256 + 44, 4);
   (288 * 256 + 12, 19); (288 * 256 + 14, 18); (288 * 256 + 16, 17)].
Definition odd_ok : bool :=
  match open33 odd_disk with
  | Ok im => match i_files im with
             | [d] => match get_tslist (fuel33 (i_hdr im)) (i_hdr im) odd_disk d with
                      | Ok (_, m) => zlist_eqb m [304; 288; 272] && is_ok (get_file3 im d)
                      | Err _ => false
                      end
             | _ => false
             end
  | Err _ => false
  end.
Lemma odd_ok_true : odd_ok = true.
Proof. vm_compute. reflexivity. Qed.
Lemma odd_sound : exists im d tl, open33 odd_disk = Ok im /\ i_files im = [d] /\
  get_tslist (fuel33 (i_hdr im)) (i_hdr im) odd_disk d = Ok (tl, [304; 288; 272]) /\ is_ok (get_file3 im d) = true.
Proof.
  pose proof odd_ok_true as K. unfold odd_ok in K. generalize dependent odd_disk. intros b K.
  destruct (open33 b) as [im|]; [|discriminate K]. destruct (i_files im) as [|d [|d' r]] eqn:F; try discriminate K.
  destruct (get_tslist _ _ _ d) as [[tl m]|] eqn:T; [|discriminate K]. apply andb_prop in K. destruct K as [K1 K2]. apply zlist_eqb_eq in K1. subst m.
  exists im, d, tl. auto.
Qed.
Example C42_dos33_contents_example : bytes_ok odd_disk /\ zlen odd_disk = 143360 /\ apple_boot odd_disk /\ unclaimed3 env0 odd_disk /\
  vtoc_sectors odd_disk = 560 /\ ~ dos33_circle odd_disk /\
  (forall im d tl m, open33 odd_disk = Ok im -> In d (i_files im) -> get_tslist (fuel33 (i_hdr im)) (i_hdr im) odd_disk d = Ok (tl, m) ->
     m = [304; 288; 272]).
Proof.
  assert (HB : bytes_ok odd_disk) by (apply ad_bytes; repeat (constructor; [cbn; lia|]); constructor).
  assert (HL : zlen odd_disk = 143360) by apply ad_len.
  assert (Z0 : forall i, 0 <= i < 256 -> getb odd_disk i = 0) by (intros i Hi; apply ad_zero; [repeat (constructor; [cbn; lia|]); constructor|exact Hi]).
  assert (HV : vtoc_sectors odd_disk = 560) by (unfold vtoc_sectors, odd_disk; rewrite !ad_get by lia; reflexivity).
  pose proof odd_sound as K. revert HB HL Z0 HV K. generalize odd_disk. intros b HB HL Z0 HV (im & d & tl & O & Fi & T & G).
  split; [exact HB|]. split; [exact HL|]. split; [apply zero_boot; assumption|]. split; [apply env0_unclaimed3, Z0; lia|]. split; [exact HV|]. split.
  - intros [K|(im' & d' & O' & Hd & K)]; [congruence|]. assert (im' = im) by congruence. subst im'. rewrite Fi in Hd. destruct Hd as [<-|[]].
    specialize (K (fuel33 (i_hdr im))). unfold get_file3 in G. rewrite K in G. discriminate G.
  - intros im' d' tl' m' O' Hd T'. assert (im' = im) by congruence. subst im'. rewrite Fi in Hd. destruct Hd as [<-|[]]. congruence.
Qed.
