(** The whole program: examples and exceptions for C73, C76 (checksums), C77 (boot) and
    C78 (recognised executables). *)
From Verif Require Import Base BaseLemmas DiskModel AtariModel AtariSpec AtariGeom AtariHeader AtariBlank AtariOps AtariSession AtariProps AtariDemo SpartaModel ExecModel ExecSpec ExecProofs ExecProofs2 Properties_Exec SdModel CliModel CliProofs CliInst DetectModel DetectSpec DetectErrors DetectErrors2 DetectErrors3 DetectStay DetectExec Properties_Detect Properties_Detect2 Properties_Detect3 DetectDsk MainModel MainProofs MainProofs2 MainInst Dos33Model Dos33Spec Dos33Dir Dos33Files Dos33Ops Dos33Session Dos33Demo Properties_Cli Properties_Main Properties_Main2.
From Verif Require SdSpec SdProofs2 Properties_Sd.

(** * C73, examples *)
Definition seg1 : iseg := ExecModel.mkI 0x600 [7; 8].
Definition xex1 : list Z := [255; 255; 0xe0; 2; 0xe1; 2; 1; 6; 0; 6; 1; 6; 7; 8].
Lemma xex1_made : get_xex [seg1] (Some 0x601) = Ok xex1.
Proof. reflexivity. Qed.
Lemma short_no_sparta b : match atari_header b with Ok h => match boot_sector_info b h with Ok _ => false | Err _ => true end | Err _ => true end = true -> ~ sparta_boot_record b.
Proof. intros H (h & im & E1 & E2). rewrite E1, E2 in H. discriminate. Qed.
Lemma unclaimed_ff b : getb b 0 = 255 -> unclaimed env0 b.
Proof. intros E. split; [|reflexivity]. split; [reflexivity|]. split; [reflexivity|]. split; [reflexivity|]. rewrite E. intros (_ & [X|X] & _); discriminate. Qed.
Definition asm_fs (b : list Z) : fs := fun p => if zlist_eqb p p_img then Some b else if zlist_eqb p p_xex then Some xex1 else None.
Lemma xex1_segs b : segs_in w0 (asm_fs b) p_xex [mkX true NoName 2 6 0x2e0 [1; 6]; mkX false NoName 8 12 0x600 [7; 8]].
Proof.
  split; [discriminate|]. exists xex1. destruct (xex_found env0 xex1 [mkX true NoName 2 6 0x2e0 [1; 6]; mkX false NoName 8 12 0x600 [7; 8]]) as (d & E).
  - apply AtariDemo.bytes_ok_b. reflexivity.
  - reflexivity.
  - reflexivity.
  - vm_compute. intuition discriminate.
  - apply short_no_sparta. vm_compute. reflexivity.
  - apply unclaimed_ff. reflexivity.
  - vm_compute. reflexivity.
  - eexists. split; [reflexivity|]. split; [exact E|reflexivity].
Qed.
Lemma xex1_gathered b : gathered w0 (asm_fs b) [] [] [p_xex] [] [seg1] (Some 0x601).
Proof.
  exists [], [], [[mkX true NoName 2 6 0x2e0 [1; 6]; mkX false NoName 8 12 0x600 [7; 8]]]. split; [reflexivity|]. split; [reflexivity|].
  split; [constructor; [apply xex1_segs|constructor]|]. split; [intros s [<-|[<-|[]]] _; cbn; lia|]. split; reflexivity.
Qed.
Lemma asm_proper b : bytes_ok b -> proper w0 (asm_fs b) [p_xex].
Proof.
  intros Hb. split; [|split].
  - intros p d E. unfold asm_fs in E. destruct (zlist_eqb p p_img); [injection E as <-; exact Hb|]. destruct (zlist_eqb p p_xex); [injection E as <-|discriminate E]. apply AtariDemo.bytes_ok_b. reflexivity.
  - intros asm n l E. discriminate E.
  - intros p d [<-|[]] Fp u U. unfold asm_fs in Fp. change (zlist_eqb p_xex p_img) with false in Fp. change (zlist_eqb p_xex p_xex) with true in Fp. injection Fp as <-. vm_compute in U. injection U as <-.
    split; [apply AtariDemo.bytes_ok_b; reflexivity|]. intros l E. discriminate E.
Qed.
Example C73_example : exists im f' m', atari_disk w0 (asm_fs (a_bytes im)) p_img (fs_of im) /\
  main w0 no_opts (asm_fs (a_bytes im)) p_img (KAssemble [] [] [p_xex] [] other) = (f', [MCopying other], Ok tt) /\
  atari_disk w0 f' p_img m' /\ (forall n, m' n = if zlist_eqb n other then Some xex1 else fs_of im n) /\ xex_of [seg1] (Some 0x601) xex1.
Proof.
  destruct blank_disk as (im & D & L & F & P). pose proof D as (C & _). destruct (consistent_view im C) as (k0 & _ & _ & Dk & _).
  assert (Xd : atari_data xex1) by (split; [discriminate|apply AtariDemo.bytes_ok_b; reflexivity]).
  assert (LW : legal_write im other xex1).
  { split; [apply other_name|]. rewrite (proj2 other_name). split; [discriminate|]. split; [apply Xd|]. rewrite listing_files, L. split; [intros []|cbn; lia]. }
  destruct (write_master im other xex1 C LW) as [(Hs & im1 & c & Ew & W)|(Hs & _)].
  2: { exfalso. revert Hs. rewrite P, F. intros Hs. vm_compute in Hs. congruence. }
  assert (HD : atari_disk w0 (asm_fs (a_bytes im)) p_img (fs_of im)) by (apply (disk_at env0); [reflexivity|exact D|discriminate|reflexivity]).
  assert (Fn : find_name other (a_files im) = None) by (apply find_name_none; change (~ In other (listing im)); rewrite L; intros []).
  destruct (gathered_spec _ _ _ _ _ _ _ _ (xex1_gathered (a_bytes im))) as (rn & A & T).
  assert (E : main w0 no_opts (asm_fs (a_bytes im)) p_img (KAssemble [] [] [p_xex] [] other) = (fput (asm_fs (a_bytes im)) p_img (a_bytes im1), [MCopying other], Ok tt)).
  { rewrite (main_on atari_api (Some t_XEX) atari_vtoc (disk env0) w0 IAtariDos (disk_found _) (fun _ _ _ _ _ => eq_refl) no_opts (asm_fs (a_bytes im)) p_img im); [|split; [|split]; intros []|discriminate|reflexivity|exact D].
    cbn [image_command]. rewrite A. rewrite executable_atari by reflexivity. rewrite (get_xex_truthy _ _ _ T), xex1_made. cbn [rbind].
    unfold assemble_save, save_if, save_file. change (p_find atari_api im other) with (find_name other (a_files im)). rewrite Fn. cbn [o_dry no_opts].
    change (p_write atari_api im other t_XEX xex1) with (write_file im other xex1). rewrite Ew. reflexivity. }
  assert (R : room (asm_fs (a_bytes im)) p_img 1).
  { intros b imb Hb Ho. injection Hb as <-. destruct D as ([O1 _] & _). assert (imb = im) by congruence. subst imb. rewrite listing_files, L. cbn. lia. }
  assert (Pr : proper w0 (asm_fs (a_bytes im)) [p_xex]) by (apply asm_proper; apply (dk_bytes _ _ _ Dk)).
  assert (Sk : Forall seg_ok [seg1]) by (constructor; [split; [cbn; lia|]; split; [cbn; lia|]; split; [cbn; lia|]; apply AtariDemo.bytes_ok_b; reflexivity|constructor]).
  assert (N0 : fs_of im other = None) by (apply absent; rewrite L; intros []).
  assert (Ps : Forall (fun s => 0 < i_origin s) [seg1]) by (constructor; [cbn; lia|constructor]).
  assert (Sz : ~ In (zlen xex1) atari_sizes) by (vm_compute; intuition discriminate).
  assert (Sp : ~ sparta_boot_record xex1) by (apply short_no_sparta; vm_compute; reflexivity).
  assert (Un : unclaimed (w_env w0) xex1) by (apply unclaimed_ff; reflexivity).
  assert (Nd : p_xex <> [46]) by discriminate.
  destruct (C73_reassembling_copies w0 no_opts (asm_fs (a_bytes im)) p_img (fs_of im) p_xex [seg1] (Some 0x601) xex1 other _ _ HD eq_refl Pr other_name R eq_refl eq_refl (or_introl N0) Nd eq_refl Sk eq_refl Ps xex1_made Sz Sp Un E) as (m' & H' & M').
  exists im, (fput (asm_fs (a_bytes im)) p_img (a_bytes im1)), m'. split; [exact HD|]. split; [exact E|]. split; [exact H'|]. split; [exact M'|].
  destruct (C73_assembled_atari_partial w0 no_opts (asm_fs (a_bytes im)) p_img (fs_of im) [] [] [p_xex] [] other [seg1] (Some 0x601) _ _ _ HD eq_refl Pr other_name R eq_refl eq_refl (xex1_gathered _) Sk E)
      as [(_ & _ & _ & m2 & x & H2 & M2 & X)|[(_ & N & _)|[(N & _)|(e & N & _)]]]; try discriminate N; [|contradiction].
  assert (x = xex1); [|subst x; exact X]. destruct H2 as (_ & i2 & F2 & D2 & A2), H' as (_ & i3 & F3 & D3 & A3). rewrite F2 in F3. injection F3 as F3.
  destruct D2 as ([O2 _] & _), D3 as ([O3 _] & _). assert (i2 = i3) by congruence. subst i3. specialize (A2 other). specialize (A3 other). rewrite M2 in A2. rewrite M' in A3. cbn in A2, A3. congruence.
Qed.
Example C73_dos33_example : exists f' m' x, dos33_disk w0 (asm_fs (i_bytes one_im)) p_img (fs_of3 one_im) /\
  main w0 no_opts (asm_fs (i_bytes one_im)) p_img (KAssemble [] [] [p_xex] [] NEW) = (f', [MCopying NEW], Ok tt) /\
  dos33_disk w0 f' p_img m' /\ m' NEW = Some (padded x) /\ bsave_of [seg1] (Some 0x601) x.
Proof.
  pose proof one_disk as D. pose proof D as (C & _). destruct (consistent3_vtoc one_im C) as (_ & _ & Hb).
  set (x := [0xfd; 5; 5; 0; 0x4c; 1; 6; 7; 8]).
  destruct (Properties_Dos33.one_write [66] x ltac:(discriminate) ltac:(discriminate) ltac:(apply AtariDemo.bytes_ok_b; reflexivity) ltac:(vm_compute; discriminate)) as (im1 & tl & dl & Ew & W).
  assert (HD : dos33_disk w0 (asm_fs (i_bytes one_im)) p_img (fs_of3 one_im)) by (apply disk3_at; [exact D|discriminate|reflexivity]).
  assert (Fn : p_find dos33_api one_im NEW = None) by (apply CliInst.find_name3_none; change (~ In NEW (listing3 one_im)); rewrite one_listing; intros [X|[]]; discriminate).
  destruct (gathered_spec _ _ _ _ _ _ _ _ (xex1_gathered (i_bytes one_im))) as (rn & A & T).
  assert (E : main w0 no_opts (asm_fs (i_bytes one_im)) p_img (KAssemble [] [] [p_xex] [] NEW) = (fput (asm_fs (i_bytes one_im)) p_img (i_bytes im1), [MCopying NEW], Ok tt)).
  { rewrite (main_on dos33_api (Some t_BSAVE) get_smap3 (disk3 env0) w0 IDos33 (disk3_found _) (fun _ _ _ _ _ => eq_refl) no_opts (asm_fs (i_bytes one_im)) p_img one_im); [|split; [|split]; intros []|discriminate|reflexivity|exact D].
    cbn [image_command]. rewrite A. rewrite executable_dos33 by reflexivity. rewrite (get_bsave_truthy _ _ _ T). change (get_bsave [seg1] (Some 0x601)) with (Ok x). cbn [rbind].
    unfold assemble_save, save_if, save_file. rewrite Fn. cbn [o_dry no_opts].
    change (p_write dos33_api one_im NEW [66] x) with (write_file3 one_im NEW [66] x). rewrite Ew. reflexivity. }
  assert (N0 : fs_of3 one_im NEW = None) by (rewrite <- look_dos33; unfold look; rewrite Fn; reflexivity).
  assert (Ft : ExecSpec.fits [seg1] 0x600 0x602) by (split; [lia|]; split; [lia|]; split; [intros s [<-|[]]; cbn; lia|]; split; left; reflexivity).
  assert (Ra : forall a, truthy (Some 0x601) = Some a -> 0 <= a < 65536) by (intros a [= <-]; lia).
  destruct (C73_assembled_dos33_partial w0 no_opts (asm_fs (i_bytes one_im)) p_img (fs_of3 one_im) [] [] [p_xex] [] NEW [seg1] (Some 0x601) 0x600 0x602 _ _ _ HD eq_refl (asm_proper _ Hb) (proj1 NEW_name) eq_refl (xex1_gathered _) Ft ltac:(lia) ltac:(lia) Ra E)
    as [(_ & _ & _ & m2 & x2 & H2 & M2 & X)|[(_ & N & _)|[([N|N] & _)|(e & a & N & _)]]]; try discriminate N; [|contradiction].
  exists (fput (asm_fs (i_bytes one_im)) p_img (i_bytes im1)), m2, x2. split; [exact HD|]. split; [exact E|]. split; [exact H2|]. split; [rewrite M2; reflexivity|exact X].
Qed.
(** Exceptions: segments of object files at address 0 are left out; a BSAVE file that
    was kept on a DOS 3.3 disk is no object file any more; what cannot be read as a run
    address is taken for none, and then that of the object file is not used either. *)
Definition xex_zero : list Z := [255; 255; 0; 0; 1; 0; 9; 9; 0; 6; 0; 6; 7].
Theorem C73_address_zero_refuted : exists f segs rep, segs_in w0 f p_xex rep /\ map seen rep = [(0, [9; 9]); (0x600, [7])] /\
  assemble_segments w0 f [] [] [p_xex] [] = ([], Ok (segs, RText [])) /\ map given segs = [(0x600, [7])].
Proof.
  exists (xex_fs xex_zero), [ExecModel.mkI 0x600 [7]], [mkX false NoName 2 6 0 [9; 9]; mkX false NoName 8 12 0x600 [7]].
  split; [|split; [reflexivity|split; [vm_compute; reflexivity|reflexivity]]].
  split; [discriminate|]. exists xex_zero. eexists. split; [reflexivity|]. split; [vm_compute; reflexivity|reflexivity].
Qed.
Print Assumptions C73_address_zero_refuted.
Theorem C73_padded_bsave_refuted : exists segs x fd, get_bsave segs None = Ok x /\ find_diskimage env0 x = Ok fd /\ f_class fd = PBin /\
  parse_bsave (padded x) = Err (EAtr InvalidBinaryFile) /\ exists fd', find_diskimage env0 (padded x) = Ok fd' /\ f_class fd' = PRom.
Proof.
  exists [seg1]. eexists. eexists. split; [vm_compute; reflexivity|]. split; [vm_compute; reflexivity|]. split; [reflexivity|]. split; [vm_compute; reflexivity|]. eexists. split; [vm_compute; reflexivity|reflexivity].
Qed.
Print Assumptions C73_padded_bsave_refuted.
Theorem C73_unreadable_address_refuted : exists f, f p_xex = Some xex1 /\
  assemble_segments w0 f [] [] [p_xex] [] = ([], Ok ([seg1], RNum 0x601)) /\
  assemble_segments w0 f [] [] [p_xex] [120; 121; 122] = ([], Ok ([seg1], RNone)) /\
  exists x, executable (Some t_XEX) other [seg1] RNone = Ok (x, t_XEX) /\ x <> xex1.
Proof.
  exists (xex_fs xex1). split; [reflexivity|]. split; [vm_compute; reflexivity|]. split; [vm_compute; reflexivity|]. eexists. split; [vm_compute; reflexivity|]. discriminate.
Qed.
Print Assumptions C73_unreadable_address_refuted.

(** * C76: checksums *)
(** [list --crc] and [crc] print one line for each file asked for, in the order of the
    directory, with the checksum of its contents, and change nothing. *)
Theorem C76_crc_atari w o f img m files c : atari_disk w f img m -> c = KCrc files \/ c = KList true files ->
  exists names, NoDup names /\ (forall n, In n names <-> m n <> None) /\
    main w o f img c = (f, map (fun n => MCrc n (w_crc w (match m n with Some x => x | None => [] end)))
                             (filter (fun n => match files with [] => true | _ => existsb (zlist_eqb n) files end) names), Ok tt).
Proof.
  intros H Hc. apply atari_holds in H. destruct H as (N & im & F & D & L). exists (listing im). split; [apply listing_NoDup, D|]. split.
  - intros n. rewrite <- L. rewrite look_atari. unfold fs_of. split.
    + intros I0 X. destruct (find_total_c im n (proj1 D)) as [E|(d & E)]; [|rewrite E in X; discriminate X]. unfold find_file in E.
      destruct (find_name n (a_files im)) eqn:Fn; [|apply find_name_none in Fn; exact (Fn I0)].
      destruct (files_read atari_api (disk (w_env w)) atari_name (fun _ d => atari_data d) atari_fits (fun d => d) atari_refused (disk_lawful _) im d D) as (x & R & _); [|cbn [atari_api p_read] in R; congruence].
      cbn [atari_api p_files]. clear -Fn. induction (a_files im) as [|e l IH]; [discriminate|]. cbn [find_name] in Fn. destruct (zlist_eqb n (filename e)); [injection Fn as ->; left; reflexivity|right; apply IH; exact Fn].
    + intros X. destruct (in_dec (list_eq_dec Z.eq_dec) n (listing im)) as [I0|I0]; [exact I0|]. exfalso. apply X. apply find_name_none in I0. unfold find_file. rewrite I0. reflexivity.
  - rewrite (main_crc atari_api (Some t_XEX) atari_vtoc (disk (w_env w)) atari_name (fun _ d => atari_data d) atari_fits (fun d => d) atari_refused (disk_lawful _) w IAtariDos (disk_found _)
      (fun _ _ _ _ _ => eq_refl) o f img im files c N F D Hc). f_equal. f_equal. apply map_ext. intros n. rewrite (L n). reflexivity.
Qed.
Print Assumptions C76_crc_atari.
Theorem C76_crc_dos33 w o f img m files c : dos33_disk w f img m -> c = KCrc files \/ c = KList true files ->
  exists names, NoDup names /\ (forall n, In n names <-> m n <> None) /\
    main w o f img c = (f, map (fun n => MCrc n (w_crc w (match m n with Some x => x | None => [] end)))
                             (filter (fun n => match files with [] => true | _ => existsb (zlist_eqb n) files end) names), Ok tt).
Proof.
  intros H Hc. apply dos33_holds in H. destruct H as (N & im & F & D & L). exists (listing3 im). split; [apply listing3_NoDup, D|]. split.
  - intros n. rewrite <- L. split.
    + intros I0 X. apply (find_look dos33_api (disk3 (w_env w)) dos33_name dos33_data (fun _ _ => True) padded dos33_refused (disk3_lawful _) im n D) in X. cbn [dos33_api p_find] in X. apply CliInst.find_name3_none in X. exact (X I0).
    + intros X. destruct (in_dec (list_eq_dec Z.eq_dec) n (listing3 im)) as [I0|I0]; [exact I0|]. exfalso. apply X.
      apply (find_look dos33_api (disk3 (w_env w)) dos33_name dos33_data (fun _ _ => True) padded dos33_refused (disk3_lawful _) im n D). cbn [dos33_api p_find]. apply CliInst.find_name3_none. exact I0.
  - rewrite (main_crc dos33_api (Some t_BSAVE) get_smap3 (disk3 (w_env w)) dos33_name dos33_data (fun _ _ => True) padded dos33_refused (disk3_lawful _) w IDos33 (disk3_found _)
      (fun _ _ _ _ _ => eq_refl) o f img im files c N F D Hc). f_equal. f_equal. apply map_ext. intros n. rewrite (L n). reflexivity.
Qed.
Print Assumptions C76_crc_dos33.
Example C76_example : exists w im f, w_crc w [1; 2; 3] = 6 /\ atari_disk w f p_img (fs_of im) /\ main w no_opts f p_img (KCrc []) = (f, [MCrc hello 6], Ok tt).
Proof.
  set (w := mkWorld env0 None (fun d => fold_left Z.add d 0) []).
  destruct add_hello as (im & im1 & D & L & D1 & L1 & Ho & E).
  assert (HD : atari_disk w (demo_fs (a_bytes im1)) p_img (fs_of im1)) by (apply (disk_at env0); [reflexivity|exact D1|discriminate|reflexivity]).
  exists w, im1, (demo_fs (a_bytes im1)). split; [reflexivity|]. split; [exact HD|].
  rewrite (main_crc atari_api (Some t_XEX) atari_vtoc (disk (w_env w)) atari_name (fun _ d => atari_data d) atari_fits (fun d => d) atari_refused (disk_lawful _) w IAtariDos (disk_found _)
      (fun _ _ _ _ _ => eq_refl) no_opts (demo_fs (a_bytes im1)) p_img im1 [] (KCrc []) ltac:(discriminate) eq_refl D1 (or_introl eq_refl)).
  change (map (p_name atari_api) (p_files atari_api im1)) with (listing im1). rewrite L1. cbn [filter asked map]. rewrite look_atari, Ho. reflexivity.
Qed.

(** * C77: boot *)
(** A boot disk for Atari computers is recognised, and its one file is the executable
    that loads the segments. *)
Theorem C77_boot_atr_partial w o f name src args obj run segs start x :
  boot_class name = Some BKBoot -> gathered w f src args obj run segs start -> segs <> [] -> get_xex segs None = Ok x -> zlen x < 65536 ->
  exists b, main w o f name (KBoot src args obj run) = (fput f name b, [MSaving name], Ok tt) /\ kboot_create segs None = Ok b /\
    (unclaimed (w_env w) b -> forall o2 f2, f2 name = Some b -> o_dry o2 = false -> o_all o2 = false -> (f2 (out_path o2 kboot_name) = None \/ o_force o2 = true) ->
       exists ms, main w o2 f2 name (KExtract [kboot_name]) = (fput f2 (out_path o2 kboot_name) (converted o2 x), ms, Ok tt)).
Proof.
  intros Bc G Ne Gx Zx. destruct (gathered_spec _ _ _ _ _ _ _ _ G) as (rn & A & T).
  pose proof (kboot_create_atr segs None x Gx) as Kc. assert (Lx : 1 <= zlen x < 65536).
  { split; [|exact Zx]. destruct (get_xex_spec _ _ _ Gx) as [[_ ->]|[_ (a & _ & ->)]]; rewrite zlen_app; change (zlen [255; 255]) with 2; match goal with |- context [zlen (flat_map ?g ?l)] => pose proof (zlen_nonneg (flat_map g l)) end; lia. }
  destruct (kboot_round x ltac:(lia) (add_xexboot_header x) eq_refl Lx) as (b & Ab & _). exists b. split; [|split; [rewrite Kc; exact Ab|]].
  - cbn [main]. unfold boot_command, boot_image. rewrite Bc, A. destruct segs as [|s0 sl]; [congruence|]. cbn [boot_make]. rewrite Kc, Ab. reflexivity.
  - intros U o2 f2 F2 D2 Al Nw. destruct (kboot_found (w_env w) x b Lx Ab U) as (d & k & Fd & Kf).
    assert (Nd : name <> [46]) by (intros ->; discriminate Bc).
    rewrite (main_opened w o2 f2 name (KExtract [kboot_name]) b _ ltac:(split; [|split]; intros []) Nd F2 Fd). cbn [f_image open_command image_command].
    unfold extract_files, selection. rewrite Al. cbn [map extract_loop kboot_api p_find]. rewrite zlist_eqb_refl. cbn [p_read p_name kboot_api]. rewrite D2, Kf.
    destruct Nw as [-> | ->]; [|destruct (f2 (out_path o2 kboot_name))]; eexists; reflexivity.
Qed.
Print Assumptions C77_boot_atr_partial.

(** A boot disk for Apple computers with a given start address: it is made exactly if
    the program fits; the loader then loads the segments and jumps to the address. *)
Definition places (segs : list iseg) : list (Z * list Z) := map (fun s => (i_origin s, i_data s)) segs.
Lemma sd_segs segs : map (fun s => mkSeg (i_origin s) (i_data s)) segs = map SdProofs2.to_seg (places segs).
Proof. unfold places. rewrite map_map. reflexivity. Qed.
Theorem C77_boot_dsk_partial w o f name src args obj run segs start a :
  boot_class name = Some BStandard -> gathered w f src args obj run segs start -> segs <> [] -> truthy start = Some a -> 0 <= a < 65536 ->
  Properties_Sd.all_carried (places segs) ->
  (SdSpec.total_pages (places segs) <= 559 /\ SdSpec.list_cost false (places segs) <= 119 ->
     exists b, main w o f name (KBoot src args obj run) = (fput f name b, [MSaving name], Ok tt) /\ zlen b = 143360 /\ SdSpec.jump b = a /\
       forall m0, exists m, SdSpec.boot b m0 = Some m /\ forall p, m p = SdSpec.loaded (map SdSpec.effective (places segs)) m0 p) /\
  (~ (SdSpec.total_pages (places segs) <= 559 /\ SdSpec.list_cost false (places segs) <= 119) ->
     exists e, main w o f name (KBoot src args obj run) = (f, [], Err e)).
Proof.
  intros Bc G Ne Ts Ra Ca. destruct (gathered_spec _ _ _ _ _ _ _ _ G) as (rn & A & T). rewrite Ts in T.
  assert (Rn : rn = RNum a) by (destruct rn as [|t|x]; [discriminate T|discriminate T|]; cbn [run_opt truthy] in T; destruct (x =? 0); congruence). subst rn.
  pose proof (Properties_Sd.C68_fits (places segs) (Some a) a Ca (or_introl eq_refl)) as Fi.
  assert (Mk : main w o f name (KBoot src args obj run) = match sd_create (map SdProofs2.to_seg (places segs)) (Some a) with Ok b => (fput f name b, [MSaving name], Ok tt) | Err e => (f, [], Err e) end).
  { cbn [main]. unfold boot_command, boot_image. rewrite Bc, A. destruct segs as [|s0 sl]; [congruence|]. cbn [boot_make]. rewrite sd_segs. destruct (sd_create _ _); reflexivity. }
  rewrite Mk. split.
  - intros H. apply Fi in H. destruct H as (b & E). rewrite E. exists b. split; [reflexivity|]. split; [|split].
    + apply (Properties_Sd.C43_loads_exactly (places segs) (Some a) a b (fun _ => 0) Ca (or_introl eq_refl) Ra E).
    + apply (Properties_Sd.C43_loads_exactly (places segs) (Some a) a b (fun _ => 0) Ca (or_introl eq_refl) Ra E).
    + intros m0. apply (Properties_Sd.C43_loads_exactly (places segs) (Some a) a b m0 Ca (or_introl eq_refl) Ra E).
  - intros H. destruct (sd_create _ _) as [b|e]; [exfalso; apply H, Fi; exists b; reflexivity|]. exists e. reflexivity.
Qed.
Print Assumptions C77_boot_dsk_partial.
Lemma xex1_gathered_any f : f p_xex = Some xex1 -> gathered w0 f [] [] [p_xex] [] [seg1] (Some 0x601).
Proof.
  intros F. exists [], [], [[mkX true NoName 2 6 0x2e0 [1; 6]; mkX false NoName 8 12 0x600 [7; 8]]]. split; [reflexivity|]. split; [reflexivity|].
  split; [constructor; [|constructor]|split; [intros s [<-|[<-|[]]] _; cbn; lia|split; reflexivity]].
  destruct (xex1_segs []) as (N & b1 & fd1 & F1 & F2). split; [exact N|]. exists xex1, fd1. split; [exact F|].
  change (Some xex1 = Some b1) in F1. injection F1 as <-. exact F2.
Qed.
Example C77_example : exists b bt ms, main w0 no_opts (xex_fs xex1) p_dsk (KBoot [] [] [p_xex] []) = (fput (xex_fs xex1) p_dsk b, [MSaving p_dsk], Ok tt) /\ SdSpec.jump b = 0x601 /\
    (exists m, SdSpec.boot b (fun _ => 0) = Some m /\ m 0x600 = 7 /\ m 0x601 = 8) /\
  main w0 no_opts (xex_fs xex1) p_atr (KBoot [] [] [p_xex] []) = (fput (xex_fs xex1) p_atr bt, [MSaving p_atr], Ok tt) /\
  main w0 no_opts (fput (xex_fs xex1) p_atr bt) p_atr (KExtract [kboot_name]) =
    (fput (fput (xex_fs xex1) p_atr bt) (out_path no_opts kboot_name) [255; 255; 0xe0; 2; 0xe1; 2; 0; 6; 0; 6; 1; 6; 7; 8], ms, Ok tt).
Proof.
  assert (Ca : Properties_Sd.all_carried (places [seg1])).
  { constructor; [|constructor]. split; [left; vm_compute; split; intros X; discriminate X|]. repeat constructor; discriminate. }
  destruct (C77_boot_dsk_partial w0 no_opts (xex_fs xex1) p_dsk [] [] [p_xex] [] [seg1] (Some 0x601) 0x601) as [H _]; try assumption; try reflexivity; try lia; try discriminate; [apply xex1_gathered_any; reflexivity|].
  destruct H as (b & E & _ & J & M); [vm_compute; split; intros X; discriminate X|]. destruct (M (fun _ => 0)) as (m & B & V).
  destruct (C77_boot_atr_partial w0 no_opts (xex_fs xex1) p_atr [] [] [p_xex] [] [seg1] (Some 0x601) [255; 255; 0xe0; 2; 0xe1; 2; 0; 6; 0; 6; 1; 6; 7; 8]) as (bt & Et & Kb & X); [reflexivity|apply xex1_gathered_any; reflexivity|discriminate|reflexivity|reflexivity|].
  destruct (X) with (o2 := no_opts) (f2 := fput (xex_fs xex1) p_atr bt) as (ms & Ex).
  - split; [|reflexivity]. split; [reflexivity|]. split; [reflexivity|]. split; [reflexivity|].
    assert (Hb : getb bt 0 = 0x96).
    { clear -Kb. vm_compute in Kb. injection Kb as <-. reflexivity. }
    rewrite Hb. intros (_ & [Q|Q] & _); discriminate.
  - apply fput_eq.
  - reflexivity.
  - reflexivity.
  - left. reflexivity.
  - exists b, bt, ms. split; [exact E|]. split; [exact J|]. split; [exists m; split; [exact B|]; rewrite !V; split; reflexivity|]. split; [exact Et|exact Ex].
Qed.
(** Exceptions.  Without a start address no boot disk for Apple computers is made, unless
    an unreadable one is given; boot disks for Atari computers start with the first
    segment whatever is asked for. *)
Definition xex_norun : list Z := [255; 255; 0; 6; 1; 6; 7; 8].
Theorem C77_no_start_address_refuted : exists f b, gathered w0 f [] [] [p_xex] [] [seg1] None /\
  (exists b2, sd_create [mkSeg 0x600 [7; 8]] None = Ok b2) /\
  main w0 no_opts f p_dsk (KBoot [] [] [p_xex] []) = (f, [], Err EType) /\
  main w0 no_opts f p_dsk (KBoot [] [] [p_xex] [120; 121; 122]) = (fput f p_dsk b, [MSaving p_dsk], Ok tt).
Proof.
  assert (Ca : Properties_Sd.all_carried (places [seg1])).
  { constructor; [|constructor]. split; [left; vm_compute; split; intros X; discriminate X|]. repeat constructor; discriminate. }
  assert (Fi : exists b, sd_create (map SdProofs2.to_seg (places [seg1])) None = Ok b).
  { apply (Properties_Sd.C68_fits (places [seg1]) None 0x600 Ca); [right; split; [reflexivity|]; exists [7; 8], []; reflexivity|]. vm_compute; split; intros X; discriminate X. }
  destruct Fi as (b & E).
  exists (xex_fs xex_norun), b. split; [|split; [exists b; exact E|split; [vm_compute; reflexivity|]]].
  - exists [], [], [[mkX false NoName 2 6 0x600 [7; 8]]]. split; [reflexivity|]. split; [reflexivity|]. split; [constructor; [|constructor]|split; [intros s [<-|[]] X; discriminate X|split; reflexivity]].
    split; [discriminate|]. exists xex_norun. eexists. split; [reflexivity|]. split; [vm_compute; reflexivity|reflexivity].
  - cbn [main]. unfold boot_command, boot_image. change (boot_class p_dsk) with (Some BStandard). cbv iota.
    assert (A : assemble_segments w0 (xex_fs xex_norun) [] [] [p_xex] [120; 121; 122] = ([], Ok ([seg1], RNone))) by (vm_compute; reflexivity).
    rewrite A. cbn [boot_make map]. change (sd_create [mkSeg (i_origin seg1) (i_data seg1)] None) with (sd_create (map SdProofs2.to_seg (places [seg1])) None). rewrite E. reflexivity.
Qed.
Print Assumptions C77_no_start_address_refuted.
Theorem C77_atari_start_ignored_refuted : forall o f name src args obj run run' segs r r', boot_class name = Some BKBoot ->
  assemble_segments w0 f src args obj run = ([], Ok (segs, r)) -> assemble_segments w0 f src args obj run' = ([], Ok (segs, r')) ->
  main w0 o f name (KBoot src args obj run) = main w0 o f name (KBoot src args obj run').
Proof. intros o f name src args obj run run' segs r r' Bc A A'. cbn [main]. unfold boot_command, boot_image. rewrite Bc, A, A'. destruct segs; reflexivity. Qed.
Print Assumptions C77_atari_start_ignored_refuted.

(** * C78: recognised executables *)
(** What the program itself makes is recognised: XEX files, BSAVE files and boot images. *)
Theorem C78_xex_recognised e segs run x : Forall seg_ok segs -> get_xex segs run = Ok x -> bytes_ok x ->
  ~ In (zlen x) atari_sizes -> ~ sparta_boot_record x -> unclaimed e x ->
  exists d rep, find_diskimage e x = Ok (mkFound M_xex d PXex (IXex rep)) /\
    map seen rep = (if existsb (fun s => i_origin s =? 0x2e0) segs then [] else [(0x2e0, put2 (Properties_Exec.wanted segs run))]) ++ map given segs.
Proof.
  intros Sk G Hb Sz Sp U. assert (H01 : getb x 0 = 255 /\ getb x 1 = 255) by (destruct (get_xex_spec _ _ _ G) as [[_ ->]|[_ (a & _ & ->)]]; split; reflexivity).
  destruct (C23_xex_round_trip_partial t_xex segs run x t_XEX (zrepeat 0 (zlen x)) Sk eq_refl) as (rep & Y & M & _).
  { unfold create_executable. change (ends_with (map lower t_xex) t_xex) with true. cbn iota. rewrite G. reflexivity. }
  destruct (xex_found e x rep Hb (proj1 H01) (proj2 H01) Sz Sp U Y) as (d & E). exists d, rep. split; [exact E|exact M].
Qed.
Print Assumptions C78_xex_recognised.
Theorem C78_bsave_recognised e b base len m : bytes_ok b -> loads_as b base len m -> base <> 65535 -> base <> 0x0296 ->
  slice b 0 4 <> CartModel.cart_magic -> ~ sparta_boot_record b -> unclaimed e b -> e_zip e b = NotZip -> 0 <= len ->
  exists s, find_diskimage e b = Ok (mkFound M_bin None PBin (IBin s)) /\ x_runad s = false /\ x_origin s = base /\ zlen (x_data s) = len /\
    forall a, base <= a < base + len -> getb (x_data s) (a - base) = m a.
Proof.
  intros Hb (L1 & L2 & L3 & L4) B1 B2 Nm Sp U Z0 Ln.
  assert (E : exists s, parse_bsave b = Ok s /\ x_runad s = false /\ x_origin s = base /\ x_data s = slice b 4 (zlen b)).
  { unfold parse_bsave. rewrite (zlen_slice b 0 4) by lia. cbv iota. change (4 - 0 =? 4) with true. cbv iota. rewrite L2. replace (len =? zlen b - 4) with true by lia. cbn [negb].
    rewrite (zlen_slice b 4 (4 + len)) by lia. replace (4 + len - 4 =? len) with true by lia. eexists. split; [reflexivity|]. split; [reflexivity|]. split; [exact L1|]. cbn [x_data]. f_equal. lia. }
  destruct E as (s & P & S1 & S2 & S3). exists s. split; [|split; [exact S1|split; [exact S2|split]]].
  - apply bin_found; try assumption.
    + intros [X Y]. rewrite X, Y in L1. unfold le2 in L1. lia.
    + intros (_ & X & Y). rewrite X, Y in L1. unfold le2 in L1. lia.
  - rewrite S3, zlen_slice by lia. lia.
  - intros a Ha. rewrite S3, getb_slice by lia. apply L4, Ha.
Qed.
Print Assumptions C78_bsave_recognised.
Theorem C78_boot_image_recognised e segs run x b : get_xex segs None = Ok x -> zlen x < 65536 -> kboot_create segs run = Ok b -> unclaimed e b ->
  exists d k, find_diskimage e b = Ok (mkFound M_atr d PKBoot (IKBoot k)) /\ kboot_file k = x.
Proof.
  intros G Zx K U. rewrite (kboot_create_atr segs run x G) in K. apply (kboot_found e x b); try assumption. split; [|exact Zx].
  destruct (get_xex_spec _ _ _ G) as [[_ ->]|[_ (a & _ & ->)]]; rewrite zlen_app; change (zlen [255; 255]) with 2; match goal with |- context [zlen (flat_map ?g ?l)] => pose proof (zlen_nonneg (flat_map g l)) end; lia.
Qed.
Print Assumptions C78_boot_image_recognised.
Example C78_example : exists d rep s b, find_diskimage env0 xex1 = Ok (mkFound M_xex d PXex (IXex rep)) /\ map seen rep = [(0x2e0, [1; 6]); (0x600, [7; 8])] /\
  get_bsave [seg1] None = Ok b /\ find_diskimage env0 b = Ok (mkFound M_bin None PBin (IBin s)) /\ x_origin s = 0x600 /\ getb (x_data s) 1 = 8.
Proof.
  assert (Sk : Forall seg_ok [seg1]) by (constructor; [unfold seg_ok; repeat split; try (vm_compute; congruence); try (apply AtariDemo.bytes_ok_b; reflexivity)|constructor]).
  destruct (C78_xex_recognised env0 [seg1] (Some 0x601) xex1 Sk xex1_made) as (d & rep & E & M).
  - apply AtariDemo.bytes_ok_b. reflexivity.
  - vm_compute. intuition discriminate.
  - apply short_no_sparta. vm_compute. reflexivity.
  - apply unclaimed_ff. reflexivity.
  - assert (Ft : ExecSpec.fits [seg1] 0x600 0x602).
    { split; [lia|]. split; [lia|]. split; [intros s [<-|[]]; vm_compute; split; intros X; discriminate X|]. split; constructor; reflexivity. }
    destruct (C25_bsave_loads_the_segments_partial [seg1] None 0x600 0x602 Ft ltac:(lia) ltac:(lia) (or_introl eq_refl)) as (b & G & Lb).
    assert (Eb : b = [0; 6; 2; 0; 7; 8]) by (vm_compute in G; congruence).
    destruct (C78_bsave_recognised env0 b 0x600 2 (memory [seg1])) as (s & F & _ & O & _ & V); try lia; try assumption; try reflexivity; try (subst b; discriminate).
    + subst b. apply AtariDemo.bytes_ok_b. reflexivity.
    + subst b. apply short_no_sparta. vm_compute. reflexivity.
    + subst b. split; [|reflexivity]. split; [reflexivity|]. split; [reflexivity|]. split; [reflexivity|]. intros (_ & [X|X] & _); discriminate.
    + exists d, rep, s, b. split; [exact E|]. split; [rewrite M; reflexivity|]. split; [exact G|]. split; [exact F|]. split; [exact O|]. change 1 with (0x601 - 0x600) at 1. rewrite V by lia. reflexivity.
Qed.
