(** C97: SpartaDOS disks are recognised, and the commands show, extract and keep what is on
    them. *)
From Verif Require Import Base BaseLemmas DiskModel AtariModel AtariSpec AtariGeom AtariHeader SpartaModel SpartaSpec SpartaProofs SpartaProofs2 SpartaLoops.
From Verif Require Import ExecModel CliModel CliProofs SdModel DetectModel DetectSpec DetectProofs MainModel MainProofs Properties_Detect Properties_Detect2 Properties_Cli Properties_Main SpartaWhole.
From Verif Require Properties_Sparta.

(** The file [img] is a SpartaDOS disk of which everything can be read, and is not taken
    for anything else first. *)
Record sparta_at (w : world) (f : fs) (img : list Z) (h : hdr) (b dir : list Z) (k : Z) (secs : Z -> list Z) : Prop := mkAt {
  at_name : img <> [46];
  at_file : f img = Some b;
  at_hdr : hdr_of b = Ok h;
  at_whole : whole (geom_of h) b dir k secs;
  at_size : accepted_size h b;
  at_claim : unclaimed (w_env w) b;
  at_jump : ~ jumpman_short b;
  at_boot : ~ like_boot_disk (geom_of h) b }.

Lemma refused e b x : kboot_open b = Err (EAtr x) -> x <> UnsupportedDiskImage -> refuses (parse e true PKBoot b).
Proof. intros E N. unfold refuses, parse. cbn [parse_image]. rewrite E. cbn [rbind as_parser]. destruct x; try reflexivity. congruence. Qed.

(** Such a disk is recognised. *)
Theorem C97_recognised_partial w f img h b dir k secs : sparta_at w f img h b dir k secs ->
  exists d im, find_diskimage (w_env w) b = Ok (mkFound M_atr d PSparta (ISparta im)) /\ open_sparta b = Ok im.
Proof.
  intros [_ _ Hh W A [NC NS] NJ NB]. set (e := w_env w) in *. destruct (detail_ok M_atr b NJ) as [d Hd].
  destruct (whole_open b h dir k secs Hh W) as (im & O & _). exists d, im. split; [|exact O].
  assert (P : parse e true PSparta b = Ok (ISparta im)) by exact (sparta_parses b h dir k secs Hh W e im A O).
  apply (C45_first_wins e b b (true, (M_atr, PSparta)) (ISparta im) d); [apply unpacked_plain; exact NC| |exact P|exact Hd].
  rewrite (attempts_plain _ _ NS). exists [(true, (M_atr, PKBoot))]. eexists. split; [reflexivity|]. split.
  - intros q [<-|[]]. unfold attempt. cbn [fst snd].
    destruct (proj2 (kboot_answer b h dir k secs Hh W) NB) as [K|K]; apply (refused e b _ K); discriminate.
  - unfold attempt. cbn [fst snd]. rewrite P. discriminate.
Qed.
Print Assumptions C97_recognised_partial.
(** Disks with 128- or 256-byte sectors do not look like boot disks for one program, except
    those whose number of sectors is a multiple of 513 or 257, or that are very large. *)
Theorem C97_usual_sizes b h dir k : hdr_of b = Ok h -> sparta_disk (geom_of h) b dir k ->
  (h_ssize h = 128 /\ h_max h <= 40000 /\ h_max h mod 513 <> 0) \/ (h_ssize h = 256 /\ h_max h mod 257 <> 0) ->
  ~ like_boot_disk (geom_of h) b.
Proof. apply usual_not_boot. Qed.
Print Assumptions C97_usual_sizes.
(** Any SpartaDOS disk that does is taken for one. *)
Theorem C97_like_boot_disk e h b dir k secs : hdr_of b = Ok h -> whole (geom_of h) b dir k secs -> accepted_size h b -> unclaimed e b -> ~ jumpman_short b ->
  like_boot_disk (geom_of h) b -> exists fd, find_diskimage e b = Ok fd /\ f_class fd = PKBoot.
Proof.
  intros Hh W A [NC NS] NJ LB. destruct (detail_ok M_atr b NJ) as [d Hd].
  destruct (proj1 (kboot_answer b h dir k secs Hh W) LB) as (x & K).
  assert (P : parse e true PKBoot b = Ok (IKBoot (mkK h b (spos (geom_of h) 4) x))).
  { unfold parse. cbn [parse_image]. rewrite K. cbn [rbind k_hdr]. rewrite (strict_ok b h A). reflexivity. }
  exists (mkFound M_atr d PKBoot (IKBoot (mkK h b (spos (geom_of h) 4) x))). split; [|reflexivity].
  apply (C45_first_wins e b b (true, (M_atr, PKBoot)) _ d); [apply unpacked_plain; exact NC| |exact P|exact Hd].
  rewrite (attempts_plain _ _ NS). exists []. eexists. split; [reflexivity|]. split; [intros q []|].
  unfold attempt. cbn [fst snd]. rewrite P. discriminate.
Qed.
Print Assumptions C97_like_boot_disk.

Lemma run_sparta w f img h b dir k secs : sparta_at w f img h b dir k secs ->
  exists im, open_sparta b = Ok im /\ Forall2 (reads b h dir secs im) (zrange 1 (k + 1)) (s_files im) /\
  forall o c, ~ is_create c -> ~ is_boot c -> c <> KSegments ->
  main w o f img c = image_command sparta_api (Some t_XEX) sparta_vtoc w o f img im c.
Proof.
  intros T. destruct (C97_recognised_partial w f img h b dir k secs T) as (d & im & E & O). destruct T as [N F Hh W _ _ _ _].
  exists im. split; [exact O|]. split.
  { destruct (whole_open b h dir k secs Hh W) as (im' & O' & _ & _ & _ & _ & _ & R). rewrite O in O'. injection O' as <-. exact R. }
  intros o c C1 C2 C3. assert (X : zlist_eqb img [46] = false) by (apply zlist_eqb_neq; exact N).
  destruct c; try (exfalso; apply C1; exact I); try (exfalso; apply C2; exact I); try (exfalso; apply C3; reflexivity);
    cbn [main]; rewrite X, F, E; reflexivity.
Qed.

Definition chosen (dir : list Z) (k : Z) (files : list (list Z)) : list Z :=
  filter (fun i => match files with [] => true | _ => existsb (zlist_eqb (se_name (s_entry dir i))) files end) (zrange 1 (k + 1)).
(** list shows the names of the entries of the root directory, in order; with checksums
    (or as crc) those of their contents. *)
Theorem C97_list w o f img h b dir k secs files : sparta_at w f img h b dir k secs ->
  main w o f img (KList false files) = (f, map (fun i => MFile (se_name (s_entry dir i))) (chosen dir k files), Ok tt).
Proof.
  intros T. destruct (run_sparta w f img h b dir k secs T) as (im & O & R & M). rewrite M by (cbn; auto; discriminate).
  cbn [image_command list_command]. unfold list_files. change (p_name sparta_api) with sfilename.
  pose proof (sparta_listed b h dir k secs im files R) as L. fold (chosen dir k files) in L. f_equal. f_equal.
  clear - L. induction L as [|i d l r (N & _) _ IH]; [reflexivity|]. cbn [map]. rewrite N, IH. reflexivity.
Qed.
Print Assumptions C97_list.
Theorem C97_crc w o f img h b dir k secs files c : sparta_at w f img h b dir k secs -> c = KCrc files \/ c = KList true files ->
  main w o f img c = (f, map (fun i => MCrc (se_name (s_entry dir i)) (w_crc w (contents (geom_of h) b dir secs i))) (chosen dir k files), Ok tt).
Proof.
  intros T C. destruct (run_sparta w f img h b dir k secs T) as (im & O & R & M). rewrite M by (destruct C as [-> | ->]; cbn; auto; discriminate).
  assert (E : image_command sparta_api (Some t_XEX) sparta_vtoc w o f img im c = let (m, x) := crc_files sparta_api (w_crc w) im files in (f, m, x)).
  { destruct C as [-> | ->]; reflexivity. }
  rewrite E. unfold crc_files. pose proof (sparta_listed b h dir k secs im files R) as L. fold (chosen dir k files) in L.
  assert (Q : crc_loop sparta_api (w_crc w) im (listed_names sparta_api im files) =
    (map (fun i => MCrc (se_name (s_entry dir i)) (w_crc w (contents (geom_of h) b dir secs i))) (chosen dir k files), Ok tt)).
  { clear - L. induction L as [|i d l r (N & G) _ IH]; [reflexivity|]. cbn [crc_loop map]. change (p_read sparta_api im d) with (sget_file im d).
    rewrite G, IH. change (p_name sparta_api d) with (sfilename d). rewrite N. reflexivity. }
  rewrite Q. reflexivity.
Qed.
Print Assumptions C97_crc.
(** extract writes the contents of the wanted files.  Without --force a path that exists is
    left alone and the first file extracted to a path stays; with --force the last one. *)
Theorem C97_extract w o f img h b dir k secs files f' m r : sparta_at w f img h b dir k secs -> o_dry o = false ->
  main w o f img (KExtract files) = (f', m, r) ->
  r = Ok tt /\
  forall p, f' p = if o_force o
                   then match first_for p (rev (sparta_outputs o (geom_of h) b dir k secs files)) with Some x => Some x | None => f p end
                   else match f p with Some x => Some x | None => first_for p (sparta_outputs o (geom_of h) b dir k secs files) end.
Proof.
  intros T D E. destruct (run_sparta w f img h b dir k secs T) as (im & O & R & M). rewrite M in E by (cbn; auto; discriminate).
  cbn [image_command] in E. destruct (sparta_extract b h dir k secs o im f files f' m r R D E) as [-> X]. split; [reflexivity|].
  intros p. rewrite X, !written_first. reflexivity.
Qed.
Print Assumptions C97_extract.
(** In particular a file named alone comes out as it is on the disk. *)
Theorem C97_one_file w o f img h b dir k secs n i f' m r : sparta_at w f img h b dir k secs -> o_dry o = false -> o_all o = false -> o_text o = false ->
  1 <= i <= k -> se_name (s_entry dir i) = n -> (forall j, 1 <= j < i -> se_name (s_entry dir j) <> n) ->
  f (out_path o n) = None \/ o_force o = true ->
  main w o f img (KExtract [n]) = (f', m, r) ->
  r = Ok tt /\ f' (out_path o n) = Some (file_bytes (geom_of h) b (se_len (s_entry dir i)) (secs i)) /\
  forall p, p <> out_path o n -> f' p = f p.
Proof.
  intros T D A X Hi Hn Hj Ab E. destruct (C97_extract w o f img h b dir k secs [n] f' m r T D E) as [-> Q]. split; [reflexivity|].
  assert (N : entry_named dir k n = Some i).
  { unfold entry_named. clear - Hi Hn Hj. assert (G : forall l a, (forall j, a <= j < i -> se_name (s_entry dir j) <> n) -> a <= i < a + Z.of_nat l ->
      find (fun i => zlist_eqb n (se_name (s_entry dir i))) (zseq_nat a l) = Some i).
    { induction l as [|l IH]; intros a H1 H2; [lia|]. cbn [zseq_nat find]. destruct (Z.eq_dec a i) as [->|Na].
      - rewrite (proj2 (zlist_eqb_eq _ _) (eq_sym Hn)). reflexivity.
      - rewrite (proj2 (zlist_eqb_neq _ _)); [apply IH; [intros j Hj'; apply H1; lia|lia]|]. intros Q. apply (H1 a); [lia|symmetry; exact Q]. }
    apply G; [exact Hj|lia]. }
  assert (Os : sparta_outputs o (geom_of h) b dir k secs [n] = [(out_path o n, file_bytes (geom_of h) b (se_len (s_entry dir i)) (secs i))]).
  { unfold sparta_outputs. rewrite A. cbn [flat_map]. rewrite N. cbn [app map]. rewrite Hn. unfold converted. rewrite X. reflexivity. }
  rewrite Os in Q. cbn [rev app first_for] in Q. split.
  - rewrite Q. destruct (list_eq_dec Z.eq_dec (out_path o n) (out_path o n)) as [_|Z0]; [|contradiction]. destruct (o_force o); [reflexivity|]. destruct Ab as [->|?]; [reflexivity|discriminate].
  - intros p Hp. rewrite Q. destruct (list_eq_dec Z.eq_dec (out_path o n) p) as [Z0|_]; [congruence|]. destruct (o_force o), (f p); reflexivity.
Qed.
Print Assumptions C97_one_file.
(** Adding, deleting and assembling leave every file alone, the image included. *)
Definition would_change (c : cmd) : Prop :=
  match c with KAdd _ | KDelete _ | KAssemble _ _ _ _ _ => True | _ => False end.
Theorem C97_kept w o f img h b dir k secs c f' m r : sparta_at w f img h b dir k secs -> would_change c ->
  main w o f img c = (f', m, r) -> f' = f.
Proof.
  intros T C E. destruct (run_sparta w f img h b dir k secs T) as (im & O & R & M). rewrite M in E by (destruct c; cbn in C |- *; auto; discriminate).
  assert (S1 : forall im n t d im' ms x, save_file sparta_api o im n t d = (im', ms, x) -> x <> Ok true).
  { clear. intros im n t d im' ms x E. unfold save_file in E.
    assert (G : forall im2 im' ms x, (if o_dry o then (im2, [MCopying n], Ok false) else let (im', r) := p_write sparta_api im2 n t d in (im', [MCopying n], let! _ := r in Ok true)) = (im', ms, x) -> x <> Ok true).
    { intros im2 im0 ms0 x0 G. destruct (o_dry o); [injection G as _ _ <-; discriminate|]. cbn [p_write sparta_api] in G.
      destruct (swrite_file im2 n d) as [im3 y]. cbn [rbind] in G. injection G as _ _ <-. discriminate. }
    destruct (p_find sparta_api im n); [|exact (G _ _ _ _ E)]. destruct (o_force o); [|injection E as _ _ <-; discriminate].
    destruct (p_delete sparta_api im n) as [im2 [u|y]]; [exact (G _ _ _ _ E)|].
    destruct y as [y| | | | | | | | | | | |]; try (injection E as _ _ <-; discriminate). destruct y; try (injection E as _ _ <-; discriminate). exact (G _ _ _ _ E). }
  assert (S2 : forall ft l im ch im' ms x, ch = false -> add_loop sparta_api o f im ft l ch = (im', ms, x) -> x <> Ok true).
  { clear - S1. intros ft. induction l as [|p l IH]; intros im ch im' ms x Hc E; cbn [add_loop] in E; [injection E as _ _ <-; subst ch; discriminate|].
    destruct (f p) as [dd|]; [|injection E as _ _ <-; discriminate]. destruct (save_file sparta_api o im (basename p []) ft dd) as [[im1 m1] [c|y]] eqn:Sv.
    - pose proof (S1 _ _ _ _ _ _ _ Sv) as Nc. destruct (add_loop sparta_api o f im1 ft l c) as [[im2 m2] z] eqn:L. injection E as _ _ <-.
      apply (IH im1 c im2 m2 z); [destruct c; congruence|exact L].
    - injection E as _ _ <-. discriminate. }
  assert (S3 : forall l im ch im' ms x, ch = false -> remove_loop sparta_api o im l ch = (im', ms, x) -> x <> Ok true).
  { clear. induction l as [|n l IH]; intros im ch im' ms x Hc E; cbn [remove_loop] in E; [injection E as _ _ <-; subst ch; discriminate|].
    destruct (p_find sparta_api im n).
    - destruct (o_dry o).
      + destruct (remove_loop sparta_api o im l ch) as [[im2 m2] z] eqn:L. injection E as _ _ <-. exact (IH _ _ _ _ _ Hc L).
      + cbn [p_delete sparta_api] in E. destruct (sdelete_file im n) as [im2 y]. injection E as _ _ <-. discriminate.
    - destruct (remove_loop sparta_api o im l ch) as [[im2 m2] z] eqn:L. injection E as _ _ <-. exact (IH _ _ _ _ _ Hc L). }
  assert (S4 : forall x f' m r, snd x <> Ok true -> save_if sparta_api f img x = (f', m, r) -> f' = f).
  { clear. intros [[im ms] [[]|y]] f' m r N E; cbn [save_if snd] in *; [congruence|injection E as <- _ _; reflexivity|injection E as <- _ _; reflexivity]. }
  destruct c as [crc fl|fl|fl|fl|t|src data obj run output|src data obj run|fl|cl|]; try (exfalso; exact C); cbn [image_command] in E.
  - unfold add_files in E. destruct (add_loop sparta_api o f im (filetype sparta_api o) fl false) as [[im1 m1] x] eqn:L.
    apply (S4 _ f' m r) in E; [exact E|]. cbn [snd]. exact (S2 _ _ _ _ _ _ _ eq_refl L).
  - destruct (assemble_segments w f src data obj run) as [ms [[segs st]|y]]; [|injection E as <- _ _; reflexivity].
    destruct (executable (Some t_XEX) output segs st) as [[x ty]|y]; [|injection E as <- _ _; reflexivity].
    unfold assemble_save in E. destruct (save_file sparta_api o im output ty x) as [[im1 m1] z] eqn:Sv.
    destruct (save_if sparta_api f img (im1, m1, z)) as [[f2 m2] z2] eqn:Si. injection E as <- _ _.
    apply (S4 _ f2 m2 z2) in Si; [exact Si|]. cbn [snd]. exact (S1 _ _ _ _ _ _ _ Sv).
  - unfold remove_files in E. destruct (remove_loop sparta_api o im fl false) as [[im1 m1] x] eqn:L.
    apply (S4 _ f' m r) in E; [exact E|]. cbn [snd]. exact (S3 _ _ _ _ _ _ eq_refl L).
Qed.
Print Assumptions C97_kept.

(** * Examples: the disk of [C41_demo_disk] with an ATR header *)
Definition demo_atr : list Z := [0x96; 2; 72; 0; 128; 0] ++ zrepeat 0 10 ++ Properties_Sparta.demo.
Definition demo_atr_h : hdr := mkH 16 1152 128 0 0 125 9 0 0 0.
Definition demo_secs (i : Z) : list Z := if i =? 1 then [6; 7] else [9].
Lemma demo_map b start ds n : usable (geom_of demo_atr_h) start -> Forall (usable (geom_of demo_atr_h)) ds -> ~ In 0 ds ->
  map_next (sector (geom_of demo_atr_h) b start) = 0 -> map_entries (sector (geom_of demo_atr_h) b start) = ds ++ 0 :: zrepeat 0 n ->
  is_file (geom_of demo_atr_h) b start ds.
Proof.
  intros U Us Nz E M. exists [start], (map_entries (sector (geom_of demo_atr_h) b start)). split; [apply map_end; assumption|].
  split; [exists (zrepeat 0 n); auto|exact Us].
Qed.
Lemma demo_us n : 1 <= n <= 9 -> usable (geom_of demo_atr_h) n.
Proof. intros H. split; [exact H|]. left. reflexivity. Qed.
Lemma demo_whole : whole (geom_of demo_atr_h) demo_atr Properties_Sparta.demo_dir 2 demo_secs.
Proof.
  constructor.
  - constructor; try (vm_compute; intuition congruence).
    + apply Properties_Sparta.bytes_okb. vm_compute. reflexivity.
    + exists [4]. split; [|split; [discriminate|vm_compute; reflexivity]].
      apply (demo_map demo_atr 3 [4] 60); [apply demo_us; lia|constructor; [apply demo_us; lia|constructor]|intros [H|[]]; discriminate H|vm_compute; reflexivity|vm_compute; reflexivity].
  - intros i Hi. assert (i = 1 \/ i = 2) as [-> | ->] by lia.
    + split; [|split; [discriminate|vm_compute; intuition congruence]]. change (se_start (s_entry Properties_Sparta.demo_dir 1)) with 5.
      apply (demo_map demo_atr 5 [6; 7] 59); [apply demo_us; lia|constructor; [apply demo_us; lia|constructor; [apply demo_us; lia|constructor]]|intros [H|[H|[]]]; discriminate H|vm_compute; reflexivity|vm_compute; reflexivity].
    + split; [|split; [discriminate|vm_compute; intuition congruence]]. change (se_start (s_entry Properties_Sparta.demo_dir 2)) with 8.
      apply (demo_map demo_atr 8 [9] 60); [apply demo_us; lia|constructor; [apply demo_us; lia|constructor]|intros [H|[]]; discriminate H|vm_compute; reflexivity|vm_compute; reflexivity].
  - vm_compute. intuition congruence.
Qed.
Definition p_sparta : list Z := [115; 46; 97; 116; 114].
Definition demo_files : fs := fput (fun _ => None) p_sparta demo_atr.
Lemma demo_at : sparta_at w0 demo_files p_sparta demo_atr_h demo_atr Properties_Sparta.demo_dir 2 demo_secs.
Proof.
  constructor; [discriminate|reflexivity|vm_compute; reflexivity|exact demo_whole|left; reflexivity|apply env0_unclaimed; reflexivity| |].
  - intros (_ & [H|H]); vm_compute in H; discriminate H.
  - apply (C97_usual_sizes demo_atr demo_atr_h Properties_Sparta.demo_dir 2); [vm_compute; reflexivity|exact (wh_disk _ _ _ _ _ demo_whole)|].
    left. vm_compute. intuition congruence.
Qed.
(** The file A.TXT comes out with its 200 bytes. *)
Example C97_example : exists f' m, main w0 no_opts demo_files p_sparta (KExtract [[65; 46; 84; 88; 84]]) = (f', m, Ok tt) /\
  f' [65; 46; 84; 88; 84] = Some (Properties_Sparta.body 1 128 ++ Properties_Sparta.body 50 72) /\
  main w0 no_opts demo_files p_sparta (KList false []) = (demo_files, [MFile [65; 46; 84; 88; 84]; MFile [66]], Ok tt).
Proof.
  destruct (main w0 no_opts demo_files p_sparta (KExtract [[65; 46; 84; 88; 84]])) as [[f' m] r] eqn:E. exists f', m.
  destruct (C97_one_file w0 no_opts demo_files p_sparta demo_atr_h demo_atr Properties_Sparta.demo_dir 2 demo_secs [65; 46; 84; 88; 84] 1 f' m r demo_at eq_refl eq_refl eq_refl ltac:(lia) ltac:(vm_compute; reflexivity) ltac:(intros j Hj; lia) ltac:(left; reflexivity) E) as (-> & F & _).
  split; [reflexivity|]. split; [exact F|]. exact (C97_list w0 no_opts demo_files p_sparta demo_atr_h demo_atr Properties_Sparta.demo_dir 2 demo_secs [] demo_at).
Qed.

(** list shows deleted files as well, and extract --all writes them: B is deleted. *)
Theorem C97_deleted_refuted : exists w f img b im d f' m x,
  f img = Some b /\ open_sparta b = Ok im /\ In d (s_files im) /\ sd_deleted d = true /\ sd_inuse d = false /\ ~ In d (slisted im) /\
  In (MFile (sfilename d)) (snd (fst (main w no_opts f img (KList false [])))) /\
  main w (mkO false false false false true None []) f img (KExtract []) = (f', m, Ok tt) /\ f (sfilename d) = None /\ f' (sfilename d) = Some x /\ x <> [].
Proof.
  exists w0, demo_files, p_sparta, demo_atr. destruct (open_sparta demo_atr) as [im|] eqn:O; [|vm_compute in O; discriminate O].
  assert (Q : exists d, nth_error (s_files im) 1 = Some d /\ sd_deleted d = true /\ sd_inuse d = false /\ sfilename d = [66]).
  { vm_compute in O. injection O as <-. eexists. split; [reflexivity|]. split; [reflexivity|]. split; reflexivity. }
  destruct Q as (d & N & D1 & D2 & Nm). exists im, d.
  destruct (main w0 (mkO false false false false true None []) demo_files p_sparta (KExtract [])) as [[f' m] r] eqn:E.
  exists f', m. exists (file_bytes (geom_of demo_atr_h) demo_atr 10 [9]).
  destruct (C97_extract w0 (mkO false false false false true None []) demo_files p_sparta demo_atr_h demo_atr Properties_Sparta.demo_dir 2 demo_secs [] f' m r demo_at eq_refl E) as (-> & F).
  split; [reflexivity|]. split; [reflexivity|]. split; [exact (nth_error_In _ _ N)|]. split; [exact D1|]. split; [exact D2|].
  split. { unfold slisted. rewrite filter_In, D2. intros [_ X]. discriminate X. }
  rewrite (C97_list w0 no_opts demo_files p_sparta demo_atr_h demo_atr Properties_Sparta.demo_dir 2 demo_secs [] demo_at), Nm.
  split; [right; left; reflexivity|]. split; [reflexivity|]. split; [reflexivity|]. split; [rewrite F; reflexivity|vm_compute; discriminate].
Qed.
Print Assumptions C97_deleted_refuted.

(** A disk is not opened at all if the map of a deleted file has been written over: here the
    sector is now the data of the file A, which can be read. *)
Definition reused_disk : list Z := [0x96; 2; 48; 0; 128; 0] ++ zrepeat 0 10 ++
  Properties_Sparta.boot_rec 6 3 2 ++ Properties_Sparta.pad [0; 0] ++ Properties_Sparta.map_sec 0 [4] ++
  Properties_Sparta.pad (Properties_Sparta.entry 0x28 0 69 [77] [] ++ Properties_Sparta.entry 0x08 5 128 [65] [] ++ Properties_Sparta.entry 0x10 6 10 [66] []) ++
  Properties_Sparta.map_sec 0 [6] ++ ([0; 0; 0; 0] ++ flat_map put2 (zrepeat 1 62)).
Theorem C97_reused_refuted : exists b im d, open_sparta b = Ok im /\ slisted im = [d] /\ sget_file im d = Ok ([0; 0; 0; 0] ++ flat_map put2 (zrepeat 1 62)) /\
  bytes_ok b /\ find_diskimage env0 b = Err EIndex.
Proof.
  exists reused_disk. destruct (open_sparta reused_disk) as [im|] eqn:O; [|vm_compute in O; discriminate O]. exists im. vm_compute in O. injection O as <-.
  eexists. split; [reflexivity|]. split; [vm_compute; reflexivity|]. split; [vm_compute; reflexivity|].
  split; [apply Properties_Sparta.bytes_okb; vm_compute; reflexivity|vm_compute; reflexivity].
Qed.
Print Assumptions C97_reused_refuted.

(** A disk of 1028 sectors of 256 bytes, with the map of the root directory in sector 130, that
    in sector 131, and a file of 256 bytes in sector 133. *)
Definition pad256 (l : list Z) : list Z := l ++ zrepeat 0 (256 - zlen l).
Definition big_boot : list Z :=
  pad256 ([0; 1] ++ put2 0x700 ++ put2 0x700 ++ [0x4c] ++ put2 0x740 ++ put2 130 ++ put2 1028 ++ put2 1 ++ [1] ++ put2 2 ++
       put2 1 ++ put2 1 ++ [86; 79; 76; 32; 32; 32; 32; 32] ++ [40; 0x00; 0x20]).
Definition big_dir : list Z := Properties_Sparta.entry 0x28 0 46 [77] [] ++ Properties_Sparta.entry 0x08 132 256 [65] [].
Definition big_head : list Z := [0x96; 2] ++ put2 16448 ++ [0; 1] ++ zrepeat 0 10 ++ big_boot.
Definition big_mid : list Z :=
  pad256 (put2 0 ++ put2 0 ++ put2 131) ++ pad256 big_dir ++ pad256 (put2 0 ++ put2 0 ++ put2 133) ++ Properties_Sparta.body 3 256.
Definition big_disk : list Z := big_head ++ zrepeat 0 32768 ++ big_mid ++ zrepeat 0 (895 * 256).
Definition big_h : hdr := mkH 16 263168 256 0 0 253 1028 0 0 0.
Lemma big_len : zlen big_disk = 263184.
Proof. unfold big_disk. rewrite !zlen_app, !zlen_zrepeat by lia. replace (zlen big_head) with 272 by (vm_compute; reflexivity). replace (zlen big_mid) with 1024 by (vm_compute; reflexivity). reflexivity. Qed.
Lemma big_bytes : bytes_ok big_disk.
Proof.
  assert (B0 : is_byte 0) by (unfold is_byte; lia). unfold big_disk. apply bytes_ok_app. split; [apply Properties_Sparta.bytes_okb; vm_compute; reflexivity|].
  apply bytes_ok_app. split; [exact (bytes_ok_zrepeat 0 _ B0)|]. apply bytes_ok_app.
  split; [apply Properties_Sparta.bytes_okb; vm_compute; reflexivity|exact (bytes_ok_zrepeat 0 _ B0)].
Qed.
Lemma big_hdr : hdr_of big_disk = Ok big_h.
Proof.
  unfold hdr_of, read_header. rewrite big_len. unfold big_disk. rewrite slice_app_l; [|lia|vm_compute; discriminate]. vm_compute. reflexivity.
Qed.
Lemma big_byte i : 0 <= i < 256 -> boot_byte (geom_of big_h) big_disk i = getb big_boot i.
Proof.
  intros Hi. unfold boot_byte, big_disk. change (g_off (geom_of big_h)) with 16. rewrite getb_app_l; [|replace (zlen big_head) with 272 by (vm_compute; reflexivity); lia].
  change big_head with (([0x96; 2] ++ put2 16448 ++ [0; 1] ++ zrepeat 0 10) ++ big_boot). rewrite getb_app_r; [|change (zlen ([0x96; 2] ++ put2 16448 ++ [0; 1] ++ zrepeat 0 10)) with 16; lia].
  change (zlen ([0x96; 2] ++ put2 16448 ++ [0; 1] ++ zrepeat 0 10)) with 16. f_equal. lia.
Qed.
Lemma big_sector n : 130 <= n <= 133 -> sector (geom_of big_h) big_disk n = slice big_mid ((n - 130) * 256) ((n - 130) * 256 + 256).
Proof.
  intros Hn. unfold sector, spos. change (g_off (geom_of big_h)) with 16. change (g_ss (geom_of big_h)) with 256. change (g_skew (geom_of big_h)) with 0.
  unfold big_disk. rewrite slice_app_r; replace (zlen big_head) with 272 by (vm_compute; reflexivity); [|lia].
  rewrite slice_app_r; rewrite zlen_zrepeat by lia; [|lia].
  rewrite slice_app_l; [|lia|replace (zlen big_mid) with 1024 by (vm_compute; reflexivity); lia]. f_equal; lia.
Qed.
Lemma big_map start d : 130 <= start <= 133 -> 130 <= d <= 133 -> map_next (slice big_mid ((start - 130) * 256) ((start - 130) * 256 + 256)) = 0 ->
  map_entries (slice big_mid ((start - 130) * 256) ((start - 130) * 256 + 256)) = [d] ++ 0 :: zrepeat 0 124 -> is_file (geom_of big_h) big_disk start [d].
Proof.
  intros Hs Hd E M. rewrite <- (big_sector start Hs) in E, M. exists [start], (map_entries (sector (geom_of big_h) big_disk start)).
  assert (U : forall n, 130 <= n <= 133 -> usable (geom_of big_h) n) by (intros n Hn; split; [change (g_max (geom_of big_h)) with 1028; lia|left; reflexivity]).
  split; [apply map_end; [apply U; exact Hs|exact E]|]. split; [|constructor; [apply U; exact Hd|constructor]].
  exists (zrepeat 0 124). split; [exact M|]. intros [H|[]]. lia.
Qed.
Lemma big_whole : whole (geom_of big_h) big_disk big_dir 1 (fun _ => [133]).
Proof.
  assert (W1 : forall i, 0 <= i < 255 -> boot_word (geom_of big_h) big_disk i = le2 (getb big_boot i) (getb big_boot (i + 1))) by (intros i Hi; unfold boot_word; rewrite !big_byte by lia; reflexivity).
  constructor.
  - constructor.
    + exact big_bytes.
    + vm_compute. split; [discriminate|reflexivity].
    + vm_compute. discriminate.
    + rewrite W1 by lia. vm_compute. reflexivity.
    + rewrite W1 by lia. vm_compute. discriminate.
    + rewrite W1 by lia. vm_compute. discriminate.
    + rewrite big_byte by lia. left. vm_compute. reflexivity.
    + rewrite big_byte by lia. right. left. vm_compute. reflexivity.
    + exists [131]. rewrite W1 by lia. change (le2 (getb big_boot 9) (getb big_boot (9 + 1))) with 130. split; [|split; [discriminate|]].
      * apply big_map; [lia|lia|vm_compute; reflexivity|vm_compute; reflexivity].
      * unfold file_bytes. cbn [flat_map]. rewrite (big_sector 131) by lia. vm_compute. reflexivity.
    + lia.
    + vm_compute. reflexivity.
    + vm_compute. reflexivity.
    + vm_compute. reflexivity.
  - intros i Hi. assert (i = 1) by lia. subst i. split; [|split; [discriminate|vm_compute; intuition congruence]].
    change (se_start (s_entry big_dir 1)) with 132. apply big_map; [lia|lia|vm_compute; reflexivity|vm_compute; reflexivity].
  - rewrite W1, big_byte by lia. vm_compute. intuition congruence.
Qed.
(** This disk, on which everything can be read, is taken for a boot disk. *)
Theorem C97_chance_refuted : exists b h dir k secs fd, bytes_ok b /\ hdr_of b = Ok h /\ whole (geom_of h) b dir k secs /\ k = 1 /\ h_offset h = 16 /\
  h_ssize h = 256 /\ find_diskimage env0 b = Ok fd /\ f_class fd = PKBoot.
Proof.
  assert (G0 : getb big_disk 0 = 0x96) by (unfold big_disk; rewrite getb_app_l; [reflexivity|vm_compute; split; [discriminate|reflexivity]]).
  assert (NJ : ~ jumpman_short big_disk) by (intros [L _]; rewrite big_len in L; lia).
  assert (LB : like_boot_disk (geom_of big_h) big_disk).
  { split; [vm_compute; discriminate|]. rewrite big_len. unfold boot_size. rewrite !big_byte by lia. vm_compute. split; discriminate. }
  destruct (C97_like_boot_disk env0 big_h big_disk big_dir 1 (fun _ => [133]) big_hdr big_whole (or_introl eq_refl) (env0_unclaimed _ G0) NJ LB) as (fd & E & C).
  exists big_disk, big_h, big_dir, 1, (fun _ => [133]), fd.
  split; [exact big_bytes|]. split; [exact big_hdr|]. split; [exact big_whole|]. split; [reflexivity|]. split; [reflexivity|]. split; [reflexivity|]. split; [exact E|exact C].
Qed.
Print Assumptions C97_chance_refuted.
