(** The whole program: C73-C77. *)
From Verif Require Import Base BaseLemmas DiskModel AtariModel AtariSpec AtariGeom AtariHeader AtariBlank AtariOps AtariSession AtariProps AtariDemo SpartaModel ExecModel ExecSpec ExecProofs ExecProofs2 Properties_Exec SdModel CliModel CliProofs CliInst DetectModel DetectSpec DetectExec Properties_Detect Properties_Detect2 Properties_Detect3 DetectDsk MainModel MainProofs MainProofs2 MainInst Dos33Model Dos33Spec Dos33Dir Dos33Files Dos33Ops Dos33Session Dos33Demo Properties_Cli.

(** * The state of the outside world *)

(** The file [img] is an Atari DOS disk that the program recognises, and its files are [m]. *)
Definition atari_disk (w : world) (f : fs) (img : list Z) (m : fsmap) : Prop :=
  img <> [46] /\ exists im, f img = Some (a_bytes im) /\ disk (w_env w) im /\ answers im m.
Definition dos33_disk (w : world) (f : fs) (img : list Z) (m : fsmap) : Prop :=
  img <> [46] /\ exists im, f img = Some (i_bytes im) /\ disk3 (w_env w) im /\ answers3 im m.
(** The directory of an Atari disk has room for [k] more files. *)
Definition room (f : fs) (img : list Z) (k : Z) : Prop :=
  forall b im, f img = Some b -> open_image b = Ok im -> zlen (a_files im) + k <= 64.
(** Names a command may change on the disk. *)
Definition atari_addable (f : fs) (p : list Z) : Prop := exists d, f p = Some d /\ atari_name (basename p []) /\ atari_data d.
Definition dos33_addable (o : opts) (f : fs) (p : list Z) : Prop :=
  exists d, f p = Some d /\ dos33_name (basename p []) /\ dos33_data (match o_type o with [] => [66] | t => t end) d.

(** Ordinary runs: files to be added exist and have names and contents the disk can hold,
    the directory has room for them, and the image is not overwritten by extracting a
    file, by create --force or by boot. *)
Definition atari_usual (w : world) (o : opts) (f : fs) (img : list Z) (c : cmd) : Prop :=
  match c with
  | KAdd files => Forall (atari_addable f) files /\ room f img (zlen files)
  | KAssemble src data obj run output => atari_name output /\ room f img 1 /\ proper w f obj
  | KExtract files => o_force o = false \/
      forall b im n d, f img = Some b -> open_image b = Ok im -> find_file im n = Ok d -> out_path o n <> img
  | KCreate _ => o_force o = false
  | KBoot _ _ _ _ => False
  | _ => True
  end.
Definition dos33_usual (w : world) (o : opts) (f : fs) (img : list Z) (c : cmd) : Prop :=
  match c with
  | KAdd files => Forall (dos33_addable o f) files
  | KAssemble src data obj run output => dos33_name output /\ proper w f obj
  | KExtract files => o_force o = false \/
      forall b im n d, f img = Some b -> open33 b = Ok im -> find_file3 im n = Ok d -> out_path o n <> img
  | KCreate _ => o_force o = false
  | KBoot _ _ _ _ => False
  | _ => True
  end.
(** A list of runs, each on some image, on which [img] is only used in ordinary ways and
    which do not otherwise change it. *)
Fixpoint ordinary (usual : opts -> fs -> list Z -> cmd -> Prop) (w : world) (f : fs) (img : list Z) (l : list (opts * list Z * cmd)) : Prop :=
  match l with
  | [] => True
  | (o, q, c) :: r =>
      (q = img /\ usual o f img c \/ q <> img /\ fst (fst (main w o f q c)) img = f img) /\
      ordinary usual w (fst (fst (main w o f q c))) img r
  end.

Notation aholds w := (holds atari_api (disk (w_env w))).
Notation dholds w := (holds dos33_api (disk3 (w_env w))).
Lemma atari_holds w f img m : atari_disk w f img m <-> aholds w f img m.
Proof.
  split; intros (N & im & F & G & L); (split; [exact N|]); exists im; (split; [exact F|]); (split; [exact G|]).
  - intros n. rewrite look_atari. unfold fs_of. rewrite L. destruct (m n); reflexivity.
  - apply answers_of_look; [apply G|exact L].
Qed.
Lemma dos33_holds w f img m : dos33_disk w f img m <-> dholds w f img m.
Proof.
  split; intros (N & im & F & G & L); (split; [exact N|]); exists im; (split; [exact F|]); (split; [exact G|]).
  - intros n. rewrite look_dos33. unfold fs_of3. rewrite L. destruct (m n); reflexivity.
  - apply answers_of_look3; [apply G|exact L].
Qed.
Notation ausual w := (usual atari_api (Some t_XEX) (disk (w_env w)) atari_name (fun _ d => atari_data d) atari_fits w).
Notation dusual w := (usual dos33_api (Some t_BSAVE) (disk3 (w_env w)) dos33_name dos33_data (fun _ _ => True) w).
Lemma jobs_of {P : list Z -> Prop} {J : list Z -> list Z * list Z -> Prop} files : (forall p, P p -> exists j, J p j) -> Forall P files -> exists jobs, Forall2 J files jobs.
Proof. intros H F. induction F as [|p l Hp F (js & IH)]; [exists []; constructor|]. destruct (H p Hp) as (j & Hj). exists (j :: js). constructor; assumption. Qed.
Lemma F2_zlen {A B} (R : A -> B -> Prop) l1 l2 : Forall2 R l1 l2 -> zlen l1 = zlen l2.
Proof. intros F. induction F; [reflexivity|]. rewrite !zlen_cons. lia. Qed.
Lemma room_fits w f img k : room f img k -> forall im, f img = Some (p_bytes atari_api im) -> disk (w_env w) im -> atari_fits im k.
Proof. intros H im F (C & _). unfold atari_fits. apply (H (a_bytes im) im F (proj1 C)). Qed.
Lemma atari_usual_ok w o f img c : atari_usual w o f img c -> ausual w o f img c.
Proof.
  destruct c as [crc l|l|l|l|t|s d b x y|s d b x|l|cl|]; cbn [atari_usual usual]; try exact (fun H => H).
  - intros [H|H]; [left; exact H|right]. intros im n F (C & _) L. rewrite look_atari in L. unfold fs_of in L. destruct (find_file im n) as [d|] eqn:E; [|congruence].
    exact (H (a_bytes im) im n d F (proj1 C) E).
  - intros [Fa R]. destruct (jobs_of (P := atari_addable f) (J := job atari_name (fun _ d => atari_data d) f (filetype atari_api o)) l) with (2 := Fa) as (jobs & J).
    + intros p (d & F & H1 & H2). exists (basename p [], d). repeat split; try assumption; apply H1 || apply H2.
    + exists jobs. split; [exact J|]. rewrite <- (F2_zlen _ _ _ J). exact (room_fits w f img _ R).
  - intros (H1 & H2 & H3). split; [exact H1|]. split; [exact (room_fits w f img 1 H2)|]. intros m segs rn dd ty A E.
    destruct (executable_bytes _ _ _ _ _ _ (assemble_bytes _ _ _ _ _ _ _ _ _ H3 A) E) as (X1 & X2 & _). split; assumption.
Qed.
Lemma dos33_usual_ok w o f img c : dos33_usual w o f img c -> dusual w o f img c.
Proof.
  destruct c as [crc l|l|l|l|t|s d b x y|s d b x|l|cl|]; cbn [dos33_usual usual]; try exact (fun H => H).
  - intros [H|H]; [left; exact H|right]. intros im n F (C & _) L. rewrite look_dos33 in L. unfold fs_of3 in L. destruct (find_file3 im n) as [d|] eqn:E; [|congruence].
    exact (H (i_bytes im) im n d F (proj1 C) E).
  - intros Fa. destruct (jobs_of (P := dos33_addable o f) (J := job dos33_name dos33_data f (filetype dos33_api o)) l) with (2 := Fa) as (jobs & J).
    + intros p (d & F & H1 & H2). exists (basename p [], d). split; [exact F|]. split; [reflexivity|]. split; assumption.
    + exists jobs. split; [exact J|]. auto.
  - intros (H1 & H3). split; [exact H1|]. split; [auto|]. intros m segs rn dd ty A E.
    destruct (executable_bytes _ _ _ _ _ _ (assemble_bytes _ _ _ _ _ _ _ _ _ H3 A) E) as (X1 & X2 & X3). split; [destruct X3 as [-> | ->]; discriminate|]. split; assumption.
Qed.
Lemma ordinary_all {A dflt good okname okdata fits} w (us : opts -> fs -> list Z -> cmd -> Prop) : (forall o f img c, us o f img c -> usual A dflt good okname okdata fits w o f img c) ->
  forall l f img, ordinary us w f img l -> all_usual A dflt good okname okdata fits w f img l.
Proof.
  intros H. induction l as [|[[o q] c] l IH]; intros f img U; [exact Logic.I|]. cbn [ordinary all_usual] in *. destruct U as [U1 U2]. split; [|apply IH, U2].
  destruct U1 as [[X Y]|X]; [left; split; [exact X|apply H, Y]|right; exact X].
Qed.

(** * C74: a disk over many runs of the program *)

(** One run: afterwards the file is again a disk that the program recognises, with the
    files changed as the command says ([effect]) and no others. *)
Theorem C74_one_run_atari w o f img m c f' ms r : atari_disk w f img m -> atari_usual w o f img c -> main w o f img c = (f', ms, r) ->
  exists m', atari_disk w f' img m' /\ effect (Some t_XEX) (fun d => d) (fun e => e = EAtr NotEnoughSpaceOnDisk) w o f m c r m'.
Proof.
  intros H U E. apply atari_holds in H. apply atari_usual_ok in U.
  destruct (main_step atari_api (Some t_XEX) atari_vtoc (disk (w_env w)) atari_name (fun _ d => atari_data d) atari_fits (fun d => d) atari_refused (disk_lawful _) w IAtariDos (disk_found _)
    (fun _ _ _ _ _ => eq_refl) (disk_shred _) o f img m c f' ms r H U E) as (m' & H' & Ef). exists m'. split; [apply atari_holds; exact H'|exact Ef].
Qed.
Print Assumptions C74_one_run_atari.
Theorem C74_one_run_dos33 w o f img m c f' ms r : dos33_disk w f img m -> dos33_usual w o f img c -> main w o f img c = (f', ms, r) ->
  exists m', dos33_disk w f' img m' /\ effect (Some t_BSAVE) padded (fun e => e = EAtr NotEnoughSpaceOnDisk \/ e = EAtr NoSpaceInDirectory) w o f m c r m'.
Proof.
  intros H U E. apply dos33_holds in H. apply dos33_usual_ok in U.
  destruct (main_step dos33_api (Some t_BSAVE) get_smap3 (disk3 (w_env w)) dos33_name dos33_data (fun _ _ => True) padded dos33_refused (disk3_lawful _) w IDos33 (disk3_found _)
    (fun _ _ _ _ _ => eq_refl) (disk3_shred _) o f img m c f' ms r H U E) as (m' & H' & Ef). exists m'. split; [apply dos33_holds; exact H'|exact Ef].
Qed.
Print Assumptions C74_one_run_dos33.
(** Any number of runs *)
Theorem C74_session_atari w f img m l : atari_disk w f img m -> ordinary (atari_usual w) w f img l ->
  exists m', atari_disk w (session w f l) img m' /\
    replay (Some t_XEX) (fun d => d) (fun e => e = EAtr NotEnoughSpaceOnDisk) w f img m l m' /\
    forall n, ~ In n (named img l) -> m' n = m n.
Proof.
  intros H U. apply atari_holds in H. apply (ordinary_all w (atari_usual w) (atari_usual_ok w)) in U.
  destruct (main_session atari_api (Some t_XEX) atari_vtoc (disk (w_env w)) atari_name (fun _ d => atari_data d) atari_fits (fun d => d) atari_refused (disk_lawful _) w IAtariDos (disk_found _)
    (fun _ _ _ _ _ => eq_refl) (disk_shred _) l f img m H U) as (m' & H' & R). exists m'. split; [apply atari_holds; exact H'|]. split; [exact R|]. exact (replay_frame _ _ _ _ _ _ _ _ _ R).
Qed.
Print Assumptions C74_session_atari.
Theorem C74_session_dos33 w f img m l : dos33_disk w f img m -> ordinary (dos33_usual w) w f img l ->
  exists m', dos33_disk w (session w f l) img m' /\
    replay (Some t_BSAVE) padded (fun e => e = EAtr NotEnoughSpaceOnDisk \/ e = EAtr NoSpaceInDirectory) w f img m l m' /\
    forall n, ~ In n (named img l) -> m' n = m n.
Proof.
  intros H U. apply dos33_holds in H. apply (ordinary_all w (dos33_usual w) (dos33_usual_ok w)) in U.
  destruct (main_session dos33_api (Some t_BSAVE) get_smap3 (disk3 (w_env w)) dos33_name dos33_data (fun _ _ => True) padded dos33_refused (disk3_lawful _) w IDos33 (disk3_found _)
    (fun _ _ _ _ _ => eq_refl) (disk3_shred _) l f img m H U) as (m' & H' & R). exists m'. split; [apply dos33_holds; exact H'|]. split; [exact R|]. exact (replay_frame _ _ _ _ _ _ _ _ _ R).
Qed.
Print Assumptions C74_session_dos33.
(** A file added, kept through any ordinary runs that do not name it, and extracted. *)
Theorem C74_add_then_extract_atari w o f img m path d f1 ms1 l o2 f3 ms3 r :
  let n := basename path [] in let f2 := session w f1 l in
  atari_disk w f img m -> o_dry o = false -> f path = Some d -> atari_name n -> atari_data d -> room f img 1 -> (m n = None \/ o_force o = true) ->
  main w o f img (KAdd [path]) = (f1, ms1, Ok tt) ->
  ordinary (atari_usual w) w f1 img l -> ~ In n (named img l) ->
  o_dry o2 = false -> o_all o2 = false -> (f2 (out_path o2 n) = None \/ o_force o2 = true) ->
  main w o2 f2 img (KExtract [n]) = (f3, ms3, r) ->
  r = Ok tt /\ forall p, f3 p = if zlist_eqb p (out_path o2 n) then Some (converted o2 d) else f2 p.
Proof.
  intros n f2 H D Fp Hn Hd R Nw E1 U Nn D2 Al Nw2 E3. apply atari_holds in H.
  destruct (main_add1 atari_api (Some t_XEX) atari_vtoc (disk (w_env w)) atari_name (fun _ d => atari_data d) atari_fits (fun d => d) atari_refused (disk_lawful _) w IAtariDos (disk_found _)
    (fun _ _ _ _ _ => eq_refl) o f img m path d f1 ms1 H D Fp Hn Hd (room_fits w f img 1 R) Nw E1) as (m1 & H1 & M1 & _).
  apply atari_holds in H1. destruct (C74_session_atari w f1 img m1 l H1 U) as (m2 & H2 & _ & K). apply atari_holds in H2.
  eapply (main_extract1 atari_api (Some t_XEX) atari_vtoc (disk (w_env w)) atari_name (fun _ d => atari_data d) atari_fits (fun d => d) atari_refused (disk_lawful _) w IAtariDos (disk_found _)
    (fun _ _ _ _ _ => eq_refl)); [exact H2|exact D2|exact Al|rewrite K; [exact M1|exact Nn]|exact Nw2|exact E3].
Qed.
Print Assumptions C74_add_then_extract_atari.
Theorem C74_add_then_extract_dos33 w o f img m path d f1 ms1 l o2 f3 ms3 r :
  let n := basename path [] in let f2 := session w f1 l in
  dos33_disk w f img m -> o_dry o = false -> f path = Some d -> dos33_name n -> dos33_data (match o_type o with [] => [66] | t => t end) d -> (m n = None \/ o_force o = true) ->
  main w o f img (KAdd [path]) = (f1, ms1, Ok tt) ->
  ordinary (dos33_usual w) w f1 img l -> ~ In n (named img l) ->
  o_dry o2 = false -> o_all o2 = false -> (f2 (out_path o2 n) = None \/ o_force o2 = true) ->
  main w o2 f2 img (KExtract [n]) = (f3, ms3, r) ->
  r = Ok tt /\ forall p, f3 p = if zlist_eqb p (out_path o2 n) then Some (converted o2 (padded d)) else f2 p.
Proof.
  intros n f2 H D Fp Hn Hd Nw E1 U Nn D2 Al Nw2 E3. apply dos33_holds in H.
  destruct (main_add1 dos33_api (Some t_BSAVE) get_smap3 (disk3 (w_env w)) dos33_name dos33_data (fun _ _ => True) padded dos33_refused (disk3_lawful _) w IDos33 (disk3_found _)
    (fun _ _ _ _ _ => eq_refl) o f img m path d f1 ms1 H D Fp Hn Hd (fun _ _ _ => Logic.I) Nw E1) as (m1 & H1 & M1 & _).
  apply dos33_holds in H1. destruct (C74_session_dos33 w f1 img m1 l H1 U) as (m2 & H2 & _ & K). apply dos33_holds in H2.
  eapply (main_extract1 dos33_api (Some t_BSAVE) get_smap3 (disk3 (w_env w)) dos33_name dos33_data (fun _ _ => True) padded dos33_refused (disk3_lawful _) w IDos33 (disk3_found _)
    (fun _ _ _ _ _ => eq_refl)); [exact H2|exact D2|exact Al|rewrite K; [exact M1|exact Nn]|exact Nw2|exact E3].
Qed.
Print Assumptions C74_add_then_extract_dos33.
(** A formatted disk D, to which HELLO.TXT is added; then B is added, the free sectors
    are wiped and B is deleted; HELLO.TXT is extracted. *)
Definition w0 : world := mkWorld env0 None (fun _ => 0) [].
Lemma settled_atr b : 16 <= zlen b -> getb b 0 = 0x96 -> settled env0 b.
Proof. intros L H b' Lb Hb. apply env0_unclaimed. rewrite Hb by lia. exact H. Qed.
Lemma disk_at e im f img w : w_env w = e -> disk e im -> img <> [46] -> f img = Some (a_bytes im) -> atari_disk w f img (fs_of im).
Proof. intros <- D N F. apply atari_holds. split; [exact N|]. exists im. split; [exact F|]. split; [exact D|]. intros n. apply look_atari. Qed.
Lemma absent im n : ~ In n (listing im) -> fs_of im n = None.
Proof. intros H. apply find_name_none in H. unfold fs_of, find_file. rewrite H. reflexivity. Qed.
Lemma blank_disk : exists im, disk env0 im /\ listing im = [] /\ free_sectors_of im = 707 /\ payload_of im = 125.
Proof.
  assert (PS : plain_size 128 720) by (unfold plain_size; split; [cbn [In]; lia|lia]).
  destruct blank_image as (im & Ho & C & L & F & P & M & B).
  destruct (C69_formatted_detected env0 128 720) as (im0 & B0 & C0 & D0 & S0); [lia|reflexivity|lia|exact PS|apply env0_unclaimed; reflexivity|].
  assert (im0 = im). { destruct C0 as [O _]. rewrite B0 in O. congruence. } subst im0.
  exists im. split; [|auto]. split; [exact C0|]. split; [exact D0|]. split; [exact S0|]. apply settled_atr; [|rewrite B; reflexivity].
  rewrite B. unfold fmt_disk. rewrite zlen_app. change (zlen (fmt_header 128 720)) with 16. match goal with |- _ <= _ + zlen ?l => pose proof (zlen_nonneg l) end. lia.
Qed.
Lemma hello_name : atari_name hello.
Proof. split; [apply AtariWrite.valid_stored; exact hello_valid|apply (AtariWrite.valid_stored _ hello_valid)]. Qed.
Lemma other_name : atari_name other.
Proof. split; [apply AtariWrite.valid_stored; exact other_valid|apply (AtariWrite.valid_stored _ other_valid)]. Qed.
Lemma demo_data : atari_data [1; 2; 3] /\ atari_data text.
Proof. split; (split; [discriminate|apply AtariDemo.bytes_ok_b; reflexivity]). Qed.
Lemma add_hello : exists im im1, disk env0 im /\ listing im = [] /\ disk env0 im1 /\ listing im1 = [hello] /\ fs_of im1 hello = Some [1; 2; 3] /\
  main w0 no_opts (demo_fs (a_bytes im)) p_img (KAdd [p_hello]) = (fput (demo_fs (a_bytes im)) p_img (a_bytes im1), [MCopying hello], Ok tt).
Proof.
  destruct blank_disk as (im & D & L & F & P). pose proof D as (C & _).
  assert (LW : legal_write im hello [1; 2; 3]).
  { split; [apply hello_name|]. rewrite (proj2 hello_name). split; [discriminate|]. split; [apply demo_data|]. rewrite listing_files, L. split; [intros []|cbn; lia]. }
  destruct (write_master im hello [1; 2; 3] C LW) as [(Hs & im1 & c & Ew & W)|(Hs & _)].
  2: { exfalso. revert Hs. rewrite P, F. intros Hs. vm_compute in Hs. congruence. }
  exists im, im1. split; [exact D|]. split; [exact L|].
  assert (Fn : find_name hello (a_files im) = None) by (apply find_name_none; change (~ In hello (listing im)); rewrite L; intros []).
  assert (D1 : disk env0 im1).
  { refine (proj1 (lw_write _ _ _ _ _ _ _ (disk_lawful env0) im hello (filetype atari_api no_opts) [1; 2; 3] im1 D hello_name (proj1 demo_data) _ Fn Ew)). unfold atari_fits. rewrite listing_files, L. cbn. lia. }
  split; [exact D1|]. split.
  { destruct (wr_listing _ _ _ _ _ W) as (l1 & l2 & E1 & E2). rewrite L in E1. symmetry in E1. apply app_eq_nil in E1. destruct E1 as [-> ->]. rewrite E2. cbn [app]. rewrite (proj2 hello_name). reflexivity. }
  split; [pose proof (wr_read _ _ _ _ _ W) as Rd; rewrite (proj2 hello_name) in Rd; unfold fs_of; rewrite Rd; reflexivity|].
  rewrite (main_on atari_api (Some t_XEX) atari_vtoc (disk env0) w0 IAtariDos (disk_found _) (fun _ _ _ _ _ => eq_refl) no_opts (demo_fs (a_bytes im)) p_img im); [|split; [|split]; intros []|discriminate|reflexivity|exact D].
  cbn [image_command]. unfold add_files, save_if. cbn [add_loop]. change (demo_fs (a_bytes im) p_hello) with (Some [1; 2; 3]). cbv iota. change (basename p_hello []) with hello.
  unfold save_file. change (p_find atari_api im hello) with (find_name hello (a_files im)). rewrite Fn. cbn [o_dry no_opts].
  change (p_write atari_api im hello (filetype atari_api no_opts) [1; 2; 3]) with (write_file im hello [1; 2; 3]). rewrite Ew. reflexivity.
Qed.
Definition demo_session : list (opts * list Z * cmd) :=
  [(forced, p_img, KAdd [p_other]); (no_opts, p_img, KVtoc true); (no_opts, p_hello, KCrc []); (no_opts, p_img, KDelete [other])].
Example C74_example : exists im im1 f3 ms3, let f := demo_fs (a_bytes im) in let f1 := fput f p_img (a_bytes im1) in
  atari_disk w0 f p_img (fs_of im) /\ fs_of im hello = None /\
  main w0 no_opts f p_img (KAdd [p_hello]) = (f1, [MCopying hello], Ok tt) /\
  ordinary (atari_usual w0) w0 f1 p_img demo_session /\
  main w0 forced (session w0 f1 demo_session) p_img (KExtract [hello]) = (f3, ms3, Ok tt) /\ f3 hello = Some [1; 2; 3].
Proof.
  destruct add_hello as (im & im1 & D & L & D1 & L1 & _ & E). set (f := demo_fs (a_bytes im)) in *. set (f1 := fput f p_img (a_bytes im1)) in *.
  destruct (main w0 forced (session w0 f1 demo_session) p_img (KExtract [hello])) as [[f3 ms3] r] eqn:E3.
  exists im, im1, f3, ms3. cbv zeta. fold f f1.
  assert (H0 : atari_disk w0 f p_img (fs_of im)) by (apply (disk_at env0); [reflexivity|exact D|discriminate|reflexivity]).
  assert (N0 : fs_of im hello = None) by (apply absent; rewrite L; intros []).
  assert (U : ordinary (atari_usual w0) w0 f1 p_img demo_session).
  { unfold demo_session. cbn [ordinary]. split.
    - left. split; [reflexivity|]. cbn [atari_usual]. split.
      + constructor; [|constructor]. exists text. split; [reflexivity|]. split; [exact other_name|apply demo_data].
      + intros b imb Hb Ho. unfold f1 in Hb. rewrite fput_eq in Hb. injection Hb as <-. destruct D1 as ([O1 _] & _). assert (imb = im1) by congruence. subst imb.
        rewrite listing_files, L1. cbn. lia.
    - split; [left; split; [reflexivity|exact Logic.I]|]. split; [right; split; [discriminate|]|].
      2: { split; [left; split; [reflexivity|exact Logic.I]|exact Logic.I]. }
      match goal with |- fst (fst (main ?w ?o ?g ?q ?c)) _ = _ => destruct (main w o g q c) as [[f4 m4] r4] eqn:E4; generalize dependent g end.
      intros g Eg. apply main_open in Eg; [|split; intros []|discriminate]. cbn [fst]. destruct Eg as [-> |(b & fd & _ & _ & Eg)]; [reflexivity|].
      apply open_reads in Eg; [subst f4; reflexivity|exact Logic.I]. }
  split; [exact H0|]. split; [exact N0|]. split; [exact E|]. split; [exact U|].
  destruct (C74_add_then_extract_atari w0 no_opts f p_img (fs_of im) p_hello [1; 2; 3] f1 [MCopying hello] demo_session forced f3 ms3 r H0 eq_refl eq_refl hello_name (proj1 demo_data)) as [-> X]; try assumption; try reflexivity.
  - intros b imb Hb Ho. unfold f in Hb. injection Hb as <-. destruct D as ([O1 _] & _). assert (imb = im) by congruence. subst imb. rewrite listing_files, L. cbn. lia.
  - left. exact N0.
  - cbn [named demo_session flat_map]. vm_compute. intros [X|[X|[]]]; discriminate.
  - right. reflexivity.
  - split; [first [exact E3|reflexivity]|]. rewrite X. reflexivity.
Qed.
(** The same on a DOS 3.3 disk; the file comes back with zeros up to a whole sector. *)
Notation NEW := Properties_Dos33.NEW.
Definition demo3_fs (b : list Z) : fs := fun p => if zlist_eqb p p_img then Some b else if zlist_eqb p NEW then Some [1; 2; 3] else None.
Lemma one_disk : disk3 env0 one_im.
Proof.
  pose proof one_consistent as C. destruct (consistent3_vtoc one_im C) as (L & _ & Hb).
  assert (Z0 : forall p, 0 <= p < 256 -> getb (i_bytes one_im) p = 0).
  { intros p Hp. rewrite one_bytes. assert (E : sec demo_one 0 = zrepeat 0 256).
    { unfold demo_one. rewrite sec_disk_of; [reflexivity| |lia]. intros i; apply demo_sec_len; vm_compute; reflexivity. }
    assert (G : getb (sec demo_one 0) p = getb demo_one p). { unfold sec. rewrite getb_slice by lia. f_equal. }
    rewrite <- G, E. apply getb_zrepeat. lia. }
  split; [exact C|]. split; [apply zero_boot; assumption|]. intros b' Lb Hp. apply env0_unclaimed3. rewrite Hp by lia. apply Z0. lia.
Qed.
Lemma disk3_at im f img w : disk3 (w_env w) im -> img <> [46] -> f img = Some (i_bytes im) -> dos33_disk w f img (fs_of3 im).
Proof. intros D N F. apply dos33_holds. split; [exact N|]. exists im. split; [exact F|]. split; [exact D|]. intros n. apply look_dos33. Qed.
Lemma NEW_name : dos33_name NEW /\ dos33_data [66] [1; 2; 3].
Proof. split; [split; [exact Properties_Dos33.NEW_ascii|reflexivity]|]. split; [discriminate|]. split; [discriminate|exact Properties_Dos33.new_data_ok]. Qed.
Example C74_dos33_example : exists f1 f3 ms3, let f := demo3_fs (i_bytes one_im) in
  dos33_disk w0 f p_img (fs_of3 one_im) /\ main w0 no_opts f p_img (KAdd [NEW]) = (f1, [MCopying NEW], Ok tt) /\
  ordinary (dos33_usual w0) w0 f1 p_img [(no_opts, p_img, KDelete [HELLO]); (no_opts, p_img, KVtoc true)] /\
  main w0 forced (session w0 f1 [(no_opts, p_img, KDelete [HELLO]); (no_opts, p_img, KVtoc true)]) p_img (KExtract [NEW]) = (f3, ms3, Ok tt) /\
  f3 NEW = Some (padded [1; 2; 3]).
Proof.
  pose proof one_disk as D. set (f := demo3_fs (i_bytes one_im)). set (l := [(no_opts, p_img, KDelete [HELLO]); (no_opts, p_img, KVtoc true)]).
  destruct (Properties_Dos33.one_write [66] [1; 2; 3] ltac:(discriminate) ltac:(discriminate) Properties_Dos33.new_data_ok ltac:(vm_compute; discriminate)) as (im1 & tl & dl & Ew & W).
  set (f1 := fput f p_img (i_bytes im1)).
  assert (E : main w0 no_opts f p_img (KAdd [NEW]) = (f1, [MCopying NEW], Ok tt)).
  { rewrite (main_on dos33_api (Some t_BSAVE) get_smap3 (disk3 env0) w0 IDos33 (disk3_found _) (fun _ _ _ _ _ => eq_refl) no_opts f p_img one_im); [|split; [|split]; intros []|discriminate|reflexivity|exact D].
    cbn [image_command]. unfold add_files, save_if. cbn [add_loop]. change (f NEW) with (Some [1; 2; 3]). cbv iota. change (basename NEW []) with NEW.
    assert (Fn : p_find dos33_api one_im NEW = None) by (apply CliInst.find_name3_none; change (~ In NEW (listing3 one_im)); rewrite one_listing; intros [X|[]]; discriminate).
    unfold save_file. rewrite Fn. cbn [o_dry no_opts].
    change (p_write dos33_api one_im NEW (filetype dos33_api no_opts) [1; 2; 3]) with (write_file3 one_im NEW [66] [1; 2; 3]). rewrite Ew. reflexivity. }
  assert (H0 : dos33_disk w0 f p_img (fs_of3 one_im)) by (apply disk3_at; [exact D|discriminate|reflexivity]).
  assert (U : ordinary (dos33_usual w0) w0 f1 p_img l).
  { unfold l. cbn [ordinary]. split; [left; split; [reflexivity|exact Logic.I]|]. split; [left; split; [reflexivity|exact Logic.I]|exact Logic.I]. }
  destruct (main w0 forced (session w0 f1 l) p_img (KExtract [NEW])) as [[f3 ms3] r] eqn:E3.
  exists f1, f3, ms3. cbv zeta. split; [exact H0|]. split; [exact E|]. split; [exact U|].
  destruct (C74_add_then_extract_dos33 w0 no_opts f p_img (fs_of3 one_im) NEW [1; 2; 3] f1 [MCopying NEW] l forced f3 ms3 r H0 eq_refl eq_refl (proj1 NEW_name) (proj2 NEW_name)) as [-> X]; try assumption; try reflexivity.
  - left. change (basename NEW []) with NEW. rewrite <- look_dos33. unfold look. assert (Fn : p_find dos33_api one_im NEW = None) by (apply CliInst.find_name3_none; change (~ In NEW (listing3 one_im)); rewrite one_listing; intros [X|[]]; discriminate).
    rewrite Fn. reflexivity.
  - vm_compute. intros [X|[]]; discriminate.
  - right. reflexivity.
  - split; [first [exact E3|reflexivity]|]. rewrite X. reflexivity.
Qed.
