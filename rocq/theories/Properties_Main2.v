(** The whole program: C73 (assemble) and C75 (what a run may touch). *)
From Verif Require Import Base BaseLemmas DiskModel AtariModel AtariSpec AtariGeom AtariHeader AtariBlank AtariOps AtariSession AtariProps AtariDemo SpartaModel ExecModel ExecSpec ExecProofs ExecProofs2 Properties_Exec SdModel CliModel CliProofs CliInst DetectModel DetectSpec DetectErrors DetectErrors2 DetectErrors3 DetectStay DetectExec Properties_Detect Properties_Detect2 Properties_Detect3 DetectDsk MainModel MainProofs MainProofs2 MainInst Dos33Model Dos33Spec Dos33Dir Dos33Files Dos33Ops Dos33Session Dos33Demo Properties_Cli Properties_Main.

(** * C75: what a run may touch *)
Theorem C75_dry_run_partial w o f img c f' ms r : o_dry o = true -> ~ is_boot c -> main w o f img c = (f', ms, r) -> f' = f.
Proof.
  intros D B E. destruct c as [crc l|l|l|l|t|s d b x y|s d b x|l|cl|].
  all: try (destruct (list_eq_dec Z.eq_dec img [46]) as [-> |N];
    [cbn [main] in E; rewrite zlist_eqb_refl in E; exact (local_dry _ _ _ _ _ _ _ D E)
    |apply main_open in E; [|split; intros []|exact N]; destruct E as [E|(b0 & fd & _ & _ & E)]; [exact E|exact (open_dry _ _ _ _ _ _ _ _ _ D E)]]; fail).
  - cbn [main] in E. unfold create_image in E. destruct (get_template t (w_tmpl w)) as [[]|]; [rewrite D in E|]; injection E as <- _ _; reflexivity.
  - exfalso. apply B. exact Logic.I.
Qed.
Print Assumptions C75_dry_run_partial.
(** boot writes even so. *)
Definition xex6 : list Z := [255; 255; 0; 6; 0; 6; 7].
Definition p_xex : list Z := [111].                                      (* o *)
Definition p_atr : list Z := [98; 46; 97; 116; 114].                     (* b.atr *)
Definition p_dsk : list Z := [98; 46; 100; 115; 107].                    (* b.dsk *)
Definition xex_fs (b : list Z) : fs := fun p => if zlist_eqb p p_xex then Some b else None.
Theorem C75_dry_boot_refuted : exists o f b ms, o_dry o = true /\ f p_atr = None /\
  main w0 o f p_atr (KBoot [] [] [p_xex] []) = (fput f p_atr b, ms, Ok tt).
Proof.
  exists (mkO false true false false false None []), (xex_fs xex6). eexists. eexists. split; [reflexivity|]. split; [reflexivity|].
  vm_compute main. reflexivity.
Qed.
Print Assumptions C75_dry_boot_refuted.
(** Commands that only look: nothing changes. *)
Theorem C75_reading_changes_nothing w o f img c f' ms r : reads_only c -> main w o f img c = (f', ms, r) -> f' = f.
Proof.
  intros D E. destruct (list_eq_dec Z.eq_dec img [46]) as [-> |N].
  - assert (E' : local_command w o f c = (f', ms, r)) by (destruct c; cbn [reads_only] in D; try (destruct D; fail); exact E). exact (local_reads _ _ _ _ _ _ _ D E').
  - apply main_open in E; [|split; intros X; destruct c; cbn in *; tauto|exact N]. destruct E as [E|(b0 & fd & _ & _ & E)]; [exact E|exact (open_reads _ _ _ _ _ _ _ _ _ D E)].
Qed.
Print Assumptions C75_reading_changes_nothing.
(** Commands other than extract write no file but the image, and nothing if they fail. *)
Theorem C75_only_the_image w o f img c f' ms r : ~ is_extract c -> img <> [46] -> main w o f img c = (f', ms, r) ->
  (forall q, q <> img -> f' q = f q) /\ (forall e, r = Err e -> ~ is_create c -> f' = f).
Proof.
  intros X N E. destruct c as [crc l|l|l|l|t|s d b x y|s d b x|l|cl|].
  all: try (apply main_open in E; [|split; intros []|exact N]; destruct E as [E|(b0 & fd & _ & _ & E)]; [subst f'; auto|]; apply open_frame in E; [|exact X]; split; [apply E|intros e He _; exact (proj2 E e He)]; fail).
  - split; [|intros e _ H; exfalso; apply H; exact Logic.I]. cbn [main] in E. unfold create_image in E.
    destruct (get_template t (w_tmpl w)) as [[tn dt]|]; [|injection E as <- _ _; reflexivity]. destruct (o_dry o); [injection E as <- _ _; reflexivity|].
    destruct (f img); [destruct (o_force o)|]; injection E as <- _ _; intros q Hq; try reflexivity; apply fput_neq, Hq.
  - cbn [main] in E. unfold boot_command, boot_image in E. destruct (boot_class img) as [k|]; [|injection E as <- _ _; auto].
    destruct (assemble_segments w f s d b x) as [m1 [[segs rn]|e]]; [|injection E as <- _ _; auto]. destruct segs as [|sg sgs]; [injection E as <- _ _; auto|].
    destruct (boot_make rn k (sg :: sgs)) as [bb|e]; injection E as <- _ <-; split; try reflexivity; [intros q Hq; apply fput_neq, Hq|discriminate].
Qed.
Print Assumptions C75_only_the_image.
(** Without --force, extract overwrites no file. *)
Theorem C75_extract_overwrites_nothing w o f img l f' ms r : o_force o = false -> main w o f img (KExtract l) = (f', ms, r) ->
  forall p x, f p = Some x -> f' p = Some x.
Proof.
  intros Fc E p x Fp. destruct (list_eq_dec Z.eq_dec img [46]) as [-> |N].
  - cbn [main] in E. rewrite zlist_eqb_refl in E. cbn [local_command] in E. destruct (o_all o); [injection E as <- _ _; exact Fp|]. destruct (local_extract f l). injection E as <- _ _; exact Fp.
  - apply main_open in E; [|split; intros []|exact N]. destruct E as [-> |(b0 & fd & _ & _ & E)]; [exact Fp|exact (open_extract_keeps _ _ _ _ _ _ _ _ _ Fc E p x Fp)].
Qed.
Print Assumptions C75_extract_overwrites_nothing.
(** With --force it can overwrite the image itself: a disk called HELLO.TXT on which there is a file of that
    name. *)
Theorem C75_extract_over_the_image_refuted : exists f f' ms im, atari_disk w0 f hello (fs_of im) /\ fs_of im hello <> None /\
  main w0 forced f hello (KExtract [hello]) = (f', ms, Ok tt) /\ f' hello <> f hello /\ f' hello = Some [1; 2; 3].
Proof.
  destruct add_hello as (im & im1 & D & L & D1 & L1 & Ho & E).
  set (f := fun p => if zlist_eqb p hello then Some (a_bytes im1) else None : option (list Z)).
  assert (HD : atari_disk w0 f hello (fs_of im1)) by (apply (disk_at env0); [reflexivity|exact D1|discriminate|reflexivity]).
  destruct (main w0 forced f hello (KExtract [hello])) as [[f3 ms3] r] eqn:E3.
  exists f, f3, ms3, im1. split; [exact HD|]. split; [congruence|].
  destruct (main_extract1 atari_api (Some t_XEX) atari_vtoc (disk (w_env w0)) atari_name (fun _ d => atari_data d) atari_fits (fun d => d) atari_refused (disk_lawful _) w0 IAtariDos (disk_found _)
    (fun _ _ _ _ _ => eq_refl) forced f hello (fs_of im1) hello [1; 2; 3] f3 ms3 r (proj1 (atari_holds _ _ _ _) HD) eq_refl eq_refl Ho (or_intror eq_refl) E3) as [-> X].
  split; [exact E3 || reflexivity|]. assert (Y : f3 hello = Some [1; 2; 3]) by (rewrite X; reflexivity). split; [|exact Y]. rewrite Y. change (f hello) with (Some (a_bytes im1)). intros [= Z0].
  destruct (disk_found env0 im1 D1) as (fd & F1 & _). cbn [atari_api p_bytes] in F1. rewrite <- Z0 in F1. vm_compute in F1. discriminate F1.
Qed.
Print Assumptions C75_extract_over_the_image_refuted.
(** Deleting from the current directory is reported but not done. *)
Theorem C75_local_delete_refuted w o f n d : f n = Some d -> main w o f [46] (KDelete [n]) = (f, [MRemoving n], Ok tt).
Proof. intros H. cbn [main]. rewrite zlist_eqb_refl. cbn [local_command]. unfold local_delete. cbn [map]. rewrite H. reflexivity. Qed.
Print Assumptions C75_local_delete_refuted.
Example C75_example : main w0 no_opts (xex_fs xex6) p_xex (KAdd [p_xex]) = (xex_fs xex6, [], Err EAttribute) /\
  main w0 no_opts (xex_fs xex6) [46] (KDelete [p_xex]) = (xex_fs xex6, [MRemoving p_xex], Ok tt).
Proof. split; [vm_compute; reflexivity|]. exact (C75_local_delete_refuted w0 no_opts (xex_fs xex6) p_xex xex6 eq_refl). Qed.

(** * C73: assemble *)
(** The segments used: those of the sources, of the data files and of the object files in
    this order, without those at address 0 and the run addresses; the run address is the
    one asked for, or else that of the object files. *)
Definition gathered (w : world) (f : fs) (src args obj : list (list Z)) (run : list Z) (segs : list iseg) (start : option Z) : Prop :=
  exists a data ss, all_source_segs w f src = Ok a /\ data_segs f args = Ok data /\ Forall2 (segs_in w f) obj ss /\ runs_whole (concat ss) /\
    segs = a ++ data ++ used (concat ss) /\ start = chosen run (concat ss).
Lemma gathered_spec w f src args obj run segs start : gathered w f src args obj run segs start ->
  exists rn, assemble_segments w f src args obj run = ([], Ok (segs, rn)) /\ truthy (run_opt rn) = truthy start.
Proof.
  intros (a & data & ss & A & D & O & H & -> & ->). destruct (assemble_spec w f src a data args obj ss run A D O H) as (r & E & K).
  exists (run_value r). split; [exact E|]. apply settles_chosen, K.
Qed.
Lemma wanted_truthy segs r r' : truthy r = truthy r' -> Properties_Exec.wanted segs r = Properties_Exec.wanted segs r'.
Proof. unfold truthy, Properties_Exec.wanted. destruct r as [a|], r' as [b|]; try reflexivity; repeat match goal with |- context [if ?c then _ else _] => destruct c eqn:? end; congruence. Qed.
(** The contents of the XEX file that loads these segments and starts at this address. *)
Definition xex_of (segs : list iseg) (start : option Z) (x : list Z) : Prop :=
  forall st, exists rep, snd (parse_xex x st) = Ok rep /\
    map seen rep = (if existsb (fun s => i_origin s =? 0x2e0) segs then [] else [(0x2e0, put2 (Properties_Exec.wanted segs start))]) ++ map given segs.
(** When such a file can be made *)
Definition makeable (segs : list iseg) (start : option Z) : Prop :=
  existsb (fun s => i_origin s =? 0x2e0) segs = true \/
  match truthy start with Some a => existsb (fun s => covers s a) segs = true | None => segs <> [] end.
Theorem C73_assembled_atari_partial w o f img m src args obj run output segs start f' ms r :
  atari_disk w f img m -> o_dry o = false -> proper w f obj -> atari_name output -> room f img 1 ->
  ends_with (map lower output) t_bin = false -> ends_with (map lower output) t_bsave = false ->
  gathered w f src args obj run segs start -> Forall seg_ok segs ->
  main w o f img (KAssemble src args obj run output) = (f', ms, r) ->
  (r = Ok tt /\ (m output = None \/ o_force o = true) /\ (forall q, q <> img -> f' q = f q) /\
     exists m' x, atari_disk w f' img m' /\ (forall n, m' n = if zlist_eqb n output then Some x else m n) /\ xex_of segs start x) \/
  (r = Ok tt /\ m output <> None /\ o_force o = false /\ f' img = f img) \/
  (r = Err (EAtr NotEnoughSpaceOnDisk) /\ f' = f) \/
  (exists e, r = Err e /\ ~ makeable segs start /\ f' = f).
Proof.
  intros H D P Hn R X1 X2 G Sk E. destruct (gathered_spec _ _ _ _ _ _ _ _ G) as (rn & A & T).
  pose proof H as (N & _). pose proof (C75_only_the_image w o f img (KAssemble src args obj run output) f' ms r (fun x => x) N E) as [Fr Fe].
  assert (U : atari_usual w o f img (KAssemble src args obj run output)) by (split; [exact Hn|split; [exact R|exact P]]).
  destruct (C74_one_run_atari _ _ _ _ _ _ _ _ _ H U E) as (m' & H' & Ef). unfold effect in Ef. rewrite D in Ef.
  destruct Ef as [(e & ms0 & -> & _ & [Ea|(s1 & r1 & Ea & Ex)])|(ms0 & s1 & r1 & d & ty & Ea & Ex & Ef)]; rewrite A in Ea; [discriminate Ea| |].
  - injection Ea as <- <- <-. right; right; right. exists e. split; [reflexivity|]. split; [|apply (Fe e eq_refl); intros []].
    rewrite executable_atari in Ex by assumption. intros M.
    pose proof (proj2 (C23_accepted_iff t_xex segs (run_opt rn) eq_refl)) as Y. rewrite T in Y. specialize (Y M). destruct Y as (x & Y). unfold create_executable in Y.
    change (ends_with (map lower t_xex) t_xex) with true in Y. cbv iota in Y. destruct (get_xex segs (run_opt rn)); [discriminate Ex|discriminate Y].
  - injection Ea as <- <- <-. destruct Ef as [(-> & Nw & S1)|[(-> & No & Fc & S1)|(e & -> & -> & S1)]].
    + left. split; [reflexivity|]. split; [exact Nw|]. split; [exact Fr|]. exists m', d. split; [exact H'|]. split; [intros n; rewrite S1; reflexivity|].
      rewrite executable_atari in Ex by assumption. destruct (get_xex segs (run_opt rn)) as [x|] eqn:Gx; [|discriminate Ex]. injection Ex as -> _.
      intros st. destruct (C23_xex_round_trip_partial t_xex segs (run_opt rn) d t_XEX st Sk eq_refl) as (rep & Y & M & _).
      { unfold create_executable. change (ends_with (map lower t_xex) t_xex) with true. cbn iota. rewrite Gx. reflexivity. }
      exists rep. split; [exact Y|]. rewrite M, (wanted_truthy _ _ _ T). reflexivity.
    + right; left. split; [reflexivity|]. split; [exact No|]. split; [exact Fc|].
      pose proof H as Hh. apply atari_holds in Hh. destruct Hh as (_ & im & F & Gd & Lk).
      assert (U2 : ausual w o f img (KAssemble src args obj run output)) by (apply atari_usual_ok; exact U). destruct U2 as (_ & Ft & Hd).
      destruct (main_assemble atari_api (Some t_XEX) atari_vtoc (disk (w_env w)) atari_name (fun _ d => atari_data d) atari_fits (fun d => d) atari_refused (disk_lawful _) w IAtariDos (disk_found _)
        (fun _ _ _ _ _ => eq_refl) o f img m src args obj run output [] segs rn d ty f' ms (Ok tt) (proj1 (atari_holds _ _ _ _) H) D A Ex Hn (Hd _ _ _ _ _ A Ex) Ft E) as [(_ & [Y|Y] & _)|[(_ & _ & _ & ->)|(e & Y & _)]]; [contradiction|congruence|reflexivity|discriminate Y].
    + right; right; left. split; [reflexivity|]. apply (Fe _ eq_refl). intros [].
Qed.
Print Assumptions C73_assembled_atari_partial.
(** On a DOS 3.3 disk a BSAVE file is written, with zeros up to a whole sector. *)
Definition bsave_of (segs : list iseg) (start : option Z) (x : list Z) : Prop :=
  exists lo hi, ExecSpec.fits segs lo hi /\
  match truthy start with
  | Some r => if r =? lo then loads_as x lo (hi - lo) (memory segs)
              else loads_as x (lo - 3) (hi - lo + 3)
                (fun a => if a =? lo - 3 then 0x4c else if a =? lo - 2 then r mod 256 else if a =? lo - 1 then r / 256 else memory segs a)
  | None => loads_as x lo (hi - lo) (memory segs)
  end.
Theorem C73_assembled_dos33_partial w o f img m src args obj run output segs start lo hi f' ms r :
  dos33_disk w f img m -> o_dry o = false -> proper w f obj -> dos33_name output ->
  ends_with (map lower output) t_xex = false ->
  gathered w f src args obj run segs start ->
  ExecSpec.fits segs lo hi -> 3 <= lo < 65536 -> hi - lo + 3 < 65536 ->
  (forall a, truthy start = Some a -> 0 <= a < 65536) ->
  main w o f img (KAssemble src args obj run output) = (f', ms, r) ->
  (r = Ok tt /\ (m output = None \/ o_force o = true) /\ (forall q, q <> img -> f' q = f q) /\
     exists m' x, dos33_disk w f' img m' /\ (forall n, m' n = if zlist_eqb n output then Some (padded x) else m n) /\ bsave_of segs start x) \/
  (r = Ok tt /\ m output <> None /\ o_force o = false /\ f' img = f img) \/
  ((r = Err (EAtr NotEnoughSpaceOnDisk) \/ r = Err (EAtr NoSpaceInDirectory)) /\ f' = f) \/
  (exists e a, r = Err e /\ truthy start = Some a /\ existsb (fun s => covers s a) segs = false /\ f' = f).
Proof.
  intros H D P Hn X1 G Ft Lo Hi Rs E. destruct (gathered_spec _ _ _ _ _ _ _ _ G) as (rn & A & T).
  pose proof H as (N & _). pose proof (C75_only_the_image w o f img (KAssemble src args obj run output) f' ms r (fun x => x) N E) as [Fr Fe].
  assert (U : dos33_usual w o f img (KAssemble src args obj run output)) by (split; [exact Hn|exact P]).
  assert (B : (exists x, get_bsave segs (run_opt rn) = Ok x /\ bsave_of segs start x) \/
              (exists e a, get_bsave segs (run_opt rn) = Err e /\ truthy start = Some a /\ existsb (fun s => covers s a) segs = false)).
  { rewrite (get_bsave_truthy segs (run_opt rn) start T). destruct (truthy start) as [a|] eqn:Ts.
    - destruct (Z.eq_dec a lo) as [-> |Na].
      + left. destruct (C25_bsave_loads_the_segments_partial segs start lo hi Ft ltac:(lia) ltac:(lia) ltac:(auto)) as (x & Y1 & Y2). exists x. split; [exact Y1|]. exists lo, hi. split; [exact Ft|]. rewrite Ts, Z.eqb_refl. exact Y2.
      + destruct (existsb (fun s => covers s a) segs) eqn:Cv.
        * left. destruct (C25_bsave_jumps_to_run_address_partial segs start a lo hi Ft Ts Na (Rs a eq_refl) Cv Lo Hi) as (x & Y1 & Y2). exists x. split; [exact Y1|]. exists lo, hi. split; [exact Ft|]. rewrite Ts.
          replace (a =? lo) with false by lia. exact Y2.
        * right. exists (EAtr InvalidBinaryFile), a. split; [exact (C25_run_address_outside_is_refused segs start a lo hi Ft Ts Na Cv)|auto].
    - left. destruct (C25_bsave_loads_the_segments_partial segs start lo hi Ft ltac:(lia) ltac:(lia) ltac:(auto)) as (x & Y1 & Y2). exists x. split; [exact Y1|]. exists lo, hi. split; [exact Ft|]. rewrite Ts. exact Y2. }
  destruct (C74_one_run_dos33 _ _ _ _ _ _ _ _ _ H U E) as (m' & H' & Ef). unfold effect in Ef. rewrite D in Ef.
  destruct Ef as [(e & ms0 & -> & _ & [Ea|(s1 & r1 & Ea & Ex)])|(ms0 & s1 & r1 & d & ty & Ea & Ex & Ef)]; rewrite A in Ea; [discriminate Ea| |].
  - injection Ea as <- <- <-. rewrite executable_dos33 in Ex by assumption. right; right; right.
    destruct B as [(x & B & _)|(e' & a & B & Ts & Cv)]; rewrite B in Ex; [discriminate Ex|]. exists e, a. split; [reflexivity|]. split; [exact Ts|]. split; [exact Cv|]. apply (Fe e eq_refl); intros [].
  - injection Ea as <- <- <-. destruct Ef as [(-> & Nw & S1)|[(-> & No & Fc & S1)|(e & -> & Re & S1)]].
    + left. split; [reflexivity|]. split; [exact Nw|]. split; [exact Fr|]. exists m', d. split; [exact H'|]. split; [intros n; rewrite S1; reflexivity|].
      rewrite executable_dos33 in Ex by assumption. destruct B as [(x & B & Bx)|(e' & a & B & _)]; rewrite B in Ex; [|discriminate Ex]. cbn [rbind] in Ex. injection Ex as <- _. exact Bx.
    + right; left. split; [reflexivity|]. split; [exact No|]. split; [exact Fc|].
      assert (U2 : dusual w o f img (KAssemble src args obj run output)) by (apply dos33_usual_ok; exact U). destruct U2 as (_ & _ & Hd).
      destruct (main_assemble dos33_api (Some t_BSAVE) get_smap3 (disk3 (w_env w)) dos33_name dos33_data (fun _ _ => True) padded dos33_refused (disk3_lawful _) w IDos33 (disk3_found _)
        (fun _ _ _ _ _ => eq_refl) o f img m src args obj run output [] segs rn d ty f' ms (Ok tt) (proj1 (dos33_holds _ _ _ _) H) D A Ex Hn (Hd _ _ _ _ _ A Ex) (fun _ _ _ => Logic.I) E) as [(_ & [Y|Y] & _)|[(_ & _ & _ & ->)|(e & Y & _)]]; [contradiction|congruence|reflexivity|discriminate Y].
    + right; right; left. split; [destruct Re as [-> | ->]; auto|]. apply (Fe _ eq_refl). intros [].
Qed.
Print Assumptions C73_assembled_dos33_partial.
(** An object file made by the program is copied to the disk unchanged. *)
Theorem C73_reassembling_copies w o f img m n segs run x output f' ms :
  atari_disk w f img m -> o_dry o = false -> proper w f [n] -> atari_name output -> room f img 1 ->
  ends_with (map lower output) t_bin = false -> ends_with (map lower output) t_bsave = false ->
  (m output = None \/ o_force o = true) -> n <> [46] -> f n = Some x ->
  Forall seg_ok segs -> existsb (fun s => i_origin s =? 0x2e0) segs = false -> Forall (fun s => 0 < i_origin s) segs -> get_xex segs run = Ok x ->
  ~ In (zlen x) atari_sizes -> ~ sparta_boot_record x -> unclaimed (w_env w) x ->
  main w o f img (KAssemble [] [] [n] [] output) = (f', ms, Ok tt) ->
  exists m', atari_disk w f' img m' /\ forall q, m' q = if zlist_eqb q output then Some x else m q.
Proof.
  intros H D P Hn R X1 X2 Nw Nn Fx Sk N2 Po Gx Sz Sp Un E.
  destruct (get_xex_bytes segs run x) as [Xn Xb]; [apply Forall_forall; intros s Hs; rewrite Forall_forall in Sk; apply (Sk s Hs)|exact Gx|].
  destruct (reassemble segs run x Sk N2 Po Gx (zrepeat 0 (zlen x))) as (rep & Rp & Us & St & Rw & Gx').
  assert (H01 : getb x 0 = 255 /\ getb x 1 = 255).
  { destruct (get_xex_spec _ _ _ Gx) as [[_ ->]|[_ (a & _ & ->)]]; split; reflexivity. }
  destruct (xex_found (w_env w) x rep Xb (proj1 H01) (proj2 H01) Sz Sp Un Rp) as (dt & Fd).
  assert (G : gathered w f [] [] [n] [] segs (Some (Properties_Exec.wanted segs run))).
  { exists [], [], [rep]. split; [reflexivity|]. split; [reflexivity|]. split; [constructor; [|constructor]; split; [exact Nn|]; exists x; eexists; split; [exact Fx|]; split; [exact Fd|reflexivity]|].
    cbn [concat]. rewrite app_nil_r. split; [exact Rw|]. split; [rewrite Us; reflexivity|]. cbn [chosen]. rewrite St. reflexivity. }
  destruct (gathered_spec _ _ _ _ _ _ _ _ G) as (rn & A & T).
  assert (U : atari_usual w o f img (KAssemble [] [] [n] [] output)) by (split; [exact Hn|split; [exact R|exact P]]).
  destruct (C74_one_run_atari _ _ _ _ _ _ _ _ _ H U E) as (m' & H' & Ef). unfold effect in Ef. rewrite D in Ef.
  destruct Ef as [(e & ms0 & X & _)|(ms0 & s1 & r1 & d & ty & Ea & Ex & Ef)]; [discriminate X|]. rewrite A in Ea. injection Ea as <- <- <-.
  destruct Ef as [(_ & _ & S1)|[(_ & No & Fc & _)|(e & X & _)]]; [|exfalso; destruct Nw; congruence|discriminate X].
  exists m'. split; [exact H'|]. intros q. rewrite S1. rewrite executable_atari in Ex by assumption. rewrite (get_xex_truthy _ _ _ T), Gx' in Ex. cbn [rbind] in Ex. injection Ex as <- _. reflexivity.
Qed.
Print Assumptions C73_reassembling_copies.
