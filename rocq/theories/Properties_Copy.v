(** Copying files from one disk to another: C83. *)
From Verif Require Import Base BaseLemmas DiskModel AtariModel AtariSpec AtariGeom AtariChain AtariHeader AtariBlank AtariOps AtariSession AtariProps AtariDemo SpartaModel ExecModel SdModel CliModel CliProofs CliInst DetectModel MainModel MainProofs MainProofs2 MainInst MainCopy Dos33Model Dos33Spec Dos33Geom Dos33Alloc Dos33Dir Dos33Update Dos33Files Dos33Write Dos33Ops Dos33Session Dos33Demo Properties_Cli Properties_Detect Properties_Main.

(** * What is copied *)

(** The files that extract writes: those named, or with --all all of them. *)
Definition chosen (o : opts) (m : fsmap) (files names : list (list Z)) : Prop :=
  NoDup names /\ names <> [] /\ forall n, In n names <-> (o_all o = true \/ In n files) /\ m n <> None.
(** Neither converting the text nor lowering the names, and not a dry run. *)
Definition verbatim (o : opts) : Prop := o_dry o = false /\ o_lower o = false /\ o_text o = false.
(** The files are written to new places (or --force is given) that are not the two images. *)
Definition apart (o : opts) (f : fs) (src dst : list Z) (names : list (list Z)) : Prop :=
  src <> dst /\ forall n, In n names -> n <> [] /\ ~ In 47 n /\ (o_force o = true \/ f (out_path o n) = None) /\ out_path o n <> src /\ out_path o n <> dst.
(** The files of the target afterwards. *)
Definition with_copies (names : list (list Z)) (conv : list Z -> list Z) (m m2 : fsmap) : fsmap := fun n =>
  if existsb (zlist_eqb n) names then option_map conv (m n) else m2 n.
Definition sizes (m : fsmap) (names : list (list Z)) : list Z := map (fun n => match m n with Some d => zlen d | None => 0 end) names.
Definition total (need : Z -> Z) (l : list Z) : Z := fold_right (fun x s => need x + s) 0 l.
(** Room on the target: directory entries and sectors. *)
Definition atari_space (f : fs) (img : list Z) (l : list Z) : Prop := forall b im, f img = Some b -> open_image b = Ok im ->
  zlen (a_files im) + zlen l <= 64 /\ total (sectors_needed (payload_of im)) l <= free_sectors_of im.
Definition dos33_space (f : fs) (img : list Z) (l : list Z) : Prop := forall b im, f img = Some b -> open33 b = Ok im ->
  (exists cat k, Dos33Spec.dos33_disk b cat k /\ zlen (listing3 im) + zlen l <= 7 * (zlen cat - 1)) /\ total need3 l <= free_sectors3 im.

(** * What is on a disk *)
Lemma flat_bytes_ok {X} (g : X -> list Z) l : (forall x, bytes_ok (g x)) -> bytes_ok (flat_map g l).
Proof. intros H. apply Forall_forall. intros z Hz. apply in_flat_map in Hz. destruct Hz as (x & _ & Hx). exact (proj1 (Forall_forall _ _) (H x) z Hx). Qed.
Lemma atari_file_data w f img m n d : atari_disk w f img m -> m n = Some d -> atari_data d.
Proof.
  intros (_ & im & _ & (C & _) & A) Mn. specialize (A n). rewrite Mn in A. destruct (consistent_view im C) as (k & E & G & D & _). rewrite E in A.
  destruct (find_view _ _ _ n G D) as [(i & c & Fi & Q)|(_ & Q)]; rewrite Q in A; [|discriminate]. injection A as <-. pose proof Fi as (Hi & L & _ & Ch).
  destruct (dk_files _ _ _ D i Hi L) as (_ & _ & c' & Ch' & Ne & _). split; [rewrite (chain_det _ _ _ _ _ Ch _ Ch'); exact Ne|].
  apply flat_bytes_ok. intros x. apply bytes_ok_slice. apply bytes_ok_slice. apply (dk_bytes _ _ _ D).
Qed.
Lemma filter_zlen {X} (g : X -> bool) l : zlen (filter g l) <= zlen l.
Proof. unfold zlen. induction l as [|x l IH]; cbn [filter length]; [lia|]. destruct (g x); cbn [length]; lia. Qed.
Lemma x_name_ok e : bytes_ok e -> ascii (x_name e) /\ zlen (x_name e) <= 29.
Proof.
  intros B. split.
  - assert (P : Forall (fun c => 0 <= c) (rstrip (map (fun c => (c - 128) mod 256) (slice e 3 32)))).
    { apply Forall_rstripf, Forall_forall. intros c Hc. apply in_map_iff in Hc. destruct Hc as (y & <- & _). apply Z.mod_pos_bound. lia. }
    apply Forall_forall. intros c Hc. unfold x_name in Hc. apply filter_In in Hc. destruct Hc as [Hc Hl]. pose proof (proj1 (Forall_forall _ _) P c Hc). cbv beta in *. lia.
  - unfold x_name. etransitivity; [apply filter_zlen|]. etransitivity; [apply zlen_rstripf|]. rewrite zlen_map. etransitivity; [apply zlen_slice_le; lia|lia].
Qed.
Lemma dos33_file_ok w f img m n d : dos33_disk w f img m -> m n = Some d -> dos33_name n /\ d <> [] /\ bytes_ok d /\ zlen d mod 256 = 0.
Proof.
  intros (_ & im & _ & (C & _) & A) Mn. specialize (A n). rewrite Mn in A. destruct (consistent3_view im C) as (cat & k & E & D). rewrite E in A.
  destruct (find_view3 _ _ _ n D) as [(i & tl & dl & Fi & Q & _)|(_ & Q & _)]; rewrite Q in A; [|discriminate]. injection A as <-. pose proof Fi as (Hi & L & Nm & Fa).
  destruct (k3_files _ _ _ D i Hi L) as (_ & _ & tl' & dl' & Fa' & Ne & _ & Ds). destruct (file_at_det _ _ _ _ _ _ Fa Fa') as [<- <-].
  pose proof (k3_bytes _ _ _ D) as B. pose proof (k3_size _ _ _ D) as Zb.
  assert (Bs : bytes_ok (slot3 (i_bytes im) cat i)). { apply bytes_ok_slice. apply flat_bytes_ok. intros x. apply bytes_ok_slice, bytes_ok_slice, B. }
  destruct (x_name_ok _ Bs) as [N1 N2]. rewrite Nm in N1, N2.
  split; [split; [exact N1|]|].
  { unfold stored_name3. pose proof (zlen_nonneg n). rewrite slice_all by lia. destruct (k3_used _ _ _ D i Hi) as [_ R]. rewrite Nm in R. exact R. }
  assert (Zs : forall l, (forall x, In x l -> 16 <= x < 560) -> zlen (contents3 (i_bytes im) l) = 256 * zlen l).
  { clear -Zb. induction l as [|x l IH]; intros H; [reflexivity|]. unfold contents3 in *. cbn [flat_map]. rewrite zlen_app, zlen_cons, IH by (intros y Hy; apply H; right; exact Hy).
    rewrite zlen_sec; [lia|exact Zb|]. specialize (H x (or_introl eq_refl)). lia. }
  specialize (Zs dl). assert (Rd : forall x, In x dl -> 16 <= x < 560). { intros x Hx. destruct (Ds x) as [(R & _) _]; [apply in_or_app; right; exact Hx|lia]. }
  specialize (Zs Rd). destruct dl as [|x dl]; [congruence|]. rewrite zlen_cons in Zs. pose proof (zlen_nonneg dl).
  split; [intros Q0; rewrite Q0 in Zs; change (zlen (@nil Z)) with 0 in Zs; lia|]. split; [apply flat_bytes_ok; intros y; apply bytes_ok_slice, B|]. rewrite Zs, Z.mul_comm. apply Z.mod_mul. lia.
Qed.
Lemma padded_id d : zlen d mod 256 = 0 -> padded d = d.
Proof.
  intros H. unfold padded, sectors3. replace (256 * ((zlen d + 255) / 256) - zlen d) with 0; [apply app_nil_r|]. pose proof (zlen_nonneg d).
  Z.to_euclidean_division_equations; lia.
Qed.

(** * Room *)
Definition aenough (im : aimg) (jobs : list (list Z * list Z)) : Prop :=
  zlen (a_files im) + zlen jobs <= 64 /\ total (sectors_needed (payload_of im)) (map (fun j => zlen (snd j)) jobs) <= free_sectors_of im.
Lemma total_nonneg need l : (forall x, In x l -> 0 <= need x) -> 0 <= total need l.
Proof. induction l as [|x l IH]; intros H; [cbn; lia|]. cbn [total fold_right]. fold (total need l). pose proof (H x (or_introl eq_refl)). specialize (IH (fun y Hy => H y (or_intror Hy))). lia. Qed.
Lemma aenough_law e im n ft d l : disk e im -> atari_name n -> (fun _ d => atari_data d) ft d -> p_find atari_api im n = None -> aenough im ((n, d) :: l) ->
  exists im', p_write atari_api im n ft d = (im', Ok tt) /\ aenough im' l /\ disk e im' /\ forall q, q <> n -> look atari_api im' q = look atari_api im q.
Proof.
  intros D Hn Hd Fn [E1 E2]. pose proof D as (C & _). cbv beta in Hd. cbn [map snd total fold_right] in E2. fold (total (sectors_needed (payload_of im)) (map (fun j : list Z * list Z => zlen (snd j)) l)) in E2.
  rewrite zlen_cons in E1. pose proof (zlen_nonneg l) as Zl. cbn [atari_api p_find] in Fn. apply CliInst.find_name_none in Fn.
  assert (LW : legal_write im n d).
  { split; [apply Hn|]. rewrite (proj2 Hn). split; [apply Hd|]. split; [apply Hd|]. split; [exact Fn|lia]. }
  assert (P : 0 < payload_of im).
  { unfold payload_of. destruct (consistent_view im C) as (k & _ & G & D2 & _). pose proof (hg_pay _ _ G). pose proof (hg_ss _ _ G). lia. }
  assert (T : 0 <= total (sectors_needed (payload_of im)) (map (fun j : list Z * list Z => zlen (snd j)) l)).
  { apply total_nonneg. intros x Hx. apply in_map_iff in Hx. destruct Hx as (j & <- & _). unfold sectors_needed. apply Z.div_pos; [|exact P]. pose proof (zlen_nonneg (snd j)). lia. }
  destruct (write_master im n d C LW) as [(Hs & im1 & c & Ew & W)|(Hs & _)]; [|exfalso; lia].
  exists im1. split; [exact Ew|].
  assert (F1 : atari_fits im 1) by (unfold atari_fits; lia).
  destruct (lw_write _ _ _ _ _ _ _ (disk_lawful e) im n ft d im1 D Hn Hd F1 ltac:(apply CliInst.find_name_none; exact Fn) Ew) as (D1 & _ & L1 & F2).
  split; [|split; [exact D1|exact L1]]. split.
  - apply (F2 (zlen l) Zl). unfold atari_fits. lia.
  - unfold payload_of at 1. rewrite (wr_hdr _ _ _ _ _ W). fold (payload_of im). rewrite (wr_free_count _ _ _ _ _ W). lia.
Qed.
(** The directory: a write keeps the catalog sectors. *)
Lemma write_catalog im n ft d im' cat k : Dos33Spec.dos33_disk (i_bytes im) cat k -> consistent3 im -> legal_write3 im n ft d -> write_file3 im n ft d = (im', Ok tt) ->
  exists k', Dos33Spec.dos33_disk (i_bytes im') cat k'.
Proof.
  intros D0 C (Ha & Ht & Hd & Hdo & Hnl) Ew. destruct (consistent3_view im C) as (cat' & k' & E & D). destruct (disk_det _ _ _ _ _ D0 D) as [<- <-]. clear D0.
  set (b := i_bytes im) in *. rewrite E in Hnl. rewrite In_listing3 in Hnl by assumption.
  pose proof (write_body3_spec b cat k n ft d D Ha Hd Hdo Ht Hnl) as (O1 & O2 & O3 & O4).
  assert (Upd : forall b' k' r, Dos33Spec.dos33_disk b' cat k' ->
     write_body3 (view3 b cat k) n ft d = (with_bytes3 (view3 b cat k) b', r) ->
     write_file3 im n ft d = (view3 b' cat k', r)).
  { intros b' k' r D' Eb. rewrite E. unfold write_file3. apply transact3_view; assumption. }
  destruct (write_master3 im n ft d C) as [(R1 & R2 & _)|[(_ & E2)|[(_ & im2 & l & E2 & _)|(_ & _ & im2 & l & E2 & _)]]]; try congruence.
  { split; [exact Ha|]. split; [exact Ht|]. split; [exact Hd|]. split; [exact Hdo|]. rewrite E, In_listing3 by assumption. exact Hnl. }
  unfold free_sectors3 in R1. fold b in R1. rewrite free_count3_list in R1. apply (has_room3_iff im cat k D) in R2. fold b in R2.
  destruct (O4 R1 R2) as (b' & Eb & W). pose proof (update_ok _ _ _ _ _ _ (w3_upd _ _ _ _ _ _ _ _ _ _ _ W)) as D'.
  rewrite (Upd _ _ _ D' Eb) in Ew. injection Ew as <-. eexists. exact D'.
Qed.

Lemma filter_id {X} (g : X -> bool) l : (forall x, In x l -> g x = true) -> filter g l = l.
Proof. induction l as [|x l IH]; intros H; [reflexivity|]. cbn [filter]. rewrite (H x (or_introl eq_refl)), IH; [reflexivity|]. intros y Hy. apply H. right. exact Hy. Qed.
Lemma dir_room im cat k j : Dos33Spec.dos33_disk (i_bytes im) cat k -> consistent3 im -> zlen (listing3 im) + (1 + j) <= 7 * (zlen cat - 1) -> 0 <= j -> has_room3 im.
Proof.
  intros D C H Hj. apply (has_room3_iff im cat k D). destruct (room3_dec _ _ _ D) as [R|R]; [exact R|]. exfalso.
  destruct (consistent3_view im C) as (cat' & k' & E & D'). destruct (disk_det _ _ _ _ _ D D') as [<- <-]. rewrite E in H. unfold listing3 in H. cbn [view3 i_files] in H.
  rewrite zlen_map, files3_eq, zlen_map in H by exact D.
  assert (A : live_slots3 (i_bytes im) cat k = zrange 0 k).
  { unfold live_slots3. apply filter_id. intros i Hi. apply In_zrange in Hi. apply (live_b_spec _ _ _ _ D Hi). destruct (k3_used _ _ _ D i Hi) as [[X|X] _]; [|exact X].
    exfalso. apply R. left. exists i. auto. }
  rewrite A in H. pose proof (k3_k _ _ _ D). rewrite zlen_zrange in H by lia. apply R. right. lia.
Qed.
Definition denough (im : img33) (jobs : list (list Z * list Z)) : Prop :=
  (exists cat k, Dos33Spec.dos33_disk (i_bytes im) cat k /\ zlen (listing3 im) + zlen jobs <= 7 * (zlen cat - 1)) /\ total need3 (map (fun j => zlen (snd j)) jobs) <= free_sectors3 im.
Lemma need3_nonneg x : 0 <= x -> 0 <= need3 x.
Proof. intros H. unfold need3, lists3, sectors3. pose proof (Z.div_pos (x + 255) 256). pose proof (Z.div_pos ((x + 255) / 256 + 121) 122). lia. Qed.
Lemma denough_law e im n ft d l : disk3 e im -> dos33_name n -> dos33_data ft d -> p_find dos33_api im n = None -> denough im ((n, d) :: l) ->
  exists im', p_write dos33_api im n ft d = (im', Ok tt) /\ denough im' l /\ disk3 e im' /\ forall q, q <> n -> look dos33_api im' q = look dos33_api im q.
Proof.
  intros D Hn Hd Fn [(cat & k & Dk & E1) E2]. pose proof D as (C & _). cbn [map snd total fold_right] in E2. fold (total need3 (map (fun j : list Z * list Z => zlen (snd j)) l)) in E2.
  rewrite zlen_cons in E1. pose proof (zlen_nonneg l) as Zl. cbn [dos33_api p_find] in Fn. apply CliInst.find_name3_none in Fn.
  assert (LW : legal_write3 im n ft d).
  { split; [apply Hn|]. split; [apply Hd|]. split; [apply Hd|]. split; [apply Hd|]. rewrite (proj2 Hn). exact Fn. }
  assert (T : 0 <= total need3 (map (fun j : list Z * list Z => zlen (snd j)) l)).
  { apply total_nonneg. intros x Hx. apply in_map_iff in Hx. destruct Hx as (j & <- & _). apply need3_nonneg, zlen_nonneg. }
  pose proof (dir_room im cat k (zlen l) Dk C E1 Zl) as R.
  assert (S0 : sectors3 (zlen d) <= need3 (zlen d)).
  { unfold need3, lists3. pose proof (zlen_nonneg d). assert (0 <= sectors3 (zlen d)) by (unfold sectors3; apply Z.div_pos; lia). pose proof (Z.div_pos (sectors3 (zlen d) + 121) 122). lia. }
  destruct (write_master3 im n ft d C LW) as [(_ & _ & im1 & tl & dl & Ew & W)|[(Q & _)|[(Q & _)|(_ & Q & _)]]]; [|exfalso; lia|exfalso; lia|contradiction].
  exists im1. split; [exact Ew|].
  destruct (lw_write _ _ _ _ _ _ _ (disk3_lawful e) im n ft d im1 D Hn Hd Logic.I ltac:(apply CliInst.find_name3_none; exact Fn) Ew) as (D1 & _ & L1 & _).
  split; [|split; [exact D1|exact L1]]. split.
  - destruct (write_catalog im n ft d im1 cat k Dk C LW Ew) as (k' & Dk'). exists cat, k'. split; [exact Dk'|].
    destruct (wr3_listing _ _ _ _ _ _ _ W) as (l1 & l2 & X1 & X2). rewrite X2. rewrite X1 in E1. rewrite zlen_app in *. rewrite zlen_cons. lia.
  - rewrite (wr3_free_count _ _ _ _ _ _ _ W). lia.
Qed.

Lemma inA_atari im n d : p_find atari_api im n = Some d -> In d (p_files atari_api im).
Proof. exact (find_name_In n (a_files im) d). Qed.
Lemma find_name3_In n ds d : find_name3 n ds = Some d -> In d ds.
Proof. induction ds as [|x ds IH]; cbn [find_name3]; [discriminate|]. destruct (zlist_eqb _ _); [intros E; injection E as <-; left; reflexivity|intros E; right; exact (IH E)]. Qed.
Lemma inA_dos33 im n d : p_find dos33_api im n = Some d -> In d (p_files dos33_api im).
Proof. exact (find_name3_In n (i_files im) d). Qed.
Lemma jobs_sizes m names : map (fun j => zlen (snd j)) (jobs_from m names) = sizes m names.
Proof. unfold jobs_from, sizes. rewrite map_map. apply map_ext. intros n. cbn [snd]. destruct (m n); reflexivity. Qed.
Lemma zlen_jobs m names : zlen (jobs_from m names) = zlen names.
Proof. unfold jobs_from. apply zlen_map. Qed.
Lemma zlen_sizes m names : zlen (sizes m names) = zlen names.
Proof. unfold sizes. apply zlen_map. Qed.

Lemma holds_ext A good f img m m' : (forall n, m n = m' n) -> holds A good f img m -> holds A good f img m'.
Proof. intros E (N & im & F & G & L). split; [exact N|]. exists im. split; [exact F|]. split; [exact G|]. intros n. rewrite L. apply E. Qed.

(** * C83: copying *)

(** What two runs, extracting from [src] and then adding what was extracted to [dst],
    come to: the first succeeds; the source is as it was; the target has the files with
    their contents ([conv]) besides its own, or is as it was and the second run reports
    why; if there was room for new files it succeeded; and no other file changed but
    those extracted. *)
Definition copied (disk1 disk2 : fs -> list Z -> fsmap -> Prop) (refused : exn -> Prop) (space : fs -> list Z -> list Z -> Prop) (conv : list Z -> list Z)
    (o : opts) (f : fs) (src : list Z) (m : fsmap) (names : list (list Z)) (dst : list Z) (m2 : fsmap) (f2 : fs) (r1 r2 : res unit) : Prop :=
  r1 = Ok tt /\ disk1 f2 src m /\
  (r2 = Ok tt /\ disk2 f2 dst (with_copies names conv m m2) \/ exists e, r2 = Err e /\ refused e /\ disk2 f2 dst m2) /\
  ((forall n, In n names -> m2 n = None) -> space f dst (sizes m names) -> r2 = Ok tt) /\
  (forall p, p <> dst -> (forall n, In n names -> p <> out_path o n) -> f2 p = f p).
(** The target does not have the files yet, or --force is given. *)
Definition replacing (o2 : opts) (m2 : fsmap) (names : list (list Z)) : Prop := o_dry o2 = false /\ forall n, In n names -> o_force o2 = true \/ m2 n = None.

Section Copy.
Variables (w : world) (o : opts) (f : fs) (src : list Z) (m : fsmap) (files names : list (list Z)) (o2 : opts) (dst : list Z) (m2 : fsmap).
Variables (f1 : fs) (ms1 : list msg) (r1 : res unit) (f2 : fs) (ms2 : list msg) (r2 : res unit).
Hypothesis V : verbatim o.
Hypothesis Ch : chosen o m files names.
Hypothesis Ap : apart o f src dst names.
Hypothesis Rp : replacing o2 m2 names.
Hypothesis E1 : main w o f src (KExtract files) = (f1, ms1, r1).
Hypothesis E2 : main w o2 f1 dst (KAdd (map (out_path o) names)) = (f2, ms2, r2).

Theorem C83_atari_to_atari : atari_disk w f src m -> atari_disk w f dst m2 -> (forall n, In n names -> atari_name n) -> room f dst (zlen names) ->
  copied (atari_disk w) (atari_disk w) (fun e => e = EAtr NotEnoughSpaceOnDisk) atari_space (fun d => d) o f src m names dst m2 f2 r1 r2.
Proof.
  intros H1 H2 Nm Rm. destruct V as (V1 & V2 & V3). destruct Ch as (C1 & C2 & C3). destruct Ap as (A1 & A2). destruct Rp as (P1 & P2).
  assert (Dt : forall n d, In n names -> m n = Some d -> atari_name n /\ atari_data d) by (intros n d Hn Mn; split; [exact (Nm n Hn)|exact (atari_file_data w f src m n d H1 Mn)]).
  apply atari_holds in H1. apply atari_holds in H2.
  destruct (copy_files atari_api (Some t_XEX) atari_vtoc (disk (w_env w)) atari_name (fun _ d => atari_data d) atari_fits (fun d => d) atari_refused (disk_lawful _)
    atari_api (Some t_XEX) atari_vtoc (disk (w_env w)) atari_name (fun _ d => atari_data d) atari_fits (fun d => d) atari_refused (disk_lawful _)
    w IAtariDos IAtariDos (disk_found _) (fun _ _ _ _ _ => eq_refl) inA_atari (disk_found _) (fun _ _ _ _ _ => eq_refl) aenough (aenough_law _)
    o f src m files names o2 dst m2 f1 ms1 r1 f2 ms2 r2 H1 H2 A1 V1 V2 V3 C3 C1 C2 A2 Dt (room_fits w f dst _ Rm) P1 P2 E1 E2) as (R1 & R2 & R3 & R4 & R5).
  split; [exact R1|]. split; [apply atari_holds; exact R2|]. split; [|split; [|exact R5]].
  - destruct R3 as [(R & m2' & Hh & Hm)|(e & R & Re & Hh)]; [left|right; exists e; split; [exact R|split; [exact Re|apply atari_holds; exact Hh]]].
    split; [exact R|]. apply atari_holds. exact (holds_ext _ _ _ _ _ _ Hm Hh).
  - intros Nw Sp. apply (R4 Nw). intros im Fd (C & _). destruct (Sp (a_bytes im) im Fd (proj1 C)) as [S1 S2]. split; [rewrite zlen_jobs, <- (zlen_sizes m names); exact S1|rewrite jobs_sizes; exact S2].
Qed.
Theorem C83_dos33_to_atari : dos33_disk w f src m -> atari_disk w f dst m2 -> (forall n, In n names -> atari_name n) -> room f dst (zlen names) ->
  copied (dos33_disk w) (atari_disk w) (fun e => e = EAtr NotEnoughSpaceOnDisk) atari_space (fun d => d) o f src m names dst m2 f2 r1 r2.
Proof.
  intros H1 H2 Nm Rm. destruct V as (V1 & V2 & V3). destruct Ch as (C1 & C2 & C3). destruct Ap as (A1 & A2). destruct Rp as (P1 & P2).
  assert (Dt : forall n d, In n names -> m n = Some d -> atari_name n /\ atari_data d).
  { intros n d Hn Mn; split; [exact (Nm n Hn)|]. destruct (dos33_file_ok w f src m n d H1 Mn) as (_ & X & Y & _). split; assumption. }
  apply dos33_holds in H1. apply atari_holds in H2.
  destruct (copy_files dos33_api (Some t_BSAVE) get_smap3 (disk3 (w_env w)) dos33_name dos33_data (fun _ _ => True) padded dos33_refused (disk3_lawful _)
    atari_api (Some t_XEX) atari_vtoc (disk (w_env w)) atari_name (fun _ d => atari_data d) atari_fits (fun d => d) atari_refused (disk_lawful _)
    w IDos33 IAtariDos (disk3_found _) (fun _ _ _ _ _ => eq_refl) inA_dos33 (disk_found _) (fun _ _ _ _ _ => eq_refl) aenough (aenough_law _)
    o f src m files names o2 dst m2 f1 ms1 r1 f2 ms2 r2 H1 H2 A1 V1 V2 V3 C3 C1 C2 A2 Dt (room_fits w f dst _ Rm) P1 P2 E1 E2) as (R1 & R2 & R3 & R4 & R5).
  split; [exact R1|]. split; [apply dos33_holds; exact R2|]. split; [|split; [|exact R5]].
  - destruct R3 as [(R & m2' & Hh & Hm)|(e & R & Re & Hh)]; [left|right; exists e; split; [exact R|split; [exact Re|apply atari_holds; exact Hh]]].
    split; [exact R|]. apply atari_holds. exact (holds_ext _ _ _ _ _ _ Hm Hh).
  - intros Nw Sp. apply (R4 Nw). intros im Fd (C & _). destruct (Sp (a_bytes im) im Fd (proj1 C)) as [S1 S2]. split; [rewrite zlen_jobs, <- (zlen_sizes m names); exact S1|rewrite jobs_sizes; exact S2].
Qed.
(** The type the files are stored with on a DOS 3.3 disk (option -t, otherwise binary). *)
Definition typed : Prop := type_code (match o_type o2 with [] => [66] | t => t end) <> 0.
Theorem C83_atari_to_dos33 : atari_disk w f src m -> dos33_disk w f dst m2 -> (forall n, In n names -> dos33_name n) -> typed ->
  copied (atari_disk w) (dos33_disk w) (fun e => e = EAtr NotEnoughSpaceOnDisk \/ e = EAtr NoSpaceInDirectory) dos33_space padded o f src m names dst m2 f2 r1 r2.
Proof.
  intros H1 H2 Nm Ty. destruct V as (V1 & V2 & V3). destruct Ch as (C1 & C2 & C3). destruct Ap as (A1 & A2). destruct Rp as (P1 & P2).
  assert (Dt : forall n d, In n names -> m n = Some d -> dos33_name n /\ dos33_data (filetype dos33_api o2) d).
  { intros n d Hn Mn; split; [exact (Nm n Hn)|]. destruct (atari_file_data w f src m n d H1 Mn) as (X & Y). split; [exact Ty|]. split; assumption. }
  apply atari_holds in H1. apply dos33_holds in H2.
  destruct (copy_files atari_api (Some t_XEX) atari_vtoc (disk (w_env w)) atari_name (fun _ d => atari_data d) atari_fits (fun d => d) atari_refused (disk_lawful _)
    dos33_api (Some t_BSAVE) get_smap3 (disk3 (w_env w)) dos33_name dos33_data (fun _ _ => True) padded dos33_refused (disk3_lawful _)
    w IAtariDos IDos33 (disk_found _) (fun _ _ _ _ _ => eq_refl) inA_atari (disk3_found _) (fun _ _ _ _ _ => eq_refl) denough (denough_law _)
    o f src m files names o2 dst m2 f1 ms1 r1 f2 ms2 r2 H1 H2 A1 V1 V2 V3 C3 C1 C2 A2 Dt (fun _ _ _ => Logic.I) P1 P2 E1 E2) as (R1 & R2 & R3 & R4 & R5).
  split; [exact R1|]. split; [apply atari_holds; exact R2|]. split; [|split; [|exact R5]].
  - destruct R3 as [(R & m2' & Hh & Hm)|(e & R & Re & Hh)]; [left|right; exists e; split; [exact R|split; [exact Re|apply dos33_holds; exact Hh]]].
    split; [exact R|]. apply dos33_holds. exact (holds_ext _ _ _ _ _ _ Hm Hh).
  - intros Nw Sp. apply (R4 Nw). intros im Fd (C & _). destruct (Sp (i_bytes im) im Fd (proj1 C)) as [(cat & k & Dk & S1) S2]. split; [exists cat, k; split; [exact Dk|]; rewrite zlen_jobs, <- (zlen_sizes m names); exact S1|rewrite jobs_sizes; exact S2].
Qed.
Theorem C83_dos33_to_dos33 : dos33_disk w f src m -> dos33_disk w f dst m2 -> typed ->
  copied (dos33_disk w) (dos33_disk w) (fun e => e = EAtr NotEnoughSpaceOnDisk \/ e = EAtr NoSpaceInDirectory) dos33_space (fun d => d) o f src m names dst m2 f2 r1 r2.
Proof.
  intros H1 H2 Ty. destruct V as (V1 & V2 & V3). destruct Ch as (C1 & C2 & C3). destruct Ap as (A1 & A2). destruct Rp as (P1 & P2).
  pose proof (fun n d => dos33_file_ok w f src m n d H1) as Ok1.
  assert (Dt : forall n d, In n names -> m n = Some d -> dos33_name n /\ dos33_data (filetype dos33_api o2) d).
  { intros n d Hn Mn. destruct (Ok1 n d Mn) as (X & Y & Z0 & _). split; [exact X|]. split; [exact Ty|]. split; assumption. }
  apply dos33_holds in H1. apply dos33_holds in H2.
  destruct (copy_files dos33_api (Some t_BSAVE) get_smap3 (disk3 (w_env w)) dos33_name dos33_data (fun _ _ => True) padded dos33_refused (disk3_lawful _)
    dos33_api (Some t_BSAVE) get_smap3 (disk3 (w_env w)) dos33_name dos33_data (fun _ _ => True) padded dos33_refused (disk3_lawful _)
    w IDos33 IDos33 (disk3_found _) (fun _ _ _ _ _ => eq_refl) inA_dos33 (disk3_found _) (fun _ _ _ _ _ => eq_refl) denough (denough_law _)
    o f src m files names o2 dst m2 f1 ms1 r1 f2 ms2 r2 H1 H2 A1 V1 V2 V3 C3 C1 C2 A2 Dt (fun _ _ _ => Logic.I) P1 P2 E1 E2) as (R1 & R2 & R3 & R4 & R5).
  split; [exact R1|]. split; [apply dos33_holds; exact R2|]. split; [|split; [|exact R5]].
  - destruct R3 as [(R & m2' & Hh & Hm)|(e & R & Re & Hh)]; [left|right; exists e; split; [exact R|split; [exact Re|apply dos33_holds; exact Hh]]].
    split; [exact R|]. apply dos33_holds. refine (holds_ext _ _ _ _ _ _ _ Hh). intros n. rewrite Hm. unfold with_copies. destruct (existsb (zlist_eqb n) names); [|reflexivity].
    destruct (m n) as [d|] eqn:Mn; [|reflexivity]. cbn [option_map]. rewrite padded_id; [reflexivity|apply (Ok1 n d Mn)].
  - intros Nw Sp. apply (R4 Nw). intros im Fd (C & _). destruct (Sp (i_bytes im) im Fd (proj1 C)) as [(cat & k & Dk & S1) S2]. split; [exists cat, k; split; [exact Dk|]; rewrite zlen_jobs, <- (zlen_sizes m names); exact S1|rewrite jobs_sizes; exact S2].
Qed.
End Copy.
Print Assumptions C83_atari_to_atari.
Print Assumptions C83_dos33_to_atari.
Print Assumptions C83_atari_to_dos33.
Print Assumptions C83_dos33_to_dos33.
(** HELLO from a DOS 3.3 disk D to an empty Atari disk E, and HELLO.TXT from an Atari
    disk E to the DOS 3.3 disk D: there is room, so both are copied. *)
Definition two_disks (b1 b2 : list Z) : fs := fun p => if zlist_eqb p [68] then Some b1 else if zlist_eqb p [69] then Some b2 else None.
Lemma HELLO_atari : atari_name HELLO.
Proof.
  assert (Va : valid_name HELLO).
  { exists HELLO, []. split; [reflexivity|]. split; [cbn; lia|]. split; [cbn; lia|]. split; [cbn; lia|]. split; [apply bytes_ok_b; reflexivity|]. split; [constructor|].
    split; [apply (clean_end_last [72; 69; 76; 76] 79); [reflexivity|discriminate]|apply clean_end_nil]. }
  split; apply (AtariWrite.valid_stored HELLO Va).
Qed.
Lemma one_look n : fs_of3 one_im n <> None <-> n = HELLO.
Proof.
  unfold fs_of3. split; [|intros ->; rewrite (proj1 one_read); discriminate]. intros H. destruct (list_eq_dec Z.eq_dec n HELLO) as [E|N]; [exact E|]. exfalso. apply H.
  unfold find_file3. assert (Fn : find_name3 n (i_files one_im) = None). { apply CliInst.find_name3_none. change (~ In n (listing3 one_im)). rewrite one_listing. intros [X|[]]. congruence. }
  rewrite Fn. reflexivity.
Qed.
Example C83_to_atari : exists im f1 ms1 f2 ms2, let f := two_disks (i_bytes one_im) (a_bytes im) in
  dos33_disk w0 f [68] (fs_of3 one_im) /\ atari_disk w0 f [69] (fs_of im) /\ listing im = [] /\
  main w0 no_opts f [68] (KExtract [HELLO]) = (f1, ms1, Ok tt) /\ main w0 no_opts f1 [69] (KAdd [HELLO]) = (f2, ms2, Ok tt) /\
  atari_disk w0 f2 [69] (fun n => if zlist_eqb n HELLO then Some hello_data else fs_of im n).
Proof.
  destruct blank_disk as (im & D & L & F & P). exists im. set (f := two_disks (i_bytes one_im) (a_bytes im)).
  destruct (main w0 no_opts f [68] (KExtract [HELLO])) as [[f1 ms1] r1] eqn:E1. destruct (main w0 no_opts f1 [69] (KAdd [HELLO])) as [[f2 ms2] r2] eqn:E2.
  exists f1, ms1, f2, ms2. cbv zeta. fold f.
  assert (H1 : dos33_disk w0 f [68] (fs_of3 one_im)) by (apply disk3_at; [exact one_disk|discriminate|reflexivity]).
  assert (H2 : atari_disk w0 f [69] (fs_of im)) by (apply (disk_at env0); [reflexivity|exact D|discriminate|reflexivity]).
  assert (Only : forall b imb, f [69] = Some b -> open_image b = Ok imb -> imb = im).
  { intros b imb Hb Ho. injection Hb as <-. destruct D as ([O1 _] & _). congruence. }
  assert (N0 : fs_of im HELLO = None) by (apply absent; rewrite L; intros []).
  destruct (C83_dos33_to_atari w0 no_opts f [68] (fs_of3 one_im) [HELLO] [HELLO] no_opts [69] (fs_of im) f1 ms1 r1 f2 ms2 r2) as (-> & _ & R & Sp & _); try assumption.
  - split; [reflexivity|]. split; reflexivity.
  - split; [constructor; [intros []|constructor]|]. split; [discriminate|]. intros n. rewrite one_look. cbn [In o_all no_opts]. split; [intros [<-|[]]; auto|intros [_ ->]; auto].
  - split; [discriminate|]. intros n [<-|[]]. split; [discriminate|]. split; [cbn; intuition discriminate|]. split; [right; reflexivity|]. split; discriminate.
  - split; [reflexivity|]. intros n [<-|[]]. right. exact N0.
  - intros n [<-|[]]. exact HELLO_atari.
  - intros b imb Hb Ho. rewrite (Only b imb Hb Ho), listing_files, L. cbn. lia.
  - assert (Ok2 : r2 = Ok tt).
    { apply Sp; [intros n [<-|[]]; exact N0|]. intros b imb Hb Ho. rewrite (Only b imb Hb Ho), listing_files, L, P, F. unfold sizes. cbn [map]. unfold fs_of3. rewrite (proj1 one_read). vm_compute. intuition discriminate. }
    subst r2. split; [exact H1|]. split; [exact H2|]. split; [exact L|]. split; [exact E1|]. split; [exact E2|].
    destruct R as [(_ & R)|(e & R & _)]; [|discriminate]. apply atari_holds. apply atari_holds in R. refine (holds_ext _ _ _ _ _ _ _ R). intros n. unfold with_copies. cbn [existsb]. rewrite orb_false_r.
    destruct (zlist_eqb n HELLO) eqn:En; [|reflexivity]. apply zlist_eqb_eq in En. subst n. unfold fs_of3. rewrite (proj1 one_read). reflexivity.
Qed.
Example C83_to_dos33 : exists im f1 ms1 f2 ms2, let f := two_disks (i_bytes one_im) (a_bytes im) in
  atari_disk w0 f [69] (fs_of im) /\ listing im = [hello] /\
  main w0 (mkO false false false false true None []) f [69] (KExtract []) = (f1, ms1, Ok tt) /\ main w0 no_opts f1 [68] (KAdd [hello]) = (f2, ms2, Ok tt) /\
  dos33_disk w0 f2 [68] (fun n => if zlist_eqb n hello then Some (padded [1; 2; 3]) else fs_of3 one_im n).
Proof.
  destruct add_hello as (_ & im & _ & _ & D & L & Rd & _). exists im. set (f := two_disks (i_bytes one_im) (a_bytes im)). set (o := mkO false false false false true None []).
  destruct (main w0 o f [69] (KExtract [])) as [[f1 ms1] r1] eqn:E1. destruct (main w0 no_opts f1 [68] (KAdd [hello])) as [[f2 ms2] r2] eqn:E2.
  exists f1, ms1, f2, ms2. cbv zeta. fold f.
  assert (H1 : dos33_disk w0 f [68] (fs_of3 one_im)) by (apply disk3_at; [exact one_disk|discriminate|reflexivity]).
  assert (H2 : atari_disk w0 f [69] (fs_of im)) by (apply (disk_at env0); [reflexivity|exact D|discriminate|reflexivity]).
  assert (N0 : fs_of3 one_im hello = None).
  { destruct (fs_of3 one_im hello) eqn:Q; [|reflexivity]. assert (X : hello = HELLO) by (apply one_look; congruence). discriminate X. }
  assert (Only : forall n, fs_of im n <> None <-> n = hello).
  { intros n. split; [|intros ->; congruence]. intros H. destruct (list_eq_dec Z.eq_dec n hello) as [E|N]; [exact E|]. exfalso. apply H. apply absent. rewrite L. intros [X|[]]. congruence. }
  destruct (C83_atari_to_dos33 w0 o f [69] (fs_of im) [] [hello] no_opts [68] (fs_of3 one_im) f1 ms1 r1 f2 ms2 r2) as (-> & _ & R & Sp & _); try assumption.
  - split; [reflexivity|]. split; reflexivity.
  - split; [constructor; [intros []|constructor]|]. split; [discriminate|]. intros n. rewrite Only. cbn [In o_all o]. split; [intros [<-|[]]; auto|intros [_ ->]; auto].
  - split; [discriminate|]. intros n [<-|[]]. split; [discriminate|]. split; [cbn; intuition discriminate|]. split; [right; reflexivity|]. split; discriminate.
  - split; [reflexivity|]. intros n [<-|[]]. right. exact N0.
  - intros n [<-|[]]. split; [|reflexivity]. unfold ascii. repeat constructor; lia.
  - unfold typed. vm_compute. discriminate.
  - assert (Ok2 : r2 = Ok tt).
    { apply Sp; [intros n [<-|[]]; exact N0|]. intros b imb Hb Ho. assert (Eb : b = i_bytes one_im) by (change (Some (i_bytes one_im) = Some b) in Hb; congruence). subst b. rewrite (proj1 one_consistent) in Ho.
      assert (imb = one_im) by congruence. subst imb.
      split; [exists demo_cat, 1; split; [rewrite one_bytes; exact demo_one_disk|]; rewrite one_listing; vm_compute; discriminate|].
      rewrite one_free. unfold sizes. cbn [map]. rewrite Rd. vm_compute. discriminate. }
    subst r2. split; [exact H2|]. split; [exact L|]. split; [exact E1|]. split; [exact E2|].
    destruct R as [(_ & R)|(e & R & _)]; [|discriminate]. apply dos33_holds. apply dos33_holds in R. refine (holds_ext _ _ _ _ _ _ _ R). intros n. unfold with_copies. cbn [existsb]. rewrite orb_false_r.
    destruct (zlist_eqb n hello) eqn:En; [|reflexivity]. apply zlist_eqb_eq in En. subst n. rewrite Rd. reflexivity.
Qed.
