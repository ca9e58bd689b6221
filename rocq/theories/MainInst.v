(** Atari DOS and DOS 3.3 disks in the program. *)
From Verif Require Import Base BaseLemmas DiskModel DirLemmas AtariModel AtariSpec AtariGeom AtariHeader AtariVtoc AtariWrite AtariOps AtariProps AtariSession SpartaModel ExecModel SdModel CliModel CliProofs CliInst DetectModel DetectSpec DetectProofs DetectErrors DetectErrors2 DetectErrors3 DetectStay DetectDsk Properties_Detect Properties_Detect2 Properties_Detect3 MainModel MainProofs Dos33Model Dos33Spec Dos33Geom Dos33Vtoc Dos33Alloc Dos33Dir Dos33Files Dos33Shred Dos33Ops Dos33Session.

(** * Atari DOS *)
(** No file of this size with this start is taken for a container or has a known
    signature. *)
Definition settled (e : env) (b : list Z) : Prop :=
  forall b', zlen b' = zlen b -> (forall p, 0 <= p < 16 -> getb b' p = getb b p) -> unclaimed e b'.
Definition disk (e : env) (im : aimg) : Prop :=
  consistent im /\ detected e im /\ ~ sparta_boot_record (a_bytes im) /\ settled e (a_bytes im).
Lemma spos4 im : consistent im -> 16 <= spos (geom_of (a_hdr im)) 4.
Proof. intros C. destruct (consistent_view im C) as (k & E & G & D & Hh). pose proof (hg_first _ _ G). lia. Qed.
Lemma disk_kept e im im' : disk e im -> boot_kept im im' -> disk e im'.
Proof.
  intros (C & D & N & U) (C' & _ & L & B). pose proof (spos4 im C) as P.
  assert (U0 : unclaimed e (a_bytes im)) by (apply U; reflexivity).
  assert (U1 : unclaimed e (a_bytes im')) by (apply U; [exact L|intros p Hp; apply B; lia]).
  destruct (stays e im im' C C' L B U0 U1 N D) as [D' N']. split; [exact C'|]. split; [exact D'|]. split; [exact N'|].
  intros b' Lb Hb. apply U; [congruence|]. intros p Hp. rewrite Hb, B by lia. reflexivity.
Qed.
Definition atari_fits (im : aimg) (k : Z) : Prop := zlen (a_files im) + k <= 64.
Definition atari_refused (e : exn) : Prop := e = EAtr NotEnoughSpaceOnDisk.
Lemma disk_lawful e : lawful atari_api (disk e) atari_name (fun _ d => atari_data d) atari_fits (fun d => d) atari_refused.
Proof.
  pose proof atari_lawful as W. constructor.
  - intros im (C & _). exact (lw_open _ _ _ _ _ _ _ W im C).
  - intros im n (C & _). exact (lw_find _ _ _ _ _ _ _ W im n C).
  - intros im n ft d im' K Hn Hd Ft Fn Ew. pose proof K as (C & _). destruct (lw_write _ _ _ _ _ _ _ W im n ft d im' C Hn Hd Ft Fn Ew) as (_ & R). split; [|exact R].
    apply (disk_kept e im); [exact K|]. destruct Hn as [N1 N2], Hd as [D1 D2]. apply find_name_none in Fn. unfold atari_fits in Ft.
    assert (L : legal_write im n d) by (split; [exact N1|]; split; [exact D1|]; split; [exact D2|]; rewrite N2; split; [exact Fn|lia]).
    pose proof (op_keeps_boot im (OWrite n d) C L) as B. cbn [do_op] in B. cbn [atari_api p_write] in Ew. rewrite Ew in B. exact B.
  - intros im n ft d im' x (C & _). exact (lw_refuse _ _ _ _ _ _ _ W im n ft d im' x C).
  - exact (lw_name _ _ _ _ _ _ _ W).
  - intros im d (C & _). exact (lw_files _ _ _ _ _ _ _ W im d C).
  - intros im n K Fn. pose proof K as (C & _). destruct (lw_delete _ _ _ _ _ _ _ W im n C Fn) as (im' & E & _ & R). exists im'. split; [exact E|]. split; [|exact R].
    apply (disk_kept e im); [exact K|].
    assert (Hin : In n (listing im)).
    { destruct (in_dec (list_eq_dec Z.eq_dec) n (listing im)) as [H|H]; [exact H|]. apply find_name_none in H. contradiction. }
    pose proof (op_keeps_boot im (ODelete n) C Hin) as B. cbn [do_op] in B. cbn [atari_api p_delete] in E. rewrite E in B. exact B.
  - exact (lw_fits _ _ _ _ _ _ _ W).
Qed.
Lemma disk_found e im : disk e im -> exists fd, find_diskimage e (p_bytes atari_api im) = Ok fd /\ f_image fd = IAtariDos im.
Proof. intros (_ & (d & E) & _). eexists. split; [exact E|reflexivity]. Qed.
Definition atari_vtoc (a : aimg) : res (list Z) := let! (_, _, m) := get_vtoc_object a in Ok m.
Lemma disk_vtoc e im : disk e im -> exists m, atari_vtoc im = Ok m.
Proof.
  intros (C & _). destruct (consistent_view im C) as (k & E & G & D & Hh). exists (smap_of (a_hdr im) (a_bytes im)). unfold atari_vtoc. rewrite E.
  rewrite (get_vtoc_object_view (a_hdr im) (a_bytes im) k); [reflexivity|exact G].
Qed.
Lemma disk_shred e im im' : disk e im -> p_shred atari_api im = (im', Ok tt) -> disk e im' /\ forall n, look atari_api im' n = look atari_api im n.
Proof.
  intros K E. pose proof K as (C & _). cbn [atari_api p_shred] in E. pose proof (op_keeps_boot im (OShred 0) C Logic.I) as B. cbn [do_op] in B. rewrite E in B. cbn [fst] in B.
  split; [exact (disk_kept e im im' K B)|]. destruct (shred_master im 0 C) as (im2 & E2 & R). rewrite E in E2. injection E2 as <- _.
  intros n. rewrite !look_atari. unfold fs_of. rewrite (sr_files _ _ _ R n). reflexivity.
Qed.

(** * DOS 3.3 *)
Definition settled3 (e : env) (b : list Z) : Prop :=
  forall b', zlen b' = zlen b -> (forall p, 0 <= p < 256 -> getb b' p = getb b p) -> unclaimed3 e b'.
Definition disk3 (e : env) (im : img33) : Prop := consistent3 im /\ apple_boot (i_bytes im) /\ settled3 e (i_bytes im).
Lemma disk3_kept e im im' : disk3 e im -> consistent3 im' -> (forall p, 0 <= p < 256 -> getb (i_bytes im') p = getb (i_bytes im) p) -> disk3 e im'.
Proof.
  intros (C & A & U) C' B. destruct (consistent3_vtoc im C) as (L & _ & Hb). destruct (consistent3_vtoc im' C') as (L' & _ & _).
  split; [exact C'|]. split; [exact (apple_boot_same _ _ Hb L L' B A)|]. intros b' Lb Hp. apply U; [congruence|]. intros p H. rewrite Hp, B by exact H. reflexivity.
Qed.
Definition dos33_refused (e : exn) : Prop := e = EAtr NotEnoughSpaceOnDisk \/ e = EAtr NoSpaceInDirectory.
Lemma disk3_lawful e : lawful dos33_api (disk3 e) dos33_name dos33_data (fun _ _ => True) padded dos33_refused.
Proof.
  pose proof dos33_lawful as W. constructor.
  - intros im (C & _). exact (lw_open _ _ _ _ _ _ _ W im C).
  - intros im n (C & _). exact (lw_find _ _ _ _ _ _ _ W im n C).
  - intros im n ft d im' K Hn Hd Ft Fn Ew. pose proof K as (C & _). destruct (lw_write _ _ _ _ _ _ _ W im n ft d im' C Hn Hd Ft Fn Ew) as (C' & R). split; [|exact R].
    apply (disk3_kept e im); [exact K|exact C'|]. destruct Hn as [N1 N2], Hd as (D1 & D2 & D3). apply CliInst.find_name3_none in Fn.
    assert (L : legal_write3 im n ft d) by (split; [exact N1|]; split; [exact D1|]; split; [exact D2|]; split; [exact D3|]; rewrite N2; exact Fn).
    destruct (op_keeps_boot3 im (PWrite n ft d) C (or_introl L)) as [_ B]. cbn [do_op3] in B. cbn [dos33_api p_write] in Ew. rewrite Ew in B. exact B.
  - intros im n ft d im' x (C & _). exact (lw_refuse _ _ _ _ _ _ _ W im n ft d im' x C).
  - exact (lw_name _ _ _ _ _ _ _ W).
  - intros im d (C & _). exact (lw_files _ _ _ _ _ _ _ W im d C).
  - intros im n K Fn. pose proof K as (C & _). destruct (lw_delete _ _ _ _ _ _ _ W im n C Fn) as (im' & E & C' & R). exists im'. split; [exact E|]. split; [|exact R].
    apply (disk3_kept e im); [exact K|exact C'|].
    assert (Hin : In n (listing3 im)).
    { destruct (in_dec (list_eq_dec Z.eq_dec) n (listing3 im)) as [H|H]; [exact H|]. apply CliInst.find_name3_none in H. contradiction. }
    destruct (op_keeps_boot3 im (PDelete n) C (or_introl Hin)) as [_ B]. cbn [do_op3] in B. cbn [dos33_api p_delete] in E. rewrite E in B. exact B.
  - exact (lw_fits _ _ _ _ _ _ _ W).
Qed.
Lemma disk3_found e im : disk3 e im -> exists fd, find_diskimage e (p_bytes dos33_api im) = Ok fd /\ f_image fd = IDos33 im.
Proof. intros (C & A & U). eexists. split; [apply C69_dos33_detected; [exact C|exact A|apply U; reflexivity]|reflexivity]. Qed.
Lemma disk3_vtoc e im : disk3 e im -> exists m, get_smap3 im = Ok m.
Proof.
  intros (C & _). destruct (consistent3_view im C) as (cat & k & E & D). exists (smap3 (i_bytes im)). rewrite E. unfold get_smap3. cbn [view3 i_hdr i_bytes].
  rewrite get_raw3_in by lia. reflexivity.
Qed.
Lemma disk3_shred e im im' : disk3 e im -> p_shred dos33_api im = (im', Ok tt) -> disk3 e im' /\ forall n, look dos33_api im' n = look dos33_api im n.
Proof.
  intros K E. pose proof K as (C & _). cbn [dos33_api p_shred] in E. destruct (op_keeps_boot3 im (PShred 0) C Logic.I) as [C' B]. cbn [do_op3] in *. rewrite E in C', B. cbn [fst] in *.
  split; [exact (disk3_kept e im im' K C' B)|]. destruct (shred_master3 im 0 C) as (im2 & E2 & R). rewrite E in E2. injection E2 as <-.
  intros n. rewrite !look_dos33. unfold fs_of3. rewrite (proj1 (sr3_files _ _ _ R n)). reflexivity.
Qed.
