(** C69: sessions on Atari disks, and DOS 3.3 disks. *)
From Verif Require Import Base BaseLemmas DiskModel DirLemmas AtariModel AtariSpec AtariGeom AtariHeader AtariWrite AtariOps AtariProps AtariSession SpartaModel ExecModel DetectModel DetectSpec DetectProofs DetectErrors DetectErrors2 DetectErrors3 DetectStay Properties_Detect Properties_Detect2 DetectDsk Dos33Model Dos33Spec Dos33Dir Dos33Files Dos33Shred Dos33Ops Dos33Session Dos33Demo.
From Verif Require Properties_Dos33.
From Verif Require CartModel.

(** * Any session on an Atari disk *)
(** The boot sectors, the header and the size never change. *)
Definition boot_kept (im im' : aimg) : Prop :=
  consistent im' /\ a_hdr im' = a_hdr im /\ zlen (a_bytes im') = zlen (a_bytes im) /\
  forall p, 0 <= p < spos (geom_of (a_hdr im)) 4 -> getb (a_bytes im') p = getb (a_bytes im) p.
Lemma op_keeps_boot im o : consistent im -> strict_op im o -> boot_kept im (fst (do_op im o)).
Proof.
  intros C L. destruct (consistent_view im C) as (k & E & G & D & Hh). destruct o as [n d|n|f]; cbn [do_op strict_op] in *.
  - destruct (write_master im n d C L) as [(_ & im2 & c & -> & R)|(_ & ->)]; cbn [fst]; [|repeat split; auto; apply C].
    split; [exact (wr_consistent _ _ _ _ _ R)|]. split; [exact (wr_hdr _ _ _ _ _ R)|]. split; [exact (wr_len _ _ _ _ _ R)|].
    intros p Hp. apply (wr_bytes _ _ _ _ _ R); [lia|]. intros s Hs I0.
    assert (4 <= s) by (destruct Hs as [Hs|Hs]; [apply (free_high im s C), (wr_were_free _ _ _ _ _ R), Hs|lia]).
    pose proof (in_sector_high _ _ s p G ltac:(assumption) I0). lia.
  - destruct (delete_master im n C L) as (im2 & c & -> & R). cbn [fst].
    split; [exact (dr_consistent _ _ _ _ R)|]. split; [exact (dr_hdr _ _ _ _ R)|]. split; [exact (dr_len _ _ _ _ R)|].
    intros p Hp. apply (dr_bytes _ _ _ _ R); [lia|]. intros s Hs I1. pose proof (in_sector_high _ _ s p G ltac:(lia) I1). lia.
  - destruct (shred_master im f C) as (im2 & -> & R). cbn [fst]. pose proof (sr_consistent _ _ _ R) as C2.
    assert (X : forall p, 0 <= p < spos (geom_of (a_hdr im)) 4 -> getb (a_bytes im2) p = getb (a_bytes im) p).
    { intros p Hp. apply (sr_kept _ _ _ R); [lia|]. intros s Hs I1. pose proof (in_sector_high _ _ s p G (free_high im s C Hs) I1). lia. }
    split; [exact C2|]. split; [|split; [exact (sr_len _ _ _ R)|exact X]].
    destruct (consistent_view im2 C2) as (k2 & E2 & G2 & D2 & Hh2). pose proof (hg_first _ _ G) as F.
    assert (HH : hdr_of (a_bytes im2) = hdr_of (a_bytes im)); [|congruence].
    unfold hdr_of, read_header. rewrite (sr_len _ _ _ R). replace (slice (a_bytes im2) 0 16) with (slice (a_bytes im) 0 16); [reflexivity|].
    apply list_ext_getb.
    + rewrite !zlen_slice_min by lia. rewrite (sr_len _ _ _ R). reflexivity.
    + intros i Hi. assert (i < 16). { revert Hi. rewrite zlen_slice_min by lia. lia. } rewrite !getb_slice by lia. symmetry. apply X. lia.
Qed.
Lemma run_keeps_boot ops : forall im m, consistent im -> all_ops strict_op im ops -> boot_kept im (fst (run im m ops)).
Proof.
  induction ops as [|o ops IH]; intros im m C L; [cbn; repeat split; auto; apply C|]. cbn [run all_ops] in *. destruct L as [Lo L].
  pose proof (op_keeps_boot im o C Lo) as K. destruct (do_op im o) as [im1 r]. cbn [fst] in *.
  destruct K as (C1 & H1 & L1 & B1). destruct (IH im1 (map_step m o r) C1 L) as (C2 & H2 & L2 & B2). rewrite H1 in *.
  split; [exact C2|]. split; [congruence|]. split; [congruence|]. intros p Hp. rewrite B2 by exact Hp. apply B1. exact Hp.
Qed.
Theorem C69_atari_session_partial (e : env) (im : aimg) (ops : list op) :
  consistent im -> detected e im -> ~ sparta_boot_record (a_bytes im) -> all_ops strict_op im ops ->
  let im' := fst (run im (fs_of im) ops) in
  unclaimed e (a_bytes im) -> unclaimed e (a_bytes im') -> detected e im' /\ ~ sparta_boot_record (a_bytes im').
Proof.
  intros C Dt N L im' U U'. destruct (run_keeps_boot ops im (fs_of im) C L) as (C' & _ & LL & B).
  exact (stays e im im' C C' LL B U U' N Dt).
Qed.
Print Assumptions C69_atari_session_partial.

(** * DOS 3.3 *)
Definition detected3 (e : env) (im : img33) : Prop :=
  find_diskimage e (i_bytes im) = Ok (mkFound M_dsk None PDos33 (IDos33 im)).
(** Neither a container, nor a zip file, nor a known signature. *)
Definition unclaimed3 (e : env) (b : list Z) : Prop := not_container e b /\ e_sig e b = None /\ e_zip e b = NotZip.

(** Every consistent disk is recognised, and as itself. *)
Theorem C69_dos33_detected (e : env) (im : img33) :
  consistent3 im -> apple_boot (i_bytes im) -> unclaimed3 e (i_bytes im) -> detected3 e im.
Proof.
  intros C A (NC & NS & Z0). destruct (consistent3_vtoc im C) as (L & _ & Hb).
  apply dsk_detect; try assumption. apply consistent3_parses. exact C.
Qed.
Print Assumptions C69_dos33_detected.

Lemma apple_boot_same b b' : bytes_ok b -> zlen b = 143360 -> zlen b' = 143360 ->
  (forall p, 0 <= p < 256 -> getb b' p = getb b p) -> apple_boot b -> apple_boot b'.
Proof.
  intros Hb L L' X A. assert (SL : forall n, 0 <= n <= 256 -> slice b' 0 n = slice b 0 n).
  { intros n Hn. apply list_ext_getb.
    - rewrite !zlen_slice by lia. reflexivity.
    - intros i Hi. rewrite zlen_slice in Hi by lia. rewrite !getb_slice by lia. apply X. lia. }
  constructor.
  - intros (P & Q & R). apply (ab_atr b A). rewrite !X in * by lia. repeat split; [lia|assumption|assumption].
  - rewrite !X by lia. exact (ab_xex b A).
  - rewrite SL by lia. exact (ab_cart b A).
  - destruct (header_usual b Hb (plain_usual b A)) as (h & E & _ & _ & O & _ & OI).
    assert (O0 : h_offset h = 0) by (destruct O as [O|O]; [exact O|exfalso; apply (ab_atr b A), OI, O]).
    apply (no_record_same b b' h E); [|congruence| |lia|exact (ab_sparta b A)].
    + rewrite <- E. unfold hdr_of, atari_header, read_header. rewrite SL by lia. rewrite L, L'. reflexivity.
    + intros p Hp. apply X. lia.
Qed.
Lemma cat_not_0 im : consistent3 im -> ~ catalog_sector im 0.
Proof.
  intros C (cat & k & D & I0). pose proof (cat_pos _ _ _ D) as F. rewrite Forall_forall in F. specialize (F 0 I0). cbv beta in F. lia.
Qed.
Lemma free_not_0 im s : consistent3 im -> is_free3 im s -> 16 <= s.
Proof.
  intros C [Hs F]. destruct (consistent3_view im C) as (cat & k & _ & D). destruct (k3_free _ _ _ D s ltac:(lia) F) as (A & _). lia.
Qed.

(** Writes that may fail, deletes of files, of unknown names and of names that were deleted
    before and whose sectors no file has got since, wipes. *)
Definition strict_op3 (im : img33) (o : op3) : Prop :=
  match o with
  | PWrite n t d => legal_write3 im n t d \/ d = []
  | PDelete n => In n (listing3 im) \/ ~ named3 im n \/ exists tl dl, stale_safe3 im n tl dl
  | PShred _ => True
  end.
Lemma op_keeps_boot3 im o : consistent3 im -> strict_op3 im o ->
  consistent3 (fst (do_op3 im o)) /\ forall p, 0 <= p < 256 -> getb (i_bytes (fst (do_op3 im o))) p = getb (i_bytes im) p.
Proof.
  intros C L. pose proof (cat_not_0 im C) as N0.
  assert (P0 : forall p, 0 <= p < 256 -> p / 256 = 0) by (intros; apply Z.div_small; lia).
  destruct o as [n t d|n|f]; cbn [do_op3 strict_op3] in *.
  - destruct L as [L|L].
    2:{ rewrite L, write_empty3 by assumption. cbn [fst]. auto. }
    destruct (write_master3 im n t d C L) as [(_ & _ & im' & tl & dl & -> & W)|[(_ & ->)|[(_ & im' & l & -> & W & _)|(_ & _ & im' & l & -> & W & _)]]]; cbn [fst].
    + split; [exact (wr3_consistent _ _ _ _ _ _ _ W)|]. intros p Hp. apply (wr3_bytes _ _ _ _ _ _ _ W); rewrite ?P0 by exact Hp; [lia|lia|exact N0|].
      intros I0. pose proof (free_not_0 im 0 C (wr3_were_free _ _ _ _ _ _ _ W 0 I0)). lia.
    + auto.
    + split; [exact (lk3_consistent _ _ _ W)|]. intros p Hp. apply (lk3_bytes _ _ _ W); rewrite ?P0 by exact Hp; lia.
    + split; [exact (lk3_consistent _ _ _ W)|]. intros p Hp. apply (lk3_bytes _ _ _ W); rewrite ?P0 by exact Hp; lia.
  - destruct (in_dec (list_eq_dec Z.eq_dec) n (listing3 im)) as [H|H].
    { destruct (delete_master3 im n C H) as (im' & tl & dl & -> & W). cbn [fst]. split; [exact (dr3_consistent _ _ _ _ _ W)|].
      intros p Hp. apply (dr3_bytes _ _ _ _ _ W); rewrite ?P0 by exact Hp; [lia|lia|exact N0]. }
    destruct L as [L|[L|(tl & dl & L)]]; [contradiction| |].
    + rewrite delete_unknown3 by assumption. cbn [fst]. auto.
    + destruct (stale_master3 im n tl dl C H L) as (im' & -> & W). cbn [fst]. split; [exact (st3_consistent _ _ _ W)|].
      intros p Hp. apply (st3_bytes _ _ _ W); rewrite ?P0 by exact Hp; [lia|lia|exact N0].
  - destruct (shred_master3 im f C) as (im' & -> & W). cbn [fst]. split; [exact (sr3_consistent _ _ _ W)|].
    intros p Hp. apply (sr3_kept _ _ _ W); rewrite ?P0 by exact Hp; [lia|]. intros I0. pose proof (free_not_0 im 0 C I0). lia.
Qed.
Lemma run_keeps_boot3 ops : forall im m, consistent3 im -> apple_boot (i_bytes im) -> all_ops3 strict_op3 im ops ->
  consistent3 (fst (run3 im m ops)) /\ apple_boot (i_bytes (fst (run3 im m ops))).
Proof.
  induction ops as [|o ops IH]; intros im m C A L; [cbn; auto|]. cbn [run3 all_ops3] in *. destruct L as [Lo L].
  pose proof (op_keeps_boot3 im o C Lo) as K. destruct (do_op3 im o) as [im1 r]. cbn [fst] in *. destruct K as (C1 & B1).
  apply IH; [exact C1| |exact L]. destruct (consistent3_vtoc im C) as (L0 & _ & Hb). destruct (consistent3_vtoc im1 C1) as (L1 & _).
  exact (apple_boot_same _ _ Hb L0 L1 B1 A).
Qed.
(** After any session the disk is recognised, and as what the session left. *)
Theorem C69_dos33_session (e : env) (im : img33) (ops : list op3) :
  consistent3 im -> apple_boot (i_bytes im) -> all_ops3 strict_op3 im ops ->
  let im' := fst (run3 im (fs_of3 im) ops) in
  unclaimed3 e (i_bytes im') -> detected3 e im'.
Proof.
  intros C A L im' U. destruct (run_keeps_boot3 ops im (fs_of3 im) C A L) as [C' A']. apply C69_dos33_detected; assumption.
Qed.
Print Assumptions C69_dos33_session.

(** The demonstration disk: its first sector is empty. *)
Lemma zero_boot b : bytes_ok b -> zlen b = 143360 -> (forall p, 0 <= p < 256 -> getb b p = 0) -> apple_boot b.
Proof.
  intros Hb L X. assert (NA : ~ has_atr_header b) by (intros (_ & P & _); rewrite X in P by lia; discriminate).
  constructor; [exact NA|intros [P _]; rewrite X in P by lia; discriminate| |].
  - intros E. assert (G : getb (slice b 0 4) 0 = 67) by (rewrite E; reflexivity). rewrite getb_slice in G by lia. rewrite X in G by lia. discriminate.
  - intros (h & s & E & BI).
    assert (US : usual_sectors b) by (intros Q; contradiction).
    destruct (header_usual b Hb US) as (h' & E' & S1 & _ & O & _ & OI). assert (h' = h) by congruence. subst h'.
    assert (O0 : h_offset h = 0) by (destruct O as [O|O]; [exact O|exfalso; apply NA, OI, O]).
    unfold boot_sector_info in BI. destruct (get_sectors h b 1 1) as [d|] eqn:GS; cbn [rbind] in BI; [|discriminate].
    destruct (one_sector b h Hb E S1 1 d GS) as (p & z & P & -> & Lz).
    assert (P0 : p = 0).
    { unfold get_pos in P. destruct (negb (sector_valid h 1)); [discriminate P|]. destruct (hdr_of_facts b h Hb E) as (_ & _ & _ & _ & F5).
      destruct (1 <=? h_ninit h) eqn:NI; injection P as <- <-; [lia|].
      destruct F5 as [(F & _)|(F & _)]; [lia|rewrite F, O0; lia]. }
    subst p. destruct (pos_size b h Hb E S1 1 0 z P) as (A1 & A2 & _).
    destruct (zlen _ =? 0); [discriminate|]. destruct (negb _); [discriminate|].
    rewrite !getb_slice in BI by lia. rewrite !X in BI by lia. change (zmem 0 [17; 32; 33]) with false in BI.
    rewrite andb_false_r in BI. discriminate.
Qed.
Lemma env0_unclaimed3 b : getb b 0 = 0 -> unclaimed3 env0 b.
Proof. intros E. split; [|split; reflexivity]. split; [reflexivity|]. split; [reflexivity|]. split; [reflexivity|]. rewrite E. intros (_ & [X|X] & _); discriminate. Qed.
Example C69_dos33_example : exists im im', consistent3 im /\ apple_boot (i_bytes im) /\ detected3 env0 im /\
  all_ops3 strict_op3 im [PWrite Properties_Dos33.NEW [66] Properties_Dos33.new_data; PShred 7] /\
  fst (run3 im (fs_of3 im) [PWrite Properties_Dos33.NEW [66] Properties_Dos33.new_data; PShred 7]) = im' /\
  detected3 env0 im' /\ find_file3 im' Properties_Dos33.NEW = Ok (padded Properties_Dos33.new_data).
Proof.
  pose proof one_consistent as C. destruct (consistent3_vtoc one_im C) as (L & _ & Hb).
  assert (Z0 : forall p, 0 <= p < 256 -> getb (i_bytes one_im) p = 0).
  { intros p Hp. rewrite one_bytes. assert (E : sec demo_one 0 = zrepeat 0 256).
    { unfold demo_one. rewrite sec_disk_of; [reflexivity| |lia]. intros i; apply demo_sec_len; vm_compute; reflexivity. }
    assert (G : getb (sec demo_one 0) p = getb demo_one p). { unfold sec. rewrite getb_slice by lia. f_equal. }
    rewrite <- G, E. apply getb_zrepeat. lia. }
  assert (A : apple_boot (i_bytes one_im)) by (apply zero_boot; assumption).
  set (ops := [PWrite Properties_Dos33.NEW [66] Properties_Dos33.new_data; PShred 7]).
  assert (LO : all_ops3 strict_op3 one_im ops).
  { split; [|split; exact I]. left. apply Properties_Dos33.legal_one; [discriminate|discriminate|exact Properties_Dos33.new_data_ok]. }
  exists one_im, (fst (run3 one_im (fs_of3 one_im) ops)). split; [exact C|]. split; [exact A|].
  split; [apply C69_dos33_detected; [exact C|exact A|apply env0_unclaimed3, Z0; lia]|]. split; [exact LO|]. split; [reflexivity|].
  split.
  - apply C69_dos33_session; [exact C|exact A|exact LO|]. apply env0_unclaimed3.
    destruct (op_keeps_boot3 one_im (PWrite Properties_Dos33.NEW [66] Properties_Dos33.new_data) C (proj1 LO)) as (C1 & B1).
    unfold ops. cbn [run3]. destruct (do_op3 one_im (PWrite _ _ _)) as [im1 r1]. cbn [fst] in *.
    destruct (op_keeps_boot3 im1 (PShred 7) C1 I) as (C2 & B2). destruct (do_op3 im1 (PShred 7)) as [im2 r2]. cbn [fst] in *.
    rewrite B2, B1 by lia. apply Z0. lia.
  - destruct (Properties_Dos33.one_write [66] Properties_Dos33.new_data ltac:(discriminate) ltac:(discriminate) Properties_Dos33.new_data_ok ltac:(vm_compute; discriminate)) as (im' & tl & dl & E & W).
    unfold ops. cbn [run3 do_op3]. rewrite E. destruct (shred_master3 im' 7 (wr3_consistent _ _ _ _ _ _ _ W)) as (im2 & -> & W2). cbn [fst].
    rewrite (proj1 (sr3_files _ _ _ W2 _)). exact (wr3_read _ _ _ _ _ _ _ W).
Qed.
