(** C97 continued: exactly which data have the boot record of a SpartaDOS disk. *)
From Verif Require Import Base BaseLemmas DiskModel AtariModel AtariSpec AtariGeom AtariHeader SpartaModel SpartaSpec DetectModel DetectSpec DetectErrors DetectErrors2 AtariDemo.
From Verif Require Properties_Detect.

(** What is checked: the numbers of the record are those of a disk with so many sectors, the
    code of the sector size is known, and so is the version. *)
Record sane_record (g : geom) (b : list Z) : Prop := mkSaneRecord {
  sr_some : 1 <= g_max g;
  sr_total : boot_word g b 11 = g_max g;
  sr_root : boot_word g b 9 <= g_max g;
  sr_bitmap : boot_word g b 16 <= g_max g;
  sr_first : boot_word g b 18 <= g_max g;
  sr_code : boot_byte g b 31 = 0 \/ boot_byte g b 31 = 1 \/ boot_byte g b 31 = 128;
  sr_version : boot_byte g b 32 = 0x11 \/ boot_byte g b 32 = 0x20 \/ boot_byte g b 32 = 0x21 }.

Lemma known_code x : (sector_size_of x =? -1) = false <-> x = 0 \/ x = 1 \/ x = 128.
Proof.
  unfold sector_size_of. destruct (Z.eqb_spec x 0); [cbn; tauto|]. destruct (Z.eqb_spec x 1); [cbn; tauto|]. destruct (Z.eqb_spec x 128); [cbn; tauto|].
  cbn. split; [discriminate|tauto].
Qed.
Lemma known_version x : zmem x [0x11; 0x20; 0x21] = true <-> x = 0x11 \/ x = 0x20 \/ x = 0x21.
Proof. cbn [zmem existsb]. rewrite !orb_true_iff, !Z.eqb_eq. intuition discriminate. Qed.

Lemma record_exact b h : bytes_ok b -> atari_header b = Ok h -> 128 <= h_ssize h ->
  (exists im, boot_sector_info b h = Ok im) <-> sane_record (geom_of h) b.
Proof.
  intros Hb E S1. assert (Hh : hdr_of b = Ok h) by exact E. destruct (hdr_of_facts b h Hb Hh) as (F1 & F2 & F3 & F4 & F5).
  destruct (get_pos_valid h 1 F3) as [V NV]. unfold boot_sector_info.
  destruct (Z.le_gt_cases 1 (h_max h)) as [M|M].
  2:{ unfold get_sectors, get_sector_slice. rewrite NV by lia. cbn [rbind]. split; [intros [im H]; discriminate H|]. intros [R _ _ _ _ _ _]. unfold geom_of in R. cbn [g_max] in R. lia. }
  destruct (V ltac:(lia)) as (p & s & Ep). destruct (pos_size b h Hb E S1 1 p s Ep) as (P1 & P2 & P3).
  assert (Q : p = h_offset h).
  { unfold get_pos in Ep. destruct (negb _); [discriminate|]. destruct F5 as [(B1 & B2 & B3 & B4 & B5)|(B1 & B2)]; rewrite B1 in Ep.
    - replace (1 <=? 3) with true in Ep by lia. injection Ep as <- <-. lia.
    - replace (1 <=? 0) with false in Ep by lia. injection Ep as <- <-. lia. }
  subst p. unfold get_sectors, get_sector_slice. rewrite Ep. cbn [rbind]. rewrite Z.sub_diag. cbn [Z.to_nat more_sectors rbind]. rewrite Z.add_0_r.
  set (r := slice (slice b (h_offset h) (h_offset h + s)) 0 33). cbv zeta.
  assert (L : zlen r = 33) by (unfold r; rewrite zlen_slice by (rewrite ?zlen_slice by lia; lia); lia).
  rewrite L. cbn [Z.eqb Pos.eqb negb].
  assert (W : forall i, 0 <= i < 33 -> getb r i = boot_byte (geom_of h) b i).
  { intros i Hi. unfold r. rewrite getb_slice by lia. cbn [Z.add]. rewrite getb_slice by lia. reflexivity. }
  assert (W2 : forall i, 0 <= i < 32 -> le2 (getb r i) (getb r (i + 1)) = boot_word (geom_of h) b i) by (intros i Hi; rewrite !W by lia; reflexivity).
  rewrite !W2 by lia. rewrite !W by lia.
  change (h_max h) with (g_max (geom_of h)) in *.
  match goal with |- context [if ?c then _ else _] => assert (C : c = true <-> sane_record (geom_of h) b) end.
  { rewrite !andb_true_iff, negb_true_iff, known_code, known_version, Z.eqb_eq, !Z.leb_le. split.
    - intros H. constructor; tauto.
    - intros [R1 R2 R3 R4 R5 R6 R7]. tauto. }
  rewrite <- C. destruct (_ && _).
  - split; [reflexivity|]. intros _. eexists. reflexivity.
  - split; [intros [im H]; discriminate H|discriminate].
Qed.

(** The boot record of a SpartaDOS disk is recognised exactly when it is sane... *)
Theorem C97_record_exact (b : list Z) : bytes_ok b -> usual_sectors b ->
  sparta_boot_record b <-> exists h, atari_header b = Ok h /\ sane_record (geom_of h) b.
Proof.
  intros Hb U. destruct (header_usual b Hb U) as (h & E & S1 & _). unfold sparta_boot_record. split.
  - intros (h' & im & E' & B). assert (h' = h) by congruence. subst h'. exists h. split; [exact E|]. apply (record_exact b h Hb E S1). exists im. exact B.
  - intros (h' & E' & R). assert (h' = h) by congruence. subst h'. apply (record_exact b h Hb E S1) in R. destruct R as [im B]. exists h, im. auto.
Qed.
Print Assumptions C97_record_exact.
(** ... and the parser for SpartaDOS disks refuses all other data. *)
Theorem C97_others_refused (e : env) (strict : bool) (b : list Z) : bytes_ok b -> usual_sectors b ->
  (forall h, atari_header b = Ok h -> ~ sane_record (geom_of h) b) -> refuses (parse e strict PSparta b).
Proof.
  intros Hb U N. apply sparta_refuses; [exact Hb|exact U|]. intros R. apply (C97_record_exact b Hb U) in R. destruct R as (h & E & R). exact (N h E R).
Qed.
Print Assumptions C97_others_refused.
(** One sector with a sane record and one that differs in the first free sector only *)
Definition one_record (first : Z) : list Z := zrepeat 0 11 ++ [1; 0] ++ zrepeat 0 5 ++ [first; 0] ++ zrepeat 0 11 ++ [0x80; 0x11] ++ zrepeat 0 95.
Example C97_record_example : bytes_ok (one_record 1) /\ usual_sectors (one_record 1) /\ sparta_boot_record (one_record 1) /\
  bytes_ok (one_record 2) /\ usual_sectors (one_record 2) /\ refuses (parse Properties_Detect.env0 true PSparta (one_record 2)).
Proof.
  split; [apply bytes_ok_b; reflexivity|]. split; [intros (_ & X & _); vm_compute in X; discriminate X|].
  split; [eexists _, _; split; vm_compute; reflexivity|]. split; [apply bytes_ok_b; reflexivity|].
  split; [intros (_ & X & _); vm_compute in X; discriminate X|]. vm_compute. reflexivity.
Qed.
