(** C82, executables with routines that are called while loading ($02E2). *)
From Verif Require Import Base BaseLemmas DiskModel AtariModel AtariSpec AtariDir AtariHeader AtariDemo ExecModel ExecSpec ExecProofs ExecProofs2 CliModel DetectModel MainModel MainProofs MainProofs2 MainInst CliProofs Properties_Cli Properties_Main Properties_Main2 Properties_Main3.
From Verif Require Import CpuModel AppleBoot KbSpec KbBoot Properties_Kb.

(** An executable put on a disk as it is: the machine loads its segments in order, calls each
    routine when the segment with its address has been loaded, and then enters the program at the
    address it asks for. *)
Theorem C82_executable_routines_partial ps b junk bus s M' : bytes_ok (encode ps) -> Forall placed ps -> 1 <= zlen (encode ps) < 65536 ->
  add_atr_header (add_xexboot_header (encode ps)) = Ok b -> booted b s -> xex_loads (subroutine b junk bus) ps (clear_init (mm s)) M' ->
  exists s', atari_reach b junk bus s s' /\ pc s' = le2 (M' 0x2e0) (M' 0x2e1) /\ rs s' = rs s - 2 /\ forall a, writable a -> mm s' a = M' a.
Proof.
  intros Hb F Hz E Bo XL. apply (boots_loads ps [] b junk bus s M'); rewrite ?app_nil_r; try assumption; try lia.
Qed.
Print Assumptions C82_executable_routines_partial.

(** A disk made of segments.  Memory before the first segment: no routine is asked for, and the
    start address is that of the first segment. *)
Definition before (s0 : iseg) (m : memory) : memory := place_piece (clear_init m) (PSeg 0x2e0 (put2 (i_origin s0))).
Theorem C82_boots_routines_partial s0 sl run b junk bus s M' : Forall fit (s0 :: sl) -> kboot_create (s0 :: sl) run = Ok b ->
  8 + fold_right (fun t n => 4 + zlen (i_data t) + n) 0 (s0 :: sl) < 65536 -> booted b s ->
  xex_loads (subroutine b junk bus) (map seg_piece (s0 :: sl)) (before s0 (mm s)) M' ->
  exists s', atari_reach b junk bus s s' /\ pc s' = le2 (M' 0x2e0) (M' 0x2e1) /\ rs s' = rs s - 2 /\ forall a, writable a -> mm s' a = M' a.
Proof.
  intros F K Sz Bo XL. pose proof (made_fit s0 sl F) as G. set (segs := s0 :: sl) in *. set (ps := PMark :: PSeg 0x2e0 (put2 (i_origin s0)) :: map seg_piece segs) in *.
  rewrite (kboot_create_atr segs run _ G) in K.
  assert (Zs : zlen (encode ps) = 8 + fold_right (fun t n => 4 + zlen (i_data t) + n) 0 segs) by (apply zlen_made).
  assert (Hb : bytes_ok (encode ps)).
  { change (encode ps) with ([255; 255] ++ (put2 0x2e0 ++ put2 0x2e1 ++ put2 (i_origin s0)) ++ encode (map seg_piece segs)). apply Forall_app. split; [repeat constructor; discriminate|].
    apply Forall_app. split; [repeat (apply Forall_app; split); apply bytes_ok_put2|]. clear - F. induction F as [|t l (_ & B & _) _ IH]; [constructor|]. cbn [map].
    change (encode (seg_piece t :: map seg_piece l)) with ((put2 (i_origin t) ++ put2 (i_origin t + zlen (i_data t) - 1) ++ i_data t) ++ encode (map seg_piece l)).
    repeat (apply Forall_app; split); try apply bytes_ok_put2; assumption. }
  assert (H0 : 0 <= fold_right (fun t n => 4 + zlen (i_data t) + n) 0 segs).
  { clear. induction segs as [|t l IH]; cbn [fold_right]; [lia|]. pose proof (zlen_nonneg (i_data t)). lia. }
  apply (C82_executable_routines_partial ps b junk bus s M' Hb); try assumption; try lia.
  - constructor; [exact Logic.I|]. constructor; [split; [discriminate|]; rewrite zlen_put2; intros a Ha; unfold writable; lia|]. clear - F. induction F as [|t l (N & _ & A) _ IH]; [constructor|]. cbn [map]. constructor; [|exact IH]. split; [exact N|]. intros a Ha. specialize (A a Ha). unfold writable. lia.
  - constructor. apply XL_seg; [reflexivity|reflexivity|exact XL].
Qed.
Print Assumptions C82_boots_routines_partial.

(** The same through the program. *)
Theorem C82_made_disk_routines_partial w o f name src args obj run s0 sl start :
  boot_class name = Some BKBoot -> gathered w f src args obj run (s0 :: sl) start -> Forall fit (s0 :: sl) ->
  8 + fold_right (fun t n => 4 + zlen (i_data t) + n) 0 (s0 :: sl) < 65536 ->
  exists b, main w o f name (KBoot src args obj run) = (fput f name b, [MSaving name], Ok tt) /\ kboot_create (s0 :: sl) None = Ok b /\
    forall junk bus s M', booted b s -> xex_loads (subroutine b junk bus) (map seg_piece (s0 :: sl)) (before s0 (mm s)) M' ->
    exists s', atari_reach b junk bus s s' /\ pc s' = le2 (M' 0x2e0) (M' 0x2e1) /\ rs s' = rs s - 2 /\ forall a, writable a -> mm s' a = M' a.
Proof.
  intros Bc G F Sz. destruct (C77_boot_atr_partial w o f name src args obj run (s0 :: sl) start _ Bc G ltac:(discriminate) (made_fit s0 sl F)) as (b & E & K & _).
  { rewrite zlen_made. exact Sz. }
  exists b. split; [exact E|]. split; [exact K|]. intros junk bus s M' Bo XL. apply (C82_boots_routines_partial s0 sl None b junk bus s M' F K Sz Bo XL).
Qed.
Print Assumptions C82_made_disk_routines_partial.

(** A routine that puts 1 at $0650 and returns: LDA #1, STA $0650, RTS. *)
Definition init_code : list Z := [0xa9; 1; 0x8d; 0x50; 6; 0x60].
Lemma init_routine img junk bus m : (forall i, 0 <= i < 6 -> m (0x600 + i) = getb init_code i) -> subroutine img junk bus 0x600 m (upd m 0x650 1).
Proof.
  intros Cd s Ep Hs W. assert (W' : forall i, 0 <= i < 6 -> mm s (0x600 + i) = getb init_code i) by (intros i Hi; rewrite W by (unfold writable; lia); apply Cd; exact Hi).
  pose proof (W' 0 ltac:(lia)) as W0. pose proof (W' 1 ltac:(lia)) as W1. pose proof (W' 2 ltac:(lia)) as W2. pose proof (W' 3 ltac:(lia)) as W3. pose proof (W' 4 ltac:(lia)) as W4. pose proof (W' 5 ltac:(lia)) as W5.
  change (mm s 0x600 = 0xa9) in W0. change (mm s 0x601 = 1) in W1. change (mm s 0x602 = 0x8d) in W2. change (mm s 0x603 = 0x50) in W3. change (mm s 0x604 = 6) in W4. change (mm s 0x605 = 0x60) in W5. clear W' Cd.
  destruct s as [a xx y sp q n z c m0 d]. cbn [pc rs mm] in *. subst q. destruct d.
  assert (U : forall k, 1 <= k <= 2 -> u8 (sp + k) = sp + k) by (intros k Hk; apply Z.mod_small; lia).
  eexists. split.
  { eapply reach_step; [unfold step, atari_rom; cbn [pc mm Z.eqb Pos.eqb]; change (u16 (1536 + 1)) with 0x601; change (u16 (1536 + 2)) with 0x602; rewrite W0, W1, W2; reflexivity|].
    eapply reach_step; [unfold step, atari_rom; cbn [pc mm]; change (u16 (1536 + 2)) with 0x602; cbn [Z.eqb Pos.eqb]; change (u16 (1538 + 1)) with 0x603; change (u16 (1538 + 2)) with 0x604; rewrite W2, W3, W4; cbv beta iota zeta delta [exec store wr ra rx ry rs pc fn fz fc mm dv]; change (hardware (le2 80 6)) with false; cbv iota; reflexivity|].
    eapply reach_step; [unfold step, atari_rom; cbn [pc mm]; change (u16 (1538 + 3)) with 0x605; cbn [Z.eqb Pos.eqb]; change (le2 80 6) with 0x650; rewrite (upd_neq _ _ _ 0x605) by lia; rewrite W5; reflexivity|].
    apply reach_refl. }
  cbn [rs pc mm]. rewrite !U by lia. split; [reflexivity|]. split; [rewrite !upd_neq by lia; reflexivity|]. split.
  - intros b Hb. apply upd_neq. unfold loaders in Hb. lia.
  - intros b Hb. unfold upd. destruct (b =? 0x650); [reflexivity|apply W; exact Hb].
Qed.
Definition init_segs : list iseg := [mkI 0x600 init_code; mkI 0x2e2 [0; 6]; mkI 0x651 [7; 8]].
Example C82_routines_case : exists b s', kboot_create init_segs None = Ok b /\ booted b (boot_state b) /\
  atari_reach b (fun _ _ => 0x55) (fun _ => 0xaa) (boot_state b) s' /\ pc s' = 0x600 /\ mm s' 0x650 = 1 /\ mm s' 0x651 = 7 /\ mm s' 0x652 = 8 /\ mm s' 0x2e2 = 0 /\ mm s' 0x2e3 = 0 /\ mm s' 0x653 = 0xff.
Proof.
  assert (F : Forall fit init_segs).
  { constructor; [|constructor; [|constructor; [|constructor]]]; (split; [discriminate|]; split; [apply AtariDemo.bytes_ok_b; reflexivity|]); cbn [i_origin i_data]; [change (zlen init_code) with 6|change (zlen [0; 6]) with 2|change (zlen [7; 8]) with 2]; intros a Ha; lia. }
  pose proof (made_fit _ _ F) as G.
  destruct (kboot_image_open (encode (PMark :: PSeg 0x2e0 (put2 0x600) :: map seg_piece init_segs)) ltac:(vm_compute; congruence) _ eq_refl) as (b & h & st & K & _).
  assert (Bo : booted b (boot_state b)) by (eapply boot_booted; [|exact K]; vm_compute; split; [discriminate|reflexivity]).
  assert (Kc : kboot_create init_segs None = Ok b) by (etransitivity; [exact (kboot_create_atr _ None _ G)|exact K]).
  set (m1 := place_piece (before (mkI 0x600 init_code) (mm (boot_state b))) (PSeg 0x600 init_code)). set (m2 := place_piece m1 (PSeg 0x2e2 [0; 6])).
  set (m3 := place_piece (clear_init (upd m2 0x650 1)) (PSeg 0x651 [7; 8])).
  assert (XL : xex_loads (subroutine b (fun _ _ => 0x55) (fun _ => 0xaa)) (map seg_piece init_segs) (before (mkI 0x600 init_code) (mm (boot_state b))) m3).
  { apply XL_seg; [reflexivity|reflexivity|]. fold m1. eapply XL_call; fold m2; [intros [_ X]; discriminate X| |].
    - change (le2 (m2 738) (m2 739)) with 0x600. apply init_routine. intros i Hi. unfold m2, m1. cbn [place_piece i_origin i_data]. change (zlen [0; 6]) with 2. change (zlen init_code) with 6.
      replace ((738 <=? 1536 + i) && (1536 + i <? 738 + 2)) with false by lia. replace ((1536 <=? 1536 + i) && (1536 + i <? 1536 + 6)) with true by lia. replace (1536 + i - 1536) with i by lia. reflexivity.
    - apply XL_seg; [reflexivity|reflexivity|]. apply XL_end. }
  destruct (C82_boots_routines_partial _ _ None b (fun _ _ => 0x55) (fun _ => 0xaa) (boot_state b) m3 F Kc ltac:(reflexivity) Bo XL) as (s' & Re & Pc & _ & M).
  exists b, s'. split; [exact Kc|]. split; [exact Bo|]. split; [exact Re|]. split; [exact Pc|]. repeat split; rewrite M by (unfold writable; lia); reflexivity.
Qed.

(** A program with a segment over the loader: what the loader overwrites itself with is run
    instead of it, and the program is never started.  [over_segs] puts a jump to itself there. *)
Definition over_step (b : list Z) : cpu unit -> option (cpu unit) :=
  step unit hardware (fun d a => (0xaa, d)) (fun d _ _ => d) (atari_rom b (fun _ _ => 0x55)).
Fixpoint trapped (b : list Z) (n : nat) (s : cpu unit) : bool :=
  match n with
  | O => false
  | S n => negb (pc s =? 0x600) &&
      (((pc s =? 0x75a) && (mm s 0x75a =? 0x4c) && (mm s 0x75b =? 0x5a) && (mm s 0x75c =? 0x07)) ||
       match over_step b s with Some s1 => trapped b n s1 | None => false end)
  end.
Lemma circle_stays b s s' : atari_reach b (fun _ _ => 0x55) (fun _ => 0xaa) s s' ->
  pc s = 0x75a -> mm s 0x75a = 0x4c -> mm s 0x75b = 0x5a -> mm s 0x75c = 0x07 -> pc s' = 0x75a.
Proof.
  intros R. induction R as [s|s s1 s2 E R IH]; intros P A B C; [exact P|].
  unfold step, atari_rom in E. rewrite P in E. change (0x75a =? 0xe459) with false in E. cbv iota in E. change (u16 (0x75a + 1)) with 0x75b in E. change (u16 (0x75a + 2)) with 0x75c in E. rewrite A, B, C in E.
  cbn [exec Z.eqb Pos.eqb] in E. injection E as <-. apply IH; [reflexivity|exact A|exact B|exact C].
Qed.
Lemma trapped_never b : forall n s s', trapped b n s = true -> atari_reach b (fun _ _ => 0x55) (fun _ => 0xaa) s s' -> pc s' <> 0x600.
Proof.
  induction n as [|n IH]; intros s s' T R; [discriminate T|]. cbn [trapped] in T. apply andb_prop in T. destruct T as [T1 T]. apply orb_prop in T. destruct T as [T|T].
  - rewrite (circle_stays b s s' R) by lia. discriminate.
  - inversion R as [? E1 E2|? s1 ? E R1]; subst; [lia|]. unfold over_step in T. rewrite E in T. exact (IH _ _ T R1).
Qed.
Definition over_segs : list iseg := [mkI 0x600 [1; 2]; mkI 0x75a [0x4c; 0x5a; 0x07]].
Definition over_check : bool := match kboot_create over_segs None with Ok b => (1 <=? zlen b) && trapped b 400 (boot_state b) | Err _ => false end.
Theorem C82_over_loader_refuted : exists b, kboot_create over_segs None = Ok b /\ booted b (boot_state b) /\
  forall s', atari_reach b (fun _ _ => 0x55) (fun _ => 0xaa) (boot_state b) s' -> pc s' <> i_origin (mkI 0x600 [1; 2]).
Proof.
  assert (C : over_check = true) by (vm_compute; reflexivity). unfold over_check in C. destruct (kboot_create over_segs None) as [b|e] eqn:E; [|discriminate C].
  apply andb_prop in C. destruct C as [_ C]. exists b. split; [reflexivity|]. split; [|intros s' R; exact (trapped_never b 400 _ _ C R)].
  apply (boot_booted (encode (PMark :: PSeg 0x2e0 (put2 0x600) :: map seg_piece over_segs))); [vm_compute; split; [discriminate|reflexivity]|]. rewrite <- E. vm_compute. reflexivity.
Qed.
Print Assumptions C82_over_loader_refuted.
