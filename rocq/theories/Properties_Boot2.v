(** Boot disks made by the program, on the machine: C81. *)
From Verif Require Import Base BaseLemmas DiskModel AtariModel AtariSpec AtariDemo ExecModel SdModel CliModel DetectModel MainModel MainProofs MainProofs2 MainInst Properties_Cli Properties_Main Properties_Main2 Properties_Main3.
From Verif Require Import SdSpec SdProofs2 Properties_Sd CpuModel AppleSpec AppleBoot Properties_Boot.

(** The program gathers the segments, makes the disk and saves it: the file it leaves
    boots, on every machine, into the program. *)
Theorem C81_made_disk_boots_partial w o f name src args obj run segs start a :
  boot_class name = Some BStandard -> gathered w f src args obj run segs start -> segs <> [] -> truthy start = Some a -> 0 <= a < 65536 ->
  all_carried (places segs) -> total_pages (places segs) <= 559 -> list_cost false (places segs) <= 119 ->
  exists b, main w o f name (KBoot src args obj run) = (fput f name b, [MSaving name], Ok tt) /\
    forall slot junk bus s, entered slot b s ->
    exists s', apple_reach slot b junk bus s s' /\ pc s' = a /\ rs s' = rs s /\
      (forall x, spare x -> mm s' x = loaded (map effective (places segs)) (mm s) x) /\
      graphics (dv s') = true /\ whole (dv s') = true /\ hires (dv s') = true.
Proof.
  intros Bc G Ne Ts Ra Ca T1 T2. destruct (gathered_spec _ _ _ _ _ _ _ _ G) as (rn & A & T). rewrite Ts in T.
  assert (Rn : rn = RNum a) by (destruct rn as [|t|x]; [discriminate T|discriminate T|]; cbn [run_opt truthy] in T; destruct (x =? 0); congruence). subst rn.
  destruct (proj2 (C68_fits (places segs) (Some a) a Ca (or_introl eq_refl)) (conj T1 T2)) as (b & E). exists b. split.
  - cbn [main]. unfold boot_command, boot_image. rewrite Bc, A. destruct segs as [|s0 sl]; [congruence|]. cbn [boot_make]. rewrite sd_segs, E. reflexivity.
  - intros slot junk bus s En. destruct (C81_boots_partial (places segs) (Some a) a b slot junk bus s Ca (or_introl eq_refl) Ra E En) as (s' & Re & Pc & Rs & Sp & Gr & Wh & Hi & _).
    exists s'. tauto.
Qed.
Print Assumptions C81_made_disk_boots_partial.
Example C81_made_case : exists b s', main w0 no_opts (xex_fs xex1) p_dsk (KBoot [] [] [p_xex] []) = (fput (xex_fs xex1) p_dsk b, [MSaving p_dsk], Ok tt) /\
  apple_reach 6 b (fun _ _ => 0x55) (fun _ _ => 0xaa) (boot_state 6 b) s' /\ pc s' = 0x601 /\ mm s' 0x600 = 7 /\ mm s' 0x601 = 8.
Proof.
  destruct (C81_made_disk_boots_partial w0 no_opts (xex_fs xex1) p_dsk [] [] [p_xex] [] [seg1] (Some 0x601) 0x601) as (b & E & H); try reflexivity; try lia; try discriminate.
  - apply xex1_gathered_any. reflexivity.
  - constructor; [|constructor]. split; [left; vm_compute; split; intros X; discriminate X|]. repeat constructor; discriminate.
  - destruct (H 6 (fun _ _ => 0x55) (fun _ _ => 0xaa) (boot_state 6 b) (boot_entered 6 b ltac:(lia))) as (s' & Re & Pc & _ & Sp & _). exists b, s'.
    split; [exact E|]. split; [exact Re|]. split; [exact Pc|]. split; (rewrite Sp by (unfold spare; cbn; lia); reflexivity).
Qed.
