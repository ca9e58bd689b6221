(** C90: images that meet the conditions of the theorems. *)
From Coq Require Import String.
From Verif Require Import Base BaseLemmas DiskModel AtariModel AtariSpec SpartaModel ExecModel SegModel TextModel DetectModel DetectSpec DetectProofs DetectDsk Properties_Detect Properties_Detect3.
From Verif Require Import Dos33Model Dos33Spec Dos33Files Dos33Ops Dos33Session Dos33Demo MainInst SegListModel SegListSpec SegListExec ObjModel.
From Verif Require Import ExecModel CliModel MainModel MainProofs MainProofs2 ObjProofs Properties_SegList2 Properties_Obj.
From Verif Require CartModel CliInst Properties_SegList Properties_Main Properties_Cli Properties_Sparta Properties_Dos33.
Import Properties_Main.

Definition n_img : list Z := [120; 46; 105].      (* x.i *)
Definition holds (b : list Z) : fs := fun p => if zlist_eqb p n_img then Some b else None.

(** Demonstration images behind a header. *)
Definition atr (b : list Z) : list Z := [0x96; 2; (zlen b / 16) mod 256; zlen b / 16 / 256; 128; 0; 0; 0; 0; 0; 0; 0; 0; 0; 0; 0] ++ b.
Definition shape (x : list msg * res (list iseg * run_arg)) : option (list (Z * Z)) :=
  match x with ([], Ok (l, RText [])) => Some (map (fun s => (i_origin s, zlen (i_data s))) l) | _ => None end.
(** An Atari boot disk: the boot sectors are used twice, as a whole and in two parts. *)
Definition boot_atr : list Z := atr Properties_SegList.boot_demo.
Example C90_boot_example : exists fd, find_diskimage env0 boot_atr = Ok fd /\ f_class fd = PBoot /\ plain_image (f_image fd) /\ unpacked env0 boot_atr = Ok boot_atr /\ bytes_ok boot_atr /\
  shape (obj_segs w0 (holds boot_atr) [n_img] (RText [])) = Some [(0x700, 256); (0x700, 6); (0x706, 250)] /\
  main w0 Properties_Cli.no_opts (holds boot_atr) n_img KSegments = (holds boot_atr,
    map (fun t => MLine (txt t)) ["Atari Boot Disk Image ($290 bytes)"; "ATR Header $0000-$0010 ($0010 @ $0000)"; "Raw disk sectors (sectors 1-5)"; "Boot Sectors $0700-$0800 ($0100 @ $0000)";
                                  "Boot Header $0700-$0706 ($0006 @ $0000)"; "Boot Code $0706-$0800 ($00fa @ $0000)"]%string, Ok tt).
Proof.
  eexists. split; [vm_compute; reflexivity|]. split; [reflexivity|]. split; [exact Logic.I|]. split; [vm_compute; reflexivity|]. split; [apply Properties_Sparta.bytes_okb; vm_compute; reflexivity|].
  split; vm_compute; reflexivity.
Qed.
(** The other formats *)
Definition meets (w : world) (b : list Z) (p : pclass) (l : list (Z * Z)) : Prop :=
  (exists fd, find_diskimage (w_env w) b = Ok fd /\ f_class fd = p) /\ unpacked (w_env w) b = Ok b /\ bytes_ok b /\ zlen b <= 2147483648 /\ shape (obj_segs w (holds b) [n_img] (RText [])) = Some l.
Ltac met := split; [eexists; split; [vm_compute; reflexivity|reflexivity]|]; split; [vm_compute; reflexivity|]; split; [apply Properties_Sparta.bytes_okb; vm_compute; reflexivity|]; split; [vm_compute; discriminate|vm_compute; reflexivity].
Example C90_kboot_example : meets w0 (atr Properties_SegList.kboot_demo) PKBoot [(400, 100)]. Proof. met. Qed.
Example C90_cart_example : meets w0 cart_demo (PCart8 57) [(0xb800, 2048)]. Proof. met. Qed.
Example C90_rom_example : meets w0 (zrepeat 1 64) PRom []. Proof. met. Qed.
Definition wz : world := mkWorld zip_env None (fun _ => 0) [].
Example C90_mame_example : meets wz zip_demo PMame [(16, 32)]. Proof. met. Qed.
(** An executable with an address to run *)
Example C90_executable_example : exists fd ss, find_diskimage env0 xex_demo = Ok fd /\ f_image fd = IXex ss /\ unpacked env0 xex_demo = Ok xex_demo /\ bytes_ok xex_demo /\ zlen xex_demo <= 2147483648 /\
  exists xs, file_objects env0 xex_demo fd = Ok xs /\ take_segs xs (RText []) = Ok ([mkI 0x2000 [1; 2; 3]; mkI 0x3000 [5]], RNum 0x2000).
Proof.
  eexists _, _. split; [vm_compute; reflexivity|]. split; [reflexivity|]. split; [vm_compute; reflexivity|]. split; [apply Properties_Sparta.bytes_okb; vm_compute; reflexivity|]. split; [vm_compute; discriminate|].
  eexists. split; vm_compute; reflexivity.
Qed.
(** A disk with a file of type B at address 4, which is not used. *)
Example C90_dos33_example : consistent3 one_im /\ unpacked env0 (i_bytes one_im) = Ok (i_bytes one_im) /\ detected3 env0 one_im /\ type_of3 one_im HELLO = Some 4 /\ forall d, ~ loadable one_im d.
Proof.
  pose proof one_disk as (C & A & St). destruct (St (i_bytes one_im) eq_refl (fun _ _ => eq_refl)) as (NC & Us). split; [exact C|]. split; [apply unpacked_plain; exact NC|].
  split; [apply C69_dos33_detected; [exact C|exact A|split; assumption]|]. split; [apply one_read|]. intros d (Hd & data & E & O).
  assert (N : d3_name d = HELLO). { assert (X : In (d3_name d) (listing3 one_im)) by (apply in_map; exact Hd). rewrite one_listing in X. destruct X as [<-|[]]. reflexivity. }
  rewrite N, (proj1 one_read) in E. injection E as <-. unfold origin3 in O. destruct (d3_type d =? 4); revert O; vm_compute; discriminate.
Qed.
Lemma loadable_of im n data : type_of3 im n = Some 4 -> find_file3 im n = Ok data -> 0 < origin3 4 data -> exists d, loadable im d.
Proof.
  intros T1 R1 O. unfold type_of3 in T1. destruct (find_name3 n (i_files im)) as [d|] eqn:Fd; [|discriminate]. cbn [option_map] in T1. injection T1 as T1.
  pose proof (CliInst.find_name3_name _ _ _ Fd) as Nd. exists d. split; [|exists data; rewrite Nd, T1; split; assumption].
  revert Fd. generalize (i_files im). intros ds. induction ds as [|d0 ds IH]; cbn; [discriminate|]. destruct (zlist_eqb _ _); [intros E; injection E as ->; left; reflexivity|intros E; right; apply IH; exact E].
Qed.
(** A disk with a program that is loaded to $05fd: it cannot be an object file. *)
Example C90_dos33_binary_example : exists im d, consistent3 im /\ unpacked env0 (i_bytes im) = Ok (i_bytes im) /\ detected3 env0 im /\ loadable im d /\
  main w0 Properties_Cli.no_opts (holds (i_bytes im)) [120; 46; 97; 116; 114] (KBoot [] [] [n_img] []) = (holds (i_bytes im), [], Err EType).
Proof.
  pose proof one_disk as (C & A & St). set (x := [0xfd; 5; 5; 0; 0x4c; 1; 6; 7; 8]).
  assert (Bx : bytes_ok x) by (apply Properties_Sparta.bytes_okb; reflexivity).
  destruct (Properties_Dos33.one_write [66] x ltac:(discriminate) ltac:(discriminate) Bx ltac:(vm_compute; discriminate)) as (im & tl & dl & Ew & W).
  pose proof (wr3_consistent _ _ _ _ _ _ _ W) as C1. pose proof (wr3_type _ _ _ _ _ _ _ W) as T1. pose proof (wr3_read _ _ _ _ _ _ _ W) as R1. change (stored_name3 Properties_Dos33.NEW) with Properties_Dos33.NEW in *.
  assert (LO : strict_op3 one_im (PWrite Properties_Dos33.NEW [66] x)) by (left; apply Properties_Dos33.legal_one; [discriminate|discriminate|exact Bx]).
  destruct (op_keeps_boot3 one_im _ C LO) as (_ & B1). cbn [do_op3] in B1. rewrite Ew in B1. cbn [fst] in B1.
  destruct (consistent3_vtoc one_im C) as (L0 & _ & Hb0). destruct (consistent3_vtoc im C1) as (L1 & _ & Hb1).
  destruct (St (i_bytes im) ltac:(congruence)) as (NC & Us); [intros p Hp; apply B1; exact Hp|].
  assert (U : unpacked env0 (i_bytes im) = Ok (i_bytes im)) by (apply unpacked_plain; exact NC).
  assert (D : detected3 env0 im) by (apply C69_dos33_detected; [exact C1|exact (apple_boot_same _ _ Hb0 L0 L1 B1 A)|split; assumption]).
  destruct (loadable_of im _ _ T1 R1 ltac:(vm_compute; reflexivity)) as (d & Ld).
  exists im, d. split; [exact C1|]. split; [exact U|]. split; [exact D|]. split; [exact Ld|].
  destruct (C90_dos33_binary_refuted w0 Properties_Cli.no_opts (holds (i_bytes im)) n_img im d ltac:(discriminate) eq_refl C1 U D Ld) as (_ & X). apply (X _ [] [] [] [] []); [vm_compute; discriminate|reflexivity|reflexivity].
Qed.
