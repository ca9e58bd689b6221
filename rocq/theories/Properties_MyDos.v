(** MyDOS files on Atari DOS disks: a disk with one is consistent, so that the
    theorems about consistent images hold of it (C01, C02, C03); and what goes
    wrong with deleted ones (C04). *)
From Verif Require Import Base BaseLemmas DiskModel DirLemmas AtariModel AtariSpec AtariGeom AtariDir AtariVtoc AtariChain AtariSectors AtariWrite AtariDelete AtariShred AtariOps AtariSession AtariMore AtariBlank AtariHeader AtariProps AtariDemo Properties_Atari.

(** A disk with the DOS 2 file A in sector 5 and the MyDOS file M, of 126
    bytes, in the sectors 4 and 300. *)
Definition my_name : list Z := [77].
Definition dos_name : list Z := [65].
Definition my_data : list Z := zrepeat 3 125 ++ [7].
Definition my_vtoc : list Z :=
  [2] ++ put2 707 ++ put2 704 ++ zrepeat 0 5 ++
  packbits (map (fun n => if usable 368 n && negb (existsb (Z.eqb n) [4; 5; 300]) then 1 else 0) (zrange 0 720)) ++ zrepeat 0 28.
Definition my_sec (n : Z) : list Z :=
  if n =? 360 then my_vtoc
  else if n =? 361 then padto 128 (entry 0x42 1 5 dos_name ++ entry 0x46 2 4 my_name)
  else if n =? 4 then zrepeat 3 125 ++ [1; 44; 125]
  else if n =? 300 then padto 125 [7] ++ [0; 0; 1]
  else if n =? 5 then fsec [1; 2] 0 0 2
  else zrepeat 0 128.
Definition my_disk : list Z := fmt_header 128 368 ++ flat_map my_sec (zrange 1 369).
Definition my_geom : geom := mkG 16 128 0 368.

Lemma my_bytes : bytes_ok my_disk.
Proof. apply bytes_b_ok. vm_compute. reflexivity. Qed.
Lemma my_zlen : zlen my_disk = 47120.
Proof. vm_compute. reflexivity. Qed.
Lemma my_hdr : hdr_of my_disk = Ok (fmt_hdr 128 368).
Proof. vm_compute. reflexivity. Qed.
Lemma my_s4 : sector my_geom my_disk 4 = my_sec 4.
Proof. vm_compute. reflexivity. Qed.
Lemma my_s5 : sector my_geom my_disk 5 = my_sec 5.
Proof. vm_compute. reflexivity. Qed.
Lemma my_s300 : sector my_geom my_disk 300 = my_sec 300.
Proof. vm_compute. reflexivity. Qed.
Lemma my_s360 : sector my_geom my_disk 360 = my_vtoc.
Proof. vm_compute. reflexivity. Qed.
Lemma my_slot0 : slot my_geom my_disk 0 = entry 0x42 1 5 dos_name.
Proof. vm_compute. reflexivity. Qed.
Lemma my_slot1 : slot my_geom my_disk 1 = entry 0x46 2 4 my_name.
Proof. vm_compute. reflexivity. Qed.
Lemma my_rest : forallb (fun i => e_flag (slot my_geom my_disk i) =? 0) (zrange 2 64) = true.
Proof. vm_compute. reflexivity. Qed.
Definition my_data_b (n : Z) : bool := (4 <=? n) && (n <=? 368) && negb ((360 <=? n) && (n <=? 368)).
Lemma my_free : forallb (fun n => ((getb my_vtoc (10 + n / 8) / 2 ^ (7 - n mod 8)) mod 2 =? 0) || my_data_b n) (zrange 0 720) = true.
Proof. vm_compute. reflexivity. Qed.
Lemma my_taken n : In n [4; 5; 300] -> free_bit my_geom my_disk n = 0.
Proof. unfold free_bit. rewrite my_s360. intros [<-|[<-|[<-|[]]]]; vm_compute; reflexivity. Qed.
Lemma my_area n : In n [4; 5; 300] -> data_sector my_geom n.
Proof. unfold data_sector. cbn [my_geom g_max In]. intros [<-|[<-|[<-|[]]]]; lia. Qed.
Lemma my_chain0 : slot_chain my_geom my_disk 0 [5].
Proof.
  unfold slot_chain. rewrite my_slot0. change (e_start _) with 5. change (owner _ _) with 0.
  apply chain_end; [apply my_area; right; left; reflexivity| | |]; rewrite my_s5; [right; vm_compute; reflexivity|vm_compute; discriminate|vm_compute; reflexivity].
Qed.
Lemma my_chain1 : slot_chain my_geom my_disk 1 [4; 300].
Proof.
  unfold slot_chain. rewrite my_slot1. change (e_start _) with 4. change (owner _ _) with (-1).
  apply chain_more; [apply my_area; left; reflexivity|left; reflexivity| | |]; rewrite ?my_s4; [vm_compute; discriminate|intros [X|[]]; discriminate|].
  change (next_link (-1) (my_sec 4)) with 300.
  apply chain_end; [apply my_area; right; right; left; reflexivity|left; reflexivity| |]; rewrite my_s300; [vm_compute; discriminate|vm_compute; reflexivity].
Qed.
Lemma my_dos2 : dos2_disk my_geom my_disk 2.
Proof.
  assert (Two : forall i, 0 <= i < 2 -> i = 0 \/ i = 1) by lia.
  constructor.
  - exact my_bytes.
  - cbn [my_geom g_ss]. split; [lia|reflexivity].
  - cbn [my_geom g_max]. lia.
  - vm_compute. discriminate.
  - rewrite my_zlen. vm_compute. discriminate.
  - right. rewrite my_s360. vm_compute. reflexivity.
  - intros n Hn. unfold free_bit. rewrite my_s360. intros Hf. pose proof my_free as K. rewrite forallb_forall in K.
    specialize (K n (proj2 (In_zrange n _ _) Hn)). rewrite Hf in K. change (1 =? 0) with false in K. cbn [orb] in K. unfold my_data_b in K.
    unfold data_sector. cbn [my_geom g_max]. lia.
  - lia.
  - intros i Hi. destruct (Two i Hi) as [-> | ->]; [rewrite my_slot0|rewrite my_slot1]; (split; [vm_compute; discriminate|]); (split; [vm_compute; discriminate|]); split; vm_compute; reflexivity.
  - intros i Hi. change (num_slots my_geom) with 64 in Hi. pose proof my_rest as K. rewrite forallb_forall in K. specialize (K i (proj2 (In_zrange i _ _) Hi)). cbv beta in K. lia.
  - intros i j Hij Hj _. assert (i = 0) by lia. assert (j = 1) by lia. subst. rewrite my_slot0, my_slot1. vm_compute. discriminate.
  - intros i Hi L. split; [|split].
    + intros j c c' n Hj Hne _ C C' Hn Hn'. destruct (Two i Hi) as [-> | ->], (Two j Hj) as [-> | ->]; try lia.
      * rewrite (slot_chain_det _ _ _ _ _ C my_chain0) in Hn. rewrite (slot_chain_det _ _ _ _ _ C' my_chain1) in Hn'. cbn [In] in *. lia.
      * rewrite (slot_chain_det _ _ _ _ _ C my_chain1) in Hn. rewrite (slot_chain_det _ _ _ _ _ C' my_chain0) in Hn'. cbn [In] in *. lia.
    + destruct (Two i Hi) as [-> | ->]; [rewrite my_slot0|rewrite my_slot1]; vm_compute; discriminate.
    + destruct (Two i Hi) as [-> | ->].
      * exists [5]. split; [exact my_chain0|]. split; [unfold contents; cbn [flat_map]; rewrite my_s5; vm_compute; discriminate|].
        intros n Hn _. apply my_taken. cbn [In] in *. lia.
      * exists [4; 300]. split; [exact my_chain1|]. split; [unfold contents; cbn [flat_map]; rewrite my_s4, my_s300; vm_compute; discriminate|].
        intros n Hn _. apply my_taken. cbn [In] in *. lia.
Qed.
Definition my_image : aimg := view (fmt_hdr 128 368) my_disk 2.
Lemma my_consistent : consistent my_image.
Proof.
  pose proof my_dos2 as D. change my_geom with (fmt_geom 128 368) in D. rewrite <- (fmt_geom_of 128 368) in D.
  apply view_consistent; [|exact D|exact my_hdr]. apply hdr_of_hgeo; [exact my_hdr|cbn; lia|reflexivity|cbn; lia|discriminate].
Qed.

(** Both files are listed and read back. *)
Definition my_check (im : aimg) : bool :=
  ok_is (find_file im my_name) my_data && ok_is (find_file im dos_name) [1; 2] &&
  match listing im with [a; b] => zlist_eqb a dos_name && zlist_eqb b my_name | _ => false end &&
  match a_files im with [a; b] => negb (d_my a) && d_my b | _ => false end.
Lemma my_check_true : my_check my_image = true.
Proof. vm_compute. reflexivity. Qed.
Lemma my_checked im : my_check im = true -> listing im = [dos_name; my_name] /\
  find_file im my_name = Ok my_data /\ (exists d, In d (a_files im) /\ d_my d = true) /\
  find_file im dos_name = Ok [1; 2].
Proof.
  unfold my_check. intros K. apply andb_prop in K. destruct K as [K K4]. apply andb_prop in K. destruct K as [K K3]. apply andb_prop in K. destruct K as [K1 K2].
  split.
  { destruct (listing im) as [|a [|b [|c l]]]; try discriminate. apply andb_prop in K3. destruct K3 as [E1 E2]. apply zlist_eqb_eq in E1, E2. subst. reflexivity. }
  split; [apply ok_is_eq; exact K1|]. split; [|apply ok_is_eq; exact K2].
  destruct (a_files im) as [|a [|b [|c l]]]; try discriminate. exists b. apply andb_prop in K4. destruct K4 as [_ K4]. split; [right; left; reflexivity|exact K4].
Qed.
Example C01_mydos_example : consistent my_image /\ listing my_image = [dos_name; my_name] /\
  find_file my_image my_name = Ok my_data /\ (exists d, In d (a_files my_image) /\ d_my d = true) /\
  find_file my_image dos_name = Ok [1; 2].
Proof. split; [exact my_consistent|]. exact (my_checked my_image my_check_true). Qed.

(** * Sessions on disks with MyDOS files *)
Definition B_name : list Z := [66].
Definition C_name : list Z := [67].
Definition storable_b (n : list Z) : bool :=
  bytes_b n && zlist_eqb (rstrip0 (stored_base n)) (stored_base n) && zlist_eqb (rstrip0 (stored_ext n)) (stored_ext n).
Definition legal_b (im : aimg) (o : op) : bool :=
  match o with
  | OWrite n d => storable_b n && negb (zlist_eqb d []) && bytes_b d && negb (existsb (zlist_eqb (stored_name n)) (listing im)) && (zlen (a_files im) <? 64)
  | ODelete _ => true
  | OShred f => negb (u8 f =? 105) && negb (u8 f =? 109)
  end.
Lemma legal_b_op im o : legal_b im o = true -> legal_op im o.
Proof.
  destruct o as [n d|n|f]; cbn [legal_b legal_op]; [|trivial|lia]. intros K.
  apply andb_prop in K. destruct K as [K K5]. apply andb_prop in K. destruct K as [K K4]. apply andb_prop in K. destruct K as [K K3]. apply andb_prop in K. destruct K as [K1 K2].
  unfold storable_b in K1. apply andb_prop in K1. destruct K1 as [K1 S3]. apply andb_prop in K1. destruct K1 as [S1 S2].
  split; [split; [apply bytes_b_ok; exact S1|split; apply zlist_eqb_eq; assumption]|]. split; [intros ->; discriminate|]. split; [apply bytes_b_ok; exact K3|].
  split; [|lia]. intros Hin. apply negb_true_iff in K4. assert (X : existsb (zlist_eqb (stored_name n)) (listing im) = true) by (apply existsb_exists; exists (stored_name n); split; [exact Hin|apply zlist_eqb_eq; reflexivity]).
  rewrite X in K4. discriminate.
Qed.
(** Each call is legal and succeeds. *)
Fixpoint all_done (im : aimg) (ops : list op) : bool :=
  match ops with [] => true | o :: r => legal_b im o && let (im', x) := do_op im o in is_ok x && all_done im' r end.
Lemma all_done_legal ops : forall im, all_done im ops = true -> all_ops legal_op im ops.
Proof.
  induction ops as [|o r IH]; intros im H; cbn [all_done all_ops] in *; [exact Logic.I|]. apply andb_prop in H. destruct H as [H1 H2].
  split; [apply legal_b_op; exact H1|]. destruct (do_op im o) as [im' x]. cbn [fst]. apply andb_prop in H2. apply IH, H2.
Qed.

(** M is deleted, A is deleted, B is written into the first free sector, which was M's; deleting M again
    succeeds and frees that sector, which C is then written into: B is lost. *)
Definition twice : list op := [ODelete my_name; ODelete dos_name; OWrite B_name [9]; ODelete my_name; OWrite C_name [8]].
Definition twice_check (im : aimg) : bool :=
  all_done im twice &&
  let (im', m') := run im (fs_of im) twice in
  existsb (zlist_eqb B_name) (listing im') && match m' B_name with Some d => zlist_eqb d [9] | None => false end &&
  match find_file im' B_name with Err (EAtr FileNumberMismatch164) => true | _ => false end.
Lemma twice_check_true : twice_check my_image = true.
Proof. vm_compute. reflexivity. Qed.
Lemma twice_checked im : twice_check im = true -> all_ops legal_op im twice /\
  let (im', m') := run im (fs_of im) twice in
  In B_name (listing im') /\ m' B_name = Some [9] /\ find_file im' B_name = Err (EAtr FileNumberMismatch164).
Proof.
  unfold twice_check. generalize twice. intros ops K.
  apply andb_prop in K. destruct K as [K1 K2]. split; [apply all_done_legal; exact K1|].
  destruct (run im (fs_of im) ops) as [im' m']. apply andb_prop in K2. destruct K2 as [K2 K5]. apply andb_prop in K2. destruct K2 as [K3 K4].
  split; [|split].
  - apply existsb_exists in K3. destruct K3 as (x & Hx & E). apply zlist_eqb_eq in E. subst x. exact Hx.
  - destruct (m' B_name) as [d|]; [|discriminate]. apply zlist_eqb_eq in K4. subst. reflexivity.
  - destruct (find_file im' B_name) as [l|e]; [discriminate|]. destruct e; try discriminate. match goal with |- Err (EAtr ?x) = _ => destruct x; try discriminate end. reflexivity.
Qed.
(** C04 is false of disks with MyDOS files when a name is deleted that is no longer listed. *)
Theorem C04_mydos_name_deleted_twice_refuted : exists im ops n d,
  consistent im /\ all_ops legal_op im ops /\
  let (im', m') := run im (fs_of im) ops in
  In n (listing im') /\ m' n = Some d /\ find_file im' n = Err (EAtr FileNumberMismatch164).
Proof. exists my_image, twice, B_name, [9]. split; [exact my_consistent|]. exact (twice_checked my_image twice_check_true). Qed.
Print Assumptions C04_mydos_name_deleted_twice_refuted.

(** With deletes of listed names only, the session theorem holds of this disk. *)
Definition plain_ops : list op := [OShred 105; ODelete my_name; ODelete dos_name].
Example C04_mydos_example : all_ops strict_op my_image plain_ops.
Proof.
  pose proof (my_checked my_image my_check_true) as (L & _). pose proof my_consistent as C. unfold plain_ops. revert L C. generalize my_image. intros im L C.
  cbn [all_ops strict_op]. split; [exact Logic.I|]. destruct (shred_master im 105 C) as (i1 & E1 & W1). cbn [do_op]. rewrite E1. cbn [fst].
  pose proof (sr_listing _ _ _ W1) as L1. rewrite L in L1. split; [rewrite L1; right; left; reflexivity|].
  destruct (delete_master i1 my_name (sr_consistent _ _ _ W1)) as (i2 & c2 & E2 & W2); [rewrite L1; right; left; reflexivity|].
  rewrite E2. cbn [fst]. split; [|exact Logic.I]. destruct (dr_listing _ _ _ _ W2) as (l1 & l2 & A & ->). rewrite L1 in A.
  destruct l1 as [|a [|b l1]]; cbn [app] in A; [discriminate A| |]; injection A as <- A.
  - left. reflexivity.
  - left. reflexivity.
Qed.
