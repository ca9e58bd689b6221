(** C100: what a file that is no disk image is taken for. *)
From Verif Require Import Base BaseLemmas DiskModel AtariModel ExecModel ExecSpec ExecProofs DetectModel DetectSpec DetectProofs DetectErrors DetectErrors2 DetectErrors3 Properties_Detect Properties_Detect2 DetectDsk DetectExec.
From Verif Require CartModel CartProofs Properties_Cart.
Import List.

(** The kinds of files that are not disk images, in the documented order. *)
Definition no_disk (p : pclass) : bool :=
  match p with PKBoot | PSparta | PAtariDos | PBoot | PUnidentified | PDos33 | PProdos => false | _ => true end.
Definition file_kinds : list (mime * pclass) := filter (fun mp => no_disk (snd mp)) documented_order.
(** A file is of a kind:  *)
Definition cart_of (k : CartModel.machine) (t : Z) (b : list Z) : Prop :=
  exists c crc rest data, In c CartModel.known_cart_types /\ Properties_Cart.for_machine k c = true /\ CartModel.ct_type c = t /\ 0 <= crc < 4294967296 /\
    b = Properties_Cart.cart_bytes t crc rest data /\ zlen rest = 4 /\ zlen data = CartModel.ct_size c * 1024.
Definition of_kind (e : env) (p : pclass) (b : list Z) : Prop :=
  match p with
  | PXex => exists ps, pieces_ok ps /\ begins_ok ps /\ b = encode ps
  | PCart8 t => cart_of CartModel.HomeComputer t b
  | PCart52 t => cart_of CartModel.A5200 t b
  | PMame => exists l, e_zip e b = Zip l /\ l <> [] /\ Forall (fun z => exists k, z_size z = 16 * k) l
  | PBin => 4 <= zlen b /\ le2 (getb b 2) (getb b 3) = zlen b - 4
  | PRom | P2600 | PStarpath | PVectrex => zlen b = 0 \/ exists k, 0 <= k /\ zlen b = 2 ^ k
  | _ => False
  end.

Lemma refuses_atr {A} (r : res A) x : r = Err (EAtr x) -> x <> UnsupportedDiskImage -> refuses (as_parser r).
Proof. intros -> N. destruct x; try reflexivity. congruence. Qed.
Lemma cart_kind k t b : k <> CartModel.AnyMachine -> bytes_ok b ->
  match as_parser (cart_image k true b t) with
  | Ok _ => cart_of k t b
  | Err x => x = EAtr InvalidSegmentParser /\ ~ cart_of k t b
  end.
Proof.
  intros Hk Hb. assert (E : match as_parser (cart_image k true b t), CartModel.cart_parse k b t with Ok _, Ok _ => True | Err x, Err y => x = y | _, _ => False end).
  { unfold cart_image, CartModel.cart_parse, checked. destruct (CartModel.open_cart b t) as [im|x]; cbn [rbind].
    - unfold CartModel.cart_strict. repeat match goal with |- context[if ?c then _ else _] => destruct c; cbn [rbind as_parser]; try reflexivity end; exact I.
    - destruct x as [a| | | | | | | | | | | |]; try reflexivity. destruct a; reflexivity. }
  destruct (CartModel.cart_parse k b t) as [im|y] eqn:P; destruct (as_parser _) as [i|x]; try contradiction.
  - destruct (Properties_Cart.parse_ok k b t im Hb P) as (c & crc & rest & data & H1 & H2 & H3 & H4 & H5 & H6 & H7 & _). exists c, crc, rest, data. tauto.
  - subst x. split; [exact (CartProofs.cart_parse_err _ _ _ _ P)|]. intros (c & crc & rest & data & H1 & H2 & H3 & H4 & H5 & H6 & H7).
    destruct (Properties_Cart.parse_complete k c crc rest data H1 H2 H4 H6 H7) as (im & Q). rewrite H3, <- H5 in Q. congruence.
Qed.
Lemma kind_exact e b p : bytes_ok b -> zip_ok e b -> no_disk p = true ->
  match parse e true p b with
  | Ok _ => of_kind e p b
  | Err x => x = EAtr InvalidSegmentParser /\ ~ of_kind e p b
  end.
Proof.
  intros Hb [Z1 Z2] Np. unfold parse. assert (RO : forall r, r = as_parser (rom_image b) -> match r with Ok _ => zlen b = 0 \/ exists k, 0 <= k /\ zlen b = 2 ^ k | Err x => x = EAtr InvalidSegmentParser /\ ~ (zlen b = 0 \/ exists k, 0 <= k /\ zlen b = 2 ^ k) end).
  { intros r ->. destruct (Properties_Cart.C65_rom_partial b) as (R1 & R2 & _). unfold rom_image. destruct (Z.eq_dec (zlen b) 0) as [L|L].
    - apply zlen_0_nil in L. subst b. cbn. left. reflexivity.
    - specialize (R1 L). destruct (CartModel.open_rom b) as [b'|x] eqn:O; cbn [rbind as_parser].
      + right. apply R1. unfold CartModel.open_rom in O. destruct (negb _); [discriminate|]. congruence.
      + assert (X : x = EAtr InvalidDiskImage) by (specialize (R2 ltac:(discriminate)); congruence). subst x. split; [reflexivity|]. intros [H|H]; [exact (L H)|]. apply R1 in H. discriminate. }
  destruct p; try discriminate Np; cbn [parse_image of_kind].
  - pose proof (parse_xex_iff b (zrepeat 0 (zlen b)) Hb) as X. destruct (parse_xex_total b (zrepeat 0 (zlen b))) as [(segs & T)|T]; rewrite T in *; cbn [as_parser].
    + destruct (proj1 (X segs) eq_refl) as (ps & P1 & P2 & P3 & _). exists ps. tauto.
    + split; [reflexivity|]. intros (ps & P1 & P2 & P3). destruct (X (reports 0 ps)) as [_ Q]. discriminate Q. exists ps. tauto.
  - apply cart_kind; [discriminate|exact Hb].
  - apply cart_kind; [discriminate|exact Hb].
  - apply RO; reflexivity.
  - apply RO; reflexivity.
  - apply RO; reflexivity.
  - unfold mame_image. destruct (e_zip e b) as [|l|x] eqn:Ez; cbn [as_parser].
    + split; [reflexivity|]. intros (l & H & _). discriminate H.
    + destruct (existsb _ l) eqn:Ex; cbn [as_parser].
      * split; [reflexivity|]. intros (l' & H & _ & F). injection H as <-. apply existsb_exists in Ex. destruct Ex as (z & Hz & L). rewrite Forall_forall in F. destruct (F z Hz) as (k & Hk). rewrite Hk, Z.mul_comm, Z.mod_mul in L by discriminate. discriminate L.
      * destruct l as [|z l]; [exfalso; exact (Z1 eq_refl)|]. cbn [as_parser]. exists (z :: l). split; [reflexivity|]. split; [discriminate|]. apply Forall_forall. intros y Hy. exists (z_size y / 16).
        assert (M : (0 <? z_size y mod 16) = false) by (destruct (0 <? z_size y mod 16) eqn:M; [|reflexivity]; rewrite <- Ex; symmetry; apply existsb_exists; exists y; split; assumption).
        pose proof (Z.mod_pos_bound (z_size y) 16 ltac:(lia)). pose proof (Z.div_mod (z_size y) 16 ltac:(lia)). lia.
    + specialize (Z2 x eq_refl). destruct x as [a| | | | | | | | | | | |]; try discriminate Z2. destruct a; try discriminate Z2; (split; [reflexivity|]; intros (l & H & _); discriminate H).
  - apply RO; reflexivity.
  - unfold parse_bsave. pose proof (zlen_nonneg b) as Hn. rewrite zlen_slice_min by lia. destruct (Z.max 0 (Z.min (4 - 0) (zlen b - 0)) =? 4) eqn:L4.
    + destruct (negb _) eqn:C; cbn [rbind as_parser]; [split; [reflexivity|]; intros [_ H]; rewrite H, Z.eqb_refl in C; discriminate C|].
      apply negb_false_iff, Z.eqb_eq in C. rewrite C. replace (4 + (zlen b - 4)) with (zlen b) by lia. rewrite zlen_slice by lia. rewrite Z.eqb_refl. cbn [rbind as_parser]. split; [lia|reflexivity].
    + cbn [rbind as_parser]. split; [reflexivity|]. intros [H _]. lia.
Qed.

Lemma detail_file m b : m <> M_atr -> exists d, guess_detail m b = Ok d.
Proof.
  intros N. unfold guess_detail. destruct m; try (exists None; reflexivity); [congruence|]. cbn [details first_detail magic check_signature]. destruct (zlist_eqb _ _); cbn [rbind]; eexists; reflexivity.
Qed.
Lemma filter_split {A} (g : A -> bool) l x : forall before after, l = before ++ x :: after -> g x = true -> filter g l = filter g before ++ x :: filter g after.
Proof. intros before after -> H. rewrite filter_app. cbn [filter]. rewrite H. reflexivity. Qed.

(** The first kind in the documented order that a file has is the one it is taken for; a file of
    no kind is refused. *)
Theorem C100_table (e : env) (b : list Z) : bytes_ok b -> unclaimed e b -> not_atari_disk b -> zlen b <> 143360 -> zip_ok e b ->
  match find_diskimage e b with
  | Ok f => of_kind e (f_class f) b /\ exists before after, file_kinds = before ++ (f_mime f, f_class f) :: after /\ forall mp, In mp before -> ~ of_kind e (snd mp) b
  | Err x => x = EAtr UnsupportedDiskImage /\ forall mp, In mp file_kinds -> ~ of_kind e (snd mp) b
  end.
Proof.
  intros Hb [NC NS] ND Ns Zo.
  assert (R : forall mp, In mp documented_order -> no_disk (snd mp) = false -> refuses (parse e true (snd mp) b)).
  { intros [m p] Hi Hd. cbn [snd] in *. destruct (dos33_other_size e true b Ns) as [D1 D2].
    destruct p; try discriminate Hd; try exact D1; try exact D2; apply raw_atari; try assumption; cbn [In]; tauto. }
  pose proof (C45_first_accepting e b b (unpacked_plain e b NC)) as S0. rewrite (attempts_plain _ _ NS) in S0.
  assert (K : forall a, first_choice (attempt e b) (map (pair true) documented_order) a ->
    exists mp im d, a = (true, mp) /\ parse e true (snd mp) b = Ok im /\ refined a b = Ok d /\ of_kind e (snd mp) b /\
      exists before after, file_kinds = before ++ mp :: after /\ forall q, In q before -> ~ of_kind e (snd q) b).
  { intros a F. destruct (first_choice_map _ _ _ _ F) as (mp & -> & (bf & af & E & B & P)). unfold attempt in B, P. cbn [fst snd] in B, P. exists mp.
    assert (Hi : In mp documented_order) by (rewrite E; apply in_or_app; right; left; reflexivity).
    assert (Nd : no_disk (snd mp) = true) by (destruct (no_disk (snd mp)) eqn:Q; [reflexivity|destruct (P (R mp Hi Q))]).
    pose proof (kind_exact e b (snd mp) Hb Zo Nd) as X. destruct (parse e true (snd mp) b) as [im|x] eqn:Pm; [|destruct X as [-> _]; destruct (P eq_refl)].
    destruct (detail_file (fst mp) b) as [d D].
    { intros Em. destruct mp as [m p]. cbn [fst snd] in *. subst m. clear - Hi Nd. unfold documented_order in Hi. rewrite !in_app_iff, !in_map_iff in Hi. cbn [In] in Hi.
      destruct Hi as [Hi|[(t & Hi & _)|[(t & Hi & _)|Hi]]]; try discriminate Hi; repeat (destruct Hi as [Hi|Hi]; [try discriminate Hi; injection Hi as <-; discriminate Nd|]); exact Hi. }
    exists im, d. split; [reflexivity|]. split; [reflexivity|]. split; [exact D|]. split; [exact X|].
    exists (filter (fun mp => no_disk (snd mp)) bf), (filter (fun mp => no_disk (snd mp)) af). split; [apply filter_split; [exact E|exact Nd]|].
    intros q Hq. apply filter_In in Hq. destruct Hq as [Hq1 Hq2]. pose proof (kind_exact e b (snd q) Hb Zo Hq2) as Y. rewrite (B q Hq1) in Y. exact (proj2 Y). }
  destruct (find_diskimage e b) as [f|x].
  - destruct S0 as (a & F & E & _). destruct (K a F) as (mp & im & d & -> & _ & _ & O & bf & af & E1 & E2). cbn [snd] in E. rewrite E in O, E1. cbn [snd] in O. split; [exact O|]. exists bf, af. split; assumption.
  - destruct S0 as [(N & ->)|(a & F & [P|(im & P & D)])].
    + split; [reflexivity|]. intros mp Hm. apply filter_In in Hm. destruct Hm as [H1 H2]. pose proof (kind_exact e b (snd mp) Hb Zo H2) as Y.
      specialize (N (true, mp) (in_map _ _ _ H1)). unfold attempt in N. cbn [fst snd] in N. rewrite N in Y. exact (proj2 Y).
    + destruct (K a F) as (mp & im & d & -> & Q & _). unfold attempt in P. cbn [fst snd] in P. congruence.
    + destruct (K a F) as (mp & im' & d & -> & _ & Q & _). congruence.
Qed.
Print Assumptions C100_table.

(** * Cases *)
Definition no_sparta (b : list Z) : bool :=
  match atari_header b with Ok h => match SpartaModel.boot_sector_info b h with Ok _ => false | Err _ => true end | Err _ => true end.
Definition plain_file (b : list Z) : bool :=
  forallb (fun c => (0 <=? c) && (c <? 256)) b && no_sparta b && negb (zmem (zlen b) (143360 :: atari_sizes)) && negb ((getb b 0 =? 0x96) && (getb b 1 =? 0x02)).
Lemma plain_file_spec b : plain_file b = true -> bytes_ok b /\ not_atari_disk b /\ zlen b <> 143360.
Proof.
  unfold plain_file. rewrite !andb_true_iff. intros [[[B S] Z0] A]. apply negb_true_iff in Z0. apply zmem_false in Z0. cbn [In] in Z0.
  split; [apply Forall_forall; intros c Hc; rewrite forallb_forall in B; specialize (B c Hc); unfold is_byte; lia|]. split; [|intuition].
  split; [intros (_ & X & Y); rewrite X, Y in A; discriminate A|]. split; [intuition|]. intros (h & im & E1 & E2). unfold no_sparta in S. rewrite E1, E2 in S. discriminate S.
Qed.
Definition zip_env (l : list zipent) : env := mkEnv (fun _ => NotPacked) (fun _ => NotPacked) (fun _ => NotPacked) (fun _ => Zip l) (fun _ => None).
Definition pk : list Z := [0x50; 0x4b; 3; 4; 20; 0; 0; 0; 8].
Definition class_of (r : res found) : option pclass := match r with Ok f => Some (f_class f) | Err _ => None end.
Lemma unclaimed_env e b : e_gzip e b = NotPacked -> e_bzip e b = NotPacked -> e_lzma e b = NotPacked -> e_sig e b = None ->
  ~ (2 <= zlen b /\ (getb b 0 = 0xf9 \/ getb b 0 = 0xfa) /\ getb b 1 mod 32 = 1 /\ (getb b 1 / 32) mod 4 <> 3) -> unclaimed e b.
Proof. intros A B C D E. split; [|exact D]. repeat split; assumption. Qed.
Ltac unclaim := apply unclaimed_env; try reflexivity; intros (_ & [X|X] & _); discriminate X.
Definition two_roms : list zipent := [mkZip [97] 16 (zrepeat 1 16); mkZip [98] 32 (zrepeat 2 32)].
Definition odd_rom : list zipent := [mkZip [97] 17 (zrepeat 1 17)].
(** A zip file of two ROMs, one with an odd ROM, and files without a zip structure. *)
Example C100_mame_example : bytes_ok pk /\ unclaimed (zip_env two_roms) pk /\ not_atari_disk pk /\ zlen pk <> 143360 /\ zip_ok (zip_env two_roms) pk /\
  class_of (find_diskimage (zip_env two_roms) pk) = Some PMame /\ find_diskimage (zip_env odd_rom) pk = Err (EAtr UnsupportedDiskImage).
Proof.
  destruct (plain_file_spec pk) as (P1 & P2 & P3); [vm_compute; reflexivity|]. split; [exact P1|]. split; [unclaim|]. split; [exact P2|]. split; [exact P3|]. split; [split; discriminate|]. split; vm_compute; reflexivity.
Qed.
Example C100_kinds_example :
  class_of (find_diskimage env0 [255; 255; 0; 6; 1; 6; 7; 8]) = Some PXex /\ class_of (find_diskimage env0 []) = Some PXex /\
  class_of (find_diskimage env0 [0; 6; 4; 0; 1; 2; 3; 4]) = Some PBin /\ class_of (find_diskimage env0 [0; 6; 5; 0; 1; 2; 3; 4]) = Some PRom /\
  class_of (find_diskimage env0 (Properties_Cart.cart_bytes 57 7 [0; 0; 0; 0] (zrepeat 9 2048))) = Some (PCart8 57) /\
  class_of (find_diskimage env0 (Properties_Cart.cart_bytes 20 7 [0; 0; 0; 0] (zrepeat 9 4096))) = Some (PCart52 20) /\
  find_diskimage env0 [0; 6; 5; 0; 1; 2; 3] = Err (EAtr UnsupportedDiskImage).
Proof. repeat split; vm_compute; reflexivity. Qed.

(** A zip file without members is neither taken nor refused. *)
Theorem C100_empty_zip_refuted : exists e b, bytes_ok b /\ unclaimed e b /\ not_atari_disk b /\ zlen b <> 143360 /\ e_zip e b = Zip [] /\
  find_diskimage e b = Err EValue.
Proof.
  exists (zip_env []), ([0x50; 0x4b; 5; 6] ++ zrepeat 0 18). destruct (plain_file_spec ([0x50; 0x4b; 5; 6] ++ zrepeat 0 18)) as (P1 & P2 & P3); [vm_compute; reflexivity|].
  split; [exact P1|]. split; [unclaim|]. split; [exact P2|]. split; [exact P3|]. split; [reflexivity|]. vm_compute. reflexivity.
Qed.
Print Assumptions C100_empty_zip_refuted.

(** An executable that happens to have the size of a disk is taken for a disk. *)
Definition disk_sized : list piece := [PMark; PSeg 0x1000 (zrepeat 7 32768); PSeg 0x1000 (zrepeat 7 32768); PSeg 0x2000 (zrepeat 7 (92160 - 2 - 3 * 4 - 65536))].
Definition taken_for_disk (b : list Z) : bool := match find_diskimage env0 b with Ok f => match f_class f with PUnidentified => true | _ => false end | Err _ => false end.
Lemma taken_spec b : taken_for_disk b = true -> exists f, find_diskimage env0 b = Ok f /\ f_class f = PUnidentified.
Proof. unfold taken_for_disk. destruct (find_diskimage env0 b) as [f|x]; [|discriminate]. intros C. exists f. split; [reflexivity|]. destruct (f_class f); try discriminate C; reflexivity. Qed.
Lemma disk_sized_taken : taken_for_disk (encode disk_sized) = true.
Proof. vm_compute. reflexivity. Qed.
Lemma disk_sized_first : getb (encode disk_sized) 0 = 255.
Proof. vm_compute. reflexivity. Qed.
Lemma disk_sized_pieces : pieces_ok disk_sized /\ begins_ok disk_sized.
Proof.
  assert (W : forall o n, 0 <= o < 65535 -> 0 < n -> o + n <= 65536 -> whole (PSeg o (zrepeat 7 n))).
  { intros o n H1 H2 H3. cbn [whole]. rewrite zlen_zrepeat by lia. lia. }
  split; [|exact Logic.I]. split; [exact Logic.I|]. split; [apply W; lia|]. split; [apply W; lia|]. left. apply W; lia.
Qed.
Theorem C100_size_refuted : exists b f, of_kind env0 PXex b /\ unclaimed env0 b /\ find_diskimage env0 b = Ok f /\ f_class f = PUnidentified.
Proof.
  destruct (taken_spec _ disk_sized_taken) as (f & F1 & F2). exists (encode disk_sized), f. split; [|split; [|split; [exact F1|exact F2]]].
  - destruct disk_sized_pieces as [P Q]. exists disk_sized. split; [exact P|]. split; [exact Q|reflexivity].
  - apply unclaimed_env; try reflexivity. intros (_ & [X|X] & _); rewrite disk_sized_first in X; discriminate X.
Qed.
Print Assumptions C100_size_refuted.
