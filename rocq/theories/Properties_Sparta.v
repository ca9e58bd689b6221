(** SpartaDOS disks: C41 (reading), C66 (directory), C67 (changing an image). *)
From Verif Require Import Base BaseLemmas DiskModel AtariModel AtariSpec AtariGeom AtariHeader SpartaModel SpartaSpec SpartaProofs SpartaProofs2 SpartaLoops.

(* ------------------------------------------------------------------ *)
(** * C41: files read exactly *)

Lemma sfind_first : forall ds i d, nth_error ds i = Some d ->
  (forall j d', (j < i)%nat -> nth_error ds j = Some d' -> sfilename d' <> sfilename d) -> sfind (sfilename d) ds = Some d.
Proof.
  induction ds as [|x ds IH]; intros i d N F; [destruct i; discriminate|].
  destruct i as [|i].
  - injection N as ->. cbn [sfind]. rewrite (proj2 (zlist_eqb_eq _ _) eq_refl). reflexivity.
  - cbn [sfind]. rewrite (proj2 (zlist_eqb_neq _ _)).
    + apply (IH i); [exact N|]. intros j d' Hj Nj. apply (F (S j)); [lia|exact Nj].
    + intros E. apply (F O x); [lia|reflexivity|symmetry; exact E].
Qed.

(** For a disk that follows the format: every entry of the root directory whose
    map is complete reads as its contents, and so does its name if no earlier
    entry has the same one. *)
Theorem C41_read_partial (b : list Z) (h : hdr) (dir : list Z) (k : Z) :
  hdr_of b = Ok h -> sparta_disk (geom_of h) b dir k ->
  exists im, open_sparta b = Ok im /\
  forall i ds, let e := s_entry dir i in
    1 <= i <= k -> is_file (geom_of h) b (se_start e) ds -> ds <> [] -> 0 < se_len e < 8388608 ->
    exists d, nth_error (s_files im) (Z.to_nat (i - 1)) = Some d /\ shows e d /\
      sget_file im d = Ok (file_bytes (geom_of h) b (se_len e) ds) /\
      ((forall j, 1 <= j < i -> se_name (s_entry dir j) <> se_name e) ->
       sfind_file im (se_name e) = Ok (file_bytes (geom_of h) b (se_len e) ds)).
Proof.
  intros Hh Hd. destruct (open_disk b h dir k Hh Hd) as (im & O & I1 & I2 & I3 & _ & _ & _ & _ & _ & _ & _ & I4).
  exists im. split; [exact O|]. intros i ds e Hi F Hne Hl.
  destruct (I4 i Hi) as (d & N & Sh & Sa). exists d. split; [exact N|]. split; [exact Sh|].
  assert (G : sget_file im d = Ok (file_bytes (geom_of h) b (se_len e) ds)).
  { unfold sget_file. rewrite I1, I2. pose proof (sk_bytes _ _ _ _ Hd) as Hb. destruct (sk_ss _ _ _ _ Hd) as [S1 S2].
    pose proof (sh_length _ _ Sh ltac:(fold e; lia)) as El. fold e in El. rewrite <- El.
    apply sget_bytes_spec; try assumption; try lia.
    - rewrite (sh_start _ _ Sh). exact F.
    - rewrite Sa. unfold ssanity. destruct (negb _); [reflexivity|]. rewrite (sh_start _ _ Sh).
      destruct F as (cs & m & C & _). assert (U : usable (geom_of h) (se_start e)) by (inversion C; assumption).
      destruct U as [U _]. fold e. unfold sector_valid. unfold geom_of in U. cbn [g_max] in U. lia.
    }
  split; [exact G|]. intros Un. unfold sfind_file. pose proof (sh_name _ _ Sh) as Nm. fold e in Nm. rewrite <- Nm.
  rewrite (sfind_first (s_files im) (Z.to_nat (i - 1)) d N); [exact G|].
  intros j d' Hj Nj. destruct (I4 (Z.of_nat j + 1) ltac:(lia)) as (d2 & N2 & Sh2 & _).
  replace (Z.to_nat (Z.of_nat j + 1 - 1)) with j in N2 by lia. rewrite Nj in N2. injection N2 as <-.
  rewrite (sh_name _ _ Sh2), Nm. apply Un. lia.
Qed.
Print Assumptions C41_read_partial.

(** For every image whatsoever (with sectors of one size): what a read returns
    is what the map on the disk says. *)
Theorem C41_whatever_is_read (b : list Z) (im : simg) (d : sdirent) (data : list Z) :
  bytes_ok b -> open_sparta b = Ok im -> g_skew (geom_of (s_hdr im)) = 0 ->
  0 < sd_length d -> sget_file im d = Ok data ->
  exists ds, is_file (geom_of (s_hdr im)) b (sd_start d) ds /\
    (ds <> [] -> data = file_bytes (geom_of (s_hdr im)) b (sd_length d) ds).
Proof.
  intros Hb O Sk Hl G.
  assert (Q : hdr_of b = Ok (s_hdr im) /\ s_bytes im = b).
  { unfold open_sparta, open_sparta_fuel in O. fold (hdr_of b) in O. destruct (hdr_of b) as [h|] eqn:Eh; [|discriminate O]. cbn [rbind] in O.
    destruct (boot_sector_info b h) as [im0|] eqn:E0; [|discriminate O]. cbn [rbind] in O.
    assert (R : s_hdr im0 = h /\ s_bytes im0 = b).
    { unfold boot_sector_info in E0. destruct (get_sectors h b 1 1); [|discriminate E0]. cbn [rbind] in E0.
      destruct (zlen (slice a 0 33) =? 0); [discriminate E0|]. destruct (negb _); [discriminate E0|].
      match type of E0 with (if ?c then _ else _) = _ => destruct c; [|discriminate E0] end. injection E0 as <-. split; reflexivity. }
    destruct R as [R1 R2]. unfold sget_directory in O.
    destruct (sector_map _ _ _ _) as [[[|s m]|]|]; try discriminate O. cbn [rbind] in O.
    destruct (s =? 0); [injection O as <-; cbn [with_dir s_hdr s_bytes]; rewrite R1, R2; auto|].
    destruct (get_raw_bytes _ _ _) as [[[r p] z]|]; [|discriminate O]. cbn [rbind] in O.
    destruct (parse_sdirent _ _ _); [|discriminate O]. cbn [rbind] in O. destruct (sget_bytes _ _ _ _); [|discriminate O]. cbn [rbind] in O.
    destruct (sentries _ _ _ _ _); [|discriminate O]. cbn [rbind] in O. injection O as <-. cbn [with_dir s_hdr s_bytes]. rewrite R1, R2. auto. }
  destruct Q as [Hh Eb]. unfold sget_file in G. rewrite Eb in G.
  destruct (sget_bytes_sound b (s_hdr im) Hb Hh d data Sk Hl G) as (ds & F & A & _). exists ds. auto.
Qed.
Print Assumptions C41_whatever_is_read.

(** ** Example disks: 128-byte sectors, no ATR header *)
Definition pad (l : list Z) : list Z := l ++ zrepeat 0 (128 - zlen l).
Definition boot_rec (n root bitmap : Z) : list Z :=
  pad ([0; 1] ++ put2 0x700 ++ put2 0x700 ++ [0x4c] ++ put2 0x740 ++ put2 root ++ put2 n ++ put2 1 ++ [1] ++ put2 bitmap ++
       put2 1 ++ put2 1 ++ [86; 79; 76; 32; 32; 32; 32; 32] ++ [40; 0x80; 0x20]).
Definition map_sec (next : Z) (ds : list Z) : list Z := pad (put2 next ++ put2 0 ++ flat_map put2 ds).
Definition entry (status start len : Z) (name ext : list Z) : list Z :=
  [status] ++ put2 start ++ put2 len ++ [len / 65536] ++ ljust 8 name ++ ljust 3 ext ++ [1; 2; 90; 12; 30; 0].
Definition body (c n : Z) : list Z := map (fun i => u8 (c + i)) (zrange 0 n).

(** Sectors: 1 boot, 2 bitmap, 3 map and 4 data of the root directory, 5 map and
    6-7 data of A.TXT (200 bytes), 8 map and 9 data of a deleted file. *)
Definition demo_dir : list Z :=
  entry 0x28 0 69 [77; 65; 73; 78] [] ++ entry 0x08 5 200 [65] [84; 88; 84] ++ entry 0x10 8 10 [66] [].
Definition demo : list Z :=
  boot_rec 9 3 2 ++ pad [0; 0] ++ map_sec 0 [4] ++ pad demo_dir ++ map_sec 0 [6; 7] ++ body 1 128 ++ body 50 128 ++ map_sec 0 [9] ++ body 7 128.
Definition demo_h : hdr := mkH 0 1152 128 0 0 125 9 0 0 0.
Lemma demo_hdr : hdr_of demo = Ok demo_h.
Proof. vm_compute. reflexivity. Qed.
Lemma demo_file start ds k : usable (geom_of demo_h) start -> Forall (usable (geom_of demo_h)) ds -> ~ In 0 ds ->
  map_next (sector (geom_of demo_h) demo start) = 0 -> map_entries (sector (geom_of demo_h) demo start) = ds ++ 0 :: zrepeat 0 k ->
  is_file (geom_of demo_h) demo start ds.
Proof.
  intros U Us Nz E M. exists [start], (map_entries (sector (geom_of demo_h) demo start)). split; [apply map_end; assumption|].
  split; [exists (zrepeat 0 k); auto|exact Us].
Qed.
Lemma us n : 1 <= n <= 9 -> usable (geom_of demo_h) n.
Proof. intros H. split; [exact H|]. left. reflexivity. Qed.
Lemma bytes_okb l : forallb is_byteb l = true -> bytes_ok l.
Proof. intros H. rewrite forallb_forall in H. apply Forall_forall. intros x Hx. specialize (H x Hx). unfold is_byteb, is_byte in *. lia. Qed.
Lemma demo_root : is_file (geom_of demo_h) demo 3 [4].
Proof. apply (demo_file 3 [4] 60); [apply us; lia|constructor; [apply us; lia|constructor]|intros [H|[]]; discriminate H|vm_compute; reflexivity|vm_compute; reflexivity]. Qed.
Example C41_demo_disk : sparta_disk (geom_of demo_h) demo demo_dir 2.
Proof.
  constructor; try (vm_compute; intuition congruence).
  - apply bytes_okb. vm_compute. reflexivity.
  - exists [4]. split; [exact demo_root|]. split; [discriminate|]. vm_compute. reflexivity.
Qed.
Example C41_demo : is_file (geom_of demo_h) demo (se_start (s_entry demo_dir 1)) [6; 7] /\ se_len (s_entry demo_dir 1) = 200 /\
  se_name (s_entry demo_dir 1) = [65; 46; 84; 88; 84] /\ file_bytes (geom_of demo_h) demo 200 [6; 7] = body 1 128 ++ body 50 72.
Proof.
  split; [|vm_compute; auto]. change (se_start (s_entry demo_dir 1)) with 5.
  apply (demo_file 5 [6; 7] 59); [apply us; lia|constructor; [apply us; lia|constructor; [apply us; lia|constructor]]|intros [H|[H|[]]]; discriminate H|vm_compute; reflexivity|vm_compute; reflexivity].
Qed.

(** A map whose entries are all used (62 sectors of 128 bytes) cannot be read:
    IndexError. *)
Definition full_disk : list Z :=
  boot_rec 67 3 2 ++ pad [0; 0] ++ map_sec 0 [4] ++ pad (entry 0x28 0 46 [77] [] ++ entry 0x08 5 7936 [65] []) ++
  map_sec 0 (zrange 6 68) ++ body 0 7936.
Theorem C41_full_map_refuted : exists b h im d cs m,
  hdr_of b = Ok h /\ open_sparta b = Ok im /\ In d (s_files im) /\ sfilename d = [65] /\ sd_inuse d = true /\
  map_chain (geom_of h) b (sd_start d) cs m /\ Forall (usable (geom_of h)) m /\ ~ In 0 m /\ NoDup m /\
  sd_length d = zlen (flat_map (sector (geom_of h) b) m) /\ sfind_file im [65] = Err EIndex.
Proof.
  set (h := mkH 0 8576 128 0 0 125 67 0 0 0).
  destruct (open_sparta full_disk) as [im|] eqn:O; [|vm_compute in O; discriminate O].
  exists full_disk, h, im. vm_compute in O. injection O as <-.
  eexists. exists [5], (map_entries (sector (geom_of h) full_disk 5)).
  split; [vm_compute; reflexivity|]. split; [vm_compute; reflexivity|]. split; [left; reflexivity|]. split; [vm_compute; reflexivity|]. split; [vm_compute; reflexivity|].
  split. { apply map_end; [split; [cbn; lia|left; reflexivity]|vm_compute; reflexivity]. }
  assert (E : map_entries (sector (geom_of h) full_disk 5) = zrange 6 68) by (vm_compute; reflexivity). rewrite E.
  split. { apply Forall_forall. intros x Hx. apply In_zrange in Hx. split; [cbn; lia|left; reflexivity]. }
  split. { rewrite In_zrange. lia. }
  split. { apply NoDup_zseq_nat. }
  split; vm_compute; reflexivity.
Qed.
Print Assumptions C41_full_map_refuted.

(** A file without data reads as the whole disk, and so does one of 8388608
    bytes or more. *)
Definition odd_disk (len : Z) : list Z :=
  boot_rec 6 3 2 ++ pad [0; 0] ++ map_sec 0 [4] ++ pad (entry 0x28 0 46 [77] [] ++ entry 0x08 5 len [65] []) ++ map_sec 0 [6] ++ body 0 128.
Theorem C41_length_refuted :
  (exists b h im d, hdr_of b = Ok h /\ open_sparta b = Ok im /\ s_files im = [d] /\ shows (entry 0x08 5 0 [65] []) d /\
     is_file (geom_of h) b 5 [6] /\ file_bytes (geom_of h) b 0 [6] = [] /\ sget_file im d = Ok b /\ b <> []) /\
  (exists b h im d, hdr_of b = Ok h /\ open_sparta b = Ok im /\ s_files im = [d] /\ shows (entry 0x08 5 8388608 [65] []) d /\
     is_file (geom_of h) b 5 [6] /\ file_bytes (geom_of h) b 8388608 [6] = body 0 128 /\ sget_file im d = Ok b /\ b <> body 0 128).
Proof.
  set (h := mkH 0 768 128 0 0 125 6 0 0 0).
  assert (F : forall len, sector (geom_of h) (odd_disk len) 5 = map_sec 0 [6] -> is_file (geom_of h) (odd_disk len) 5 [6]).
  { intros len E. exists [5], (map_entries (map_sec 0 [6])). rewrite <- E. split; [|split].
    - apply map_end; [split; [cbn; lia|left; reflexivity]|rewrite E; vm_compute; reflexivity].
    - exists (zrepeat 0 60). rewrite E. split; [vm_compute; reflexivity|intros [H|[]]; discriminate H].
    - constructor; [|constructor]. split; [cbn; lia|left; reflexivity]. }
  split.
  - destruct (open_sparta (odd_disk 0)) as [im|] eqn:O; [|vm_compute in O; discriminate O].
    exists (odd_disk 0), h, im. vm_compute in O. injection O as <-. eexists. split; [vm_compute; reflexivity|]. split; [vm_compute; reflexivity|]. split; [reflexivity|].
    split. { constructor; try (vm_compute; intuition congruence). }
    split. { apply F. vm_compute. reflexivity. }
    split; [reflexivity|]. split; [vm_compute; reflexivity|discriminate].
  - destruct (open_sparta (odd_disk 8388608)) as [im|] eqn:O; [|vm_compute in O; discriminate O].
    exists (odd_disk 8388608), h, im. vm_compute in O. injection O as <-. eexists. split; [vm_compute; reflexivity|]. split; [vm_compute; reflexivity|]. split; [reflexivity|].
    split. { constructor; try (vm_compute; intuition congruence). }
    split. { apply F. vm_compute. reflexivity. }
    split.
    { unfold file_bytes. rewrite firstn_all2; [vm_compute; reflexivity|].
      assert (L : zlen (flat_map (sector (geom_of h) (odd_disk 8388608)) [6]) = 128) by (vm_compute; reflexivity). unfold zlen in L. lia. }
    split; [vm_compute; reflexivity|vm_compute; discriminate].
Qed.
Print Assumptions C41_length_refuted.

(** A map that names itself as its own continuation: opening never ends,
    whatever the number of steps (also part of C10). *)
Definition loop_disk : list Z := boot_rec 4 3 2 ++ pad [0; 0] ++ map_sec 3 [4] ++ pad demo_dir.
Theorem C10_sparta_refuted : exists b, bytes_ok b /\ zlen b = 512 /\ forall fuel, open_sparta_fuel fuel b = Err EFuel.
Proof.
  exists loop_disk. split; [apply bytes_okb; vm_compute; reflexivity|]. split; [vm_compute; reflexivity|]. intros fuel.
  set (h := mkH 0 512 128 0 0 125 4 0 0 0).
  assert (L : forall f acc, map_loop f h loop_disk 3 acc = Err EFuel).
  { induction f as [|f IH]; intros acc; [reflexivity|]. cbn [map_loop]. replace (3 <=? 0) with false by reflexivity.
    assert (E : get_sectors h loop_disk 3 3 = Ok (map_sec 3 [4])) by (vm_compute; reflexivity). rewrite E. cbn [rbind].
    replace (zlen (map_sec 3 [4]) <? 4) with false by reflexivity. replace (Z.odd (zlen (map_sec 3 [4]))) with false by reflexivity.
    replace (le2 (getb (map_sec 3 [4]) 0) (getb (map_sec 3 [4]) 1)) with 3 by reflexivity. apply IH. }
  unfold open_sparta_fuel. fold (hdr_of loop_disk). assert (Eh : hdr_of loop_disk = Ok h) by (vm_compute; reflexivity). rewrite Eh. cbn [rbind].
  assert (E0 : boot_sector_info loop_disk h = Ok (mkS loop_disk h 1 0x700 2 1 3 128 4 1 [] None)) by (vm_compute; reflexivity). rewrite E0. cbn [rbind].
  unfold sget_directory. cbn [s_hdr s_bytes s_root]. unfold sector_map. rewrite L. reflexivity.
Qed.
Print Assumptions C10_sparta_refuted.
(** Opening any image, and reading any entry of it, ends within a bound given by
    the size of the image or never. *)
Theorem C10_sparta_ends_or_never_does (b : list Z) : bytes_ok b ->
  ((open_sparta b <> Err EFuel /\ forall fuel, (sfuel b <= fuel)%nat -> open_sparta_fuel fuel b = open_sparta b) \/
   (forall fuel, open_sparta_fuel fuel b = Err EFuel)) /\
  forall h d, hdr_of b = Ok h ->
    (sget_bytes (sfuel b) h b d <> Err EFuel /\
     forall fuel, (sfuel b <= fuel)%nat -> sget_bytes fuel h b d = sget_bytes (sfuel b) h b d) \/
    (forall fuel, sget_bytes fuel h b d = Err EFuel).
Proof.
  intros Hb. split; [apply open_dichotomy; exact Hb|]. intros h d Hh. apply sget_bytes_dichotomy; assumption.
Qed.
Print Assumptions C10_sparta_ends_or_never_does.
Example C10_sparta_demo : bytes_ok demo /\ is_ok (open_sparta demo) = true.
Proof. split; [apply bytes_okb; vm_compute; reflexivity|vm_compute; reflexivity]. Qed.

(* ------------------------------------------------------------------ *)
(** * C66: the directory *)

Definition se_liveb (e : list Z) : bool := (getb e 0 / 8) mod 2 =? 1.
Lemma forall2_nth {A B} (R : A -> B -> Prop) : forall (l : list A) (r : list B), length l = length r ->
  (forall i x y, nth_error l i = Some x -> nth_error r i = Some y -> R x y) -> Forall2 R l r.
Proof.
  induction l as [|x l IH]; intros [|y r] L H; try discriminate L; constructor.
  - apply (H O); reflexivity.
  - apply IH; [injection L as L; exact L|]. intros i. apply (H (S i)).
Qed.
Lemma forall2_filter {A B} (R : A -> B -> Prop) f g : (forall x y, R x y -> f x = g y) -> forall l r, Forall2 R l r -> Forall2 R (filter f l) (filter g r).
Proof.
  intros E l r. induction 1 as [|x y l r Rxy _ IH]; cbn [filter]; [constructor|]. rewrite (E x y Rxy). destruct (g y); [constructor; assumption|exact IH].
Qed.

Lemma nth_error_zseq n : forall a i, (i < n)%nat -> nth_error (zseq_nat a n) i = Some (a + Z.of_nat i).
Proof.
  induction n as [|n IH]; intros a i Hi; [lia|]. destruct i; cbn [zseq_nat nth_error]; [f_equal; lia|]. rewrite IH by lia. f_equal. lia.
Qed.
Lemma nth_error_zrange k i : (i < Z.to_nat k)%nat -> nth_error (zrange 1 (k + 1)) i = Some (1 + Z.of_nat i).
Proof. intros H. unfold zrange. apply nth_error_zseq. lia. Qed.

(** The entries of the root directory, in order, are what the image lists; the
    printed directory has exactly the ones in use; the totals are those of the
    boot record. *)
Theorem C66_directory (b : list Z) (h : hdr) (dir : list Z) (k : Z) :
  hdr_of b = Ok h -> sparta_disk (geom_of h) b dir k ->
  exists im, open_sparta b = Ok im /\ s_bytes im = b /\
    Forall2 shows (map (s_entry dir) (zrange 1 (k + 1))) (s_files im) /\
    Forall2 shows (filter se_liveb (map (s_entry dir) (zrange 1 (k + 1)))) (slisted im) /\
    s_total im = boot_word (geom_of h) b 11 /\ s_free im = boot_word (geom_of h) b 13.
Proof.
  intros Hh Hd. destruct (open_disk b h dir k Hh Hd) as (im & O & I1 & I2 & I3 & I5 & I6 & _ & _ & _ & _ & _ & I4).
  exists im. split; [exact O|]. split; [exact I1|].
  assert (F : Forall2 shows (map (s_entry dir) (zrange 1 (k + 1))) (s_files im)).
  { pose proof (sk_k _ _ _ _ Hd). assert (Lz : length (zrange 1 (k + 1)) = Z.to_nat k).
    { unfold zrange. rewrite length_zseq_nat. lia. }
    apply forall2_nth; [rewrite map_length, Lz, I3; reflexivity|].
    intros i x y Nx Ny. assert (Hi : (i < Z.to_nat k)%nat) by (rewrite <- Lz, <- (map_length (s_entry dir)); apply nth_error_Some; congruence).
    assert (G : nth_error (zrange 1 (k + 1)) i = Some (1 + Z.of_nat i)).
    { apply nth_error_zrange. lia. }
    rewrite nth_error_map, G in Nx. injection Nx as <-.
    destruct (I4 (1 + Z.of_nat i) ltac:(lia)) as (d & N & Sh & _). replace (Z.to_nat (1 + Z.of_nat i - 1)) with i in N by lia. rewrite Ny in N. injection N as <-. exact Sh. }
  split; [exact F|]. split; [|split; [rewrite I5; symmetry; exact (sk_total _ _ _ _ Hd)|exact I6]].
  unfold slisted. apply forall2_filter; [|exact F]. intros x y S. pose proof (sh_live _ _ S) as Q. unfold se_liveb. unfold se_live, se_bit in Q.
  destruct (sd_inuse y), (Z.eqb_spec ((getb x 0 / 8) mod 2) 1); try reflexivity; intuition congruence.
Qed.
Print Assumptions C66_directory.
Example C66_demo : match open_sparta demo with Ok im => map sfilename (slisted im) = [[65; 46; 84; 88; 84]] | Err _ => False end.
Proof. vm_compute. reflexivity. Qed.

(** Finding a file by name may give a deleted entry with the same name instead. *)
Definition twice_disk : list Z :=
  boot_rec 8 3 2 ++ pad [0; 0] ++ map_sec 0 [4] ++
  pad (entry 0x28 0 69 [77] [] ++ entry 0x10 5 128 [65] [] ++ entry 0x08 7 128 [65] []) ++
  map_sec 0 [6] ++ body 0 128 ++ map_sec 0 [8] ++ body 100 128.
Theorem C66_deleted_shadows_refuted : exists b im d data,
  open_sparta b = Ok im /\ slisted im = [d] /\ sfilename d = [65] /\ sget_file im d = Ok data /\
  exists other, sfind_file im [65] = Ok other /\ other <> data.
Proof.
  destruct (open_sparta twice_disk) as [im|] eqn:O; [|vm_compute in O; discriminate O].
  exists twice_disk, im. vm_compute in O. injection O as <-. eexists. exists (body 100 128).
  split; [vm_compute; reflexivity|]. split; [vm_compute; reflexivity|]. split; [vm_compute; reflexivity|]. split; [vm_compute; reflexivity|].
  exists (body 0 128). split; [vm_compute; reflexivity|vm_compute; discriminate].
Qed.
Print Assumptions C66_deleted_shadows_refuted.

(* ------------------------------------------------------------------ *)
(** * C67: changing a SpartaDOS image *)

(** Adding and deleting are refused (TypeError) and change no byte; the image
    object is as freshly opened. *)
Theorem C67_add_delete_refused (b : list Z) (h : hdr) (dir : list Z) (k : Z) (im : simg) (name data : list Z) :
  hdr_of b = Ok h -> sparta_disk (geom_of h) b dir k -> open_sparta b = Ok im ->
  swrite_file im name data = (im, EType) /\ sdelete_file im name = (im, EType).
Proof.
  intros Hh Hd O. destruct (open_disk b h dir k Hh Hd) as (im' & O' & I1 & I2 & _). rewrite O in O'. injection O' as <-.
  unfold swrite_file, sdelete_file, sfinally. assert (M : smetadata (s_bytes im) im = Ok im).
  { unfold smetadata. rewrite I1, I2. unfold open_sparta, open_sparta_fuel in O. fold (hdr_of b) in O. rewrite Hh in O. exact O. }
  rewrite M. auto.
Qed.
Print Assumptions C67_add_delete_refused.
(** For any opened image: the bytes stay. *)
Theorem C67_bytes_stay (im : simg) (name data : list Z) :
  s_bytes (fst (swrite_file im name data)) = s_bytes im /\ s_bytes (fst (sdelete_file im name)) = s_bytes im.
Proof.
  assert (Q : forall e, s_bytes (fst (sfinally (s_bytes im) im e)) = s_bytes im).
  { intros e. unfold sfinally. destruct (smetadata (s_bytes im) im) as [im'|] eqn:M; [|reflexivity]. cbn [fst].
    unfold smetadata in M. destruct (boot_sector_info (s_bytes im) (s_hdr im)) as [im0|] eqn:E0; [|discriminate M]. cbn [rbind] in M.
    assert (R : s_bytes im0 = s_bytes im).
    { unfold boot_sector_info in E0. destruct (get_sectors (s_hdr im) (s_bytes im) 1 1); [|discriminate E0]. cbn [rbind] in E0.
      destruct (zlen (slice a 0 33) =? 0); [discriminate E0|]. destruct (negb _); [discriminate E0|].
      match type of E0 with (if ?c then _ else _) = _ => destruct c; [|discriminate E0] end. injection E0 as <-. reflexivity. }
    unfold sget_directory in M.
    destruct (sector_map _ _ _ _) as [[[|s m]|]|]; try discriminate M. cbn [rbind] in M.
    destruct (s =? 0); [injection M as <-; exact R|].
    destruct (get_raw_bytes _ _ _) as [[[r p] z]|]; [|discriminate M]. cbn [rbind] in M.
    destruct (parse_sdirent _ _ _); [|discriminate M]. cbn [rbind] in M. destruct (sget_bytes _ _ _ _); [|discriminate M]. cbn [rbind] in M.
    destruct (sentries _ _ _ _ _); [|discriminate M]. cbn [rbind] in M. injection M as <-. exact R. }
  split; apply Q.
Qed.
Print Assumptions C67_bytes_stay.
Example C67_demo : match open_sparta demo with Ok im => snd (swrite_file im [65] [1; 2]) = EType | Err _ => False end.
Proof. vm_compute. reflexivity. Qed.

(** Shredding reads the bitmap as if it were an Atari DOS VTOC, ten bytes too
    late: sector 6, in use by a listed file, is wiped because sector 86 is
    free. *)
Definition shred_disk : list Z :=
  boot_rec 90 3 2 ++ pad (zrepeat 0 10 ++ [2]) ++ map_sec 0 [4] ++ pad (entry 0x28 0 46 [77] [] ++ entry 0x08 5 128 [65] []) ++
  map_sec 0 [6] ++ body 1 128 ++ zrepeat 0 (84 * 128).
Theorem C67_shred_refuted : exists b h im im',
  hdr_of b = Ok h /\ open_sparta b = Ok im /\ sshred im 0 = (im', None) /\
  is_file (geom_of h) b 5 [6] /\ map sd_start (slisted im) = [5] /\ map sfilename (slisted im) = [[65]] /\
  s_free_bit (geom_of h) b 6 = 0 /\ s_free_bit (geom_of h) b 86 = 1 /\
  sfind_file im [65] = Ok (body 1 128) /\ sfind_file im' [65] = Ok (zrepeat 0 128).
Proof.
  set (h := mkH 0 11520 128 0 0 125 90 0 0 0).
  destruct (open_sparta shred_disk) as [im|] eqn:O; [|vm_compute in O; discriminate O].
  exists shred_disk, h, im, (fst (sshred im 0)).
  assert (C : match open_sparta shred_disk with
     | Ok im => match snd (sshred im 0) with None => true | Some _ => false end && zlist_eqb (map sd_start (slisted im)) [5] &&
        match map sfilename (slisted im) with [n] => zlist_eqb n [65] | _ => false end &&
        match sfind_file im [65] with Ok d => zlist_eqb d (body 1 128) | _ => false end &&
        match sfind_file (fst (sshred im 0)) [65] with Ok d => zlist_eqb d (zrepeat 0 128) | _ => false end
     | Err _ => false end = true) by (vm_compute; reflexivity).
  rewrite O in C. rewrite !andb_true_iff in C. destruct C as [[[[C1 C2] C3] C4] C5].
  split; [vm_compute; reflexivity|]. split; [exact O|].
  split. { destruct (sshred im 0) as [x [e|]]; [discriminate C1|reflexivity]. }
  split. { exists [5], (map_entries (sector (geom_of h) shred_disk 5)). split; [apply map_end; [split; [cbn; lia|left; reflexivity]|vm_compute; reflexivity]|].
    split; [exists (zrepeat 0 60); split; [vm_compute; reflexivity|intros [H|[]]; discriminate H]|]. constructor; [|constructor]. split; [cbn; lia|left; reflexivity]. }
  split. { apply zlist_eqb_eq. exact C2. }
  split. { destruct (map sfilename (slisted im)) as [|x [|y r]]; try discriminate C3. apply zlist_eqb_eq in C3. rewrite C3. reflexivity. }
  split; [vm_compute; reflexivity|]. split; [vm_compute; reflexivity|].
  split.
  - destruct (sfind_file im [65]); [|discriminate C4]. apply zlist_eqb_eq in C4. rewrite C4. reflexivity.
  - destruct (sfind_file (fst (sshred im 0)) [65]); [|discriminate C5]. apply zlist_eqb_eq in C5. rewrite C5. reflexivity.
Qed.
Print Assumptions C67_shred_refuted.
