(** Concrete consistent DOS 3.3 disks. *)
From Verif Require Import Base BaseLemmas DiskModel DirLemmas AtariVtoc AtariSectors Dos33Model Dos33Spec Dos33Geom Dos33Vtoc Dos33Dir Dos33Files Dos33Update Dos33Alloc Dos33Write Dos33Delete Dos33Shred Dos33Ops.

(** * Disks given sector by sector *)
Definition disk_of (F : Z -> list Z) : list Z := flat_map F (zrange 0 560).
Definition sec256 (l : list Z) : list Z := l ++ zrepeat 0 (256 - zlen l).

Lemma slice_blocks (F : Z -> list Z) n : (forall i, zlen (F i) = 256) -> forall m a, 0 <= n < Z.of_nat m ->
  slice (flat_map F (zseq_nat a m) : list Z) (256 * n) (256 * n + 256) = F (a + n).
Proof.
  intros HF. revert n. assert (G : forall m n a, 0 <= n < Z.of_nat m ->
    slice (flat_map F (zseq_nat a m)) (256 * n) (256 * n + 256) = F (a + n)).
  { induction m as [|m IH]; intros n a Hn; [lia|]. cbn [zseq_nat flat_map].
    destruct (Z.eq_dec n 0) as [->|Hne].
    - rewrite slice_app_l by (rewrite ?HF; lia). rewrite Z.add_0_r. apply slice_all. rewrite HF. lia.
    - rewrite slice_app_r by (rewrite ?HF; lia). rewrite HF.
      replace (256 * n - 256) with (256 * (n - 1)) by lia.
      replace (256 * n + 256 - 256) with (256 * (n - 1) + 256) by lia.
      rewrite IH by lia. f_equal. lia. }
  intros; apply G; assumption.
Qed.
Lemma sec_disk_of F n : (forall i, zlen (F i) = 256) -> 0 <= n < 560 -> sec (disk_of F) n = F n.
Proof.
  intros HF Hn. unfold sec, disk_of, zrange. replace (Z.to_nat (560 - 0)) with 560%nat by reflexivity.
  rewrite slice_blocks by (assumption || lia). f_equal.
Qed.
Lemma zlen_disk_of F : (forall i, zlen (F i) = 256) -> zlen (disk_of F) = 143360.
Proof.
  intros HF. unfold disk_of, zrange. replace (Z.to_nat (560 - 0)) with 560%nat by reflexivity.
  assert (G : forall m a, zlen (flat_map F (zseq_nat a m)) = 256 * Z.of_nat m).
  { induction m as [|m IH]; intros a; [reflexivity|]. cbn [zseq_nat flat_map]. rewrite zlen_app, IH, HF. lia. }
  rewrite G. reflexivity.
Qed.
Lemma bytes_ok_disk_of F : (forall i, bytes_ok (F i)) -> bytes_ok (disk_of F).
Proof.
  intros HF. unfold disk_of. generalize (zrange 0 560). induction l as [|x l IH]; [constructor|].
  cbn [flat_map]. apply bytes_ok_app. split; [apply HF|assumption].
Qed.

(** * The demonstration disks *)
(** VTOC as formatted by DOS 3.3; sectors 48 and 49 are used. *)
Definition demo_vtoc : list Z :=
  [4; 17; 15; 3; 0; 0; 1] ++ zrepeat 0 32 ++ [122] ++ zrepeat 0 8 ++ [11; 255; 0; 0; 35; 16; 0; 1] ++
  flat_map (fun t => (if (t <? 3) || (t =? 17) then [0; 0] else if t =? 3 then [255; 252] else [255; 255]) ++ [0; 0])
    (zrange 0 35) ++ zrepeat 0 60.
Definition demo_cat : list Z := [287; 286; 285; 284; 283; 282; 281; 280; 279; 278; 277; 276; 275; 274; 273].
Definition demo_name (s : list Z) : list Z := map (fun c => c + 128) s ++ zrepeat 160 (30 - zlen s).
Definition HELLO : list Z := [72; 69; 76; 76; 79].
Definition OLD : list Z := [79; 76; 68].
Definition GONE : list Z := [71; 79; 78; 69].
(** HELLO: a locked binary file, list in sector 48, data in sector 49. *)
Definition hello_entry : list Z := [3; 0; 132] ++ demo_name HELLO ++ [2; 0].
(** OLD: deleted; its list was in sector 48 too. *)
Definition old_entry : list Z := upd ([255; 0; 4] ++ demo_name OLD ++ [2; 0]) 32 3.
(** GONE: deleted; its list is still in sector 50, which is free. *)
Definition gone_entry : list Z := upd ([255; 2; 4] ++ demo_name GONE ++ [2; 0]) 32 3.
(** A catalog sector: link to the next one, and entries. *)
Definition demo_catsec (next : Z) (es : list (list Z)) : list Z :=
  sec256 ([0; next / 16; next mod 16] ++ zrepeat 0 8 ++ concat es).
Definition demo_sec (next : Z) (es : list (list Z)) (n : Z) : list Z :=
  if n =? 272 then demo_vtoc
  else if n =? 287 then demo_catsec next es
  else if n =? 273 then demo_catsec 0 []
  else if (274 <=? n) && (n <=? 286) then demo_catsec (n - 1) []
  else if n =? 48 then sec256 (zrepeat 0 12 ++ [3; 1])
  else if n =? 49 then sec256 [4; 0; 2; 0; 169; 1]
  else if n =? 50 then sec256 (zrepeat 0 12 ++ [3; 3])
  else zrepeat 0 256.
Definition demo_full : list Z := disk_of (demo_sec 286 [hello_entry; old_entry; gone_entry]).
Definition demo_one : list Z := disk_of (demo_sec 286 [hello_entry]).
(** Only one catalog sector. *)
Definition demo_tiny : list Z := disk_of (demo_sec 0 []).

Definition demo_vbit (n : Z) : Z :=
  ((256 * getb demo_vtoc (56 + 4 * (n / 16)) + getb demo_vtoc (57 + 4 * (n / 16))) / 2 ^ (n mod 16)) mod 2.

Definition demo_used (e : list Z) : bool := (getb e 0 =? 255) || negb (getb e 2 =? 0).
Lemma demo_used_spec e : demo_used e = true <-> x_used e.
Proof. unfold demo_used, x_used, x_dead, x_live. lia. Qed.

Section Demo.
  Variables (next : Z) (es : list (list Z)).
  Hypothesis Hlen : zlen (demo_catsec next es) = 256.
  Hypothesis Hok : bytes_ok (demo_catsec next es).
  Let b := disk_of (demo_sec next es).

  Lemma demo_sec_len i : zlen (demo_sec next es i) = 256.
  Proof.
    unfold demo_sec. destruct (i =? 272); [reflexivity|]. destruct (i =? 287); [assumption|].
    destruct (i =? 273); [reflexivity|]. destruct ((274 <=? i) && (i <=? 286)).
    { unfold demo_catsec, sec256. cbn [concat]. rewrite app_nil_r.
      assert (E : zlen ([0; (i - 1) / 16; (i - 1) mod 16] ++ zrepeat 0 8) = 11) by reflexivity.
      rewrite zlen_app, E, zlen_zrepeat by lia. reflexivity. }
    destruct (i =? 48); [reflexivity|]. destruct (i =? 49); [reflexivity|]. destruct (i =? 50); [reflexivity|].
    reflexivity.
  Qed.
  Lemma demo_sec_ok i : bytes_ok (demo_sec next es i).
  Proof.
    assert (G : forall l, forallb (fun x => (0 <=? x) && (x <? 256)) l = true -> bytes_ok l).
    { intros l H. apply Forall_forall. intros x Hx. rewrite forallb_forall in H. specialize (H x Hx). unfold is_byte. lia. }
    unfold demo_sec. destruct (i =? 272); [apply G; vm_compute; reflexivity|]. destruct (i =? 287); [assumption|].
    destruct (i =? 273); [apply G; vm_compute; reflexivity|]. destruct ((274 <=? i) && (i <=? 286)) eqn:E.
    { unfold demo_catsec, sec256. cbn [concat]. rewrite app_nil_r. apply bytes_ok_app. split.
      - apply bytes_ok_app. split; [|apply bytes_ok_zrepeat; unfold is_byte; lia].
        repeat constructor; unfold is_byte; try lia; Z.to_euclidean_division_equations; lia.
      - apply bytes_ok_zrepeat. unfold is_byte. lia. }
    destruct (i =? 48); [apply G; vm_compute; reflexivity|]. destruct (i =? 49); [apply G; vm_compute; reflexivity|].
    destruct (i =? 50); [apply G; vm_compute; reflexivity|]. apply G; vm_compute; reflexivity.
  Qed.
  Lemma demo_sec_at n : 0 <= n < 560 -> sec b n = demo_sec next es n.
  Proof. apply sec_disk_of, demo_sec_len. Qed.
  Lemma demo_len : zlen b = 143360.
  Proof. apply zlen_disk_of, demo_sec_len. Qed.
  Lemma demo_ok : bytes_ok b.
  Proof. apply bytes_ok_disk_of, demo_sec_ok. Qed.
  Lemma demo_vtoc_at : vtoc b = demo_vtoc.
  Proof. unfold vtoc. rewrite demo_sec_at by lia. reflexivity. Qed.
  Lemma demo_bit n : free_bit3 b n = demo_vbit n.
  Proof. unfold free_bit3. rewrite demo_vtoc_at. reflexivity. Qed.

  Lemma demo_file : file_at b hello_entry [48] [49].
  Proof.
    assert (S48 : sec b 48 = sec256 (zrepeat 0 12 ++ [3; 1])) by (rewrite demo_sec_at by lia; reflexivity).
    split; [|split; [reflexivity|]].
    - change (x_start hello_entry) with 48. constructor; [lia|intros []|]. rewrite S48. constructor.
    - cbn [flat_map]. rewrite S48, app_nil_r. exists (zrepeat 0 121). vm_compute. reflexivity.
  Qed.

  Definition demo_ok_cat (cat : list Z) (n : Z) : bool :=
    (16 <=? n) && (n <? 560) && negb (n =? 272) && negb (existsb (Z.eqb n) cat).
  Variables (cat : list Z) (k : Z).
  Let C := flat_map (fun n => slice (demo_sec next es n) 11 256) cat.
  Hypothesis Hlinks : links b 287 cat.
  Hypothesis Hk : 0 <= k <= 7 * (zlen cat - 1).
  Hypothesis Hfree : forallb (fun n => negb (demo_vbit n =? 1) || demo_ok_cat cat n) (zrange 0 800) = true.
  Hypothesis Hcat272 : existsb (Z.eqb 272) cat = false.
  Hypothesis Hcat48 : existsb (Z.eqb 48) cat = false.
  Hypothesis Hcat49 : existsb (Z.eqb 49) cat = false.
  Let s3 i := slice C (35 * i) (35 * i + 35).
  Hypothesis Hused : forallb (fun i => demo_used (s3 i) && zlist_eqb (rstrip (x_name (s3 i))) (x_name (s3 i))
      && (if i =? 0 then zlist_eqb (s3 0) hello_entry else (getb (s3 i) 0 =? 255))) (zrange 0 k) = true.
  Hypothesis Hunused : forallb (fun i => negb (demo_used (s3 i))) (zrange k (7 * zlen cat)) = true.

  Lemma demo_slot i : slot3 b cat i = s3 i.
  Proof.
    unfold slot3, s3, catalog, C. f_equal. apply flat_map_ext_in. intros n Hn.
    rewrite demo_sec_at; [reflexivity|]. pose proof (links_in _ _ _ Hlinks) as R. rewrite Forall_forall in R.
    specialize (R n Hn). lia.
  Qed.
  Lemma demo_in_cat n : existsb (Z.eqb n) cat = false -> ~ In n cat.
  Proof.
    intros E H. assert (X : existsb (Z.eqb n) cat = true) by (apply existsb_exists; exists n; split; [assumption|apply Z.eqb_refl]).
    congruence.
  Qed.
  Lemma demo_slots i : 0 <= i < k -> x_used (slot3 b cat i) /\
    rstrip (x_name (slot3 b cat i)) = x_name (slot3 b cat i) /\
    (i = 0 -> slot3 b cat 0 = hello_entry) /\ (x_live (slot3 b cat i) -> i = 0).
  Proof.
    intros Hi. pose proof Hused as HU. rewrite forallb_forall in HU. specialize (HU i ltac:(apply In_zrange; lia)).
    apply andb_prop in HU. destruct HU as [H12 H3]. apply andb_prop in H12. destruct H12 as [H1 H2].
    rewrite !demo_slot. split; [apply demo_used_spec; assumption|]. split; [apply zlist_eqb_eq; assumption|].
    destruct (Z.eqb_spec i 0) as [->|Hne]; [split; [intros _; apply zlist_eqb_eq; assumption|reflexivity]|].
    split; [intros; contradiction|]. intros [L _]. lia.
  Qed.
  Lemma demo_disk : dos33_disk b cat k.
  Proof.
    constructor.
    - apply demo_ok.
    - apply demo_len.
    - replace (slice b 0 4) with (slice (sec b 0) 0 4).
      + rewrite demo_sec_at by lia. intros E. discriminate E.
      + unfold sec. rewrite slice_slice by lia. reflexivity.
    - rewrite demo_vtoc_at. intros _. vm_compute. split; reflexivity.
    - rewrite demo_vtoc_at. reflexivity.
    - rewrite demo_vtoc_at. reflexivity.
    - rewrite demo_vtoc_at. exact Hlinks.
    - apply demo_in_cat. assumption.
    - intros n Hn E. rewrite demo_bit in E. pose proof Hfree as HF. rewrite forallb_forall in HF.
      specialize (HF n ltac:(apply In_zrange; lia)). rewrite E in HF. cbn [Z.eqb Pos.eqb negb orb] in HF.
      unfold demo_ok_cat in HF. apply andb_prop in HF. destruct HF as [H1 H2].
      split; [lia|]. split; [lia|]. apply demo_in_cat. apply negb_true_iff. assumption.
    - assumption.
    - intros i Hi. destruct (demo_slots i Hi) as (A & B & _). split; assumption.
    - intros i Hi U. pose proof Hunused as HN. rewrite forallb_forall in HN. specialize (HN i ltac:(apply In_zrange; lia)).
      rewrite demo_slot in U. apply demo_used_spec in U. rewrite U in HN. discriminate.
    - intros i j Hij Hj L. apply demo_slots in L; lia.
    - intros i Hi L. destruct (demo_slots i Hi) as (_ & _ & H0 & HL). specialize (HL L). subst i. rewrite H0 by reflexivity.
      split; [discriminate|]. split; [discriminate|]. exists [48], [49]. split; [apply demo_file|].
      split; [discriminate|]. split; [repeat constructor; cbn; lia|].
      intros n [<-|[<-|[]]]; (split; [|rewrite demo_bit; vm_compute; reflexivity]);
        (split; [lia|]; split; [lia|]; apply demo_in_cat; assumption).
    - intros i j tl dl tl' dl' n Hi Li _ _ Hj Lj _ _. apply demo_slots in Li; [|assumption]. apply demo_slots in Lj; [|assumption].
      congruence.
  Qed.
End Demo.

Ltac demo_links := repeat (constructor; [lia|cbn; lia|rewrite demo_sec_at by (assumption || lia);
  match goal with |- links _ ?x _ => let v := eval vm_compute in x in change x with v end]); constructor.

Lemma bytes_ok_b l : forallb (fun x => (0 <=? x) && (x <? 256)) l = true -> bytes_ok l.
Proof.
  intros H. apply Forall_forall. intros x Hx. rewrite forallb_forall in H. specialize (H x Hx). unfold is_byte. lia.
Qed.

Lemma demo_full_disk : dos33_disk demo_full demo_cat 3.
Proof.
  assert (L : zlen (demo_catsec 286 [hello_entry; old_entry; gone_entry]) = 256) by (vm_compute; reflexivity).
  apply demo_disk.
  - exact L.
  - apply bytes_ok_b. vm_compute. reflexivity.
  - unfold demo_cat. demo_links.
  - vm_compute. split; discriminate.
  - vm_compute. reflexivity.
  - vm_compute. reflexivity.
  - vm_compute. reflexivity.
  - vm_compute. reflexivity.
  - vm_compute. reflexivity.
  - vm_compute. reflexivity.
Qed.
Lemma demo_one_disk : dos33_disk demo_one demo_cat 1.
Proof.
  assert (L : zlen (demo_catsec 286 [hello_entry]) = 256) by (vm_compute; reflexivity).
  apply demo_disk.
  - exact L.
  - apply bytes_ok_b. vm_compute. reflexivity.
  - unfold demo_cat. demo_links.
  - vm_compute. split; discriminate.
  - vm_compute. reflexivity.
  - vm_compute. reflexivity.
  - vm_compute. reflexivity.
  - vm_compute. reflexivity.
  - vm_compute. reflexivity.
  - vm_compute. reflexivity.
Qed.
Lemma demo_tiny_disk : dos33_disk demo_tiny [287] 0.
Proof.
  assert (L : zlen (demo_catsec 0 []) = 256) by (vm_compute; reflexivity).
  apply demo_disk.
  - exact L.
  - apply bytes_ok_b. vm_compute. reflexivity.
  - demo_links.
  - vm_compute. split; discriminate.
  - vm_compute. reflexivity.
  - vm_compute. reflexivity.
  - vm_compute. reflexivity.
  - vm_compute. reflexivity.
  - vm_compute. reflexivity.
  - vm_compute. reflexivity.
Qed.

(** Opening only looks at the boot sector, the VTOC and the catalog. *)
Lemma open33_ext b b' cat k : dos33_disk b cat k -> zlen b' = 143360 ->
  sec b' 0 = sec b 0 -> sec b' 272 = sec b 272 -> (forall n, In n cat -> sec b' n = sec b n) ->
  open33 b' = Ok (mkI b' (H3 (fdir3 b)) (files3 b cat k) true).
Proof.
  intros D Hb' S0 S2 Sc. pose proof (k3_size _ _ _ D) as Hb. set (f := fdir3 b).
  assert (L' : links b' f cat).
  { apply (links_ext b); [intros m Hm; rewrite Sc by assumption; reflexivity|apply (k3_cat _ _ _ D)]. }
  assert (EG : get_directory3 (mkI b' (H3 f) [] true) = (mkI b' (H3 f) (files3 b cat k) true, Ok (entries3 f b cat k))).
  { pose proof (get_directory3_view b cat k D []) as G0. fold f in G0. revert G0. unfold get_directory3, get_directory_fuel. cbn [i_hdr i_bytes i_sane i_files].
    change (h_fdir (H3 f)) with f.
    rewrite !(cat_loop_spec f) with (cat := cat); try assumption; try (apply (k3_cat _ _ _ D));
      try (rewrite fuel33_H3; pose proof (links_len _ _ _ L'); lia).
    rewrite (flat_map_ext_in (fun m => sector_ents (H3 f) (sec b' m) 0x0b 7) (fun m => sector_ents (H3 f) (sec b m) 0x0b 7) cat)
      by (intros m Hm; rewrite Sc by assumption; reflexivity).
    generalize (flat_map (fun m => sector_ents (H3 f) (sec b m) 0x0b 7) cat). intros l.
    unfold view3. fold f. generalize (entries3 f b cat k) (files3 b cat k). intros es fs.
    intros G0. injection G0. intros. subst. cbn [andb]. f_equal. f_equal. assumption. }
  unfold open33. rewrite Hb'. cbn [Z.eqb Pos.eqb negb].
  unfold get_metadata3, boot_info, get_vtoc3. cbn [i_hdr i_bytes i_files i_sane].
  rewrite !get_raw3_560 by (reflexivity || lia). cbn [rbind]. rewrite S0, S2.
  replace (slice (sec b 0) 0 4) with (slice b 0 4) by (unfold sec; rewrite slice_slice by lia; reflexivity).
  destruct (zlist_eqb (slice b 0 4) [1; 56; 176; 3]) eqn:Eb.
  { apply zlist_eqb_eq in Eb. destruct (k3_boot _ _ _ D Eb). }
  change (sec b 272) with (vtoc b).
  match goal with |- (match (match ?x with Ok _ => _ | Err _ => _ end) with _ => _ end) = _ => assert (Ex : x = Ok tt) end.
  { destruct (Z.eqb_spec (getb (vtoc b) 3) 3) as [E3|]; [|reflexivity].
    destruct (k3_release _ _ _ D E3). replace (_ && _) with true by lia. reflexivity. }
  rewrite Ex. change 0x34 with 52. change 0x35 with 53. change 0x27 with 39.
  rewrite (k3_geom _ _ _ D), (k3_pairs _ _ _ D).
  replace (from_ts (getb (vtoc b) 1) (getb (vtoc b) 2)) with f by (unfold f, fdir3, lnk, from_ts; lia).
  fold (H3 f). change (h_fdir (H3 f)) with f.
  rewrite assert_valid3_in.
  2: { pose proof (links_start _ _ _ L') as Hs. pose proof (links_in _ _ _ L') as Hin.
       destruct cat as [|c ?]; [lia|]. inversion Hin; subst. lia. }
  rewrite EG. reflexivity.
Qed.

(** * Facts about the demonstration disks *)
Lemma demo_free_count next es : zlen (demo_catsec next es) = 256 -> free_count3 (disk_of (demo_sec next es)) = 494.
Proof.
  intros L. unfold free_count3. rewrite (map_ext _ demo_vbit) by (intros n; apply demo_bit; assumption).
  vm_compute. reflexivity.
Qed.
Lemma full_len : zlen (demo_catsec 286 [hello_entry; old_entry; gone_entry]) = 256.
Proof. vm_compute. reflexivity. Qed.
Lemma one_len : zlen (demo_catsec 286 [hello_entry]) = 256.
Proof. vm_compute. reflexivity. Qed.
Lemma tiny_len : zlen (demo_catsec 0 []) = 256.
Proof. vm_compute. reflexivity. Qed.
Lemma slot_in next es b cat i : zlen (demo_catsec next es) = 256 -> b = disk_of (demo_sec next es) ->
  Forall (fun n => 0 <= n < 560) cat ->
  slot3 b cat i = slice (flat_map (fun n => slice (demo_sec next es n) 11 256) cat : list Z) (35 * i) (35 * i + 35).
Proof.
  intros L -> F. unfold slot3, catalog. f_equal. apply flat_map_ext_in. intros n Hn. rewrite Forall_forall in F.
  rewrite demo_sec_at; [reflexivity|assumption|]. apply F. assumption.
Qed.
Lemma demo_cat_range : Forall (fun n => 0 <= n < 560) demo_cat.
Proof. unfold demo_cat. repeat constructor; lia. Qed.
Ltac slot_eq L := rewrite (slot_in _ _ _ demo_cat _ L eq_refl demo_cat_range); vm_compute; reflexivity.
Lemma one_slot0 : slot3 demo_one demo_cat 0 = hello_entry.
Proof. slot_eq one_len. Qed.
Lemma full_slot0 : slot3 demo_full demo_cat 0 = hello_entry.
Proof. slot_eq full_len. Qed.
Lemma full_slot1 : slot3 demo_full demo_cat 1 = old_entry.
Proof. slot_eq full_len. Qed.
Lemma full_slot2 : slot3 demo_full demo_cat 2 = gone_entry.
Proof. slot_eq full_len. Qed.

Definition one_im : img33 := view3 demo_one demo_cat 1.
Definition full_im : img33 := view3 demo_full demo_cat 3.
Definition tiny_im : img33 := view3 demo_tiny [287] 0.
Lemma one_consistent : consistent3 one_im.
Proof. apply view3_consistent, demo_one_disk. Qed.
Lemma full_consistent : consistent3 full_im.
Proof. apply view3_consistent, demo_full_disk. Qed.
Lemma tiny_consistent : consistent3 tiny_im.
Proof. apply view3_consistent, demo_tiny_disk. Qed.
Lemma one_bytes : i_bytes one_im = demo_one.
Proof. reflexivity. Qed.
Lemma full_bytes : i_bytes full_im = demo_full.
Proof. reflexivity. Qed.
Lemma tiny_bytes : i_bytes tiny_im = demo_tiny.
Proof. reflexivity. Qed.
Lemma one_free : free_sectors3 one_im = 494.
Proof. unfold free_sectors3. rewrite one_bytes. apply demo_free_count, one_len. Qed.
Lemma full_free : free_sectors3 full_im = 494.
Proof. unfold free_sectors3. rewrite full_bytes. apply demo_free_count, full_len. Qed.
Lemma tiny_free : free_sectors3 tiny_im = 494.
Proof. unfold free_sectors3. rewrite tiny_bytes. apply demo_free_count, tiny_len. Qed.
Lemma one_listing : listing3 one_im = [HELLO].
Proof.
  unfold one_im. rewrite (listing3_view _ _ _ demo_one_disk). unfold live_slots3.
  change (zrange 0 1) with [0]. cbn [filter]. rewrite one_slot0.
  change (live_b hello_entry) with true. cbn [map]. rewrite one_slot0. vm_compute. reflexivity.
Qed.
Lemma full_listing : listing3 full_im = [HELLO].
Proof.
  unfold full_im. rewrite (listing3_view _ _ _ demo_full_disk). unfold live_slots3.
  change (zrange 0 3) with [0; 1; 2]. cbn [filter]. rewrite full_slot0, full_slot1, full_slot2.
  change (live_b hello_entry) with true. change (live_b old_entry) with false. change (live_b gone_entry) with false.
  cbn [map]. rewrite full_slot0. vm_compute. reflexivity.
Qed.
Lemma tiny_listing : listing3 tiny_im = [].
Proof. unfold tiny_im. rewrite (listing3_view _ _ _ demo_tiny_disk). reflexivity. Qed.
Lemma hello_live : x_live hello_entry.
Proof. split; vm_compute; discriminate. Qed.
Lemma one_file : file_in3 demo_one demo_cat 1 HELLO 0 [48] [49].
Proof.
  unfold file_in3. rewrite one_slot0. split; [lia|]. split; [exact hello_live|].
  split; [vm_compute; reflexivity|]. apply demo_file, one_len.
Qed.
Lemma full_file : file_in3 demo_full demo_cat 3 HELLO 0 [48] [49].
Proof.
  unfold file_in3. rewrite full_slot0. split; [lia|]. split; [exact hello_live|].
  split; [vm_compute; reflexivity|]. apply demo_file, full_len.
Qed.
Definition hello_data : list Z := sec256 [4; 0; 2; 0; 169; 1].
Lemma contents_hello next es : zlen (demo_catsec next es) = 256 -> contents3 (disk_of (demo_sec next es)) [49] = hello_data.
Proof.
  intros L. unfold contents3. cbn [flat_map]. rewrite demo_sec_at by (assumption || lia). apply app_nil_r.
Qed.
Lemma one_read : find_file3 one_im HELLO = Ok hello_data /\ type_of3 one_im HELLO = Some 4.
Proof.
  destruct (find_of_file_in3 _ _ _ _ _ _ _ demo_one_disk one_file) as [A B]. unfold one_im. split.
  - rewrite A. exact (f_equal Ok (contents_hello _ _ one_len)).
  - rewrite B. rewrite one_slot0. reflexivity.
Qed.
Lemma full_read : find_file3 full_im HELLO = Ok hello_data /\ type_of3 full_im HELLO = Some 4.
Proof.
  destruct (find_of_file_in3 _ _ _ _ _ _ _ demo_full_disk full_file) as [A B]. unfold full_im. split.
  - rewrite A. exact (f_equal Ok (contents_hello _ _ full_len)).
  - rewrite B. rewrite full_slot0. reflexivity.
Qed.
Lemma one_locked : locked_of3 one_im HELLO = Some true.
Proof.
  pose proof (locked_view3 _ _ _ 0 demo_one_disk ltac:(lia)) as H. rewrite one_slot0 in H.
  specialize (H hello_live). exact H.
Qed.
Lemma full_locked : locked_of3 full_im HELLO = Some true.
Proof.
  pose proof (locked_view3 _ _ _ 0 demo_full_disk ltac:(lia)) as H. rewrite full_slot0 in H.
  specialize (H hello_live). exact H.
Qed.
Lemma one_room : has_room3 one_im.
Proof. exists demo_cat, 1. split; [exact demo_one_disk|]. right. vm_compute. reflexivity. Qed.
Lemma full_room : has_room3 full_im.
Proof. exists demo_cat, 3. split; [exact demo_full_disk|]. right. vm_compute. reflexivity. Qed.
Lemma tiny_no_room : ~ has_room3 tiny_im.
Proof.
  intros (cat & k & D & R). destruct (disk_det _ _ _ _ _ D demo_tiny_disk) as [-> ->].
  destruct R as [(i & Hi & _)|R]; [lia|]. vm_compute in R. discriminate.
Qed.
Lemma one_no_deleted : no_deleted3 one_im.
Proof.
  exists demo_cat, 1. split; [exact demo_one_disk|]. intros i Hi. assert (i = 0) by lia. subst i.
  rewrite one_bytes, one_slot0. vm_compute. discriminate.
Qed.
Lemma full_old_stale : stale_entry3 full_im OLD [48] [49].
Proof.
  exists demo_cat, 3, 1. rewrite full_bytes, full_slot1. split; [exact demo_full_disk|]. split; [lia|].
  split; [vm_compute; reflexivity|]. split; [vm_compute; reflexivity|]. split.
  - intros j Hj. assert (j = 0) by lia. subst j. rewrite full_slot0. vm_compute. discriminate.
  - destruct (demo_file _ _ full_len) as (A & B & C). fold demo_full in A, C.
    split; [exact A|]. split; [exact B|exact C].
Qed.
Lemma full_gone_stale : stale_entry3 full_im GONE [50] [51].
Proof.
  assert (S50 : sec demo_full 50 = sec256 (zrepeat 0 12 ++ [3; 3]))
    by (unfold demo_full; rewrite demo_sec_at by (exact full_len || lia); reflexivity).
  exists demo_cat, 3, 2. rewrite full_bytes, full_slot2. split; [exact demo_full_disk|]. split; [lia|].
  split; [vm_compute; reflexivity|]. split; [vm_compute; reflexivity|]. split.
  - intros j Hj. assert (H : j = 0 \/ j = 1) by lia. destruct H; subst j.
    + rewrite full_slot0. vm_compute. discriminate.
    + rewrite full_slot1. vm_compute. discriminate.
  - split; [|split; [vm_compute; reflexivity|]].
    + change (x_stale gone_entry) with 50. constructor; [lia|intros []|]. rewrite S50. constructor.
    + cbn [flat_map]. rewrite S50, app_nil_r. exists (zrepeat 0 121). vm_compute. reflexivity.
Qed.
Lemma full_gone_safe : stale_safe3 full_im GONE [50] [51].
Proof.
  split; [exact full_gone_stale|]. intros s Hs.
  assert (Hs' : s = 50 \/ s = 51) by (cbn in Hs; lia). split; [lia|]. split; [lia|]. split.
  - intros (cat & k & D & Hc). destruct (disk_det _ _ _ _ _ D demo_full_disk) as [-> ->].
    unfold demo_cat in Hc. cbn in Hc. lia.
  - intros m tl dl (cat & k & i & D & (Hi & Li & _ & Fi)) Hin.
    destruct (disk_det _ _ _ _ _ D demo_full_disk) as [-> ->]. rewrite full_bytes in *.
    destruct (k3_files _ _ _ demo_full_disk i Hi Li) as (_ & _ & tl0 & dl0 & F0 & _ & _ & Fr0).
    assert (E : In s (tl0 ++ dl0)).
    { destruct (file_at_det _ _ _ _ _ _ Fi F0) as [<- <-]. assumption. }
    apply Fr0 in E. destruct E as [_ E]. revert E. unfold demo_full. rewrite demo_bit by exact full_len.
    destruct Hs' as [-> | ->]; vm_compute; discriminate.
Qed.
Lemma full_no_named n : n <> HELLO -> n <> OLD -> n <> GONE -> ~ named3 full_im n.
Proof.
  intros H1 H2 H3 (cat & k & i & D & Hi & E). destruct (disk_det _ _ _ _ _ D demo_full_disk) as [-> ->].
  assert (X : i = 0 \/ i = 1 \/ i = 2) by lia. rewrite full_bytes in E.
  destruct X as [X|[X|X]]; subst i.
  - rewrite full_slot0 in E. apply H1. rewrite <- E. vm_compute. reflexivity.
  - rewrite full_slot1 in E. apply H2. rewrite <- E. vm_compute. reflexivity.
  - rewrite full_slot2 in E. apply H3. rewrite <- E. vm_compute. reflexivity.
Qed.
