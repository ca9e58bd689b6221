(** Remaining DOS 3.3 lemmas: whole entries survive re-encoding, disks with
    cyclic links. *)
From Verif Require Import Base BaseLemmas DiskModel DirLemmas Loops Dos33Model Dos33Spec Dos33Geom Dos33Vtoc Dos33Dir Dos33Files Dos33Update Dos33Alloc Dos33Write Dos33Delete Dos33Shred Dos33Ops Dos33Loops Dos33Demo.

(** * Re-encoding *)
Lemma reencode_live h e : zlen e = 35 -> bytes_ok e -> ~ x_dead e -> ~ x_locked e -> rstrip (x_name e) = x_name e ->
  exists e', encode_ent (parse_ent h e) = Ok e' /\ zlen e' = 35 /\ parse_ent h e' = parse_ent h e.
Proof.
  intros Hl Hb Hd Hk Hn. destruct (encode_spec _ (enc_ok_parse h e Hb)) as (e' & E & (Hl' & Hb' & H0 & H1 & H2 & Hc & Hnm & _)).
  exists e'. split; [exact E|]. split; [exact Hl'|].
  rewrite d3_name_parse in Hnm. rewrite d3_count_parse in Hc.
  rewrite slice_all, Hn in Hnm by apply zlen_x_name.
  unfold parse_ent in H0, H1, H2. unfold flag3 in H2. cbn [d3_del d3_track d3_sector d3_type d3_lock] in H0, H1, H2.
  unfold x_dead in Hd. unfold x_locked in Hk. apply Z.eqb_neq in Hd. rewrite Hd in H0, H2.
  pose proof (bytes_ok_getb e 2 Hb) as B2. unfold is_byte in B2.
  assert (E2 : getb e' 2 = getb e 2) by (rewrite H2; unfold u8; Z.to_euclidean_division_equations; lia).
  unfold parse_ent. rewrite H0, Hd, H1, E2.
  change (ascii_ignore (rstrip (map (fun c => u8 (c - 128)) (slice e' 3 32)))) with (x_name e').
  change (ascii_ignore (rstrip (map (fun c => u8 (c - 128)) (slice e 3 32)))) with (x_name e).
  change (le2 (getb e' 33) (getb e' 34)) with (x_count e'). change (le2 (getb e 33) (getb e 34)) with (x_count e).
  rewrite Hnm, Hc. reflexivity.
Qed.
(** A deleted entry keeps its name, place and size. *)
Lemma reencode_dead h e : zlen e = 35 -> bytes_ok e -> x_dead e -> rstrip (x_name e) = x_name e ->
  exists e', encode_ent (parse_ent h e) = Ok e' /\ zlen e' = 35 /\ x_dead e' /\ x_name e' = x_name e /\
    x_stale e' = x_stale e /\ x_count e' = x_count e.
Proof.
  intros Hl Hb Hd Hn. destruct (encode_spec _ (enc_ok_parse h e Hb)) as (e' & E & (Hl' & Hb' & H0 & H1 & H2 & Hc & Hnm & H32)).
  exists e'. split; [exact E|]. split; [exact Hl'|].
  rewrite d3_name_parse in Hnm. rewrite d3_count_parse in Hc. rewrite slice_all, Hn in Hnm by apply zlen_x_name.
  pose proof Hd as Hd'. apply (d3_del_parse h) in Hd'. rewrite Hd' in H0. specialize (H32 Hd').
  split; [exact H0|]. split; [exact Hnm|]. split; [|exact Hc].
  unfold x_stale. rewrite H1, H32. unfold parse_ent. cbn [d3_track d3_sector]. unfold x_dead in Hd. rewrite Hd. reflexivity.
Qed.

(** dos33.py 183-197: type_to_text and the file_type property *)
Definition type_text (code : Z) : list Z :=
  match code with
  | 0 => [84] | 1 => [73] | 2 => [65] | 4 => [66]
  | 8 => [83] | 16 => [82] | 32 => [97] | 64 => [98]
  | _ => [63]
  end.

(** * Cyclic links *)
(** The track/sector list of HELLO continues in itself. *)
Definition loop_sec (n : Z) : list Z :=
  if n =? 48 then sec256 ([0; 3; 0] ++ zrepeat 0 9 ++ [3; 1]) else demo_sec 286 [hello_entry] n.
Definition loop_disk : list Z := disk_of loop_sec.
Lemma loop_sec_len i : zlen (loop_sec i) = 256.
Proof. unfold loop_sec. destruct (i =? 48); [reflexivity|]. apply demo_sec_len. exact one_len. Qed.
Lemma loop_disk_len : zlen loop_disk = 143360.
Proof. apply zlen_disk_of, loop_sec_len. Qed.
Lemma loop_disk_ok : bytes_ok loop_disk.
Proof.
  apply bytes_ok_disk_of. intros i. unfold loop_sec. destruct (i =? 48); [apply bytes_ok_b; vm_compute; reflexivity|].
  apply demo_sec_ok. apply bytes_ok_b. vm_compute. reflexivity.
Qed.
Lemma loop_sec_at n : 0 <= n < 560 -> sec loop_disk n = loop_sec n.
Proof. apply sec_disk_of, loop_sec_len. Qed.
Definition loop_im : img33 := mkI loop_disk (H3 (fdir3 demo_one)) (files3 demo_one demo_cat 1) true.
Lemma loop_opens : open33 loop_disk = Ok loop_im.
Proof.
  assert (S : forall n, 0 <= n < 560 -> n <> 48 -> sec loop_disk n = sec demo_one n).
  { intros n Hn Hne. rewrite loop_sec_at by assumption. unfold demo_one. rewrite demo_sec_at by (exact one_len || assumption).
    unfold loop_sec. replace (n =? 48) with false by lia. reflexivity. }
  apply (open33_ext demo_one loop_disk demo_cat 1 demo_one_disk loop_disk_len).
  - apply S; lia.
  - apply S; lia.
  - intros n Hn. apply S.
    + pose proof demo_cat_range as R. rewrite Forall_forall in R. apply R. assumption.
    + intros ->. unfold demo_cat in Hn. cbn in Hn. lia.
Qed.
Lemma loop_listed : In (parse_ent (H3 (fdir3 demo_one)) hello_entry) (i_files loop_im).
Proof.
  unfold loop_im. cbn [i_files]. apply (in_files3 demo_one demo_cat 1 demo_one_disk).
  exists 0. rewrite one_slot0. split; [lia|]. split; [exact hello_live|reflexivity].
Qed.
Lemma loop_hello : find_name3 HELLO (i_files loop_im) = Some (parse_ent (H3 (fdir3 demo_one)) hello_entry).
Proof.
  unfold loop_im. cbn [i_files]. pose proof (find_name3_view _ _ _ 0 demo_one_disk ltac:(lia)) as H.
  rewrite one_slot0 in H. specialize (H hello_live). change (x_name hello_entry) with HELLO in H. exact H.
Qed.
Lemma loop_ts f fuel : ts_loop fuel (H3 f) loop_disk 48 = Err EFuel.
Proof.
  induction fuel as [|fuel IH]; [reflexivity|]. cbn [ts_loop].
  change (0 <? 48) with true. cbn iota.
  change (assert_valid3 (H3 f) 48) with (Ok tt). cbn [rbind].
  rewrite get_raw3_in by lia. cbn [rbind]. rewrite loop_sec_at by lia.
  change (from_ts (getb (loop_sec 48) 1) (getb (loop_sec 48) 2)) with 48. rewrite IH. reflexivity.
Qed.
Lemma loop_never fuel : get_file_fuel3 fuel loop_im (parse_ent (H3 (fdir3 demo_one)) hello_entry) = Err EFuel.
Proof.
  unfold get_file_fuel3.
  assert (S : d3_sane (parse_ent (H3 (fdir3 demo_one)) hello_entry) = true).
  { generalize (fdir3 demo_one). intros f. vm_compute. reflexivity. }
  rewrite S. cbn [negb]. unfold loop_im. cbn [i_hdr i_bytes]. unfold get_tslist.
  assert (E : from_ts (d3_track (parse_ent (H3 (fdir3 demo_one)) hello_entry)) (d3_sector (parse_ent (H3 (fdir3 demo_one)) hello_entry)) = 48).
  { generalize (fdir3 demo_one). intros f. vm_compute. reflexivity. }
  rewrite E, loop_ts. reflexivity.
Qed.

(** The first catalog sector continues in itself. *)
Definition cat_loop_disk : list Z := disk_of (demo_sec 287 [hello_entry]).
Lemma cat_loop_len : zlen (demo_catsec 287 [hello_entry]) = 256.
Proof. vm_compute. reflexivity. Qed.
Lemma cat_loop_disk_len : zlen cat_loop_disk = 143360.
Proof. apply demo_len, cat_loop_len. Qed.
Lemma cat_loop_vtoc : get_vtoc3 (mkI cat_loop_disk hdr33_0 [] true) = (mkI cat_loop_disk (H3 287) [] true, Ok tt).
Proof.
  unfold get_vtoc3. cbn [i_hdr i_bytes i_files i_sane]. rewrite get_raw3_560 by (reflexivity || lia).
  unfold cat_loop_disk. rewrite demo_sec_at by (exact cat_loop_len || lia).
  change (demo_sec 287 [hello_entry] 272) with demo_vtoc. reflexivity.
Qed.
Lemma cat_loop_never fuel : snd (get_directory_fuel fuel (mkI cat_loop_disk (H3 287) [] true)) = Err EFuel.
Proof.
  assert (X : snd (cat_loop fuel (H3 287) cat_loop_disk 287) = Some EFuel).
  { induction fuel as [|fuel IH]; [reflexivity|]. cbn [cat_loop]. change (0 <? 287) with true. cbn iota.
    change (assert_valid3 (H3 287) 287) with (Ok tt). cbn iota.
    rewrite get_raw3_in by lia. cbn [rbind]. unfold cat_loop_disk at 1 2. rewrite demo_sec_at by (exact cat_loop_len || lia).
    unfold link_of. change (zlen (demo_sec 287 [hello_entry] 287) <? 3) with false. cbn iota. cbn [rbind].
    change (from_ts (getb (demo_sec 287 [hello_entry] 287) 1) (getb (demo_sec 287 [hello_entry] 287) 2)) with 287.
    destruct (cat_loop fuel (H3 287) cat_loop_disk 287) as [ds e]. exact IH. }
  unfold get_directory_fuel. cbn [i_hdr i_bytes]. change (h_fdir (H3 287)) with 287.
  destruct (cat_loop fuel (H3 287) cat_loop_disk 287) as [ds e]. cbn [snd] in X. subst e. reflexivity.
Qed.
Lemma cat_loop_open : open33 cat_loop_disk = Err EFuel.
Proof.
  unfold open33. rewrite cat_loop_disk_len. cbn [Z.eqb Pos.eqb negb]. unfold get_metadata3.
  assert (B : boot_info (mkI cat_loop_disk hdr33_0 [] true) = Ok tt).
  { unfold boot_info. cbn [i_hdr i_bytes]. rewrite !get_raw3_560 by (reflexivity || lia). cbn [rbind].
    unfold cat_loop_disk. rewrite !demo_sec_at by (exact cat_loop_len || lia).
    change (demo_sec 287 [hello_entry] 272) with demo_vtoc. reflexivity. }
  rewrite B, cat_loop_vtoc. pose proof (cat_loop_never (fuel33 (H3 287))) as N. unfold get_directory3. cbn [i_hdr].
  destruct (get_directory_fuel (fuel33 (H3 287)) (mkI cat_loop_disk (H3 287) [] true)) as [im [r|e]]; cbn [snd] in N.
  - discriminate N.
  - injection N as ->. reflexivity.
Qed.
