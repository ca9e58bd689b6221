(** Sectors of a DOS 3.3 image and chains of sectors. *)
From Verif Require Import Base BaseLemmas DiskModel Dos33Model Dos33Spec.

(** The header of an image that has been opened successfully as a standard disk. *)
Definition H3 (f : Z) : hdr33 := mkH33 f 560 122.

Definition wr (b : list Z) (n : Z) (d : list Z) : list Z := setslice b (256 * n) d.

Lemma zlen_sec b n : zlen b = 143360 -> 0 <= n < 560 -> zlen (sec b n) = 256.
Proof. intros. unfold sec. rewrite zlen_slice; lia. Qed.
Lemma bytes_ok_sec b n : bytes_ok b -> bytes_ok (sec b n).
Proof. intros. apply bytes_ok_slice. assumption. Qed.

Lemma zlen_wr b n d : zlen b = 143360 -> 0 <= n < 560 -> zlen d = 256 -> zlen (wr b n d) = 143360.
Proof. intros. unfold wr. rewrite zlen_setslice; lia. Qed.
Lemma bytes_ok_wr b n d : bytes_ok b -> bytes_ok d -> bytes_ok (wr b n d).
Proof. intros. apply bytes_ok_setslice; assumption. Qed.
Lemma sec_wr b n d m : zlen b = 143360 -> 0 <= n < 560 -> zlen d = 256 -> 0 <= m < 560 ->
  sec (wr b n d) m = if m =? n then d else sec b m.
Proof.
  intros Hb Hn Hd Hm. unfold sec, wr. destruct (Z.eqb_spec m n) as [->|Hne].
  - apply slice_setslice_same; lia.
  - apply slice_setslice_disjoint; try lia.
Qed.

Lemma valid3_in f n : 0 <= n < 560 -> valid3 (H3 f) n = true.
Proof. intros. unfold valid3, H3; cbn [h_max3]. lia. Qed.
Lemma valid3_iff f n : valid3 (H3 f) n = true <-> 0 <= n < 560.
Proof. unfold valid3, H3; cbn [h_max3]. lia. Qed.
Lemma get_pos3_in f n : 0 <= n < 560 -> get_pos3 (H3 f) n = Ok (n * 256, 256).
Proof. intros. unfold get_pos3. rewrite valid3_in by assumption. reflexivity. Qed.
Lemma assert_valid3_in f n : 0 <= n < 560 -> assert_valid3 (H3 f) n = Ok tt.
Proof. intros. unfold assert_valid3. rewrite valid3_in by assumption. reflexivity. Qed.
Lemma get_raw3_in f b n : 0 <= n < 560 -> get_raw3 (H3 f) b n = Ok (sec b n, n * 256).
Proof.
  intros. unfold get_raw3. rewrite get_pos3_in by assumption. cbn [rbind].
  unfold sec. do 3 f_equal; lia.
Qed.
Lemma link_of_sec b n : zlen b = 143360 -> 0 <= n < 560 -> link_of (sec b n) = Ok (lnk (sec b n)).
Proof.
  intros. unfold link_of. rewrite zlen_sec by assumption. cbn. unfold from_ts, lnk.
  do 2 f_equal. lia.
Qed.

(** * Writing sectors *)
Definition wrs (l : list wsector) (b : list Z) : list Z :=
  fold_left (fun b s => wr b (s_num s) (s_data s)) l b.
Definition good_sec (s : wsector) : Prop := 0 <= s_num s < 560 /\ zlen (s_data s) = 256.

Lemma write_sectors_spec f l : forall b,
  zlen b = 143360 -> Forall good_sec l -> write_sectors (get_pos3 (H3 f)) l b = (wrs l b, Ok tt).
Proof.
  induction l as [|s l IH]; intros b Hb Hl; [reflexivity|].
  inversion Hl as [|? ? [Hn Hd] Hl']; subst. cbn [write_sectors].
  rewrite get_pos3_in by assumption. unfold np_assign.
  rewrite zlen_slice by lia. rewrite Hd.
  replace (s_num s * 256 + 256 - s_num s * 256 =? 256) with true by lia.
  replace (s_num s * 256) with (256 * s_num s) by lia.
  rewrite IH; [reflexivity| |assumption]. apply zlen_wr; assumption.
Qed.

Lemma zlen_wrs l : forall b, zlen b = 143360 -> Forall good_sec l -> zlen (wrs l b) = 143360.
Proof.
  induction l as [|s l IH]; intros b Hb Hl; [assumption|].
  inversion Hl as [|? ? [Hn Hd] Hl']; subst. cbn [wrs fold_left]. apply IH; [|assumption].
  apply zlen_wr; assumption.
Qed.
Lemma bytes_ok_wrs l : forall b, bytes_ok b -> Forall (fun s => bytes_ok (s_data s)) l -> bytes_ok (wrs l b).
Proof.
  induction l as [|s l IH]; intros b Hb Hl; [assumption|].
  inversion Hl; subst. cbn [wrs fold_left]. apply IH; [|assumption].
  apply bytes_ok_wr; assumption.
Qed.
Lemma sec_wrs_other l : forall b m, zlen b = 143360 -> Forall good_sec l -> 0 <= m < 560 ->
  ~ In m (map s_num l) -> sec (wrs l b) m = sec b m.
Proof.
  induction l as [|s l IH]; intros b m Hb Hl Hm Hin; [reflexivity|].
  inversion Hl as [|? ? [Hn Hd] Hl']; subst. cbn [map In] in Hin. cbn [wrs fold_left].
  fold (wrs l (wr b (s_num s) (s_data s))).
  rewrite IH; [|apply zlen_wr; assumption|assumption|assumption|tauto].
  rewrite sec_wr by assumption. destruct (Z.eqb_spec m (s_num s)); [exfalso; apply Hin; auto|reflexivity].
Qed.
Lemma sec_wrs_in l : forall b s, zlen b = 143360 -> Forall good_sec l -> NoDup (map s_num l) ->
  In s l -> sec (wrs l b) (s_num s) = s_data s.
Proof.
  induction l as [|s0 l IH]; intros b s Hb Hl Hnd Hin; [destruct Hin|].
  inversion Hl as [|? ? [Hn Hd] Hl']; subst. inversion Hnd; subst.
  cbn [wrs fold_left]. fold (wrs l (wr b (s_num s0) (s_data s0))).
  destruct Hin as [->|Hin].
  - rewrite sec_wrs_other; [|apply zlen_wr; assumption|assumption|assumption|assumption].
    rewrite sec_wr by assumption. rewrite Z.eqb_refl. reflexivity.
  - apply IH; [apply zlen_wr; assumption|assumption|assumption|assumption].
Qed.
Lemma wrs_app l1 l2 b : wrs (l1 ++ l2) b = wrs l2 (wrs l1 b).
Proof. apply fold_left_app. Qed.

(** * Chains *)
Lemma links_in b n l : links b n l -> Forall (fun m => 0 < m < 560) l.
Proof. induction 1; constructor; assumption. Qed.
Lemma links_nodup b n l : links b n l -> NoDup l.
Proof. induction 1; constructor; assumption. Qed.
Lemma links_ext b b' n l : (forall m, In m l -> lnk (sec b' m) = lnk (sec b m)) ->
  links b n l -> links b' n l.
Proof.
  intros H L; induction L as [|n l Hn Hin L IH]; [constructor|].
  constructor; [assumption|assumption|]. rewrite H by (left; reflexivity).
  apply IH. intros; apply H; right; assumption.
Qed.
Lemma links_det b n l : links b n l -> forall l', links b n l' -> l = l'.
Proof.
  induction 1 as [|n l Hn Hin L IH]; intros l' L'; inversion L'; subst; try reflexivity; try lia.
  f_equal. apply IH. assumption.
Qed.
Lemma links_nil_iff b n l : links b n l -> (l = [] <-> n = 0).
Proof. destruct 1; split; intros; try reflexivity; try discriminate; lia. Qed.

Lemma NoDup_bound (l : list Z) N : NoDup l -> Forall (fun m => 0 <= m < N) l -> 0 <= N -> zlen l <= N.
Proof.
  intros Hnd Hf HN.
  assert (Hincl : incl l (zrange 0 N)).
  { intros x Hx. rewrite Forall_forall in Hf. apply In_zrange. apply Hf; assumption. }
  pose proof (NoDup_incl_length Hnd Hincl) as Hl.
  pose proof (zlen_zrange 0 N ltac:(lia)). unfold zlen in *. lia.
Qed.
Lemma links_len b n l : links b n l -> (length l < 560)%nat.
Proof.
  intros L. pose proof (links_nodup _ _ _ L) as Hnd. pose proof (links_in _ _ _ L) as Hf.
  assert (Hz : zlen (0 :: l) <= 560).
  { apply NoDup_bound; [|constructor; [lia|]|lia].
    - constructor; [|assumption]. intros Hin. rewrite Forall_forall in Hf. apply Hf in Hin. lia.
    - revert Hf. apply Forall_impl. intros; lia. }
  rewrite zlen_cons in Hz. unfold zlen in Hz. lia.
Qed.

Lemma ts_entries_pairs s : ts_entries s = pairs s.
Proof.
  unfold ts_entries, pairs. apply map_ext. intros k. unfold from_ts. lia.
Qed.

Lemma ts_loop_spec f b n l : zlen b = 143360 -> links b n l -> forall fuel, (length l <= fuel)%nat ->
  ts_loop fuel (H3 f) b n = Ok (l, flat_map (fun m => pairs (sec b m)) l).
Proof.
  intros Hb L; induction L as [|n l Hn Hin L IH]; intros fuel Hf.
  - destruct fuel; reflexivity.
  - destruct fuel as [|fuel]; cbn [length] in Hf; [lia|]. cbn [ts_loop].
    replace (0 <? n) with true by lia.
    rewrite assert_valid3_in by lia. cbn [rbind]. rewrite get_raw3_in by lia. cbn [rbind].
    replace (from_ts (getb (sec b n) 1) (getb (sec b n) 2)) with (lnk (sec b n))
      by (unfold from_ts, lnk; lia).
    rewrite IH by lia. cbn [rbind flat_map]. rewrite ts_entries_pairs. reflexivity.
Qed.

Lemma fuel33_H3 f : fuel33 (H3 f) = 561%nat.
Proof. reflexivity. Qed.

Lemma pyslice0_app {A} (a r : list A) n : n = zlen a -> pyslice0 (a ++ r) n = a.
Proof.
  intros ->. unfold pyslice0. pose proof (zlen_nonneg a).
  destruct (zlen a <? 0) eqn:E; [lia|]. rewrite slice_app_l by lia. apply slice_full.
Qed.

Lemma get_tslist_spec f b e d tl dl : zlen b = 143360 -> file_at b e tl dl ->
  from_ts (d3_track d) (d3_sector d) = x_start e -> d3_count d = x_count e ->
  get_tslist (fuel33 (H3 f)) (H3 f) b d = Ok (tl, dl).
Proof.
  intros Hb (L & Hc & rest & Hp) Es Ec. unfold get_tslist. rewrite Es.
  rewrite (ts_loop_spec f b _ tl Hb L) by (pose proof (links_len _ _ _ L); rewrite fuel33_H3; lia).
  cbn [rbind]. rewrite Hp. rewrite pyslice0_app by lia. reflexivity.
Qed.

Lemma file_at_det b e tl dl tl' dl' : file_at b e tl dl -> file_at b e tl' dl' -> tl = tl' /\ dl = dl'.
Proof.
  intros (L & Hc & r & Hp) (L' & Hc' & r' & Hp').
  pose proof (links_det _ _ _ L _ L') as <-. split; [reflexivity|].
  assert (Hl : length dl = length dl') by (unfold zlen in *; lia).
  rewrite Hp in Hp'. clear -Hl Hp'. revert dl' Hl Hp'.
  induction dl as [|x dl IH]; intros [|y dl'] Hl Hp; try discriminate; [reflexivity|].
  injection Hp as -> Hp. f_equal. apply IH; [injection Hl; auto|assumption].
Qed.
