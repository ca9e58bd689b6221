(** The free-sector bitmap of a DOS 3.3 disk: decoding and encoding. *)
From Verif Require Import Base BaseLemmas DiskModel DirLemmas AtariVtoc Dos33Model Dos33Spec Dos33Geom.

Lemma list4_ind (P : list Z -> Prop) :
  P [] -> (forall a b c d r, P r -> P (a :: b :: c :: d :: r)) ->
  forall n l, length l = (4 * n)%nat -> P l.
Proof.
  intros H0 H4 n; induction n as [|n IH]; intros l Hl.
  - destruct l; [exact H0|cbn in Hl; lia].
  - do 4 (destruct l as [|? l]; [cbn in Hl; lia|]). apply H4, IH. cbn in Hl. lia.
Qed.

Lemma length_take2of4 n l : length l = (4 * n)%nat -> length (take2of4 l) = (2 * n)%nat.
Proof.
  revert l; induction n as [|n IH]; intros l Hl; [destruct l; [reflexivity|cbn in Hl; lia]|].
  do 4 (destruct l as [|? l]; [cbn in Hl; lia|]). cbn [take2of4 length]. rewrite IH; [lia|cbn in Hl; lia].
Qed.
Lemma getb_take2of4 n l i : length l = (4 * n)%nat -> 0 <= i < 2 * Z.of_nat n ->
  getb (take2of4 l) i = getb l (4 * (i / 2) + i mod 2).
Proof.
  revert l i; induction n as [|n IH]; intros l i Hl Hi; [lia|].
  do 4 (destruct l as [|? l]; [cbn in Hl; lia|]). cbn [take2of4].
  destruct (Z.eq_dec i 0) as [->|]; [reflexivity|].
  destruct (Z.eq_dec i 1) as [->|]; [reflexivity|].
  rewrite (getb_consS _ _ i), (getb_consS _ _ (i - 1)) by lia. rewrite IH; [|cbn in Hl; lia|lia].
  replace (4 * ((i - 1 - 1) / 2) + (i - 1 - 1) mod 2) with (4 * (i / 2) + i mod 2 - 1 - 1 - 1 - 1)
    by (Z.to_euclidean_division_equations; lia).
  symmetry. rewrite !getb_consS by (Z.to_euclidean_division_equations; lia). reflexivity.
Qed.
Lemma take_put n : forall l p, length l = (4 * n)%nat -> length p = (2 * n)%nat ->
  take2of4 (put2of4 l p) = p.
Proof.
  induction n as [|n IH]; intros l p Hl Hp.
  - destruct l; [|cbn in Hl; lia]. destruct p; [reflexivity|cbn in Hp; lia].
  - do 4 (destruct l as [|? l]; [cbn in Hl; lia|]). do 2 (destruct p as [|? p]; [cbn in Hp; lia|]).
    cbn [put2of4 take2of4]. rewrite IH; [reflexivity|cbn in Hl; lia|cbn in Hp; lia].
Qed.
Lemma put_take n : forall l, length l = (4 * n)%nat -> put2of4 l (take2of4 l) = l.
Proof.
  intros l. apply (list4_ind (fun l => put2of4 l (take2of4 l) = l)); [reflexivity|].
  intros a b c d r H. cbn [take2of4 put2of4]. rewrite H. reflexivity.
Qed.
Lemma length_put2of4 l : forall p, length (put2of4 l p) = length l.
Proof.
  assert (H : forall m l, (length l <= m)%nat -> forall p, length (put2of4 l p) = length l).
  { clear. induction m as [|m IH]; intros l Hm p; [destruct l; [reflexivity|cbn in Hm; lia]|].
    do 4 (destruct l as [|? l]; [reflexivity|]). do 2 (destruct p as [|? p]; [reflexivity|]).
    cbn [put2of4 length]. rewrite IH; [reflexivity|cbn in Hm; lia]. }
  intros p. apply (H (length l)). lia.
Qed.
Lemma bytes_ok_put2of4 n : forall l p, length l = (4 * n)%nat -> bytes_ok l -> bytes_ok p ->
  bytes_ok (put2of4 l p).
Proof.
  induction n as [|n IH]; intros l p Hl Hb Hp.
  - destruct l; [exact Hb|cbn in Hl; lia].
  - do 4 (destruct l as [|? l]; [cbn in Hl; lia|]). do 2 (destruct p as [|? p]; [assumption|]).
    cbn [put2of4].
    repeat match goal with H : bytes_ok (_ :: _) |- _ => inversion H; subst; clear H end.
    repeat match goal with H : Forall is_byte (_ :: _) |- _ => inversion H; subst; clear H end.
    repeat (constructor; [assumption|]). apply IH; [cbn in Hl; lia|assumption|assumption].
Qed.

Lemma length_rev16 n l : length (rev16 n l) = Nat.min (16 * n) (length l).
Proof.
  revert l; induction n as [|n IH]; intros l; [reflexivity|].
  cbn [rev16]. rewrite app_length, rev_length, firstn_length, IH, skipn_length. lia.
Qed.
Lemma rev16_rev16 n l : (16 * n <= length l)%nat -> rev16 n (rev16 n l) = firstn (16 * n) l.
Proof.
  revert l; induction n as [|n IH]; intros l Hl; [reflexivity|].
  cbn [rev16].
  assert (Hr : length (rev (firstn 16 l)) = 16%nat) by (rewrite rev_length, firstn_length; lia).
  rewrite firstn_app, skipn_app, Hr, !Nat.sub_diag, firstn_O, app_nil_r.
  rewrite (firstn_all2 (rev (firstn 16 l))) by lia. rewrite (skipn_all2 (rev (firstn 16 l))) by lia.
  rewrite app_nil_l, skipn_O, rev_involutive, IH by (rewrite skipn_length; lia).
  rewrite <- (firstn_skipn 16 (firstn (16 * S n) l)). f_equal.
  - rewrite firstn_firstn. f_equal. lia.
  - rewrite skipn_firstn_comm. f_equal. lia.
Qed.
Lemma getb_rev l i : 0 <= i < zlen l -> getb (rev l) i = getb l (zlen l - 1 - i).
Proof. intros H. unfold getb, zlen in *. rewrite rev_nth by lia. f_equal. lia. Qed.
Lemma getb_rev16 n l i : (16 * n <= length l)%nat -> 0 <= i < 16 * Z.of_nat n ->
  getb (rev16 n l) i = getb l (16 * (i / 16) + 15 - i mod 16).
Proof.
  revert l i; induction n as [|n IH]; intros l i Hl Hi; [lia|].
  cbn [rev16].
  assert (Hf : zlen (firstn 16 l) = 16) by (unfold zlen; rewrite firstn_length; lia).
  destruct (Z_lt_ge_dec i 16).
  - rewrite getb_app_l by (rewrite zlen_rev; lia). rewrite getb_rev by lia.
    rewrite Hf. unfold getb. rewrite nth_firstn' by lia. f_equal.
    Z.to_euclidean_division_equations; lia.
  - rewrite getb_app_r by (rewrite zlen_rev; lia). rewrite zlen_rev, Hf.
    rewrite IH by (try rewrite skipn_length; lia). unfold getb. rewrite nth_skipn'. f_equal.
    Z.to_euclidean_division_equations; lia.
Qed.
Lemma Forall_rev16 (P : Z -> Prop) n l : Forall P l -> Forall P (rev16 n l).
Proof.
  revert l; induction n as [|n IH]; intros l H; [constructor|].
  cbn [rev16]. apply Forall_app. split; [apply Forall_rev, Forall_firstn', H|apply IH, Forall_skipn', H].
Qed.

Lemma length_vmap (v : list Z) : zlen v = 256 -> length (slice v 56 256) = 200%nat.
Proof. intros. assert (zlen (slice v 56 256) = 200) by (rewrite zlen_slice; lia). unfold zlen in *. lia. Qed.

Definition vbits3 (v : list Z) : list Z := rev16 50 (unpackbits (take2of4 (slice v 0x38 256))).
Lemma length_vbits3 v : zlen v = 256 -> length (vbits3 v) = 800%nat.
Proof.
  intros H. unfold vbits3. rewrite length_rev16, length_unpackbits.
  rewrite (length_take2of4 50) by (apply length_vmap; assumption). lia.
Qed.
Lemma zlen_vbits3 v : zlen v = 256 -> zlen (vbits3 v) = 800.
Proof. intros. unfold zlen. rewrite length_vbits3 by assumption. reflexivity. Qed.
Lemma zlen_parse_vtoc3 v : zlen v = 256 -> zlen (parse_vtoc3 v) = 1280.
Proof.
  intros. unfold parse_vtoc3. fold (vbits3 v). rewrite zlen_app, zlen_vbits3 by assumption. reflexivity.
Qed.

Lemma bit_of_word a b s : is_byte b -> 0 <= s < 16 ->
  ((256 * a + b) / 2 ^ s) mod 2 = ((if s <? 8 then b else a) / 2 ^ (s mod 8)) mod 2.
Proof.
  intros Hb Hs. unfold is_byte in Hb.
  assert (s = 0 \/ s = 1 \/ s = 2 \/ s = 3 \/ s = 4 \/ s = 5 \/ s = 6 \/ s = 7 \/
          s = 8 \/ s = 9 \/ s = 10 \/ s = 11 \/ s = 12 \/ s = 13 \/ s = 14 \/ s = 15) as Hc by lia.
  repeat (destruct Hc as [->|Hc]; [|]); try subst s;
    cbn [Z.ltb Z.compare Pos.compare Pos.compare_cont];
    match goal with |- (_ / 2 ^ ?x) mod 2 = (_ / 2 ^ ?y) mod 2 =>
      let u := eval vm_compute in (2 ^ x) in let w := eval vm_compute in (2 ^ y) in
      change (2 ^ x) with u; change (2 ^ y) with w end;
    Z.to_euclidean_division_equations; lia.
Qed.

(** Sector [n] is free in the decoded map exactly when its documented bit is set. *)
Definition word_bit (v : list Z) (n : Z) : Z :=
  ((256 * getb v (56 + 4 * (n / 16)) + getb v (57 + 4 * (n / 16))) / 2 ^ (n mod 16)) mod 2.
Lemma getb_vbits3 v n : zlen v = 256 -> bytes_ok v -> 0 <= n < 800 ->
  getb (vbits3 v) n = word_bit v n.
Proof.
  intros Hv Hb Hn. unfold vbits3, word_bit.
  pose proof (length_vmap v Hv) as Hl. pose proof (length_take2of4 50 _ Hl) as Ht.
  rewrite getb_rev16 by (try rewrite length_unpackbits, Ht; lia).
  rewrite getb_unpackbits by (unfold zlen; rewrite Ht; Z.to_euclidean_division_equations; lia).
  rewrite (getb_take2of4 50) by (try assumption; Z.to_euclidean_division_equations; lia).
  rewrite getb_slice by (Z.to_euclidean_division_equations; lia).
  rewrite bit_of_word by (try (apply bytes_ok_getb; assumption); Z.to_euclidean_division_equations; lia).
  set (j := 16 * (n / 16) + 15 - n mod 16).
  replace (7 - j mod 8) with (n mod 16 mod 8) by (unfold j; Z.to_euclidean_division_equations; lia).
  destruct (n mod 16 <? 8) eqn:E.
  - replace (0x38 + (4 * (j / 8 / 2) + (j / 8) mod 2)) with (57 + 4 * (n / 16)); [reflexivity|].
    unfold j; Z.to_euclidean_division_equations; lia.
  - replace (0x38 + (4 * (j / 8 / 2) + (j / 8) mod 2)) with (56 + 4 * (n / 16)); [reflexivity|].
    unfold j; Z.to_euclidean_division_equations; lia.
Qed.
Lemma getb_parse_vtoc3 v n : zlen v = 256 -> bytes_ok v -> 0 <= n < 1280 ->
  getb (parse_vtoc3 v) n = if n <? 800 then word_bit v n else 0.
Proof.
  intros Hv Hb Hn. unfold parse_vtoc3. fold (vbits3 v).
  destruct (n <? 800) eqn:E.
  - rewrite getb_app_l by (rewrite zlen_vbits3; lia). apply getb_vbits3; try assumption; lia.
  - rewrite getb_app_r by (rewrite zlen_vbits3; lia). rewrite zlen_vbits3 by assumption.
    apply getb_zrepeat. lia.
Qed.
Lemma word_bit_bit v n : is_bit (word_bit v n).
Proof. unfold word_bit, is_bit. match goal with |- ?x mod 2 = _ \/ _ => pose proof (Z.mod_pos_bound x 2) end. lia. Qed.
Lemma free_bit3_bit b n : is_bit (free_bit3 b n).
Proof. apply (word_bit_bit (vtoc b)). Qed.

(** * Encoding *)
Lemma length_rev16_smap smap : zlen smap = 1280 -> length (rev16 50 smap) = (8 * 100)%nat.
Proof. intros. rewrite length_rev16. unfold zlen in *. lia. Qed.
Lemma zlen_pack_vtoc3 v smap : zlen v = 256 -> zlen (pack_vtoc3 v smap) = 256.
Proof.
  intros H. unfold pack_vtoc3. rewrite zlen_app, zlen_slice by lia. unfold zlen at 1.
  rewrite length_put2of4, length_vmap by assumption. lia.
Qed.
Lemma bytes_ok_pack_vtoc3 v smap : zlen v = 256 -> bytes_ok v -> zlen smap = 1280 ->
  bytes_ok (pack_vtoc3 v smap).
Proof.
  intros Hv Hb Hs. unfold pack_vtoc3. apply bytes_ok_app. split; [apply bytes_ok_slice; assumption|].
  apply (bytes_ok_put2of4 50); [apply length_vmap; assumption|apply bytes_ok_slice; assumption|].
  eapply bytes_ok_packbits. apply length_rev16_smap. assumption.
Qed.
Lemma pack_vtoc3_head v smap i : zlen v = 256 -> 0 <= i < 56 ->
  getb (pack_vtoc3 v smap) i = getb v i.
Proof.
  intros Hv Hi. unfold pack_vtoc3. rewrite getb_app_l by (rewrite zlen_slice; lia).
  rewrite getb_slice by lia. f_equal.
Qed.
Lemma pack_vtoc3_map v smap : zlen v = 256 -> 
  slice (pack_vtoc3 v smap) 56 256 = put2of4 (slice v 56 256) (packbits (rev16 50 smap)).
Proof.
  intros Hv. unfold pack_vtoc3. change 0x38 with 56.
  rewrite slice_app_r by (rewrite zlen_slice; lia). rewrite zlen_slice by lia.
  apply slice_all. unfold zlen. rewrite length_put2of4, length_vmap by assumption. lia.
Qed.
Lemma vbits3_pack v smap : zlen v = 256 -> zlen smap = 1280 -> Forall is_bit smap ->
  vbits3 (pack_vtoc3 v smap) = slice smap 0 800.
Proof.
  intros Hv Hs Hb. unfold vbits3. change 0x38 with 56. rewrite pack_vtoc3_map by assumption.
  rewrite (take_put 50); [|apply length_vmap; assumption|].
  2: { rewrite (length_packbits _ 100); [reflexivity|apply length_rev16_smap; assumption]. }
  rewrite (unpackbits_packbits _ 100); [|apply length_rev16_smap; assumption|apply Forall_rev16; assumption].
  rewrite rev16_rev16 by (unfold zlen in Hs; lia). reflexivity.
Qed.
(** The encoded bitmap says for every sector what the map says. *)
Lemma word_bit_pack v smap n : zlen v = 256 -> bytes_ok v -> zlen smap = 1280 -> Forall is_bit smap ->
  0 <= n < 800 -> word_bit (pack_vtoc3 v smap) n = getb smap n.
Proof.
  intros Hv Hb Hs Hbit Hn. rewrite <- getb_vbits3; [|apply zlen_pack_vtoc3; assumption|apply bytes_ok_pack_vtoc3; assumption|assumption].
  rewrite vbits3_pack by assumption. rewrite getb_slice by lia. f_equal.
Qed.

(** Decoding and encoding again changes nothing. *)
Lemma pack_parse_vtoc3 v : zlen v = 256 -> bytes_ok v -> pack_vtoc3 v (parse_vtoc3 v) = v.
Proof.
  intros Hv Hb. unfold pack_vtoc3.
  assert (E : rev16 50 (parse_vtoc3 v) = unpackbits (take2of4 (slice v 0x38 256))).
  { pose proof (length_vmap v Hv) as Hl. pose proof (length_take2of4 50 _ Hl) as Ht.
    unfold parse_vtoc3. fold (vbits3 v).
    assert (R : forall n a z, (16 * n <= length a)%nat -> rev16 n (a ++ z) = rev16 n a).
    { clear. induction n as [|n IH]; intros a z Ha; [reflexivity|]. cbn [rev16].
      rewrite firstn_app, skipn_app. replace (16 - length a)%nat with O by lia.
      rewrite firstn_O, app_nil_r, skipn_O. rewrite IH by (rewrite skipn_length; lia). reflexivity. }
    rewrite R by (rewrite length_vbits3 by assumption; lia).
    unfold vbits3. rewrite rev16_rev16 by (rewrite length_unpackbits, Ht; lia).
    apply firstn_all2. rewrite length_unpackbits, Ht. lia. }
  rewrite E, packbits_unpackbits.
  - rewrite (put_take 50) by (apply length_vmap; assumption).
    rewrite <- slice_split by lia. apply slice_all. lia.
  - assert (T : forall l, (exists n, length l = (4 * n)%nat) -> bytes_ok l -> bytes_ok (take2of4 l)).
    { clear. intros l [n Hn]. apply (list4_ind (fun l => bytes_ok l -> bytes_ok (take2of4 l))) with (n := n); [auto| |assumption].
      intros a b c d r IH H. inversion H; subst. inversion H3; subst. inversion H5; subst. inversion H7; subst.
      cbn [take2of4]. constructor; [assumption|]. constructor; [assumption|]. apply IH; assumption. }
    apply T; [exists 50%nat; apply length_vmap; assumption|apply bytes_ok_slice; assumption].
Qed.

Lemma calc_bitmap3_spec b smap : zlen b = 143360 -> zlen smap = 1280 ->
  calc_bitmap3 b smap
  = (wr b 272 (pack_vtoc3 (vtoc b) smap), fill_sec 256 272 0 [] (pack_vtoc3 (vtoc b) smap)).
Proof.
  intros Hb Hs. unfold calc_bitmap3. change (slice b (272 * 256) (272 * 256 + 256)) with (vtoc b).
  rewrite make_sector_full by (apply zlen_pack_vtoc3, zlen_sec; [assumption|lia]). reflexivity.
Qed.
