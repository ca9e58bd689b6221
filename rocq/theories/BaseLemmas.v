(** Lemmas about the vocabulary of [Base]. *)
From Verif Require Import Base.

Lemma zlen_nonneg {A} (l : list A) : 0 <= zlen l.
Proof. unfold zlen; lia. Qed.
Lemma zlen_nil A : zlen (@nil A) = 0.
Proof. reflexivity. Qed.
Lemma zlen_cons {A} (x : A) l : zlen (x :: l) = 1 + zlen l.
Proof. unfold zlen; cbn [length]; lia. Qed.
Lemma zlen_app {A} (a b : list A) : zlen (a ++ b) = zlen a + zlen b.
Proof. unfold zlen; rewrite app_length; lia. Qed.
Lemma zlen_map {A B} (f : A -> B) l : zlen (map f l) = zlen l.
Proof. unfold zlen; rewrite map_length; reflexivity. Qed.
Lemma zlen_zrepeat b n : 0 <= n -> zlen (zrepeat b n) = n.
Proof. intros; unfold zlen, zrepeat; rewrite repeat_length; lia. Qed.
Lemma zlen_0_nil {A} (l : list A) : zlen l = 0 -> l = [].
Proof. destruct l; unfold zlen; cbn [length]; [reflexivity|lia]. Qed.
Lemma zlen_rev {A} (l : list A) : zlen (rev l) = zlen l.
Proof. unfold zlen; rewrite rev_length; reflexivity. Qed.
Lemma zlen_length {A} (l : list A) : Z.to_nat (zlen l) = length l.
Proof. unfold zlen; lia. Qed.
Lemma zlen_put2 x : zlen (put2 x) = 2.
Proof. reflexivity. Qed.
Lemma zlen_put4 x : zlen (put4 x) = 4.
Proof. reflexivity. Qed.

Lemma zlen_slice {A} (l : list A) a b :
  0 <= a -> a <= b -> b <= zlen l -> zlen (slice l a b) = b - a.
Proof.
  intros; unfold slice, zlen in *.
  rewrite firstn_length, skipn_length; lia.
Qed.
Lemma zlen_slice_le {A} (l : list A) a b :
  0 <= a -> a <= b -> zlen (slice l a b) <= b - a.
Proof. intros; unfold slice, zlen; rewrite firstn_length, skipn_length; lia. Qed.
Lemma zlen_slice_min {A} (l : list A) a b :
  0 <= a -> zlen (slice l a b) = Z.max 0 (Z.min (b - a) (zlen l - a)).
Proof. intros; unfold slice, zlen; rewrite firstn_length, skipn_length; lia. Qed.

Lemma slice_full {A} (l : list A) : slice l 0 (zlen l) = l.
Proof. unfold slice, zlen; rewrite Z.sub_0_r, Nat2Z.id; cbn [Z.to_nat skipn]; apply firstn_all. Qed.
Lemma slice_all {A} (l : list A) n : zlen l <= n -> slice l 0 n = l.
Proof.
  intros; unfold slice, zlen in *; cbn [Z.to_nat skipn]; apply firstn_all2; lia.
Qed.
Lemma slice_empty {A} (l : list A) a b : b <= a -> slice l a b = [].
Proof. intros; unfold slice; replace (Z.to_nat (b - a)) with O by lia; reflexivity. Qed.
Lemma slice_oob {A} (l : list A) a b : zlen l <= a -> slice l a b = [].
Proof.
  intros; unfold slice, zlen in *. rewrite skipn_all2 by lia. apply firstn_nil.
Qed.
Lemma slice_nil {A} a b : slice (@nil A) a b = [].
Proof. unfold slice; rewrite skipn_nil; apply firstn_nil. Qed.

Lemma skipn_skipn' {A} (n m : nat) (l : list A) : skipn n (skipn m l) = skipn (m + n) l.
Proof.
  revert l; induction m as [|m IH]; intros l; [reflexivity|].
  destruct l; cbn [skipn Nat.add]; [apply skipn_nil|apply IH].
Qed.

Lemma slice_split {A} (l : list A) a b c :
  0 <= a -> a <= b -> b <= c -> slice l a c = slice l a b ++ slice l b c.
Proof.
  intros; unfold slice.
  replace (Z.to_nat (c - a)) with (Z.to_nat (b - a) + Z.to_nat (c - b))%nat by lia.
  replace (Z.to_nat b) with (Z.to_nat a + Z.to_nat (b - a))%nat by lia.
  rewrite <- skipn_skipn'.
  generalize (skipn (Z.to_nat a) l); intros l'.
  revert l'; induction (Z.to_nat (b - a)) as [|n IH]; intros l'; [reflexivity|].
  destruct l' as [|x l']; cbn [firstn Nat.add skipn app].
  - rewrite firstn_nil; reflexivity.
  - f_equal; apply IH.
Qed.

Lemma slice_slice {A} (l : list A) a b c d :
  0 <= a -> 0 <= c -> d <= b - a ->
  slice (slice l a b) c d = slice l (a + c) (a + d).
Proof.
  intros; unfold slice.
  rewrite skipn_firstn_comm, firstn_firstn, skipn_skipn'.
  f_equal; [lia|]. f_equal; lia.
Qed.

Lemma slice_app_l {A} (x y : list A) a b : 0 <= a -> b <= zlen x -> slice (x ++ y) a b = slice x a b.
Proof.
  intros Ha Hb; unfold slice, zlen in *.
  rewrite skipn_app, firstn_app.
  rewrite skipn_length.
  replace (Z.to_nat (b - a) - (length x - Z.to_nat a))%nat with O by lia.
  rewrite firstn_O, app_nil_r; reflexivity.
Qed.
Lemma slice_app_r {A} (x y : list A) a b :
  zlen x <= a -> slice (x ++ y) a b = slice y (a - zlen x) (b - zlen x).
Proof.
  intros; unfold slice, zlen in *.
  rewrite skipn_app, (skipn_all2 x) by lia.
  cbn [app]. f_equal; [lia|]. f_equal; lia.
Qed.
Lemma slice_app_full_l {A} (x y : list A) : slice (x ++ y) 0 (zlen x) = x.
Proof. rewrite slice_app_l by (try lia). apply slice_full. Qed.
Lemma slice_app_full_r {A} (x y : list A) n : n = zlen x + zlen y -> slice (x ++ y) (zlen x) n = y.
Proof.
  intros ->; rewrite slice_app_r by lia. rewrite Z.sub_diag, Z.add_simpl_l. apply slice_full.
Qed.
Lemma slice_app_drop {A} (x y : list A) n : zlen x + zlen y <= n -> slice (x ++ y) (zlen x) n = y.
Proof.
  intros; rewrite slice_app_r by lia. rewrite Z.sub_diag. apply slice_all; lia.
Qed.

Lemma slice_cons0 {A} (x : A) l n : 0 < n -> slice (x :: l) 0 n = x :: slice l 0 (n - 1).
Proof.
  intros; unfold slice; cbn [Z.to_nat skipn].
  replace (Z.to_nat (n - 0)) with (S (Z.to_nat (n - 1 - 0))) by lia. reflexivity.
Qed.
Lemma slice_cons_S {A} (x : A) l a b : 0 < a -> slice (x :: l) a b = slice l (a - 1) (b - 1).
Proof.
  intros; unfold slice.
  replace (Z.to_nat a) with (S (Z.to_nat (a - 1))) by lia. cbn [skipn].
  f_equal; lia.
Qed.

(** nth access *)
Lemma getb_app_l x y i : 0 <= i < zlen x -> getb (x ++ y) i = getb x i.
Proof. intros; unfold getb, zlen in *; apply app_nth1; lia. Qed.
Lemma getb_app_r x y i : zlen x <= i -> getb (x ++ y) i = getb y (i - zlen x).
Proof.
  intros; unfold getb, zlen in *; rewrite app_nth2 by lia. f_equal; lia.
Qed.
Lemma getb_cons0 x l : getb (x :: l) 0 = x.
Proof. reflexivity. Qed.
Lemma getb_consS x l i : 0 < i -> getb (x :: l) i = getb l (i - 1).
Proof.
  intros; unfold getb. replace (Z.to_nat i) with (S (Z.to_nat (i - 1))) by lia. reflexivity.
Qed.
Lemma getb_oob l i : zlen l <= i -> getb l i = 0.
Proof. intros; unfold getb, zlen in *; apply nth_overflow; lia. Qed.

Lemma nth_firstn' {A} (l : list A) n i d : (i < n)%nat -> nth i (firstn n l) d = nth i l d.
Proof.
  revert l i; induction n as [|n IH]; intros l i H; [lia|].
  destruct l; cbn [firstn]; [destruct i; reflexivity|].
  destruct i; cbn [nth]; [reflexivity|apply IH; lia].
Qed.
Lemma nth_skipn' {A} (l : list A) n i d : nth i (skipn n l) d = nth (n + i) l d.
Proof.
  revert l; induction n as [|n IH]; intros l; [reflexivity|].
  destruct l; cbn [skipn Nat.add nth]; [destruct i; reflexivity|apply IH].
Qed.

Lemma getb_slice l a b i : 0 <= a -> 0 <= i < b - a -> getb (slice l a b) i = getb l (a + i).
Proof.
  intros; unfold getb, slice.
  rewrite nth_firstn' by lia. rewrite nth_skipn'. f_equal; lia.
Qed.

Lemma getb_zrepeat b n i : 0 <= i < n -> getb (zrepeat b n) i = b.
Proof.
  intros; unfold getb, zrepeat.
  rewrite nth_indep with (d' := b) by (rewrite repeat_length; lia).
  apply nth_repeat.
Qed.

Lemma list_ext_getb (a b : list Z) :
  zlen a = zlen b -> (forall i, 0 <= i < zlen a -> getb a i = getb b i) -> a = b.
Proof.
  intros Hl H. apply nth_ext with (d := 0) (d' := 0).
  - unfold zlen in Hl; lia.
  - intros n Hn. specialize (H (Z.of_nat n)). unfold getb in H.
    rewrite Nat2Z.id in H. apply H. unfold zlen; lia.
Qed.

(** setslice *)
Lemma zlen_setslice {A} (l : list A) p d :
  0 <= p -> p + zlen d <= zlen l -> zlen (setslice l p d) = zlen l.
Proof.
  intros; unfold setslice. unfold zlen in *.
  rewrite !app_length, firstn_length, skipn_length; lia.
Qed.

Lemma setslice_eq {A} (l : list A) p d :
  0 <= p -> p + zlen d <= zlen l ->
  setslice l p d = slice l 0 p ++ d ++ slice l (p + zlen d) (zlen l).
Proof.
  intros; unfold setslice, slice, zlen in *.
  cbn [Z.to_nat skipn]. f_equal; [f_equal; lia|]. f_equal.
  rewrite firstn_all2.
  - f_equal; lia.
  - rewrite skipn_length; lia.
Qed.

Lemma slice_setslice_same {A} (l : list A) p d q :
  0 <= p -> p + zlen d <= zlen l -> q = p + zlen d -> slice (setslice l p d) p q = d.
Proof.
  intros Hp Hd ->. rewrite setslice_eq by assumption.
  assert (Hl : zlen (slice l 0 p) = p) by (rewrite zlen_slice; pose proof (zlen_nonneg d); lia).
  rewrite slice_app_r by lia. rewrite Hl, Z.sub_diag, Z.add_simpl_l.
  apply slice_app_full_l.
Qed.

Lemma slice_setslice_before {A} (l : list A) p d a b :
  0 <= a -> b <= p -> p + zlen d <= zlen l -> slice (setslice l p d) a b = slice l a b.
Proof.
  intros. destruct (Z_le_gt_dec b a); [rewrite !slice_empty by lia; reflexivity|].
  rewrite setslice_eq by lia.
  pose proof (zlen_nonneg d).
  rewrite slice_app_l by (try rewrite zlen_slice; lia).
  rewrite slice_slice by lia. f_equal; lia.
Qed.

Lemma slice_setslice_after {A} (l : list A) p d a b :
  0 <= p -> p + zlen d <= a -> p + zlen d <= zlen l ->
  slice (setslice l p d) a b = slice l a b.
Proof.
  intros Hp Ha Hl. pose proof (zlen_nonneg d).
  unfold setslice.
  rewrite slice_app_r by (unfold zlen; rewrite firstn_length; unfold zlen in *; lia).
  replace (zlen (firstn (Z.to_nat p) l)) with p
    by (unfold zlen in *; rewrite firstn_length; lia).
  rewrite slice_app_r by lia.
  unfold slice. rewrite skipn_skipn'. f_equal; [lia|].
  f_equal. unfold zlen in *; lia.
Qed.

Lemma slice_setslice_disjoint {A} (l : list A) p d a b :
  0 <= p -> 0 <= a -> p + zlen d <= zlen l -> b <= p \/ p + zlen d <= a ->
  slice (setslice l p d) a b = slice l a b.
Proof.
  intros Hp Ha Hl [H|H]; [apply slice_setslice_before|apply slice_setslice_after]; assumption.
Qed.

Lemma getb_setslice l p d i :
  0 <= p -> 0 <= i -> p + zlen d <= zlen l ->
  getb (setslice l p d) i =
  if (p <=? i) && (i <? p + zlen d) then getb d (i - p) else getb l i.
Proof.
  intros Hp Hi Hl. pose proof (zlen_nonneg d). rewrite setslice_eq by lia.
  assert (H0 : zlen (slice l 0 p) = p) by (rewrite zlen_slice; lia).
  destruct (p <=? i) eqn:E1; cbn [andb].
  - rewrite getb_app_r by lia. rewrite H0.
    destruct (i <? p + zlen d) eqn:E2.
    + rewrite getb_app_l by lia. reflexivity.
    + rewrite getb_app_r by lia.
      destruct (Z_lt_ge_dec i (zlen l)) as [Hlt|Hge].
      * rewrite getb_slice by lia. f_equal; lia.
      * rewrite !getb_oob; [reflexivity|lia|]. rewrite zlen_slice; lia.
  - rewrite getb_app_l by lia. rewrite getb_slice by lia. f_equal; lia.
Qed.

Lemma setslice_self {A} (l : list A) p q :
  0 <= p -> p <= q -> q <= zlen l -> setslice l p (slice l p q) = l.
Proof.
  intros. rewrite setslice_eq by (try rewrite zlen_slice; lia).
  rewrite zlen_slice by lia.
  replace (p + (q - p)) with q by lia.
  rewrite <- slice_split by lia. rewrite <- slice_split by lia. apply slice_full.
Qed.

(** bytes_ok *)
Lemma bytes_ok_app a b : bytes_ok (a ++ b) <-> bytes_ok a /\ bytes_ok b.
Proof. unfold bytes_ok; apply Forall_app. Qed.
Lemma Forall_firstn' {A} (P : A -> Prop) n l : Forall P l -> Forall P (firstn n l).
Proof.
  intros H; revert n; induction H; intros [|n]; cbn [firstn]; constructor; auto.
Qed.
Lemma Forall_skipn' {A} (P : A -> Prop) n l : Forall P l -> Forall P (skipn n l).
Proof.
  revert l; induction n as [|n IH]; intros l H; [assumption|].
  destruct H; cbn [skipn]; [constructor|auto].
Qed.
Lemma bytes_ok_slice l a b : bytes_ok l -> bytes_ok (slice l a b).
Proof. intros; unfold bytes_ok, slice; apply Forall_firstn', Forall_skipn'; assumption. Qed.
Lemma bytes_ok_setslice l p d : bytes_ok l -> bytes_ok d -> bytes_ok (setslice l p d).
Proof.
  intros; unfold bytes_ok, setslice.
  rewrite !Forall_app; repeat split; [apply Forall_firstn'|assumption|apply Forall_skipn']; assumption.
Qed.
Lemma bytes_ok_zrepeat b n : is_byte b -> bytes_ok (zrepeat b n).
Proof.
  intros; unfold bytes_ok, zrepeat. apply Forall_forall. intros x Hx.
  apply repeat_spec in Hx. subst; assumption.
Qed.
Lemma bytes_ok_getb l i : bytes_ok l -> is_byte (getb l i).
Proof.
  intros H. unfold getb. destruct (Nat.lt_ge_cases (Z.to_nat i) (length l)).
  - unfold bytes_ok in H. rewrite Forall_forall in H. apply H, nth_In; assumption.
  - rewrite nth_overflow by assumption. unfold is_byte; lia.
Qed.
Lemma is_byte_u8 x : is_byte (u8 x).
Proof. unfold is_byte, u8; apply Z.mod_pos_bound; lia. Qed.
Lemma u8_id x : is_byte x -> u8 x = x.
Proof. intros; unfold u8; apply Z.mod_small; assumption. Qed.
Lemma is_byteb_spec b : is_byteb b = true <-> is_byte b.
Proof. unfold is_byteb, is_byte; lia. Qed.
Lemma bytes_okb l : forallb is_byteb l = true -> bytes_ok l.
Proof.
  intros H; rewrite forallb_forall in H. apply Forall_forall.
  intros x Hx; apply is_byteb_spec; auto.
Qed.

(** words *)
Lemma le2_put2 x : le2 (getb (put2 x) 0) (getb (put2 x) 1) = u16 x.
Proof.
  change (u8 x + 256 * u8 (x / 256) = u16 x). unfold u8, u16.
  Z.to_euclidean_division_equations; lia.
Qed.
Lemma le2_u8 x : le2 (u8 x) (u8 (x / 256)) = u16 x.
Proof. exact (le2_put2 x). Qed.
Lemma u16_id x : 0 <= x < 65536 -> u16 x = x.
Proof. intros; unfold u16; apply Z.mod_small; assumption. Qed.
Lemma le2_range a b : is_byte a -> is_byte b -> 0 <= le2 a b < 65536.
Proof. unfold is_byte, le2; lia. Qed.
Lemma put2_le2 a b : is_byte a -> is_byte b -> put2 (le2 a b) = [a; b].
Proof.
  unfold is_byte, put2, le2, u8; intros.
  f_equal; [|f_equal]; Z.to_euclidean_division_equations; lia.
Qed.

(** updates *)
Lemma length_upd_nat {A} (l : list A) i v : length (upd_nat l i v) = length l.
Proof. revert i; induction l as [|x l IH]; intros [|i]; cbn; auto. Qed.
Lemma zlen_upd {A} (l : list A) i v : zlen (upd l i v) = zlen l.
Proof. unfold zlen, upd; rewrite length_upd_nat; reflexivity. Qed.
Lemma nth_upd_nat {A} (l : list A) i j v d :
  nth j (upd_nat l i v) d = if (Nat.eqb i j && Nat.ltb i (length l))%bool then v else nth j l d.
Proof.
  revert i j; induction l as [|x l IH]; intros i j; cbn [upd_nat length].
  - rewrite Bool.andb_false_r. destruct i; reflexivity.
  - destruct i, j; cbn [nth]; try reflexivity.
    rewrite IH. reflexivity.
Qed.
Lemma getb_upd l i j v :
  0 <= i -> 0 <= j -> i < zlen l ->
  getb (upd l i v) j = if i =? j then v else getb l j.
Proof.
  intros; unfold getb, upd, zlen in *. rewrite nth_upd_nat.
  destruct (Z.eqb_spec i j).
  - subst. rewrite Nat.eqb_refl. replace (Nat.ltb _ _) with true; [reflexivity|].
    symmetry; apply Nat.ltb_lt; lia.
  - replace (Nat.eqb _ _) with false; [reflexivity|].
    symmetry; apply Nat.eqb_neq; lia.
Qed.
Lemma upd_nat_split {A} (l : list A) i v :
  (i < length l)%nat -> upd_nat l i v = firstn i l ++ v :: skipn (S i) l.
Proof.
  revert i; induction l as [|x l IH]; intros i H; [cbn in H; lia|].
  destruct i; cbn [upd_nat firstn skipn app]; [reflexivity|].
  f_equal. apply IH. cbn in H; lia.
Qed.

(** zrange *)
Lemma length_zseq_nat a n : length (zseq_nat a n) = n.
Proof. revert a; induction n; intros; cbn; auto. Qed.
Lemma zlen_zrange a b : a <= b -> zlen (zrange a b) = b - a.
Proof. intros; unfold zlen, zrange; rewrite length_zseq_nat; lia. Qed.
Lemma In_zseq_nat x a n : In x (zseq_nat a n) <-> a <= x < a + Z.of_nat n.
Proof.
  revert a; induction n as [|n IH]; intros a; cbn [zseq_nat In]; [lia|].
  rewrite IH. lia.
Qed.
Lemma In_zrange x a b : In x (zrange a b) <-> a <= x < b.
Proof. unfold zrange; rewrite In_zseq_nat; lia. Qed.
Lemma zrange_nil a b : b <= a -> zrange a b = [].
Proof. intros; unfold zrange; replace (Z.to_nat (b - a)) with O by lia; reflexivity. Qed.
Lemma zrange_cons a b : a < b -> zrange a b = a :: zrange (a + 1) b.
Proof.
  intros; unfold zrange. replace (Z.to_nat (b - a)) with (S (Z.to_nat (b - (a + 1)))) by lia.
  reflexivity.
Qed.
Lemma NoDup_zseq_nat a n : NoDup (zseq_nat a n).
Proof.
  revert a; induction n as [|n IH]; intros a; cbn [zseq_nat]; constructor; auto.
  rewrite In_zseq_nat; lia.
Qed.
Lemma zseq_nat_app a n m : zseq_nat a (n + m) = zseq_nat a n ++ zseq_nat (a + Z.of_nat n) m.
Proof.
  revert a; induction n as [|n IH]; intros a; cbn [zseq_nat Nat.add app].
  - f_equal; lia.
  - rewrite IH. do 2 f_equal. f_equal; lia.
Qed.
Lemma getb_zseq_nat a n i : 0 <= i < Z.of_nat n -> getb (zseq_nat a n) i = a + i.
Proof.
  revert a i; induction n as [|n IH]; intros a i H; [lia|].
  cbn [zseq_nat]. destruct (Z.eq_dec i 0) as [->|]; [rewrite getb_cons0; lia|].
  rewrite getb_consS by lia. rewrite IH; lia.
Qed.
Lemma zrange_app a b c : a <= b -> b <= c -> zrange a c = zrange a b ++ zrange b c.
Proof.
  intros; unfold zrange.
  replace (Z.to_nat (c - a)) with (Z.to_nat (b - a) + Z.to_nat (c - b))%nat by lia.
  rewrite zseq_nat_app. do 2 f_equal; lia.
Qed.

Lemma zmem_In x l : zmem x l = true <-> In x l.
Proof.
  unfold zmem; rewrite existsb_exists. split.
  - intros (y & Hy & E). apply Z.eqb_eq in E; subst; assumption.
  - intros H; exists x; split; [assumption|apply Z.eqb_refl].
Qed.
Lemma zmem_false x l : zmem x l = false <-> ~ In x l.
Proof. rewrite <- zmem_In. destruct (zmem x l); split; congruence. Qed.

Lemma zlist_eqb_eq a b : zlist_eqb a b = true <-> a = b.
Proof.
  revert b; induction a as [|x a IH]; intros [|y b]; cbn [zlist_eqb]; split; intros H;
    try reflexivity; try discriminate.
  - apply andb_true_iff in H. destruct H as [E H]. apply Z.eqb_eq in E. apply IH in H.
    subst; reflexivity.
  - injection H as -> ->. rewrite Z.eqb_refl. apply IH; reflexivity.
Qed.
Lemma zlist_eqb_refl a : zlist_eqb a a = true.
Proof. apply zlist_eqb_eq; reflexivity. Qed.
Lemma zlist_eqb_neq a b : zlist_eqb a b = false <-> a <> b.
Proof. rewrite <- zlist_eqb_eq. destruct (zlist_eqb a b); split; congruence. Qed.

(** rstrip *)
Lemma rstripf_app f a b : rstripf f b <> [] -> rstripf f (a ++ b) = a ++ rstripf f b.
Proof.
  intros H; induction a as [|x a IH]; cbn [app rstripf]; [reflexivity|].
  rewrite IH. destruct (a ++ rstripf f b) eqn:E; [|reflexivity].
  apply app_eq_nil in E. tauto.
Qed.
Lemma rstripf_all f l : forallb f l = true -> rstripf f l = [].
Proof.
  induction l as [|x l IH]; cbn [forallb rstripf]; [reflexivity|].
  intros H; apply andb_true_iff in H; destruct H as [Hx Hl].
  rewrite IH by assumption. rewrite Hx; reflexivity.
Qed.
Lemma rstripf_app_all f a b : forallb f b = true -> rstripf f (a ++ b) = rstripf f a.
Proof.
  intros H; induction a as [|x a IH]; cbn [app rstripf]; [apply rstripf_all; assumption|].
  rewrite IH; reflexivity.
Qed.
Lemma rstripf_nil_iff f l : rstripf f l = [] <-> forallb f l = true.
Proof.
  split; [|apply rstripf_all].
  induction l as [|x l IH]; cbn [forallb rstripf]; [reflexivity|].
  destruct (rstripf f l); [|discriminate].
  destruct (f x) eqn:E; [|discriminate]. intros _. rewrite IH; reflexivity.
Qed.
(** [no_trail f l]: the last element, if any, does not satisfy [f]. *)
Definition no_trail (f : Z -> bool) (l : list Z) : Prop := rstripf f l = l.
Lemma rstripf_idem f l : rstripf f (rstripf f l) = rstripf f l.
Proof.
  induction l as [|x l IH]; cbn [rstripf]; [reflexivity|].
  destruct (rstripf f l) as [|y r] eqn:E.
  - destruct (f x) eqn:Ex; cbn [rstripf]; [reflexivity|rewrite Ex; reflexivity].
  - change (rstripf f (x :: y :: r)) with
      (match rstripf f (y :: r) with [] => if f x then [] else [x] | r' => x :: r' end).
    rewrite IH; reflexivity.
Qed.
Lemma rstripf_no_trail f l : no_trail f (rstripf f l).
Proof. apply rstripf_idem. Qed.
Lemma no_trail_snoc f l x : f x = false -> no_trail f (l ++ [x]).
Proof.
  intros H; unfold no_trail.
  rewrite rstripf_app; cbn [rstripf]; rewrite H; [reflexivity|discriminate].
Qed.
Lemma rstripf_decomp f l : exists t, l = rstripf f l ++ t /\ forallb f t = true.
Proof.
  induction l as [|x l [t [E Ht]]]; cbn [rstripf]; [exists []; auto|].
  destruct (rstripf f l) as [|y r] eqn:Er.
  - cbn [app] in E. subst t. destruct (f x) eqn:Ex.
    + exists (x :: l). cbn [forallb app]. rewrite Ex, Ht; auto.
    + exists l. auto.
  - exists t. split; [|assumption]. cbn [app]. f_equal. exact E.
Qed.
Lemma zlen_rstripf f l : zlen (rstripf f l) <= zlen l.
Proof.
  destruct (rstripf_decomp f l) as (t & E & _).
  rewrite E at 2. rewrite zlen_app. pose proof (zlen_nonneg t); lia.
Qed.
Lemma bytes_ok_rstripf f l : bytes_ok l -> bytes_ok (rstripf f l).
Proof.
  intros H. destruct (rstripf_decomp f l) as (t & E & _). rewrite E in H.
  apply bytes_ok_app in H; tauto.
Qed.

(** put_s *)
Lemma zlen_put_s n s : 0 <= n -> zlen (put_s n s) = n.
Proof.
  intros. unfold put_s. rewrite zlen_app. unfold zlen, zrepeat.
  rewrite firstn_length, repeat_length. lia.
Qed.
Lemma rstrip0_put_s n s :
  0 <= n -> zlen s <= n -> no_trail (Z.eqb 0) s -> rstrip0 (put_s n s) = s.
Proof.
  intros Hn Hs Ht. unfold put_s, rstrip0.
  rewrite firstn_all2 by (unfold zlen in Hs; lia).
  rewrite rstripf_app_all; [exact Ht|].
  unfold zrepeat. apply forallb_forall. intros x Hx. apply repeat_spec in Hx; subst; reflexivity.
Qed.
Lemma bytes_ok_put_s n s : bytes_ok s -> bytes_ok (put_s n s).
Proof.
  intros. unfold put_s. apply bytes_ok_app. split.
  - apply Forall_firstn'; assumption.
  - apply bytes_ok_zrepeat. unfold is_byte; lia.
Qed.

(** bits *)
Lemma length_unpackbits l : length (unpackbits l) = (8 * length l)%nat.
Proof.
  induction l as [|x l IH]; [reflexivity|].
  unfold unpackbits in *; cbn [flat_map]. rewrite app_length, IH. cbn. lia.
Qed.
Lemma zlen_unpackbits l : zlen (unpackbits l) = 8 * zlen l.
Proof. unfold zlen; rewrite length_unpackbits; lia. Qed.

Lemma nzbit_mod2 x : nzbit (x mod 2) = x mod 2.
Proof.
  unfold nzbit. pose proof (Z.mod_pos_bound x 2). destruct (Z.eqb_spec (x mod 2) 0); lia.
Qed.
Lemma packbits_unpackbits l : bytes_ok l -> packbits (unpackbits l) = l.
Proof.
  induction 1 as [|b l Hb Hl IH]; [reflexivity|].
  unfold unpackbits in *; cbn [flat_map unpack_byte map app packbits].
  rewrite !nzbit_mod2. f_equal; [|exact IH].
  unfold is_byte in Hb. Z.to_euclidean_division_equations; lia.
Qed.

Definition is_bit (b : Z) : Prop := b = 0 \/ b = 1.
Lemma unpackbits_bits l : Forall is_bit (unpackbits l).
Proof.
  induction l as [|b l IH]; [constructor|].
  unfold unpackbits in *; cbn [flat_map]. apply Forall_app; split; [|exact IH].
  unfold unpack_byte. apply Forall_forall; intros x Hx. apply in_map_iff in Hx.
  destruct Hx as (k & <- & _). unfold is_bit.
  pose proof (Z.mod_pos_bound (b / k) 2). lia.
Qed.

Lemma list8_ind (P : list Z -> Prop) :
  P [] ->
  (forall a b c d e f g h r, P r -> P (a :: b :: c :: d :: e :: f :: g :: h :: r)) ->
  forall l n, length l = (8 * n)%nat -> P l.
Proof.
  intros H0 H8 l n; revert l; induction n as [|n IH]; intros l Hl.
  - destruct l; [exact H0|cbn in Hl; lia].
  - do 8 (destruct l as [|? l]; [cbn in Hl; lia|]).
    apply H8, IH. cbn in Hl. lia.
Qed.
Lemma nzbit_bit x : is_bit x -> nzbit x = x.
Proof. intros [->| ->]; reflexivity. Qed.
Lemma unpackbits_packbits l n :
  length l = (8 * n)%nat -> Forall is_bit l -> unpackbits (packbits l) = l.
Proof.
  intros Hl Hb. revert Hb. pattern l. apply list8_ind with (n := n); [reflexivity| |exact Hl].
  clear. intros a b c d e f g h r IH Hb.
  cbn [packbits]. unfold unpackbits in *. cbn [flat_map unpack_byte map].
  repeat (apply Forall_inv in Hb as ?Hx; apply Forall_inv_tail in Hb).
  rewrite !nzbit_bit by assumption. rewrite IH by assumption. cbn [app].
  unfold is_bit in *.
  rewrite Z.div_1_r.
  repeat (f_equal; [Z.to_euclidean_division_equations; lia|]).
  f_equal; Z.to_euclidean_division_equations; lia.
Qed.
Lemma length_packbits l n : length l = (8 * n)%nat -> length (packbits l) = n.
Proof.
  revert l; induction n as [|n IH]; intros l Hl.
  - destruct l; [reflexivity|cbn in Hl; lia].
  - do 8 (destruct l as [|? l]; [cbn in Hl; lia|]).
    cbn [packbits length]. f_equal. apply IH. cbn in Hl; lia.
Qed.
Lemma bytes_ok_packbits l n : length l = (8 * n)%nat -> bytes_ok (packbits l).
Proof.
  intros Hl. pattern l. apply list8_ind with (n := n); [constructor| |exact Hl].
  clear. intros a b c d e f g h r IH. cbn [packbits]. constructor; [|exact IH].
  unfold is_byte, nzbit.
  destruct (a =? 0), (b =? 0), (c =? 0), (d =? 0), (e =? 0), (f =? 0), (g =? 0), (h =? 0); lia.
Qed.
(** bit [i] of the unpacked list, most significant bit first *)
Lemma getb_unpackbits l i :
  0 <= i < 8 * zlen l ->
  getb (unpackbits l) i = (getb l (i / 8) / 2 ^ (7 - i mod 8)) mod 2.
Proof.
  revert i; induction l as [|b l IH]; intros i Hi; [unfold zlen in Hi; cbn in Hi; lia|].
  rewrite zlen_cons in Hi.
  unfold unpackbits in *; cbn [flat_map].
  destruct (Z_lt_ge_dec i 8) as [Hlt|Hge].
  - rewrite getb_app_l by (cbn; lia).
    replace (i / 8) with 0 by (Z.to_euclidean_division_equations; lia).
    rewrite getb_cons0. replace (i mod 8) with i by (Z.to_euclidean_division_equations; lia).
    assert (i = 0 \/ i = 1 \/ i = 2 \/ i = 3 \/ i = 4 \/ i = 5 \/ i = 6 \/ i = 7) as Hc by lia.
    repeat (destruct Hc as [->|Hc]; [reflexivity|]). subst i. cbn. rewrite Z.div_1_r. reflexivity.
  - rewrite getb_app_r by (cbn; lia). change (zlen (unpack_byte b)) with 8.
    rewrite IH by lia. rewrite (getb_consS b l (i / 8)) by (Z.to_euclidean_division_equations; lia).
    replace ((i - 8) / 8) with (i / 8 - 1) by (Z.to_euclidean_division_equations; lia).
    replace ((i - 8) mod 8) with (i mod 8) by (Z.to_euclidean_division_equations; lia).
    reflexivity.
Qed.

(** first_nonzero *)
Lemma first_nonzero_spec l :
  match first_nonzero l with
  | Some i => 0 <= i < zlen l /\ getb l i <> 0 /\ forall j, 0 <= j < i -> getb l j = 0
  | None => forall j, getb l j = 0
  end.
Proof.
  induction l as [|x l IH]; cbn [first_nonzero].
  - intros j. unfold getb. destruct (Z.to_nat j); reflexivity.
  - destruct (Z.eqb_spec x 0) as [->|Hx].
    + destruct (first_nonzero l) as [i|].
      * destruct IH as (H1 & H2 & H3). rewrite zlen_cons. repeat split; try lia.
        -- rewrite getb_consS by lia. replace (i + 1 - 1) with i by lia. assumption.
        -- intros j Hj. destruct (Z.eq_dec j 0) as [->|]; [reflexivity|].
           rewrite getb_consS by lia. apply H3; lia.
      * intros j. unfold getb in *. destruct (Z.to_nat j) as [|n] eqn:E; [reflexivity|].
        specialize (IH (Z.of_nat n)). rewrite Nat2Z.id in IH. exact IH.
    + rewrite zlen_cons. pose proof (zlen_nonneg l). repeat split; try lia.
      exact Hx.
Qed.

Lemma flat_map_app' {A B} (f : A -> list B) a b : flat_map f (a ++ b) = flat_map f a ++ flat_map f b.
Proof. apply flat_map_app. Qed.

Lemma nth_error_nth' {A} (l : list A) n d x : nth_error l n = Some x -> nth n l d = x.
Proof. apply nth_error_nth. Qed.

Lemma flat_map_ext_in {A B} (f g : A -> list B) l :
  (forall x, In x l -> f x = g x) -> flat_map f l = flat_map g l.
Proof.
  induction l as [|x l IH]; intros H; [reflexivity|].
  cbn [flat_map]. rewrite H by (left; reflexivity). f_equal. apply IH. intros; apply H; right; assumption.
Qed.

(** [lia] on the arithmetic hypotheses only: much faster in large contexts. *)
Ltac arith_prop T :=
  lazymatch T with
  | Z.le _ _ => idtac | Z.lt _ _ => idtac | @eq Z _ _ => idtac
  | Nat.le _ _ => idtac | le _ _ => idtac | lt _ _ => idtac | @eq nat _ _ => idtac
  | ~ ?A => arith_prop A
  | ?A /\ ?B => arith_prop A; arith_prop B
  | ?A \/ ?B => arith_prop A; arith_prop B
  end.
Ltac keep_arith :=
  repeat match goal with H : _ /\ _ |- _ => destruct H end;
  repeat match goal with
  | H : ?T |- _ => lazymatch type of T with Prop => first [arith_prop T; fail 1 | clear H] end
  end.
Ltac zl := keep_arith; lia.
