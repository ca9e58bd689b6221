(** The sector map of a DOS 3.3 disk: reserving, marking, freeing. *)
From Verif Require Import Base BaseLemmas DiskModel DirLemmas AtariVtoc AtariWrite Dos33Model Dos33Spec Dos33Geom Dos33Vtoc Dos33Dir Dos33Files.

Definition smap3 (b : list Z) : list Z := parse_vtoc3 (vtoc b).

Section S.
  Variable b : list Z.
  Hypothesis Hb : zlen b = 143360.
  Hypothesis Ho : bytes_ok b.
  Let Hv : zlen (vtoc b) = 256 := zlen_sec b 272 Hb ltac:(lia).
  Let Hvo : bytes_ok (vtoc b) := bytes_ok_sec b 272 Ho.

  Lemma zlen_smap3 : zlen (smap3 b) = 1280.
  Proof. apply zlen_parse_vtoc3. assumption. Qed.
  Lemma getb_smap3 n : 0 <= n < 1280 -> getb (smap3 b) n = if n <? 800 then free_bit3 b n else 0.
  Proof. intros H. unfold smap3. rewrite getb_parse_vtoc3 by assumption. reflexivity. Qed.
  Lemma bits_smap3 : Forall is_bit (smap3 b).
  Proof.
    apply Forall_forall. intros x Hx. apply (In_nth _ _ 0) in Hx. destruct Hx as (m & Hm & <-).
    pose proof zlen_smap3 as Hz.
    replace (nth m (smap3 b) 0) with (getb (smap3 b) (Z.of_nat m)) by (unfold getb; rewrite Nat2Z.id; reflexivity).
    rewrite getb_smap3 by (unfold zlen in Hz; lia). destruct (_ <? 800); [apply free_bit3_bit|left; reflexivity].
  Qed.
  Lemma nz_smap3 : nz (smap3 b) = free_list3 b.
  Proof.
    unfold nz, free_list3. rewrite zlen_smap3. rewrite (zrange_app 0 800 1280) by lia.
    rewrite filter_app. rewrite (filter_none _ (zrange 800 1280)).
    - rewrite app_nil_r. apply filter_ext_in. intros x Hx. apply In_zrange in Hx.
      rewrite getb_smap3 by lia. replace (x <? 800) with true by lia.
      destruct (free_bit3_bit b x) as [-> | ->]; reflexivity.
    - intros x Hx. apply In_zrange in Hx. rewrite getb_smap3 by lia.
      replace (x <? 800) with false by lia. reflexivity.
  Qed.
  Lemma free_count3_list : free_count3 b = zlen (free_list3 b).
  Proof.
    unfold free_count3, free_list3. rewrite sum_bits by (intros; apply free_bit3_bit). f_equal.
    apply filter_ext_in. intros x _. destruct (free_bit3_bit b x) as [-> | ->]; reflexivity.
  Qed.
End S.

Lemma In_free_list3 b n : In n (free_list3 b) <-> 0 <= n < 800 /\ free_bit3 b n = 1.
Proof. unfold free_list3. rewrite filter_In, In_zrange, Z.eqb_eq. reflexivity. Qed.
Lemma NoDup_free_list3 b : NoDup (free_list3 b).
Proof. apply NoDup_filter, NoDup_zseq_nat. Qed.

(** The first free sectors are the lowest ones. *)
Lemma filter_zrange_firstn (p : Z -> bool) n : forall m a s r,
  In s (firstn n (filter p (zseq_nat a m))) -> p r = true -> a <= r -> r < s -> In r (firstn n (filter p (zseq_nat a m))).
Proof.
  assert (Low : forall m a x, In x (filter p (zseq_nat a m)) -> a <= x).
  { intros m. induction m as [|m IH]; intros a x Hx; [destruct Hx|]. cbn [zseq_nat filter] in Hx.
    destruct (p a); [destruct Hx as [<-|Hx]; [lia|]|]; apply IH in Hx; lia. }
  induction n as [|n IHn]; intros m; [intros a s r []|].
  induction m as [|m IHm]; intros a s r Hs Hr Ha Hlt; [destruct Hs|]. cbn [zseq_nat filter] in *.
  destruct (p a) eqn:E.
  - cbn [firstn] in *. destruct (Z.eq_dec r a) as [->|Hne]; [left; reflexivity|]. right.
    destruct Hs as [<-|Hs]; [lia|]. apply (IHn m (a + 1) s r); auto; lia.
  - destruct (Z.eq_dec r a) as [->|Hne]; [congruence|]. apply (IHm (a + 1) s r); auto; lia.
Qed.

Lemma lowest_first b n s r : In s (firstn n (free_list3 b)) -> 0 <= r -> free_bit3 b r = 1 -> r < s ->
  In r (firstn n (free_list3 b)).
Proof.
  unfold free_list3, zrange. generalize (Z.to_nat (800 - 0)) as m. intros m Hs Hr Hf Hlt.
  apply (filter_zrange_firstn (fun n => free_bit3 b n =? 1) n m 0 s r); auto. lia.
Qed.

(** Writing a sector map into the image. *)
Lemma write_map b sm : zlen b = 143360 -> bytes_ok b -> zlen sm = 1280 -> Forall is_bit sm ->
  let b' := wr b 272 (pack_vtoc3 (vtoc b) sm) in
  zlen b' = 143360 /\ bytes_ok b' /\ vtoc b' = pack_vtoc3 (vtoc b) sm /\
  (forall n, 0 <= n < 560 -> n <> 272 -> sec b' n = sec b n) /\
  (forall i, 0 <= i < 56 -> getb (vtoc b') i = getb (vtoc b) i) /\
  (forall n, 0 <= n < 800 -> free_bit3 b' n = getb sm n).
Proof.
  intros Hb Ho Hs Hbit. cbv zeta.
  assert (Hv : zlen (vtoc b) = 256) by (apply zlen_sec; [assumption|lia]).
  assert (Hvo : bytes_ok (vtoc b)) by (apply bytes_ok_sec; assumption).
  pose proof (zlen_pack_vtoc3 (vtoc b) sm Hv) as Hp.
  assert (Ev : vtoc (wr b 272 (pack_vtoc3 (vtoc b) sm)) = pack_vtoc3 (vtoc b) sm).
  { unfold vtoc at 1. rewrite sec_wr by (assumption || lia). reflexivity. }
  split; [apply zlen_wr; [assumption|lia|assumption]|].
  split; [apply bytes_ok_wr; [assumption|apply bytes_ok_pack_vtoc3; assumption]|].
  split; [assumption|]. split; [|split].
  - intros n Hn Hne. rewrite sec_wr by (assumption || lia). destruct (Z.eqb_spec n 272); [contradiction|reflexivity].
  - intros i Hi. rewrite Ev. apply pack_vtoc3_head; assumption.
  - intros n Hn. change (free_bit3 (wr b 272 (pack_vtoc3 (vtoc b) sm)) n)
      with (word_bit (vtoc (wr b 272 (pack_vtoc3 (vtoc b) sm))) n). rewrite Ev.
    apply word_bit_pack; assumption.
Qed.

Lemma bits_clear_all l m : Forall is_bit m -> Forall is_bit (clear_all l m).
Proof.
  revert m; induction l as [|i l IH]; intros m H; [assumption|]. cbn [clear_all fold_left].
  apply IH. unfold upd. clear -H. revert H. generalize (Z.to_nat i) as n.
  induction m as [|x m IHm]; intros n H; [destruct n; assumption|].
  inversion H; subst. destruct n; cbn [upd_nat]; constructor; auto. left; reflexivity.
Qed.
Lemma clear_all_app l1 l2 m : clear_all (l1 ++ l2) m = clear_all l2 (clear_all l1 m).
Proof. apply fold_left_app. Qed.

(** Reserving [n] sectors and then [m] more takes the first n+m free ones. *)
Lemma nz_clear_first m n : nz (clear_all (firstn n (nz m)) m) = skipn n (nz m).
Proof.
  revert m; induction n as [|n IH]; intros m; [reflexivity|].
  pose proof (nz_first m) as F. destruct (first_nonzero m) as [i|].
  - destruct F as [Hi F]. rewrite F. cbn [firstn skipn clear_all fold_left]. apply (IH (upd m i 0)).
  - rewrite F. cbn [firstn skipn clear_all fold_left]. assumption.
Qed.
