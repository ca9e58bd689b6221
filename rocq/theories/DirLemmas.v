(** Filling directory sectors: [calc_dir_sectors] lays the encoded entries out
    one after another behind each sector's fixed head, padded with zeros. *)
From Verif Require Import Base BaseLemmas DiskModel.

(** A sector with head [hd], payload [p] and zeros to the end. *)
Definition fill_sec (ss : Z) (num : Z) (used0 : Z) (hd p : list Z) : wsector :=
  mkS num ss 0 (hd ++ p ++ zrepeat 0 (ss - zlen hd - zlen p)) (used0 + zlen p) (zlen hd + zlen p).

Lemma add_data_fill ss num u0 hd p d :
  zlen hd + zlen p <= ss ->
  let count := Z.min (zlen d) (ss - zlen hd - zlen p) in
  add_data (fill_sec ss num u0 hd p) d
  = (fill_sec ss num u0 hd (p ++ slice d 0 count), slice d count (zlen d)).
Proof.
  intros Hle count. pose proof (zlen_nonneg hd). pose proof (zlen_nonneg p).
  pose proof (zlen_nonneg d).
  unfold add_data, fill_sec. cbn [s_size s_ptr s_num s_fnum s_data s_used].
  replace (if ss <? zlen hd + zlen p + zlen d then ss - (zlen hd + zlen p) else zlen d)
    with count by (unfold count; destruct (ss <? _) eqn:E; lia).
  assert (Hc : 0 <= count <= zlen d /\ count <= ss - zlen hd - zlen p) by (unfold count; lia).
  assert (Hs : zlen (slice d 0 count) = count) by (rewrite zlen_slice; lia).
  f_equal. rewrite zlen_app, Hs. f_equal; try lia.
  unfold setslice.
  replace (Z.to_nat (zlen hd + zlen p)) with (length (hd ++ p))
    by (rewrite app_length; unfold zlen; lia).
  rewrite (app_assoc hd p (zrepeat _ _)). rewrite firstn_app, Nat.sub_diag, firstn_O, app_nil_r, firstn_all.
  rewrite <- skipn_skipn'. rewrite skipn_app, skipn_all, Nat.sub_diag. cbn [app skipn].
  rewrite <- !app_assoc. do 3 f_equal.
  unfold zrepeat.
  replace (Z.to_nat (ss - zlen hd - zlen p))
    with (length (slice d 0 count) + Z.to_nat (ss - zlen hd - (zlen p + count)))%nat
    by (unfold zlen in *; lia).
  rewrite repeat_app, skipn_app.
  rewrite skipn_all2 by (rewrite repeat_length; lia).
  rewrite repeat_length, Nat.sub_diag. reflexivity.
Qed.

Definition payload_of (q ss : Z) (s : wsector) : list Z := slice (s_data s) q ss.
Definition full_sec (ss num u0 : Z) (hd : list Z) (s : wsector) : Prop :=
  exists p, s = fill_sec ss num u0 hd p /\ zlen hd + zlen p = ss.

Section Store.
  Variables (ss num u0 : Z) (hd : list Z).
  Hypothesis Hq : zlen hd < ss.
  Let fresh := fill_sec ss num u0 hd [].

  Lemma payload_fill p : zlen hd + zlen p <= ss ->
    payload_of (zlen hd) ss (fill_sec ss num u0 hd p) = p ++ zrepeat 0 (ss - zlen hd - zlen p).
  Proof.
    intros. unfold payload_of, fill_sec. cbn [s_data].
    apply slice_app_full_r. rewrite zlen_app, zlen_zrepeat by lia. lia.
  Qed.

  Lemma store_encoded_spec fuel : forall done p d,
    zlen hd + zlen p <= ss -> d <> [] ->
    (length d + (if Z.eqb (zlen hd + zlen p) ss then 2 else 1) <= fuel)%nat ->
    exists done' p',
      store_encoded fuel fresh done (fill_sec ss num u0 hd p) d
        = Ok (done', fill_sec ss num u0 hd p') /\
      flat_map (payload_of (zlen hd) ss) done' ++ p'
        = flat_map (payload_of (zlen hd) ss) done ++ p ++ d /\
      zlen hd + zlen p' <= ss /\ p' <> [] /\
      (Forall (full_sec ss num u0 hd) done -> Forall (full_sec ss num u0 hd) done').
  Proof.
    induction fuel as [|fuel IH]; intros done p d Hp Hd Hf; [destruct (_ =? _) in Hf; lia|].
    cbn [store_encoded]. rewrite (add_data_fill ss num u0 hd p d Hp).
    set (count := Z.min (zlen d) (ss - zlen hd - zlen p)).
    pose proof (zlen_nonneg d). pose proof (zlen_nonneg p). pose proof (zlen_nonneg hd).
    assert (Hc : 0 <= count <= zlen d /\ count <= ss - zlen hd - zlen p) by (unfold count; lia).
    assert (Hs : zlen (slice d 0 count) = count) by (rewrite zlen_slice; lia).
    assert (Hr : zlen (slice d count (zlen d)) = zlen d - count) by (rewrite zlen_slice; lia).
    assert (Hsplit : slice d 0 count ++ slice d count (zlen d) = d)
      by (rewrite <- slice_split by lia; apply slice_full).
    destruct (slice d count (zlen d)) as [|x r] eqn:E.
    - exists done, (p ++ slice d 0 count).
      rewrite app_nil_r in Hsplit. rewrite Hsplit in *.
      split; [reflexivity|]. split; [reflexivity|]. split; [rewrite zlen_app; lia|].
      split; [|auto]. intros C. apply app_eq_nil in C. tauto.
    - destruct (IH (done ++ [fill_sec ss num u0 hd (p ++ slice d 0 count)]) [] (x :: r))
        as (done' & p' & E1 & E2 & E3 & E4 & E5).
      + rewrite zlen_nil. lia.
      + discriminate.
      + rewrite zlen_nil, Z.add_0_r.
        replace (zlen hd =? ss) with false by lia.
        destruct (Z.eqb_spec (zlen hd + zlen p) ss).
        * assert (count = 0) by lia. subst count. unfold zlen in *. lia.
        * assert (0 < count).
          { assert (0 < zlen d) by (destruct d; [congruence|rewrite zlen_cons; pose proof (zlen_nonneg d); lia]).
            unfold count. lia. }
          unfold zlen in *. lia.
      + exists done', p'. split; [exact E1|]. split.
        * rewrite E2, flat_map_app. cbn [flat_map]. rewrite app_nil_r.
          assert (Hfull : count = ss - zlen hd - zlen p).
          { rewrite zlen_cons in Hr. pose proof (zlen_nonneg r). unfold count in *. lia. }
          rewrite payload_fill by (rewrite zlen_app; lia).
          replace (ss - zlen hd - zlen (p ++ slice d 0 count)) with 0 by (rewrite zlen_app; lia).
          cbn [zrepeat Z.to_nat repeat app]. rewrite app_nil_r.
          rewrite <- !app_assoc. rewrite Hsplit. reflexivity.
        * split; [assumption|]. split; [assumption|]. intros Hdone. apply E5.
          apply Forall_app; split; [assumption|]. constructor; [|constructor].
          exists (p ++ slice d 0 count). split; [reflexivity|].
          rewrite zlen_app. rewrite zlen_cons in Hr. pose proof (zlen_nonneg r).
          unfold count in *. lia.
  Qed.

  Lemma store_all_spec es : forall done p,
    zlen hd + zlen p <= ss -> Forall (fun e => e <> []) es ->
    exists done' p',
      store_all fresh done (fill_sec ss num u0 hd p) es
        = Ok (done', fill_sec ss num u0 hd p') /\
      flat_map (payload_of (zlen hd) ss) done' ++ p'
        = flat_map (payload_of (zlen hd) ss) done ++ p ++ concat es /\
      zlen hd + zlen p' <= ss /\ (es <> [] -> p' <> []) /\
      (Forall (full_sec ss num u0 hd) done -> Forall (full_sec ss num u0 hd) done').
  Proof.
    induction es as [|e es IH]; intros done p Hp Hes.
    - exists done, p. cbn [store_all concat]. rewrite app_nil_r. repeat split; auto.
    - inversion Hes as [|? ? He Hes']; subst.
      cbn [store_all].
      destruct (store_encoded_spec (length e + 2) done p e Hp He) as (d1 & p1 & E1 & E2 & E3 & E4 & E5).
      { destruct (_ =? _); lia. }
      rewrite E1. cbn [rbind].
      destruct (IH d1 p1 E3 Hes') as (d2 & p2 & F1 & F2 & F3 & F4 & F5).
      exists d2, p2. split; [exact F1|]. split.
      + rewrite F2. cbn [concat]. rewrite (app_assoc _ p1), E2. rewrite <- !app_assoc. reflexivity.
      + split; [assumption|]. split; [|auto]. intros _.
        destruct es; [|apply F4; discriminate].
        cbn [store_all] in F1.
        assert (Hpp : zlen p2 = zlen p1).
        { assert (E : fill_sec ss num u0 hd p1 = fill_sec ss num u0 hd p2) by congruence.
          apply (f_equal s_ptr) in E. cbn [s_ptr fill_sec] in E. lia. }
        intros ->. destruct p1; [congruence|]. rewrite zlen_nil, zlen_cons in Hpp.
        pose proof (zlen_nonneg p1). lia.
  Qed.

  (** Every sector starts with [hd]; the payloads form the entries' stream
      followed by less than one payload of zeros. *)
  Lemma calc_dir_sectors_spec es :
    es <> [] -> Forall (fun e => e <> []) es ->
    exists l pad,
      calc_dir_sectors fresh es = Ok l /\
      0 <= pad < ss - zlen hd /\
      flat_map (payload_of (zlen hd) ss) l = concat es ++ zrepeat 0 pad /\
      Forall (fun s => exists p, s = fill_sec ss num u0 hd p /\ zlen hd + zlen p <= ss /\ p <> []) l.
  Proof.
    intros Hne Hes. unfold calc_dir_sectors.
    destruct (store_all_spec es [] []) as (done & p & E1 & E2 & E3 & E4 & E5);
      [rewrite zlen_nil; lia|assumption|].
    unfold fresh at 2. rewrite E1. cbn [rbind].
    specialize (E4 Hne). pose proof (zlen_nonneg p). pose proof (zlen_nonneg hd).
    assert (0 < zlen p) by (destruct p; [congruence|rewrite zlen_cons; pose proof (zlen_nonneg p); lia]).
    replace (s_ptr (fill_sec ss num u0 hd p) =? 0) with false by (cbn [s_ptr fill_sec]; lia).
    exists (done ++ [fill_sec ss num u0 hd p]), (ss - zlen hd - zlen p).
    split; [reflexivity|]. split; [lia|]. split.
    - rewrite flat_map_app. cbn [flat_map]. rewrite app_nil_r, payload_fill by assumption.
      rewrite app_assoc. rewrite E2. reflexivity.
    - apply Forall_app. split.
      + specialize (E5 (Forall_nil _)). revert E5. apply Forall_impl.
        intros s (p' & -> & Hp'). exists p'. repeat split; [lia|].
        intros ->. rewrite zlen_nil in Hp'. lia.
      + constructor; [|constructor]. exists p. auto.
  Qed.
End Store.
