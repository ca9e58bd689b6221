(** Images given sector by sector, and a checker for Atari DOS 2 disks given so.
    Used for the template images in /repo/atrcopy/templates. *)
From Verif Require Import Base BaseLemmas DiskModel DirLemmas AtariModel AtariSpec AtariGeom AtariVtoc AtariOps AtariChain.

(** A table of sectors: number and bytes, without trailing zeros; sectors that
    are not in the table are zero. *)
Definition tab := list (Z * list Z).
Fixpoint row (t : tab) (n : Z) : list Z :=
  match t with [] => [] | (m, l) :: r => if m =? n then l else row r n end.
Definition padto (n : Z) (l : list Z) : list Z := l ++ zrepeat 0 (n - zlen l).
Definition tsec (ss : Z) (t : tab) (n : Z) : list Z := padto ss (row t n).
Definition is_byte_b (x : Z) : bool := (0 <=? x) && (x <? 256).
Definition tab_ok (ss : Z) (t : tab) : bool := forallb (fun p => (zlen (snd p) <=? ss) && forallb is_byte_b (snd p)) t.

Lemma forallb_bytes l : forallb is_byte_b l = true -> bytes_ok l.
Proof. intros H. apply Forall_forall. intros x Hx. rewrite forallb_forall in H. specialize (H x Hx). unfold is_byte_b in H. unfold is_byte. lia. Qed.
Lemma row_ok ss t n : tab_ok ss t = true -> 0 <= ss -> zlen (row t n) <= ss /\ bytes_ok (row t n).
Proof.
  intros H Hs. induction t as [|[m l] t IH]; [split; [exact Hs|constructor]|].
  cbn [tab_ok forallb snd] in H. apply andb_prop in H. destruct H as [H1 H2]. apply andb_prop in H1. destruct H1 as [H0 H1].
  cbn [row]. destruct (m =? n); [split; [lia|apply forallb_bytes; exact H1]|apply IH; exact H2].
Qed.
Lemma zlen_tsec ss t n : tab_ok ss t = true -> 0 <= ss -> zlen (tsec ss t n) = ss.
Proof. intros H Hs. destruct (row_ok ss t n H Hs). unfold tsec, padto. rewrite zlen_app, zlen_zrepeat by lia. lia. Qed.
Lemma bytes_tsec ss t n : tab_ok ss t = true -> 0 <= ss -> bytes_ok (tsec ss t n).
Proof. intros H Hs. destruct (row_ok ss t n H Hs). unfold tsec, padto. apply bytes_ok_app. split; [assumption|]. apply bytes_ok_zrepeat. unfold is_byte. lia. Qed.

Lemma slice_rows (F : Z -> list Z) ss n : 0 < ss -> (forall i, zlen (F i) = ss) -> forall m a, 0 <= n < Z.of_nat m ->
  slice (flat_map F (zseq_nat a m) : list Z) (ss * n) (ss * n + ss) = F (a + n).
Proof.
  intros Hs HF m. revert n. induction m as [|m IH]; intros n a Hn; [lia|]. cbn [zseq_nat flat_map].
  destruct (Z.eq_dec n 0) as [->|Hne].
  - rewrite slice_app_l by (rewrite ?HF; lia). rewrite Z.add_0_r, Z.mul_0_r. apply slice_all. rewrite HF. lia.
  - rewrite slice_app_r by (rewrite ?HF; nia). rewrite HF.
    replace (ss * n - ss) with (ss * (n - 1)) by ring.
    replace (ss * n + ss - ss) with (ss * (n - 1) + ss) by ring.
    rewrite IH by lia. f_equal. lia.
Qed.
Lemma zlen_rows (F : Z -> list Z) ss : (forall i, zlen (F i) = ss) -> forall m a, zlen (flat_map F (zseq_nat a m)) = ss * Z.of_nat m.
Proof. intros HF. induction m as [|m IH]; intros a; [cbn; lia|]. cbn [zseq_nat flat_map]. rewrite zlen_app, IH, HF. lia. Qed.
Lemma bytes_rows (F : Z -> list Z) l : (forall i, bytes_ok (F i)) -> bytes_ok (flat_map F l).
Proof. intros HF. induction l as [|x l IH]; [constructor|]. cbn [flat_map]. apply bytes_ok_app. split; [apply HF|assumption]. Qed.

(** A 16-byte header, 384 bytes of boot sectors, and the sectors from 4 on. *)
Definition atr_image (ss mx : Z) (hd boot : list Z) (t : tab) : list Z := hd ++ boot ++ flat_map (tsec ss t) (zrange 4 (mx + 1)).

(** * The checker *)
Definition fb (v : list Z) (n : Z) : Z := (getb v (10 + n / 8) / 2 ^ (7 - n mod 8)) mod 2.
Definition data_b (mx n : Z) : bool := (4 <=? n) && (n <=? mx) && (n <? 1024) && negb ((360 <=? n) && (n <=? 368)).
Definition free_ok (mx : Z) (v : list Z) : bool := forallb (fun n => (fb v n =? 0) || data_b mx n) (zrange 0 720).
Definition tslot (ss : Z) (t : tab) (i : Z) : list Z := slice (tsec ss t (361 + 16 * i / ss)) (16 * i mod ss) (16 * i mod ss + 16).
Definition has_b (e : list Z) (k : Z) : bool := (e_flag e / k) mod 2 =? 1.
Definition used_ok (e : list Z) : bool :=
  negb (e_flag e =? 0) && negb (has_b e 8) && zlist_eqb (rstrip0 (e_base e)) (e_base e) && zlist_eqb (rstrip0 (e_ext e)) (e_ext e).
Fixpoint names_ok (es : list (list Z)) : bool :=
  match es with [] => true | e :: r => forallb (fun e' => negb (has_b e' 64) || negb (zlist_eqb (e_name e) (e_name e'))) r && names_ok r end.
Fixpoint chain_ok (ss mx : Z) (t : tab) (v : list Z) (fno n : Z) (c : list Z) : bool :=
  match c with
  | [] => false
  | m :: r => let s := tsec ss t m in
      (m =? n) && data_b mx m && (link_file s =? fno) && (link_used s <=? ss - 3) && negb (existsb (Z.eqb m) r) &&
      ((720 <=? m) || (fb v m =? 0)) &&
      match r with [] => link_next s =? 0 | _ => chain_ok ss mx t v fno (link_next s) r end
  end.
Definition file_ok (ss mx : Z) (t : tab) (v : list Z) (fno : Z) (e : list Z) (c : list Z) : bool :=
  negb (has_b e 64) ||
  (negb (has_b e 4) && (e_count e <=? mx) && chain_ok ss mx t v fno (e_start e) c &&
   match c with [] => false | m :: _ => 0 <? link_used (tsec ss t m) end).
Definition disk_ok (ss mx : Z) (t : tab) (cs : list (list Z)) : bool :=
  let k := zlen cs in
  let v := tsec ss t 360 in
  tab_ok ss t && ((getb v 0 =? 0) || (getb v 0 =? 2)) && free_ok mx v && (k <=? 64) &&
  forallb (fun i => used_ok (tslot ss t i)) (zrange 0 k) &&
  forallb (fun i => e_flag (tslot ss t i) =? 0) (zrange k (ss / 2)) &&
  names_ok (map (tslot ss t) (zrange 0 k)) &&
  forallb (fun i => file_ok ss mx t v i (tslot ss t i) (nth (Z.to_nat i) cs [])) (zrange 0 k).

Section Sound.
  Variables ss skew mx : Z.
  Variables hd boot : list Z.
  Variable t : tab.
  Variable cs : list (list Z).
  Hypothesis Hss : 128 <= ss <= 256.
  Hypothesis H16 : ss mod 16 = 0.
  Hypothesis Hskew : 3 * ss - skew = 384.
  Hypothesis Hmx : 368 <= mx.
  Hypothesis Lh : zlen hd = 16.
  Hypothesis Lb : zlen boot = 384.
  Hypothesis Bh : forallb is_byte_b hd = true.
  Hypothesis Bb : forallb is_byte_b boot = true.
  Hypothesis OK : disk_ok ss mx t cs = true.

  Let b := atr_image ss mx hd boot t.
  Let g := mkG 16 ss skew mx.
  Let v := tsec ss t 360.

  Lemma ok_tab : tab_ok ss t = true.
  Proof. pose proof OK as K. unfold disk_ok in K. cbv zeta in K. do 7 (apply andb_prop in K; destruct K as [K _]). exact K. Qed.
  Lemma spos_t n : spos g n = 400 + ss * (n - 4).
  Proof. unfold spos, g. cbn [g_off g_ss g_skew]. nia. Qed.
  Lemma zlen_t : zlen b = 400 + ss * (mx - 3).
  Proof.
    unfold b, atr_image. rewrite !zlen_app. unfold zrange. rewrite (zlen_rows _ ss) by (intros i; apply zlen_tsec; [exact ok_tab|lia]).
    rewrite Z2Nat.id by lia. rewrite Lh, Lb. nia.
  Qed.
  Lemma sector_t n : 4 <= n <= mx -> sector g b n = tsec ss t n.
  Proof.
    intros Hn. unfold sector. rewrite spos_t. cbn [g_ss g]. unfold b, atr_image. rewrite slice_app_r by (rewrite Lh; nia). rewrite Lh. rewrite slice_app_r by (rewrite Lb; nia). rewrite Lb.
    replace (400 + ss * (n - 4) - 16 - 384) with (ss * (n - 4)) by ring. replace (400 + ss * (n - 4) + ss - 16 - 384) with (ss * (n - 4) + ss) by ring.
    unfold zrange. rewrite (slice_rows _ ss); [f_equal; lia|lia|intros i; apply zlen_tsec; [exact ok_tab|lia]|lia].
  Qed.
  Lemma slot_t i : 0 <= i < ss / 2 -> slot g b i = tslot ss t i.
  Proof.
    intros Hi. unfold slot, tslot. set (q := 16 * i / ss). set (r := 16 * i mod ss).
    assert (E : 16 * i = ss * q + r) by (apply Z.div_mod; lia).
    assert (R : 0 <= r < ss) by (apply Z.mod_pos_bound; lia).
    assert (Q : 0 <= q < 8).
    { assert (16 * i < 8 * ss) by (Z.to_euclidean_division_equations; lia). nia. }
    assert (R16 : r + 16 <= ss).
    { assert (exists s', ss = 16 * s') as [s' Es] by (exists (ss / 16); Z.to_euclidean_division_equations; lia).
      assert (r = 16 * (i - s' * q)) by nia. nia. }
    rewrite <- sector_t by lia. unfold sector. cbn [g_ss g]. rewrite slice_slice; [|rewrite spos_t; nia|lia|lia].
    f_equal; rewrite !spos_t; nia.
  Qed.
  Lemma free_t n : free_bit g b n = fb v n.
  Proof. unfold free_bit, fb. rewrite sector_t by lia. reflexivity. Qed.
  Lemma bytes_t : bytes_ok b.
  Proof.
    unfold b, atr_image. rewrite !bytes_ok_app. split; [apply forallb_bytes; exact Bh|]. split; [apply forallb_bytes; exact Bb|].
    apply bytes_rows. intros i. apply bytes_tsec; [exact ok_tab|lia].
  Qed.
  Lemma data_t n : data_b mx n = true -> data_sector g n.
  Proof. unfold data_b, data_sector. cbn [g_max g]. lia. Qed.
  Lemma has_t e k : has_b e k = true <-> flag_has e k.
  Proof. unfold has_b, flag_has. lia. Qed.
  Lemma chain_t fno : 0 <= fno -> forall c n, chain_ok ss mx t v fno n c = true ->
    chain g b fno n c /\ (forall m, In m c -> m < 720 -> free_bit g b m = 0).
  Proof.
    intros F0. assert (NL : forall s, next_link fno s = link_next s) by (intros s; unfold next_link; replace (fno =? -1) with false by lia; reflexivity).
    induction c as [|m r IH]; intros n H; [discriminate|]. cbn [chain_ok] in H. cbv zeta in H.
    apply andb_prop in H; destruct H as [H Hn]. do 5 (let X := fresh "C" in apply andb_prop in H; destruct H as [H X]).
    assert (m = n) by lia. subst m. clear H. apply data_t in C3. assert (RN : 4 <= n <= mx) by (destruct C3 as (? & _); exact H).
    pose proof (sector_t n RN) as SE.
    assert (NI : ~ In n r).
    { intros Hi. assert (existsb (Z.eqb n) r = true) by (apply existsb_exists; exists n; split; [exact Hi|lia]). rewrite H in C0. discriminate. }
    assert (FN : forall m, m = n -> m < 720 -> free_bit g b m = 0) by (intros m -> ?; rewrite free_t; lia).
    destruct r as [|m' r'].
    - split; [|intros m [<-|[]]; apply FN; reflexivity]. apply chain_end; rewrite ?NL, ?SE; try lia; try exact C3; [right; lia|]. cbn [g_ss g]. lia.
    - destruct (IH _ Hn) as [CH FR]. split; [|intros m [<-|Hm]; [apply FN; reflexivity|apply FR; exact Hm]].
      apply chain_more; rewrite ?NL, ?SE; try lia; try exact C3; try exact NI; try exact CH; [right; lia|]. cbn [g_ss g]. lia.
  Qed.
  Lemma contents_t fno c n : 0 <= fno -> chain_ok ss mx t v fno n c = true ->
    contents g b c = flat_map (fun n => let s := tsec ss t n in slice s 0 (link_used s)) c.
  Proof.
    intros F0 H. apply chain_t in H; [|exact F0]. destruct H as [H _]. unfold contents. induction H as [n (D & _) _ _ _|n c (D & _) _ _ _ _ IH]; cbn [flat_map g_max g] in *; cbv zeta; rewrite sector_t by lia; [reflexivity|].
    f_equal. exact IH.
  Qed.
  Lemma names_t : forall es i j, names_ok es = true -> (i < j)%nat -> (j < length es)%nat -> e_live (nth j es []) -> e_name (nth i es []) <> e_name (nth j es []).
  Proof.
    induction es as [|e es IH]; intros i j H Hij Hj Lv; [cbn in Hj; lia|]. cbn [names_ok] in H. apply andb_prop in H. destruct H as [H1 H2].
    destruct j as [|j]; [lia|]. cbn [length nth] in *. destruct i as [|i]; [|apply IH; (assumption || lia)].
    rewrite forallb_forall in H1. assert (J : (j < length es)%nat) by lia. specialize (H1 (nth j es []) (nth_In es [] J)). apply has_t in Lv. rewrite Lv in H1. cbn [negb orb] in H1.
    intros E. rewrite E in H1. rewrite zlist_eqb_refl in H1. discriminate.
  Qed.
  Lemma nth_slots i k : 0 <= i < k -> nth (Z.to_nat i) (map (tslot ss t) (zrange 0 k)) [] = tslot ss t i.
  Proof.
    intros H. assert (G : forall m a n, (n < m)%nat -> nth n (map (tslot ss t) (zseq_nat a m)) [] = tslot ss t (a + Z.of_nat n)).
    { induction m as [|m IH]; intros a n Hn; [lia|]. cbn [zseq_nat map]. destruct n as [|n]; cbn [nth]; [f_equal; lia|]. rewrite IH by lia. f_equal. lia. }
    unfold zrange. rewrite G by lia. f_equal. lia.
  Qed.

  Theorem disk_ok_sound : dos2_disk g b (zlen cs).
  Proof.
    pose proof OK as K. unfold disk_ok in K. cbv zeta in K. fold v in K.
    apply andb_prop in K; destruct K as [K Kf]. apply andb_prop in K; destruct K as [K Kn]. apply andb_prop in K; destruct K as [K Ku].
    apply andb_prop in K; destruct K as [K Ks]. apply andb_prop in K; destruct K as [K Kk]. apply andb_prop in K; destruct K as [K Kfr].
    apply andb_prop in K; destruct K as [Kt Kv]. pose proof (zlen_nonneg cs) as N0. assert (K64 : zlen cs <= 64) by lia.
    assert (S2 : 64 <= ss / 2) by (Z.to_euclidean_division_equations; lia).
    rewrite forallb_forall in Kf, Ku, Ks. pose proof Kf as Kf0. constructor.
    - exact bytes_t.
    - exact (conj Hss H16).
    - exact Hmx.
    - rewrite spos_t. lia.
    - rewrite spos_t, zlen_t. cbn [g_max g_ss g]. nia.
    - rewrite sector_t by lia. fold v. lia.
    - intros n Hn F1. rewrite free_t in F1. unfold free_ok in Kfr. rewrite forallb_forall in Kfr. specialize (Kfr n (proj2 (In_zrange n 0 720) Hn)).
      rewrite F1 in Kfr. cbn [orb Z.eqb] in Kfr. apply data_t. exact Kfr.
    - lia.
    - intros i Hi. rewrite slot_t by lia. specialize (Ks i (proj2 (In_zrange i _ _) Hi)). unfold used_ok in Ks.
      apply andb_prop in Ks; destruct Ks as [Ks K4]. apply andb_prop in Ks; destruct Ks as [Ks K3]. apply andb_prop in Ks; destruct Ks as [K1 K2].
      split; [lia|]. split; [rewrite <- has_t; destruct (has_b _ _); [discriminate|congruence]|]. split; apply zlist_eqb_eq; assumption.
    - intros i Hi. unfold num_slots in Hi. cbn [g_ss g] in Hi. rewrite slot_t by lia. specialize (Ku i (proj2 (In_zrange i _ _) Hi)). lia.
    - intros i j Hij Hj Lv. rewrite slot_t in Lv by lia. rewrite !slot_t by lia. rewrite <- (nth_slots i (zlen cs)), <- (nth_slots j (zlen cs)) in * by lia.
      apply (names_t _ (Z.to_nat i) (Z.to_nat j) Kn); [lia| |exact Lv]. rewrite map_length. pose proof (zlen_zrange 0 (zlen cs) ltac:(lia)) as ZL. unfold zlen at 1 in ZL. lia.
    - intros i Hi Lv. rewrite slot_t in Lv by lia. rewrite !slot_t by lia. specialize (Kf i (proj2 (In_zrange i _ _) Hi)). unfold file_ok in Kf.
      apply has_t in Lv. rewrite Lv in Kf. cbn [negb orb] in Kf.
      apply andb_prop in Kf; destruct Kf as [Kf K4]. apply andb_prop in Kf; destruct Kf as [Kf K3]. apply andb_prop in Kf; destruct Kf as [K1 K2].
      assert (MY : forall j, 0 <= j < zlen cs -> e_live (slot g b j) -> ~ flag_has (slot g b j) 4).
      { intros j Hj Lj. rewrite slot_t in Lj by lia. rewrite slot_t by lia. specialize (Kf0 j (proj2 (In_zrange j _ _) Hj)). unfold file_ok in Kf0.
        apply has_t in Lj. rewrite Lj in Kf0. cbn [negb orb] in Kf0. do 3 (apply andb_prop in Kf0; destruct Kf0 as [Kf0 _]).
        rewrite <- has_t. intros X. rewrite X in Kf0. discriminate Kf0. }
      assert (LV : e_live (slot g b i)) by (rewrite slot_t by lia; apply has_t; exact Lv).
      split; [intros j c c' n Hj Hji Lj; apply apart_dos2; try lia; apply MY; assumption|]. split; [cbn [g_max g]; lia|].
      exists (nth (Z.to_nat i) cs []). destruct (chain_t i ltac:(lia) _ _ K3) as [CH FR].
      split; [unfold slot_chain; rewrite owner_dos2 by (apply MY; assumption); rewrite slot_t by lia; exact CH|]. split; [|exact FR].
      rewrite (contents_t i _ _ ltac:(lia) K3). destruct (nth (Z.to_nat i) cs []) as [|m r]; [discriminate|]. cbn [flat_map]. cbv zeta.
      intros E. apply app_eq_nil in E. destruct E as [E _]. pose proof (zlen_tsec ss t m ok_tab ltac:(lia)) as LT.
      cbn [chain_ok] in K3. cbv zeta in K3. apply andb_prop in K3; destruct K3 as [K3 _]. do 2 (apply andb_prop in K3; destruct K3 as [K3 _]). apply andb_prop in K3; destruct K3 as [_ K3].
      assert (Z0 : zlen (slice (tsec ss t m) 0 (link_used (tsec ss t m))) = 0) by (rewrite E; reflexivity). rewrite zlen_slice in Z0 by lia. lia.
  Qed.
  Lemma slot_name i : 0 <= i < ss / 2 -> e_name (slot g b i) = e_name (tslot ss t i).
  Proof. intros H. rewrite slot_t by exact H. reflexivity. Qed.
End Sound.
