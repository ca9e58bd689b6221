(** A checker for DOS 3.3 disks given sector by sector. *)
From Verif Require Import Base BaseLemmas DiskModel DirLemmas AtariModel AtariSpec AtariGeom AtariHeader SpartaModel ExecModel DetectModel DetectSpec DetectProofs DetectErrors DetectErrors2 DetectErrors3 DetectStay DetectDsk Properties_Detect Properties_Detect2 Properties_Detect3 MainModel MainProofs MainInst TemplAtari Dos33Model Dos33Spec Dos33Geom Dos33Files Dos33Ops Dos33Session Dos33Demo.

(** What the parsers tried before those for Apple disks look at. *)
Lemma plain_boot b : bytes_ok b -> zlen b = 143360 -> zmem (getb b 0) [0x96; 255; 67] = false -> zmem (getb b 32) [0x11; 0x20; 0x21] = false -> apple_boot b.
Proof.
  intros Hb L X0 X. apply zmem_false in X0. cbn [In] in X0. assert (NA : ~ has_atr_header b) by (intros (_ & P & _); apply X0; left; congruence).
  constructor; [exact NA|intros [P _]; apply X0; right; left; congruence| |].
  - intros E. assert (G : getb (slice b 0 4) 0 = 67) by (rewrite E; reflexivity). rewrite getb_slice in G by lia. apply X0. right. right. left. symmetry. exact G.
  - intros (h & s & E & BI).
    assert (US : usual_sectors b) by (intros Q; contradiction).
    destruct (header_usual b Hb US) as (h' & E' & S1 & _ & O & _ & OI). assert (h' = h) by congruence. subst h'.
    assert (O0 : h_offset h = 0) by (destruct O as [O|O]; [exact O|exfalso; apply NA, OI, O]).
    unfold boot_sector_info in BI. destruct (get_sectors h b 1 1) as [d|] eqn:GS; cbn [rbind] in BI; [|discriminate].
    destruct (one_sector b h Hb E S1 1 d GS) as (p & z & P & -> & Lz).
    assert (P0 : p = 0).
    { unfold get_pos in P. destruct (negb (sector_valid h 1)); [discriminate P|]. destruct (hdr_of_facts b h Hb E) as (_ & _ & _ & _ & F5).
      destruct (1 <=? h_ninit h) eqn:NI; injection P as <- <-; [lia|].
      destruct F5 as [(F & _)|(F & _)]; [lia|rewrite F, O0; lia]. }
    subst p. destruct (pos_size b h Hb E S1 1 0 z P) as (A1 & A2 & _).
    destruct (zlen _ =? 0); [discriminate|]. destruct (negb _); [discriminate|].
    rewrite !getb_slice in BI by lia. change (0 + (0 + 32)) with 32 in BI. rewrite X in BI.
    rewrite andb_false_r in BI. discriminate.
Qed.

(** * The checker *)
Fixpoint links_ok (t : tab) (n : Z) (l : list Z) : bool :=
  match l with
  | [] => n =? 0
  | m :: r => (m =? n) && (0 <? n) && (n <? 560) && negb (existsb (Z.eqb n) r) && links_ok t (lnk (tsec 256 t n)) r
  end.
Fixpoint nodup_b (l : list Z) : bool := match l with [] => true | x :: r => negb (existsb (Z.eqb x) r) && nodup_b r end.
Definition fb3 (v : list Z) (n : Z) : Z := ((256 * getb v (56 + 4 * (n / 16)) + getb v (57 + 4 * (n / 16))) / 2 ^ (n mod 16)) mod 2.
Definition data3_b (cat : list Z) (n : Z) : bool := (16 <=? n) && (n <? 560) && negb (n =? 272) && negb (existsb (Z.eqb n) cat).
Definition tslot3 (t : tab) (cat : list Z) (i : Z) : list Z :=
  slice (flat_map (fun n => slice (tsec 256 t n) 11 256) cat) (35 * i) (35 * i + 35).
Definition live3_b (e : list Z) : bool := negb (getb e 0 =? 255) && negb (getb e 2 =? 0).
Definition used3_b (e : list Z) : bool := (getb e 0 =? 255) || live3_b e.
Fixpoint names3_ok (es : list (list Z)) : bool :=
  match es with [] => true | e :: r => forallb (fun e' => negb (live3_b e') || negb (zlist_eqb (x_name e) (x_name e'))) r && names3_ok r end.
Definition file3_ok (t : tab) (cat v e : list Z) (tl dl : list Z) : bool :=
  negb (live3_b e) ||
  (negb (getb e 0 =? 0) && negb (x_type e =? 0) && links_ok t (x_start e) tl && (zlen tl + zlen dl =? x_count e) &&
   zlist_eqb (slice (flat_map (fun n => pairs (tsec 256 t n)) tl) 0 (zlen dl)) dl && (0 <? zlen dl) && nodup_b (tl ++ dl) &&
   forallb (fun n => data3_b cat n && (fb3 v n =? 0)) (tl ++ dl)).
(** [cs] has the sectors of the files; at most one entry may be a file. *)
Definition disk33_ok (t : tab) (cat : list Z) (cs : list (list Z * list Z)) : bool :=
  let k := zlen cs in
  let v := tsec 256 t 272 in
  tab_ok 256 t && negb (zlist_eqb (slice (tsec 256 t 0) 0 4) [1; 56; 176; 3]) && (getb v 1 <? 35) && (getb v 2 <? 16) && (getb v 39 =? 122) &&
  (getb v 52 * getb v 53 =? 560) && links_ok t (lnk v) cat && negb (existsb (Z.eqb 272) cat) &&
  forallb (fun n => (fb3 v n =? 0) || data3_b cat n) (zrange 0 800) && (k <=? 7 * (zlen cat - 1)) &&
  forallb (fun i => let e := tslot3 t cat i in used3_b e && zlist_eqb (rstrip (x_name e)) (x_name e)) (zrange 0 k) &&
  forallb (fun i => negb (used3_b (tslot3 t cat i))) (zrange k (7 * zlen cat)) &&
  names3_ok (map (tslot3 t cat) (zrange 0 k)) &&
  forallb (fun i => file3_ok t cat v (tslot3 t cat i) (fst (nth (Z.to_nat i) cs ([], []))) (snd (nth (Z.to_nat i) cs ([], [])))) (zrange 0 k) &&
  (zlen (filter (fun i => live3_b (tslot3 t cat i)) (zrange 0 k)) <=? 1).

Lemma not_in_b n l : existsb (Z.eqb n) l = false -> ~ In n l.
Proof. intros H Hi. assert (existsb (Z.eqb n) l = true) by (apply existsb_exists; exists n; split; [exact Hi|lia]). congruence. Qed.
Lemma nodup_t l : nodup_b l = true -> NoDup l.
Proof.
  induction l as [|x l IH]; intros H; [constructor|]. cbn [nodup_b] in H. apply andb_prop in H. destruct H as [H1 H2].
  constructor; [apply not_in_b, negb_true_iff; exact H1|apply IH; exact H2].
Qed.
Lemma one_elt {A} (p : A -> bool) l x y : zlen (filter p l) <= 1 -> In x l -> In y l -> p x = true -> p y = true -> x = y.
Proof.
  intros H Hx Hy Px Py. assert (X : In x (filter p l)) by (apply filter_In; auto). assert (Y : In y (filter p l)) by (apply filter_In; auto).
  destruct (filter p l) as [|a [|b l']]; [destruct X| |rewrite !zlen_cons in H; pose proof (zlen_nonneg l'); lia].
  destruct X as [<-|[]], Y as [<-|[]]. reflexivity.
Qed.

Section Sound.
  Variable t : tab.
  Variable cat : list Z.
  Variable cs : list (list Z * list Z).
  Hypothesis OK : disk33_ok t cat cs = true.
  Let b := disk_of (tsec 256 t).
  Let v := tsec 256 t 272.
  Let k := zlen cs.

  Lemma ok_tab3 : tab_ok 256 t = true.
  Proof. pose proof OK as K. unfold disk33_ok in K. cbv zeta in K. do 14 (apply andb_prop in K; destruct K as [K _]). exact K. Qed.
  Lemma len_t3 i : zlen (tsec 256 t i) = 256.
  Proof. apply zlen_tsec; [exact ok_tab3|lia]. Qed.
  Lemma sec_t n : 0 <= n < 560 -> sec b n = tsec 256 t n.
  Proof. intros H. apply sec_disk_of; [exact len_t3|exact H]. Qed.
  Lemma vtoc_t : vtoc b = v.
  Proof. apply sec_t. lia. Qed.
  Lemma free_t3 n : free_bit3 b n = fb3 v n.
  Proof. unfold free_bit3. rewrite vtoc_t. reflexivity. Qed.
  Lemma links_t : forall l n, links_ok t n l = true -> links b n l /\ Forall (fun m => 0 < m < 560) l.
  Proof.
    induction l as [|m l IH]; intros n H; cbn [links_ok] in H.
    - assert (n = 0) by lia. subst n. split; constructor.
    - apply andb_prop in H; destruct H as [H H5]. apply andb_prop in H; destruct H as [H H4]. assert (m = n /\ 0 < n < 560) as [-> R] by lia.
      destruct (IH _ H5) as [L F]. split; [|constructor; assumption]. constructor; [exact R|apply not_in_b, negb_true_iff; exact H4|]. rewrite sec_t by lia. exact L.
  Qed.
  Lemma data_t3 n : data3_b cat n = true -> data_sector3 cat n.
  Proof.
    unfold data3_b, data_sector3. intros H. apply andb_prop in H; destruct H as [H H4]. split; [lia|]. split; [lia|]. apply not_in_b, negb_true_iff. exact H4.
  Qed.
  Lemma live_t e : live3_b e = true <-> x_live e.
  Proof. unfold live3_b, x_live. lia. Qed.
  Lemma used_t e : used3_b e = true <-> x_used e.
  Proof. unfold used3_b, x_used, x_dead. rewrite <- live_t. destruct (live3_b e); lia. Qed.
  Lemma flat_map_ext_in' {A B} (f g : A -> list B) l : (forall x, In x l -> f x = g x) -> flat_map f l = flat_map g l.
  Proof. intros H. induction l as [|x l IH]; [reflexivity|]. cbn [flat_map]. rewrite H by (left; reflexivity). rewrite IH by (intros; apply H; right; assumption). reflexivity. Qed.
  Lemma cat_t : links_ok t (lnk v) cat = true -> forall i, slot3 b cat i = tslot3 t cat i.
  Proof.
    intros H i. destruct (links_t _ _ H) as [_ F]. rewrite Forall_forall in F. unfold slot3, tslot3, catalog. f_equal. apply flat_map_ext_in'. intros n Hn. specialize (F n Hn). rewrite sec_t by lia. reflexivity.
  Qed.
  Lemma names_t3 : forall es i j, names3_ok es = true -> (i < j)%nat -> (j < length es)%nat -> x_live (nth j es []) -> x_name (nth i es []) <> x_name (nth j es []).
  Proof.
    induction es as [|e es IH]; intros i j H Hij Hj Lv; [cbn in Hj; lia|]. cbn [names3_ok] in H. apply andb_prop in H. destruct H as [H1 H2].
    destruct j as [|j]; [lia|]. cbn [length nth] in *. destruct i as [|i]; [|apply IH; (assumption || lia)].
    rewrite forallb_forall in H1. assert (J : (j < length es)%nat) by lia. specialize (H1 (nth j es []) (nth_In es [] J)). apply live_t in Lv. rewrite Lv in H1. cbn [negb orb] in H1.
    intros E. rewrite E in H1. rewrite zlist_eqb_refl in H1. discriminate.
  Qed.
  Lemma nth_slots3 i : 0 <= i < k -> nth (Z.to_nat i) (map (tslot3 t cat) (zrange 0 k)) [] = tslot3 t cat i.
  Proof.
    intros H. assert (G : forall m a n, (n < m)%nat -> nth n (map (tslot3 t cat) (zseq_nat a m)) [] = tslot3 t cat (a + Z.of_nat n)).
    { induction m as [|m IH]; intros a n Hn; [lia|]. cbn [zseq_nat map]. destruct n as [|n]; cbn [nth]; [f_equal; lia|]. rewrite IH by lia. f_equal. lia. }
    unfold zrange. rewrite G by lia. f_equal. lia.
  Qed.
  Lemma file_t e tl dl : x_live e -> file3_ok t cat v e tl dl = true ->
    getb e 0 <> 0 /\ x_type e <> 0 /\ file_at b e tl dl /\ dl <> [] /\ NoDup (tl ++ dl) /\
    (forall n, In n (tl ++ dl) -> data_sector3 cat n /\ free_bit3 b n = 0).
  Proof.
    intros Lv H. unfold file3_ok in H. apply live_t in Lv. rewrite Lv in H. cbn [negb orb] in H.
    apply andb_prop in H; destruct H as [H H8]. apply andb_prop in H; destruct H as [H H7]. apply andb_prop in H; destruct H as [H H6].
    apply andb_prop in H; destruct H as [H H5]. apply andb_prop in H; destruct H as [H H4]. apply andb_prop in H; destruct H as [H H3].
    destruct (links_t _ _ H3) as [L F]. split; [lia|]. split; [lia|]. split.
    - split; [exact L|]. split; [lia|]. apply zlist_eqb_eq in H5.
      assert (E : flat_map (fun n => pairs (sec b n)) tl = flat_map (fun n => pairs (tsec 256 t n)) tl).
      { apply flat_map_ext_in'. intros n Hn. rewrite Forall_forall in F. specialize (F n Hn). rewrite sec_t by lia. reflexivity. }
      rewrite E. set (P := flat_map _ tl) in *. exists (slice P (zlen dl) (zlen P)). pose proof (zlen_nonneg dl).
      destruct (Z_le_gt_dec (zlen dl) (zlen P)) as [Q|Q].
      + transitivity (slice P 0 (zlen dl) ++ slice P (zlen dl) (zlen P)); [|rewrite H5; reflexivity]. rewrite <- slice_split by lia. symmetry. apply slice_full.
      + exfalso. pose proof (f_equal zlen H5) as Z5. rewrite zlen_slice_min in Z5 by lia. lia.
    - split; [intros ->; discriminate|]. split; [apply nodup_t; exact H7|]. intros n Hn. rewrite forallb_forall in H8. specialize (H8 n Hn).
      apply andb_prop in H8. destruct H8 as [H8 H9]. split; [apply data_t3; exact H8|rewrite free_t3; lia].
  Qed.

  Theorem disk33_sound : dos33_disk b cat k.
  Proof.
    pose proof OK as K. unfold disk33_ok in K. cbv zeta in K. fold v k in K.
    apply andb_prop in K; destruct K as [K Ko]. apply andb_prop in K; destruct K as [K Kf]. apply andb_prop in K; destruct K as [K Kn]. apply andb_prop in K; destruct K as [K Ku].
    apply andb_prop in K; destruct K as [K Ks]. apply andb_prop in K; destruct K as [K Kk]. apply andb_prop in K; destruct K as [K Kfr]. apply andb_prop in K; destruct K as [K Kc].
    apply andb_prop in K; destruct K as [K Kl]. apply andb_prop in K; destruct K as [K Kg]. apply andb_prop in K; destruct K as [K Kp]. apply andb_prop in K; destruct K as [K K2].
    apply andb_prop in K; destruct K as [K K1]. apply andb_prop in K; destruct K as [Kt Kb].
    pose proof (zlen_nonneg cs) as N0. fold k in N0. pose proof (cat_t Kl) as SL. rewrite forallb_forall in Kf, Ku, Ks, Kfr. constructor.
    - apply bytes_ok_disk_of. intros i. apply bytes_tsec; [exact ok_tab3|lia].
    - apply zlen_disk_of. exact len_t3.
    - intros E. assert (S0 : slice b 0 4 = slice (sec b 0) 0 4) by (unfold sec; rewrite slice_slice by lia; reflexivity). rewrite S0, sec_t in E by lia. rewrite E in Kb. discriminate.
    - intros _. rewrite vtoc_t. lia.
    - rewrite vtoc_t. lia.
    - rewrite vtoc_t. lia.
    - rewrite vtoc_t. apply links_t. exact Kl.
    - apply not_in_b, negb_true_iff. exact Kc.
    - intros n Hn F1. rewrite free_t3 in F1. specialize (Kfr n (proj2 (In_zrange n _ _) Hn)). rewrite F1 in Kfr. cbn [orb Z.eqb] in Kfr. apply data_t3. exact Kfr.
    - lia.
    - intros i Hi. rewrite SL. specialize (Ks i (proj2 (In_zrange i _ _) Hi)). cbv zeta in Ks. apply andb_prop in Ks. destruct Ks as [U1 U2]. split; [apply used_t; exact U1|apply zlist_eqb_eq; exact U2].
    - intros i Hi. rewrite SL. specialize (Ku i (proj2 (In_zrange i _ _) Hi)). rewrite <- used_t. destruct (used3_b _); [discriminate|congruence].
    - intros i j Hij Hj. rewrite !SL. rewrite <- (nth_slots3 i), <- (nth_slots3 j) by lia. intros Lv.
      apply (names_t3 _ (Z.to_nat i) (Z.to_nat j) Kn); [lia| |exact Lv]. rewrite map_length. pose proof (zlen_zrange 0 k ltac:(lia)) as ZL. unfold zlen at 1 in ZL. lia.
    - intros i Hi. rewrite SL. intros Lv. specialize (Kf i (proj2 (In_zrange i _ _) Hi)). destruct (file_t _ _ _ Lv Kf) as (F1 & F2 & F3). split; [exact F1|]. split; [exact F2|]. eexists _, _. exact F3.
    - intros i j tl dl tl' dl' n Hi Li _ _ Hj Lj _ _. rewrite SL in Li, Lj.
      apply (one_elt (fun i => live3_b (tslot3 t cat i)) (zrange 0 k)); [lia|apply In_zrange; exact Hi|apply In_zrange; exact Hj|apply live_t; exact Li|apply live_t; exact Lj].
  Qed.

  Let im := view3 b cat k.
  Lemma templ3_consistent : consistent3 im.
  Proof. apply view3_consistent, disk33_sound. Qed.
  Lemma templ3_recognised e : zmem (getb (tsec 256 t 0) 0) [0x96; 255; 67] = false -> zmem (getb (tsec 256 t 0) 32) [0x11; 0x20; 0x21] = false -> settled3 e b -> disk3 e im.
  Proof.
    intros Z0 Z32 U. split; [exact templ3_consistent|]. split; [|exact U].
    assert (G : forall p, 0 <= p < 256 -> getb b p = getb (tsec 256 t 0) p) by (intros p Hp; rewrite <- sec_t by lia; unfold sec; rewrite getb_slice by lia; reflexivity).
    apply plain_boot; [exact (k3_bytes _ _ _ disk33_sound)|exact (k3_size _ _ _ disk33_sound)|change (i_bytes im) with b; rewrite G by lia; exact Z0|change (i_bytes im) with b; rewrite G by lia; exact Z32].
  Qed.
  Lemma ok_cat : links_ok t (lnk v) cat = true.
  Proof. pose proof OK as K. unfold disk33_ok in K. cbv zeta in K. do 8 (apply andb_prop in K; destruct K as [K _]). apply andb_prop in K; destruct K as [_ K]. exact K. Qed.
  Lemma templ3_listing : listing3 im = map (fun i => x_name (tslot3 t cat i)) (filter (fun i => negb (getb (tslot3 t cat i) 0 =? 255)) (zrange 0 k)).
  Proof.
    unfold im. rewrite (listing3_view _ _ _ disk33_sound). unfold live_slots3, live_b. pose proof (cat_t ok_cat) as SL.
    induction (zrange 0 k) as [|i l IH]; [reflexivity|]. cbn [filter]. rewrite SL. destruct (negb _); cbn [map]; rewrite IH, ?SL; reflexivity.
  Qed.
  Lemma templ3_file i : 0 <= i < k -> live3_b (tslot3 t cat i) = true ->
    find_file3 im (x_name (tslot3 t cat i)) = Ok (flat_map (tsec 256 t) (snd (nth (Z.to_nat i) cs ([], [])))) /\
    type_of3 im (x_name (tslot3 t cat i)) = Some (x_type (tslot3 t cat i)).
  Proof.
    intros Hi Lv. pose proof OK as K. unfold disk33_ok in K. cbv zeta in K. apply andb_prop in K; destruct K as [K _]. apply andb_prop in K; destruct K as [_ Kf].
    rewrite forallb_forall in Kf. specialize (Kf i (proj2 (In_zrange i _ _) Hi)). fold v in Kf. apply live_t in Lv. destruct (file_t _ _ _ Lv Kf) as (_ & _ & F & _ & _ & DS).
    pose proof (cat_t ok_cat i) as SL. rewrite <- SL.
    destruct (find_of_file_in3 b cat k (x_name (slot3 b cat i)) i (fst (nth (Z.to_nat i) cs ([], []))) (snd (nth (Z.to_nat i) cs ([], []))) disk33_sound) as [E1 E2].
    - split; [exact Hi|]. rewrite SL. split; [exact Lv|]. split; [reflexivity|exact F].
    - split; [|exact E2]. unfold im. rewrite E1. f_equal. unfold contents3. apply flat_map_ext_in'. intros n Hn. apply sec_t. destruct (DS n ltac:(apply in_or_app; right; exact Hn)) as [(R & _) _]. lia.
  Qed.
End Sound.
