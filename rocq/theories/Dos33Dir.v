(** The DOS 3.3 catalog: reading entries, encoding them again, writing the
    catalog sectors. *)
From Verif Require Import Base BaseLemmas DiskModel DirLemmas Dos33Model Dos33Spec Dos33Geom.

(** * Reading the catalog *)
Definition entries3 (f : Z) (b cat : list Z) (k : Z) : list ent :=
  map (fun i => parse_ent (H3 f) (slot3 b cat i)) (zrange 0 k).

Lemma zlen_catalog b cat : zlen b = 143360 -> Forall (fun m => 0 <= m < 560) cat ->
  zlen (catalog b cat) = 245 * zlen cat.
Proof.
  intros Hb; induction 1 as [|n cat Hn H IH]; [reflexivity|].
  unfold catalog in *. cbn [flat_map]. rewrite zlen_app, zlen_cons, IH, zlen_slice;
    [lia|lia|lia|rewrite zlen_sec; lia].
Qed.
Lemma slot3_head b n cat i : zlen b = 143360 -> 0 <= n < 560 -> 0 <= i < 7 ->
  slot3 b (n :: cat) i = slice (sec b n) (11 + 35 * i) (11 + 35 * i + 35).
Proof.
  intros Hb Hn Hi. unfold slot3, catalog. cbn [flat_map].
  rewrite slice_app_l; [|lia|rewrite zlen_slice; [lia|lia|lia|rewrite zlen_sec; lia]].
  rewrite slice_slice by lia. f_equal; lia.
Qed.
Lemma slot3_tail b n cat i : zlen b = 143360 -> 0 <= n < 560 -> 7 <= i ->
  slot3 b (n :: cat) i = slot3 b cat (i - 7).
Proof.
  intros Hb Hn Hi. unfold slot3, catalog. cbn [flat_map].
  assert (Hl : zlen (slice (sec b n) 11 256) = 245) by (rewrite zlen_slice; [lia|lia|lia|rewrite zlen_sec; lia]).
  rewrite slice_app_r by lia. rewrite Hl. f_equal; lia.
Qed.
Lemma zlen_slot3 b cat i : zlen b = 143360 -> Forall (fun m => 0 <= m < 560) cat ->
  0 <= i < 7 * zlen cat -> zlen (slot3 b cat i) = 35.
Proof. intros Hb Hc Hi. unfold slot3. rewrite zlen_slice; try rewrite zlen_catalog; try assumption; lia. Qed.
Lemma bytes_ok_slot3 b cat i : bytes_ok b -> bytes_ok (slot3 b cat i).
Proof.
  intros. apply bytes_ok_slice. unfold catalog.
  induction cat as [|n cat IH]; [constructor|]. cbn [flat_map]. apply bytes_ok_app.
  split; [apply bytes_ok_slice, bytes_ok_sec; assumption|assumption].
Qed.

Lemma flag3_parse h e : bytes_ok e -> (flag3 (parse_ent h e) =? 0 = false <-> x_used e).
Proof.
  intros Hb. unfold flag3, parse_ent, x_used, x_dead, x_live. cbn [d3_del d3_type d3_lock].
  pose proof (bytes_ok_getb e 2 Hb) as H2. unfold is_byte in H2.
  destruct (Z.eqb_spec (getb e 0) 255) as [E|E].
  - split; [left; assumption|reflexivity].
  - rewrite Z.eqb_neq. split.
    + intros H. right. split; [assumption|]. intros Hz. rewrite Hz in H. cbn in H. lia.
    + intros [H|[_ H]]; [congruence|]. Z.to_euclidean_division_equations. lia.
Qed.

Lemma sector_ents_spec h raw n : forall off u,
  (forall j, 0 <= j < u -> flag3 (parse_ent h (slice raw (off + 35 * j) (off + 35 * j + 35))) =? 0 = false) ->
  (forall j, u <= j < Z.of_nat n -> flag3 (parse_ent h (slice raw (off + 35 * j) (off + 35 * j + 35))) =? 0 = true) ->
  0 <= u <= Z.of_nat n ->
  sector_ents h raw off n
  = map (fun j => parse_ent h (slice raw (off + 35 * j) (off + 35 * j + 35))) (zrange 0 u).
Proof.
  induction n as [|n IH]; intros off u H1 H0 Hu.
  - replace u with 0 by lia. reflexivity.
  - cbn [sector_ents]. destruct (Z.eq_dec u 0) as [->|Hu0].
    + specialize (H0 0 ltac:(lia)). rewrite Z.mul_0_r, Z.add_0_r in H0. rewrite H0. reflexivity.
    + pose proof (H1 0 ltac:(lia)) as H. rewrite Z.mul_0_r, Z.add_0_r in H. rewrite H.
      rewrite (IH (off + 35) (u - 1)); [| | |lia].
      * rewrite (zrange_cons 0 u) by lia. cbn [map]. rewrite Z.mul_0_r, Z.add_0_r. f_equal.
        assert (Hr : zrange (0 + 1) u = map (fun x => x + 1) (zrange 0 (u - 1))).
        { clear. unfold zrange. replace (Z.to_nat (u - (0 + 1))) with (Z.to_nat (u - 1 - 0)) by lia.
          generalize (Z.to_nat (u - 1 - 0)) as m. intros m.
          assert (G : forall m a, zseq_nat (a + 1) m = map (fun x => x + 1) (zseq_nat a m)).
          { clear. induction m as [|m IH]; intros a; [reflexivity|]. cbn [zseq_nat map]. f_equal. apply IH. }
          apply G. }
        rewrite Hr, map_map. apply map_ext. intros j. f_equal. f_equal; lia.
      * intros j Hj. specialize (H1 (j + 1) ltac:(lia)).
        replace (off + 35 + 35 * j) with (off + 35 * (j + 1)) by lia. assumption.
      * intros j Hj. specialize (H0 (j + 1) ltac:(lia)).
        replace (off + 35 + 35 * j) with (off + 35 * (j + 1)) by lia. assumption.
Qed.

Lemma zrange_shift a n c : zrange (a + c) (n + c) = map (fun x => x + c) (zrange a n).
Proof.
  unfold zrange. replace (n + c - (a + c)) with (n - a) by lia.
  generalize (Z.to_nat (n - a)) as m. intros m. revert a.
  induction m as [|m IH]; intros a; [reflexivity|]. cbn [zseq_nat map]. f_equal.
  replace (a + c + 1) with (a + 1 + c) by lia. apply IH.
Qed.

(** Used entries first: what reading all catalog sectors yields. *)
Lemma flat_map_sector_ents f b cat : zlen b = 143360 -> bytes_ok b ->
  Forall (fun m => 0 <= m < 560) cat -> forall k, 0 <= k <= 7 * zlen cat ->
  (forall i, 0 <= i < k -> x_used (slot3 b cat i)) ->
  (forall i, k <= i < 7 * zlen cat -> ~ x_used (slot3 b cat i)) ->
  flat_map (fun m => sector_ents (H3 f) (sec b m) 0x0b 7) cat = entries3 f b cat k.
Proof.
  intros Hb Ho. induction 1 as [|n cat Hn Hc IH]; intros k Hk Hu Hn0.
  - unfold zlen in Hk. cbn in Hk. replace k with 0 by lia. reflexivity.
  - rewrite zlen_cons in *. pose proof (zlen_nonneg cat).
    set (u := Z.min k 7). set (k' := Z.max 0 (k - 7)).
    cbn [flat_map]. rewrite (sector_ents_spec _ _ 7 11 u).
    + rewrite (IH k'); [|unfold k'; lia| |].
      * unfold entries3. replace (zrange 0 k) with (zrange 0 u ++ zrange (0 + 7) (k' + 7)).
        -- rewrite zrange_shift, map_app, map_map. f_equal.
           ++ apply map_ext_in. intros j Hj. apply In_zrange in Hj.
              rewrite slot3_head by lia. reflexivity.
           ++ apply map_ext_in. intros j Hj. apply In_zrange in Hj.
              rewrite slot3_tail by lia. do 2 f_equal. lia.
        -- unfold u, k'. destruct (Z_le_gt_dec k 7).
           ++ rewrite (zrange_nil (0 + 7)) by lia. rewrite app_nil_r. f_equal. lia.
           ++ rewrite Z.min_r by lia. rewrite Z.max_r by lia.
              rewrite <- zrange_app by lia. f_equal; lia.
      * intros i Hi. specialize (Hu (i + 7) ltac:(lia)). rewrite slot3_tail in Hu by lia.
        replace (i + 7 - 7) with i in Hu by lia. assumption.
      * intros i Hi. specialize (Hn0 (i + 7) ltac:(lia)). rewrite slot3_tail in Hn0 by lia.
        replace (i + 7 - 7) with i in Hn0 by lia. assumption.
    + intros j Hj. apply flag3_parse; [apply bytes_ok_slice, bytes_ok_sec; assumption|].
      rewrite <- (slot3_head b n cat) by lia. apply Hu. lia.
    + intros j Hj. destruct (_ =? 0) eqn:E; [reflexivity|exfalso].
      apply flag3_parse in E; [|apply bytes_ok_slice, bytes_ok_sec; assumption].
      rewrite <- (slot3_head b n cat) in E by lia. revert E. apply Hn0. lia.
    + lia.
Qed.

Lemma cat_loop_spec f b n cat : zlen b = 143360 -> links b n cat -> forall fuel, (length cat <= fuel)%nat ->
  cat_loop fuel (H3 f) b n = (flat_map (fun m => sector_ents (H3 f) (sec b m) 0x0b 7) cat, None).
Proof.
  intros Hb L; induction L as [|n l Hn Hin L IH]; intros fuel Hf.
  - destruct fuel; reflexivity.
  - destruct fuel as [|fuel]; cbn [length] in Hf; [lia|]. cbn [cat_loop].
    replace (0 <? n) with true by lia.
    rewrite assert_valid3_in by lia. rewrite get_raw3_in by lia. cbn [rbind].
    rewrite link_of_sec by lia. cbn [rbind]. rewrite IH by lia. cbn [flat_map]. reflexivity.
Qed.

(** * Names and entries *)
Lemma map_sub_add name : Forall (fun c => 0 <= c < 128) name ->
  map (fun c => u8 (c - 128)) (map (fun c => c + 128) name) = name.
Proof.
  induction 1 as [|c l Hc H IH]; [reflexivity|]. cbn [map]. rewrite IH. f_equal.
  unfold u8. replace (c + 128 - 128) with c by lia. apply Z.mod_small. lia.
Qed.
Lemma filter_ascii l : Forall (fun c => 0 <= c < 128) l -> filter (fun c => c <? 128) l = l.
Proof.
  induction 1 as [|c l Hc H IH]; [reflexivity|]. cbn [filter]. rewrite IH.
  destruct (c <? 128) eqn:E; [reflexivity|lia].
Qed.
Lemma Forall_rstripf (P : Z -> Prop) g l : Forall P l -> Forall P (rstripf g l).
Proof.
  intros H. destruct (rstripf_decomp g l) as (t & E & _). rewrite E in H.
  apply Forall_app in H. tauto.
Qed.
Lemma x_name_ascii e : Forall (fun c => 0 <= c < 128) (x_name e).
Proof.
  unfold x_name. apply Forall_forall. intros c Hc. apply filter_In in Hc. destruct Hc as [Hc Hlt].
  assert (F : Forall (fun c => 0 <= c) (rstrip (map (fun c => (c - 128) mod 256) (slice e 3 32)))).
  { apply Forall_rstripf. apply Forall_forall. intros x Hx. apply in_map_iff in Hx.
    destruct Hx as (y & <- & _). apply Z.mod_pos_bound. lia. }
  rewrite Forall_forall in F. specialize (F c Hc). lia.
Qed.
Lemma zlen_filter {A} (g : A -> bool) l : zlen (filter g l) <= zlen l.
Proof.
  induction l as [|x l IH]; [reflexivity|]. cbn [filter]. destruct (g x); rewrite ?zlen_cons; lia.
Qed.
Lemma zlen_x_name e : zlen (x_name e) <= 29.
Proof.
  unfold x_name. etransitivity; [apply zlen_filter|]. etransitivity; [apply zlen_rstripf|].
  rewrite zlen_map. etransitivity; [apply zlen_slice_le; lia|lia].
Qed.
Lemma d3_name_parse h e : d3_name (parse_ent h e) = x_name e.
Proof. reflexivity. Qed.
Lemma d3_count_parse h e : d3_count (parse_ent h e) = x_count e.
Proof. reflexivity. Qed.
Lemma d3_del_parse h e : d3_del (parse_ent h e) = true <-> x_dead e.
Proof. unfold parse_ent, x_dead. cbn [d3_del]. apply Z.eqb_eq. Qed.
Lemma d3_start_parse h e : ~ x_dead e ->
  from_ts (d3_track (parse_ent h e)) (d3_sector (parse_ent h e)) = x_start e.
Proof.
  unfold parse_ent, x_dead, from_ts, x_start. cbn [d3_track d3_sector]. intros H.
  destruct (Z.eqb_spec (getb e 0) 255); [congruence|lia].
Qed.

(** What an encoded entry says. *)
Definition enc_of (d : ent) (e : list Z) : Prop :=
  zlen e = 35 /\ bytes_ok e /\
  getb e 0 = (if d3_del d then 255 else d3_track d) /\ getb e 1 = d3_sector d /\
  getb e 2 = u8 (flag3 d) /\ x_count e = d3_count d /\
  x_name e = rstrip (slice (d3_name d) 0 29) /\
  (d3_del d = true -> getb e 32 = d3_track d).
Definition enc_ok (d : ent) : Prop :=
  is_byte (d3_track d) /\ is_byte (d3_sector d) /\ 0 <= d3_count d < 65536 /\
  Forall (fun c => 0 <= c < 128) (d3_name d) /\ zlen (d3_name d) <= 30.

Lemma slice_pad29 (name : list Z) m : zlen name <= 30 -> m = 30 - zlen name ->
  rstrip (slice (name ++ zrepeat 32 m) 0 29) = rstrip (slice name 0 29).
Proof.
  intros Hl ->. pose proof (zlen_nonneg name).
  destruct (Z.eq_dec (zlen name) 30) as [E|E].
  - rewrite slice_app_l by lia. reflexivity.
  - rewrite (slice_split _ 0 (zlen name) 29) by lia.
    rewrite slice_app_full_l, (slice_all name) by lia.
    rewrite slice_app_r by lia. unfold rstrip. rewrite rstripf_app_all; [reflexivity|].
    apply forallb_forall. intros x Hx. unfold slice in Hx. 
    assert (Hin : In x (zrepeat 32 (30 - zlen name))).
    { apply In_nth with (d := 0) in Hx. destruct Hx as (j & Hj & <-).
      rewrite firstn_length, skipn_length in Hj. rewrite nth_firstn' by lia. rewrite nth_skipn'.
      apply nth_In. lia. }
    unfold zrepeat in Hin. apply repeat_spec in Hin. subst x. reflexivity.
Qed.

Lemma encode_spec d : enc_ok d -> exists e, encode_ent d = Ok e /\ enc_of d e.
Proof.
  intros (Ht & Hs & Hc & Hn & Hl). unfold encode_ent.
  replace (existsb (fun c => 127 <? c) (d3_name d)) with false.
  2: { symmetry. apply not_true_is_false. intros H. apply existsb_exists in H.
       destruct H as (c & Hin & Hlt). rewrite Forall_forall in Hn. specialize (Hn c Hin). lia. }
  eexists; split; [reflexivity|].
  set (n := zlen (d3_name d)) in *. pose proof (zlen_nonneg (d3_name d)) as Hn0. fold n in Hn0.
  set (hd := [u8 (if d3_del d then 255 else d3_track d); u8 (d3_sector d); u8 (flag3 d)]).
  set (body := map (fun c => c + 128) (d3_name d) ++ zrepeat 160 (30 - n)).
  assert (Hbl : zlen body = 30) by (unfold body; rewrite zlen_app, zlen_map, zlen_zrepeat by lia; lia).
  replace (hd ++ map (fun c => c + 128) (d3_name d) ++ zrepeat 160 (30 - n) ++ put2 (d3_count d))
    with (hd ++ body ++ put2 (d3_count d)) by (unfold body; rewrite !app_assoc; reflexivity).
  set (data := hd ++ body ++ put2 (d3_count d)).
  assert (Hdl : zlen data = 35).
  { unfold data. rewrite !zlen_app, zlen_put2, Hbl. reflexivity. }
  assert (Hdb : bytes_ok data).
  { unfold data. rewrite !bytes_ok_app. repeat split.
    - unfold hd. repeat (constructor; [apply is_byte_u8|]). constructor.
    - unfold body. apply bytes_ok_app. split; [|apply bytes_ok_zrepeat; unfold is_byte; lia].
      unfold bytes_ok. apply Forall_map. revert Hn. apply Forall_impl. unfold is_byte. intros; lia.
    - unfold put2. repeat (constructor; [apply is_byte_u8|]). constructor. }
  assert (Hx : forall e, zlen e = 35 -> bytes_ok e -> (forall i, 0 <= i < 35 -> i <> 32 -> getb e i = getb data i) ->
    (d3_del d = true -> getb e 32 = d3_track d) -> enc_of d e).
  { intros e He Hbe Hi H32. unfold enc_of. split; [assumption|]. split; [assumption|].
    rewrite !Hi by lia.
    assert (G0 : getb data 0 = u8 (if d3_del d then 255 else d3_track d)) by reflexivity.
    assert (G1 : getb data 1 = u8 (d3_sector d)) by reflexivity.
    assert (G2 : getb data 2 = u8 (flag3 d)) by reflexivity.
    rewrite G0, G1, G2.
    split; [apply u8_id; destruct (d3_del d); unfold is_byte in *; lia|].
    split; [apply u8_id; assumption|]. split; [reflexivity|]. split.
    - unfold x_count. rewrite !Hi by lia. unfold data.
      rewrite !(getb_app_r hd) by (change (zlen hd) with 3; lia). change (zlen hd) with 3.
      rewrite !(getb_app_r body) by lia. rewrite Hbl.
      change (33 - 3 - 30) with 0. change (34 - 3 - 30) with 1.
      rewrite le2_put2. apply u16_id. assumption.
    - split; [|assumption].
      assert (Es : slice e 3 32 = slice body 0 29).
      { apply list_ext_getb; [rewrite !zlen_slice by lia; reflexivity|].
        intros i Hii. rewrite zlen_slice in Hii by lia. rewrite !getb_slice by lia.
        rewrite Hi by lia. unfold data.
        rewrite (getb_app_r hd) by (change (zlen hd) with 3; lia). change (zlen hd) with 3.
        rewrite getb_app_l by lia. f_equal. lia. }
      unfold x_name. rewrite Es.
      assert (Em : map (fun c => (c - 128) mod 256) (slice body 0 29)
                   = slice (d3_name d ++ zrepeat 32 (30 - n)) 0 29).
      { unfold slice. cbn [Z.to_nat skipn].
        rewrite <- firstn_map. f_equal. unfold body. rewrite map_app. f_equal.
        - apply (map_sub_add _ Hn).
        - unfold zrepeat. generalize (Z.to_nat (30 - n)). induction n0 as [|m IHm]; [reflexivity|].
          cbn [repeat map]. rewrite IHm. reflexivity. }
      rewrite Em. rewrite slice_pad29 by (fold n; lia).
      apply filter_ascii. apply Forall_rstripf. apply Forall_firstn', Forall_skipn'. assumption. }
  destruct (d3_del d) eqn:Ed.
  - apply Hx.
    + rewrite zlen_upd. assumption.
    + unfold upd. rewrite upd_nat_split by (unfold zlen in Hdl; lia).
      apply bytes_ok_app. split; [apply Forall_firstn'; assumption|].
      constructor; [apply is_byte_u8|apply Forall_skipn'; assumption].
    + intros i Hi Hne. rewrite getb_upd by lia. destruct (Z.eqb_spec 32 i); [lia|reflexivity].
    + intros _. rewrite getb_upd by lia. rewrite Z.eqb_refl. apply u8_id. assumption.
  - apply Hx; [assumption|assumption|reflexivity|discriminate].
Qed.

Lemma encode_all_spec ds : Forall enc_ok ds -> exists es, encode_all ds = Ok es /\ Forall2 enc_of ds es.
Proof.
  induction 1 as [|d ds Hd H (es & E & F)]; [exists []; split; [reflexivity|constructor]|].
  destruct (encode_spec d Hd) as (e & Ee & He). exists (e :: es). cbn [encode_all].
  rewrite Ee. cbn [rbind]. rewrite E. cbn [rbind]. split; [reflexivity|constructor; assumption].
Qed.

Lemma enc_ok_parse h e : bytes_ok e -> enc_ok (parse_ent h e).
Proof.
  intros Hb. unfold enc_ok. rewrite d3_name_parse, d3_count_parse.
  repeat split; try (apply bytes_ok_getb; assumption).
  - unfold parse_ent; cbn [d3_track]. destruct (_ =? 255); apply bytes_ok_getb; assumption.
  - unfold parse_ent; cbn [d3_track]. destruct (_ =? 255); apply bytes_ok_getb; assumption.
  - apply le2_range; apply bytes_ok_getb; assumption.
  - apply le2_range; apply bytes_ok_getb; assumption.
  - apply x_name_ascii.
  - pose proof (zlen_x_name e). lia.
Qed.

(** Reading an entry and encoding it again keeps what later reads see. *)
Definition same_ent (e e' : list Z) : Prop :=
  x_name e' = x_name e /\ (x_dead e <-> x_dead e') /\
  (x_live e -> x_live e' /\ x_type e' = x_type e /\ x_start e' = x_start e /\
               x_count e' = x_count e /\ getb e' 0 = getb e 0).
Lemma reencode h e e' : bytes_ok e -> x_used e -> rstrip (x_name e) = x_name e ->
  (x_live e -> x_type e <> 0) -> enc_of (parse_ent h e) e' -> same_ent e e'.
Proof.
  intros Hb Hu Hn Ht (Hl & Hb' & H0 & H1 & H2 & Hc & Hnm & _).
  rewrite d3_name_parse in Hnm. rewrite d3_count_parse in Hc.
  unfold same_ent. split.
  { rewrite Hnm. rewrite slice_all by apply zlen_x_name. assumption. }
  unfold parse_ent in H0, H1, H2. cbn [d3_del d3_track d3_sector flag3 d3_type d3_lock] in H0, H1, H2.
  unfold flag3 in H2. cbn [d3_del d3_track d3_sector flag3 d3_type d3_lock] in H2.
  split.
  { unfold x_dead. destruct (Z.eqb_spec (getb e 0) 255) as [E|E]; rewrite H0; lia. }
  intros Hlive. specialize (Ht Hlive). destruct Hlive as [Hd Hf].
  destruct (Z.eqb_spec (getb e 0) 255) as [E|E]; [congruence|].
  pose proof (bytes_ok_getb e 2 Hb) as B2. unfold is_byte in B2. unfold x_type in *.
  assert (Hu8 : u8 (getb e 2 mod 128 + 128 * (128 * (getb e 2 / 128))) = getb e 2 mod 128).
  { unfold u8. Z.to_euclidean_division_equations. lia. }
  rewrite Hu8 in H2. unfold x_live. rewrite H0, H2.
  repeat split; try assumption.
  - rewrite Z.mod_mod by lia. reflexivity.
  - unfold x_start. rewrite H0, H1. reflexivity.
Qed.

(** Encoding a live entry drops the lock. *)
Lemma reencode_unlocks h e e' : bytes_ok e -> x_live e -> enc_of (parse_ent h e) e' -> ~ x_locked e'.
Proof.
  intros Hb [Hd _] (_ & _ & _ & _ & H2 & _). unfold x_locked. rewrite H2.
  unfold flag3, parse_ent. cbn [d3_del d3_type d3_lock].
  destruct (Z.eqb_spec (getb e 0) 255) as [E|E]; [congruence|].
  pose proof (bytes_ok_getb e 2 Hb) as B2. unfold is_byte in B2. unfold u8.
  Z.to_euclidean_division_equations; lia.
Qed.

(** * Writing the catalog *)
Lemma fresh_cat_fill : fresh_cat = fill_sec 256 (-1) 11 (zrepeat 0 11) [].
Proof. reflexivity. Qed.

(** The link bytes of a catalog sector as they are written. *)
Definition cat_head (next : Z) : list Z := [0; u8 (next / 16); u8 (next mod 16)] ++ zrepeat 0 8.
Lemma cat_head_lnk next p : 0 <= next < 4096 -> lnk (cat_head next ++ p) = next.
Proof.
  intros H. unfold lnk, cat_head.
  change (getb (([0; u8 (next / 16); u8 (next mod 16)] ++ zrepeat 0 8) ++ p) 1) with (u8 (next / 16)).
  change (getb (([0; u8 (next / 16); u8 (next mod 16)] ++ zrepeat 0 8) ++ p) 2) with (u8 (next mod 16)).
  unfold u8. Z.to_euclidean_division_equations. lia.
Qed.

Definition cat_payload (s : wsector) : list Z := slice (s_data s) 11 256.

(** A sector numbered [n] with the old link of sector [n]. *)
Definition cat_sec_ok (b : list Z) (s : wsector) : Prop :=
  good_sec s /\ lnk (s_data s) = lnk (sec b (s_num s)).

Lemma lnk_range b n : bytes_ok b -> 0 <= lnk (sec b n) < 4336.
Proof.
  intros Hb. unfold lnk.
  pose proof (bytes_ok_getb (sec b n) 1 (bytes_ok_sec b n Hb)).
  pose proof (bytes_ok_getb (sec b n) 2 (bytes_ok_sec b n Hb)). unfold is_byte in *. lia.
Qed.

Lemma links_start b n l : links b n l -> n = match l with [] => 0 | m :: _ => m end.
Proof. destruct 1; reflexivity. Qed.

(** [number_cat] succeeds as long as every sector of the list has a successor. *)
Lemma number_cat_spec f b cat : zlen b = 143360 -> bytes_ok b -> forall n cur l,
  links b n cat -> (cur = n \/ (cur = -1 /\ f = n)) ->
  Forall (fun s => exists p, s = fill_sec 256 (-1) 11 (zrepeat 0 11) p /\ 11 + zlen p <= 256 /\ bytes_ok p) l ->
  if (length l <? length cat)%nat || (length l =? 0)%nat then
    exists l', number_cat (H3 f) b cur l = Ok l' /\ map s_num l' = firstn (length l) cat /\
      Forall (cat_sec_ok b) l' /\ Forall (fun s => bytes_ok (s_data s)) l' /\
      map cat_payload l' = map cat_payload l
  else match cat with
       | [] => True
       | _ => number_cat (H3 f) b cur l = Err (EAtr NoSpaceInDirectory)
       end.
Proof.
  intros Hb Ho. induction cat as [|c cat IH]; intros n cur l L Hcur Hl.
  - cbn [length]. destruct l as [|s l]; cbn [length Nat.ltb Nat.leb Nat.eqb orb]; [|exact I].
    exists []. repeat split; constructor.
  - inversion L as [|? ? Hn Hin L']; subst. destruct l as [|s l].
    { cbn [length Nat.eqb]. rewrite Bool.orb_true_r. exists []. repeat split; constructor. }
    inversion Hl as [|? ? (p & -> & Hp & Hbp) Hl']; subst. cbn [number_cat length].
    assert (Ec : (if cur =? -1 then h_fdir (H3 f) else cur) = c).
    { destruct Hcur as [Hcur|[Hcur Hf]]; rewrite Hcur.
      - destruct (Z.eqb_spec c (-1)); [lia|reflexivity].
      - cbn [Z.eqb]. exact Hf. }
    rewrite Ec. rewrite assert_valid3_in by lia. cbn [rbind].
    rewrite get_raw3_in by lia. cbn [rbind]. rewrite link_of_sec by lia. cbn [rbind].
    set (next := lnk (sec b c)) in *.
    change (Nat.eqb (S (length l)) 0) with false. rewrite Bool.orb_false_r.
    change (Nat.ltb (S (length l)) (S (length cat))) with (Nat.ltb (length l) (length cat)).
    destruct cat as [|c2 cat].
    + apply links_start in L'. rewrite L'. cbn [length]. reflexivity.
    + assert (Hnext : next = c2) by (apply links_start in L'; exact L').
      assert (Hr : 0 < c2 < 560) by (apply links_in in L'; inversion L'; assumption).
      replace (next =? 0) with false by lia.
      specialize (IH next next l L' (or_introl eq_refl) Hl').
      pose proof (lnk_range b c Ho) as Hlr. fold next in Hlr.
      destruct (length l <? length (c2 :: cat))%nat eqn:Elt; cbn [orb] in IH.
      * destruct IH as (l' & E1 & E2 & E3 & E4 & E5). rewrite E1. cbn [rbind].
        eexists. split; [reflexivity|].
        cbn [map set_num set_data s_num firstn s_data]. rewrite E2. split; [reflexivity|].
        set (D := setslice (s_data (fill_sec 256 (-1) 11 (zrepeat 0 11) p)) 1 [u8 (next / 16); u8 (next mod 16)]).
        assert (ED : D = cat_head next ++ p ++ zrepeat 0 (256 - 11 - zlen p)).
        { unfold D, cat_head, fill_sec. cbn [s_data]. reflexivity. }
        pose proof (zlen_nonneg p).
        assert (ZD : zlen D = 256).
        { rewrite ED, !zlen_app, zlen_zrepeat by lia. change (zlen (cat_head next)) with 11. lia. }
        split; [|split].
        -- constructor; [|assumption]. split; [split; [cbn [s_num set_num]; lia|exact ZD]|].
           cbn [s_data s_num set_num]. rewrite ED. fold next. apply cat_head_lnk. lia.
        -- constructor; [|assumption]. change (bytes_ok D). rewrite ED. unfold cat_head.
           rewrite !bytes_ok_app. split; [split|split].
           ++ constructor; [unfold is_byte; lia|]. constructor; [apply is_byte_u8|].
              constructor; [apply is_byte_u8|constructor].
           ++ apply bytes_ok_zrepeat; unfold is_byte; lia.
           ++ assumption.
           ++ apply bytes_ok_zrepeat; unfold is_byte; lia.
        -- rewrite E5. f_equal.
      * destruct (length l =? 0)%nat eqn:E0.
        { apply Nat.eqb_eq in E0. rewrite E0 in Elt. discriminate. }
        cbn [orb] in IH. rewrite IH. reflexivity.
Qed.

Lemma zlen_concat35 (es : list (list Z)) : Forall (fun e => zlen e = 35) es -> zlen (concat es) = 35 * zlen es.
Proof.
  induction 1 as [|e es He H IH]; [reflexivity|]. cbn [concat]. rewrite zlen_app, zlen_cons, IH. lia.
Qed.
Lemma slice_concat35 (es : list (list Z)) r : Forall (fun e => zlen e = 35) es -> forall i, 0 <= i < zlen es ->
  slice (concat es ++ r) (35 * i) (35 * i + 35) = nth (Z.to_nat i) es [].
Proof.
  induction 1 as [|e es He H IH]; intros i Hi; [unfold zlen in Hi; cbn in Hi; lia|].
  rewrite zlen_cons in Hi. cbn [concat]. rewrite <- app_assoc.
  destruct (Z.eq_dec i 0) as [->|Hi0].
  - rewrite slice_app_l by lia. cbn [Z.to_nat nth]. apply slice_all. lia.
  - rewrite slice_app_r by lia. rewrite He.
    replace (35 * i - 35) with (35 * (i - 1)) by lia.
    replace (35 * i + 35 - 35) with (35 * (i - 1) + 35) by lia.
    rewrite IH by lia. replace (Z.to_nat i) with (S (Z.to_nat (i - 1))) by lia. reflexivity.
Qed.

Lemma Forall2_zlen {A B} (R : A -> B -> Prop) l l' : Forall2 R l l' -> zlen l = zlen l'.
Proof. induction 1 as [|x y l l' Hxy H IH]; [reflexivity|]. rewrite !zlen_cons, IH. reflexivity. Qed.
Lemma Forall2_nth {A B} (R : A -> B -> Prop) l l' : Forall2 R l l' -> forall i d d',
  (i < length l)%nat -> R (nth i l d) (nth i l' d').
Proof.
  induction 1 as [|x y l l' Hxy H IH]; intros i d d' Hi; [cbn in Hi; lia|].
  destruct i; [assumption|]. cbn [nth]. apply IH. cbn in Hi; lia.
Qed.

Lemma cat_sectors_spec f b cat ds : zlen b = 143360 -> bytes_ok b -> links b f cat -> cat <> [] ->
  ds <> [] -> Forall enc_ok ds ->
  if zlen ds <=? 7 * (zlen cat - 1) then
    exists es l pad, cat_sectors (H3 f) b ds = Ok l /\ Forall2 enc_of ds es /\
      map s_num l = firstn (length l) cat /\ (length l <= length cat)%nat /\ Forall (cat_sec_ok b) l /\
      Forall (fun s => bytes_ok (s_data s)) l /\
      flat_map cat_payload l = concat es ++ zrepeat 0 pad /\ 0 <= pad < 245 /\
      245 * zlen l = 35 * zlen ds + pad
  else cat_sectors (H3 f) b ds = Err (EAtr NoSpaceInDirectory).
Proof.
  intros Hb Ho L Hc Hds Hok. destruct (encode_all_spec ds Hok) as (es & Ees & F2).
  assert (Hes35 : Forall (fun e => zlen e = 35 /\ bytes_ok e) es).
  { clear -F2. induction F2 as [|d e ds es (H1 & H2 & _) F2 IH]; constructor; auto. }
  assert (H35 : Forall (fun e => zlen e = 35) es) by (revert Hes35; apply Forall_impl; tauto).
  assert (Hne : Forall (fun e => e <> []) es).
  { revert H35. apply Forall_impl. intros e He ->. rewrite zlen_nil in He. lia. }
  assert (Hes : es <> []) by (intros ->; inversion F2; subst; congruence).
  pose proof (Forall2_zlen _ _ _ F2) as Hlen.
  destruct (calc_dir_sectors_spec 256 (-1) 11 (zrepeat 0 11) ltac:(reflexivity) es Hes Hne)
    as (l & pad & E1 & Hpad & Hflat & Hl).
  rewrite <- fresh_cat_fill in E1. change (zlen (zrepeat 0 11)) with 11 in *. change (256 - 11) with 245 in Hpad.
  change (payload_of 11 256) with cat_payload in Hflat.
  assert (Hpay : forall s, In s l -> zlen (cat_payload s) = 245).
  { intros s Hs. rewrite Forall_forall in Hl. destruct (Hl s Hs) as (p & -> & Hp & _).
    pose proof (zlen_nonneg p).
    unfold cat_payload. rewrite zlen_slice; [lia|lia|lia|]. unfold fill_sec. cbn [s_data].
    change (zlen (zrepeat 0 11)) with 11. rewrite !zlen_app, !zlen_zrepeat by lia. lia. }
  assert (Hcount : 245 * zlen l = 35 * zlen ds + pad).
  { assert (Hz : zlen (flat_map cat_payload l) = 245 * zlen l).
    { clear -Hpay. induction l as [|s l IH]; [reflexivity|]. cbn [flat_map].
      rewrite zlen_app, zlen_cons, IH, Hpay; [lia|left; reflexivity|intros; apply Hpay; right; assumption]. }
    rewrite <- Hz, Hflat, zlen_app, zlen_concat35, zlen_zrepeat by (assumption || lia). lia. }
  assert (Hl' : Forall (fun s => exists p, s = fill_sec 256 (-1) 11 (zrepeat 0 11) p /\ 11 + zlen p <= 256 /\ bytes_ok p) l).
  { apply Forall_forall. intros s Hs. rewrite Forall_forall in Hl. destruct (Hl s Hs) as (p & -> & Hp & _).
    exists p. split; [reflexivity|]. split; [assumption|].
    assert (Hall : bytes_ok (flat_map cat_payload l)).
    { rewrite Hflat. apply bytes_ok_app. split; [|apply bytes_ok_zrepeat; unfold is_byte; lia].
      clear -Hes35. induction Hes35 as [|e es [_ He] H IH]; [constructor|]. cbn [concat].
      apply bytes_ok_app. split; assumption. }
    assert (Hp2 : bytes_ok (cat_payload (fill_sec 256 (-1) 11 (zrepeat 0 11) p))).
    { unfold bytes_ok in *. rewrite Forall_forall in *. intros x Hx. apply Hall. apply in_flat_map. eauto. }
    unfold cat_payload in Hp2. unfold fill_sec in Hp2. cbn [s_data] in Hp2.
    rewrite slice_app_r in Hp2 by (change (zlen (zrepeat 0 11)) with 11; lia).
    change (zlen (zrepeat 0 11)) with 11 in Hp2. change (11 - 11) with 0 in Hp2.
    pose proof (zlen_nonneg p).
    rewrite slice_all in Hp2 by (rewrite zlen_app, zlen_zrepeat; lia).
    apply bytes_ok_app in Hp2. tauto. }
  pose proof (number_cat_spec f b cat Hb Ho f (-1) l L (or_intror (conj eq_refl eq_refl)) Hl') as HN.
  unfold cat_sectors. rewrite Ees. cbn [rbind]. rewrite E1. cbn [rbind].
  assert (Hl0 : (length l =? 0)%nat = false).
  { apply Nat.eqb_neq. intros C. destruct ds; [congruence|]. rewrite zlen_cons in Hcount.
    pose proof (zlen_nonneg ds). unfold zlen in Hcount at 1. lia. }
  rewrite Hl0, Bool.orb_false_r in HN.
  destruct (Z.leb_spec (zlen ds) (7 * (zlen cat - 1))) as [Hle|Hgt].
  - replace (length l <? length cat)%nat with true in HN
      by (symmetry; apply Nat.ltb_lt; clear -Hle Hcount Hpad; unfold zlen in *; lia).
    destruct HN as (l' & N1 & N2 & N3 & N4 & N5). exists es, l', pad.
    assert (Hll : length l' = length l) by (rewrite <- (map_length cat_payload l'), N5; apply map_length).
    split; [exact N1|]. split; [assumption|]. split; [rewrite Hll; assumption|].
    split; [rewrite Hll; clear -Hle Hcount Hpad; unfold zlen in *; lia|].
    split; [assumption|]. split; [assumption|]. split.
    { rewrite flat_map_concat_map, N5, <- flat_map_concat_map. assumption. }
    split; [lia|]. unfold zlen. rewrite Hll. exact Hcount.
  - replace (length l <? length cat)%nat with false in HN
      by (symmetry; apply Nat.ltb_ge; clear -Hgt Hcount Hpad; unfold zlen in *; lia).
    destruct cat; [congruence|exact HN].
Qed.

Lemma slot3_zero e : e = zrepeat 0 35 -> ~ x_used e.
Proof. intros ->. intros [H|[_ H]]; [discriminate H|apply H; reflexivity]. Qed.

(** The catalog after its first sectors have been replaced. *)
Lemma slots_after b b2 cat ds es l pad :
  zlen b = 143360 -> zlen b2 = 143360 -> Forall (fun m => 0 <= m < 560) cat ->
  Forall2 enc_of ds es -> map s_num l = firstn (length l) cat -> (length l <= length cat)%nat ->
  flat_map cat_payload l = concat es ++ zrepeat 0 pad -> 0 <= pad ->
  245 * zlen l = 35 * zlen ds + pad ->
  (forall s, In s l -> sec b2 (s_num s) = s_data s) ->
  (forall n, In n (skipn (length l) cat) -> sec b2 n = sec b n) ->
  (forall i, 0 <= i < zlen ds -> slot3 b2 cat i = nth (Z.to_nat i) es []) /\
  (forall i, zlen ds <= i < 7 * zlen cat -> slot3 b2 cat i = slot3 b cat i \/ ~ x_used (slot3 b2 cat i)).
Proof.
  intros Hb Hb2 Hc F2 Hnum Hle Hflat Hpad Hcount Hin Hrest.
  assert (H35 : Forall (fun e => zlen e = 35) es).
  { clear -F2. induction F2 as [|d e ds es (H1 & _) F2 IH]; constructor; auto. }
  pose proof (Forall2_zlen _ _ _ F2) as Hlen.
  assert (Ecat : catalog b2 cat = (concat es ++ zrepeat 0 pad) ++ catalog b (skipn (length l) cat)).
  { rewrite <- (firstn_skipn (length l) cat) at 1. unfold catalog at 1. rewrite flat_map_app. f_equal.
    - rewrite <- Hflat, <- Hnum. clear -Hin. induction l as [|s l IH]; [reflexivity|].
      cbn [map flat_map]. rewrite IH by (intros; apply Hin; right; assumption).
      rewrite Hin by (left; reflexivity). reflexivity.
    - unfold catalog. apply flat_map_ext_in. intros n Hn. rewrite Hrest by assumption. reflexivity. }
  assert (Hz : zlen (concat es ++ zrepeat 0 pad) = 245 * zlen l).
  { rewrite zlen_app, zlen_concat35, zlen_zrepeat by (assumption || lia). lia. }
  split.
  - intros i Hi. unfold slot3. rewrite Ecat, <- app_assoc. apply slice_concat35; [assumption|lia].
  - intros i Hi. pose proof (zlen_nonneg ds). destruct (Z_le_gt_dec (7 * zlen l) i) as [Hge|Hlt].
    + left. unfold slot3. rewrite Ecat, slice_app_r by lia. rewrite Hz.
      rewrite <- (firstn_skipn (length l) cat) at 2. unfold catalog at 2. rewrite flat_map_app.
      fold (catalog b (firstn (length l) cat)). fold (catalog b (skipn (length l) cat)).
      assert (Hzf : zlen (catalog b (firstn (length l) cat)) = 245 * zlen l).
      { rewrite zlen_catalog; [|assumption|apply Forall_firstn'; assumption].
        unfold zlen. rewrite firstn_length. lia. }
      rewrite slice_app_r by lia. rewrite Hzf. reflexivity.
    + right. apply slot3_zero. unfold slot3. rewrite Ecat.
      rewrite slice_app_l by lia. rewrite slice_app_r by (rewrite zlen_concat35 by assumption; lia).
      rewrite zlen_concat35 by assumption.
      apply list_ext_getb.
      * rewrite zlen_slice; [rewrite zlen_zrepeat; lia|lia|lia|rewrite zlen_zrepeat; lia].
      * intros j Hj. rewrite zlen_slice in Hj; [|lia|lia|rewrite zlen_zrepeat; lia].
        rewrite getb_slice by lia. rewrite !getb_zrepeat by lia. reflexivity.
Qed.
