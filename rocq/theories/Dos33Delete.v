(** The effect of deleting a file on a consistent DOS 3.3 disk. *)
From Verif Require Import Base BaseLemmas DiskModel DirLemmas AtariVtoc AtariSectors AtariWrite Dos33Model Dos33Spec Dos33Geom Dos33Vtoc Dos33Dir Dos33Files Dos33Update Dos33Sectors Dos33Alloc Dos33Write.

(** Encoding a deleted entry again keeps where its file was. *)
Lemma reencode_dead h e e' : x_dead e -> enc_of (parse_ent h e) e' -> x_stale e' = x_stale e /\ x_count e' = x_count e.
Proof.
  unfold x_dead. intros Hd (_ & _ & _ & H1 & _ & Hc & _ & H8). rewrite d3_count_parse in Hc. split; [|exact Hc].
  unfold parse_ent in H1, H8. cbn [d3_del d3_track d3_sector] in H1, H8. rewrite Hd in H8. specialize (H8 eq_refl). cbn [Z.eqb Pos.eqb] in H8.
  unfold x_stale. rewrite H1, H8. reflexivity.
Qed.
(** What happens when slot [i] is deleted and the sectors [l] are freed. *)
Record delete_raw3 (b cat : list Z) (k : Z) (b' : list Z) (i : Z) (l : list Z) : Prop := mkDR3 {
  r3_len : zlen b' = 143360;
  r3_bytes : bytes_ok b';
  r3_boot : sec b' 0 = sec b 0;
  r3_head : forall j, 0 <= j < 56 -> getb (vtoc b') j = getb (vtoc b) j;
  r3_links : forall n, In n cat -> lnk (sec b' n) = lnk (sec b n);
  r3_free : forall n, 0 <= n < 800 -> free_bit3 b' n = if zmem n l then 1 else free_bit3 b n;
  r3_frame : forall n, 0 <= n < 560 -> n <> 272 -> ~ In n cat -> sec b' n = sec b n;
  r3_kept : forall j, 0 <= j < k -> j <> i -> same_ent (slot3 b cat j) (slot3 b' cat j);
  r3_kept_dead : forall j, 0 <= j < k -> j <> i -> x_dead (slot3 b cat j) ->
    x_stale (slot3 b' cat j) = x_stale (slot3 b cat j) /\ x_count (slot3 b' cat j) = x_count (slot3 b cat j);
  r3_unlocked : forall j, 0 <= j < k -> j <> i -> x_live (slot3 b cat j) -> ~ x_locked (slot3 b' cat j);
  r3_dead : x_dead (slot3 b' cat i);
  r3_name : x_name (slot3 b' cat i) = x_name (slot3 b cat i);
  r3_stale : x_count (slot3 b' cat i) = x_count (slot3 b cat i) /\
             (x_live (slot3 b cat i) -> x_stale (slot3 b' cat i) = x_start (slot3 b cat i)) /\
             (x_dead (slot3 b cat i) -> x_stale (slot3 b' cat i) = x_stale (slot3 b cat i));
  r3_unused : forall j, k <= j < 7 * zlen cat -> ~ x_used (slot3 b' cat j)
}.
Record delete_effect3 (b cat : list Z) (k : Z) (b' : list Z) (i : Z) (tl dl : list Z) : Prop := mkDE3 {
  x3_upd : update3 b cat k b' k i;
  x3_raw : delete_raw3 b cat k b' i (tl ++ dl)
}.
Definition x3_dead b cat k b' i tl dl (E : delete_effect3 b cat k b' i tl dl) := r3_dead _ _ _ _ _ _ (x3_raw _ _ _ _ _ _ _ E).
Definition x3_name b cat k b' i tl dl (E : delete_effect3 b cat k b' i tl dl) := r3_name _ _ _ _ _ _ (x3_raw _ _ _ _ _ _ _ E).
Definition x3_free b cat k b' i tl dl (E : delete_effect3 b cat k b' i tl dl) := r3_free _ _ _ _ _ _ (x3_raw _ _ _ _ _ _ _ E).
Definition x3_frame b cat k b' i tl dl (E : delete_effect3 b cat k b' i tl dl) := r3_frame _ _ _ _ _ _ (x3_raw _ _ _ _ _ _ _ E).

Lemma find_index3_spec name f b cat k i : 0 <= i < k -> x_name (slot3 b cat i) = name ->
  (forall j, 0 <= j < i -> x_name (slot3 b cat j) <> name) ->
  find_index3 name (entries3 f b cat k) 0 = Some (i, parse_ent (H3 f) (slot3 b cat i)).
Proof.
  intros Hi Hn Hlow. unfold entries3.
  assert (G : forall m a, 0 <= a <= i -> i < a + Z.of_nat m ->
    find_index3 name (map (fun i => parse_ent (H3 f) (slot3 b cat i)) (zseq_nat a m)) a
    = Some (i, parse_ent (H3 f) (slot3 b cat i))).
  { induction m as [|m IH]; intros a Ha Hm; [lia|]. cbn [zseq_nat map find_index3].
    rewrite d3_name_parse. destruct (Z.eq_dec a i) as [->|Hne].
    - rewrite Hn, zlist_eqb_refl. reflexivity.
    - assert (E : zlist_eqb name (x_name (slot3 b cat a)) = false).
      { apply zlist_eqb_neq. intros E. apply (Hlow a); [lia|auto]. }
      rewrite E. apply IH; lia. }
  apply G; lia.
Qed.
Lemma find_index3_none name f b cat k : (forall j, 0 <= j < k -> x_name (slot3 b cat j) <> name) ->
  find_index3 name (entries3 f b cat k) 0 = None.
Proof.
  intros H. unfold entries3.
  assert (G : forall m a, 0 <= a -> a + Z.of_nat m <= Z.max 0 k ->
    find_index3 name (map (fun i => parse_ent (H3 f) (slot3 b cat i)) (zseq_nat a m)) a = None).
  { induction m as [|m IH]; intros a Ha Hm; [reflexivity|]. cbn [zseq_nat map find_index3].
    rewrite d3_name_parse.
    assert (E : zlist_eqb name (x_name (slot3 b cat a)) = false).
    { apply zlist_eqb_neq. intros E. apply (H a); [lia|auto]. }
    rewrite E. apply IH; lia. }
  apply G; lia.
Qed.

Lemma mark_del_enc d : enc_ok d -> enc_ok (mark_del d).
Proof. intros H. exact H. Qed.

Section X.
  Variables (b cat : list Z) (k : Z) (name : list Z) (i : Z) (tl dl : list Z).
  Hypothesis D : dos33_disk b cat k.
  Hypothesis Hi : 0 <= i < k.
  Hypothesis Hn : x_name (slot3 b cat i) = name.
  Hypothesis Hlow : forall j, 0 <= j < i -> x_name (slot3 b cat j) <> name.
  Let f := fdir3 b.
  Hypothesis Ef : get_tslist (fuel33 (H3 f)) (H3 f) b (parse_ent (H3 f) (slot3 b cat i)) = Ok (tl, dl).
  Hypothesis Hsec : forall n, In n (tl ++ dl) -> 0 <= n < 1280.
  Let Hb := k3_size _ _ _ D.
  Let Ho := k3_bytes _ _ _ D.

  Lemma delete_body3_raw : exists b',
    delete_body3 (view3 b cat k) name = (with_bytes3 (view3 b cat k) b', Ok tt) /\
    delete_raw3 b cat k b' i (tl ++ dl).
  Proof.
    pose proof (k3_k _ _ _ D) as Hk.
    assert (EG : get_directory3 (view3 b cat k) = (view3 b cat k, Ok (entries3 f b cat k)))
      by (apply (get_directory3_view b cat k D)).
    unfold delete_body3. rewrite EG. clear EG.
    change (i_hdr (view3 b cat k)) with (H3 f). change (i_bytes (view3 b cat k)) with b.
    rewrite (find_index3_spec name f b cat k i Hi Hn Hlow).
    rewrite Ef. cbn [lift3].
    assert (Esm : get_smap3 (view3 b cat k) = Ok (smap3 b)).
    { unfold get_smap3. cbn [view3 i_hdr i_bytes]. rewrite get_raw3_in by lia. reflexivity. }
    rewrite Esm. cbn [lift3].
    destruct (free_sectors_spec (tl ++ dl) (smap3 b)) as (sm & Es & Hz & Hg).
    { intros n Hin. specialize (Hsec n Hin). rewrite zlen_smap3 by assumption. lia. }
    rewrite Es. cbn [lift3]. rewrite zlen_smap3 in Hz by assumption.
    rewrite calc_bitmap3_spec by assumption.
    assert (Hbits : Forall is_bit sm).
    { apply Forall_forall. intros x Hx. apply (In_nth _ _ 0) in Hx. destruct Hx as (m & Hm & <-).
      replace (nth m sm 0) with (getb sm (Z.of_nat m)) by (unfold getb; rewrite Nat2Z.id; reflexivity).
      rewrite Hg by lia. destruct (zmem _ _); [right; reflexivity|].
      rewrite getb_smap3; [|assumption|assumption|clear -Hm Hz; unfold zlen in *; lia].
      destruct (_ <? 800); [apply free_bit3_bit|left; reflexivity]. }
    destruct (write_map b sm Hb Ho Hz Hbits) as (W1 & W2 & W3 & W4 & W5 & W6).
    set (v1 := pack_vtoc3 (vtoc b) sm) in *. set (b1 := wr b 272 v1) in *.
    set (d1 := parse_ent (H3 f) (slot3 b cat i)).
    set (ds := upd (entries3 f b cat k) i (mark_del d1)).
    assert (Hzds : zlen ds = k) by (unfold ds; rewrite zlen_upd, entries3_zlen; lia).
    assert (Hd1 : enc_ok (mark_del d1)) by (apply mark_del_enc, enc_ok_parse, bytes_ok_slot3; assumption).
    assert (Hnth : forall j, 0 <= j < k -> nth (Z.to_nat j) ds d1
               = if j =? i then mark_del d1 else parse_ent (H3 f) (slot3 b cat j)).
    { intros j Hj. unfold ds, upd. rewrite nth_upd_nat. destruct (Z.eqb_spec j i) as [->|Hne].
      - rewrite Nat.eqb_refl. replace (Nat.ltb _ _) with true; [reflexivity|].
        symmetry. apply Nat.ltb_lt. pose proof (entries3_zlen f b cat k ltac:(lia)) as Hz'.
        clear -Hz' Hi. unfold zlen in *. lia.
      - replace (Nat.eqb _ _) with false by (symmetry; apply Nat.eqb_neq; lia).
        cbn [andb]. apply nth_entries3. assumption. }
    assert (Hencs : Forall enc_ok ds).
    { apply Forall_forall. intros d Hd. apply (In_nth _ _ d1) in Hd. destruct Hd as (m & Hm & <-).
      replace m with (Z.to_nat (Z.of_nat m)) by lia. rewrite Hnth by (clear -Hm Hzds; unfold zlen in *; lia).
      destruct (_ =? i); [assumption|apply enc_ok_parse, bytes_ok_slot3; assumption]. }
    assert (Hds0 : ds <> []) by (intros C; rewrite C, zlen_nil in Hzds; lia).
    assert (Hcatr : Forall (fun m => 0 <= m < 560) cat) by (apply (cat_range b cat k D)).
    assert (Hcatno : forall n, In n cat -> 0 <= n < 560 /\ n <> 272).
    { intros n Hin. rewrite Forall_forall in Hcatr. split; [apply Hcatr; assumption|].
      intros ->. apply (k3_cat_vtoc _ _ _ D). assumption. }
    assert (Hlinks1 : links b1 f cat).
    { apply (links_ext b); [|apply (k3_cat _ _ _ D)]. intros n Hin. destruct (Hcatno n Hin).
      rewrite W4 by assumption. reflexivity. }
    pose proof (cat_sectors_spec f b1 cat ds W1 W2 Hlinks1 (cat_nonempty b cat k D) Hds0 Hencs) as HC.
    replace (zlen ds <=? 7 * (zlen cat - 1)) with true in HC by lia.
    destruct HC as (es & csec & pad & EC & F2 & Cnum & Clen & Cok & Cby & Cflat & Cpad & Ccount).
    rewrite EC. cbn [lift3].
    assert (Hv1l : zlen v1 = 256) by (apply zlen_pack_vtoc3, zlen_sec; [assumption|lia]).
    assert (Hsv1 : s_data (fill_sec 256 272 0 [] v1) = v1) by (apply s_data_fill_full; assumption).
    rewrite write_sectors_spec.
    2: assumption.
    2: { repeat constructor; try (cbn [fill_sec s_num]; lia). rewrite Hsv1; assumption. }
    cbn [lift3].
    set (b2 := wrs [fill_sec 256 272 0 [] v1] b1).
    assert (Eb2 : b2 = wr b1 272 v1) by (unfold b2; cbn [wrs fold_left]; rewrite Hsv1; reflexivity).
    assert (Hv1ok : bytes_ok v1) by (rewrite <- W3; apply bytes_ok_sec; assumption).
    assert (Hb2 : zlen b2 = 143360) by (rewrite Eb2; apply zlen_wr; [assumption|lia|assumption]).
    assert (Ho2 : bytes_ok b2) by (rewrite Eb2; apply bytes_ok_wr; assumption).
    assert (Hgc : Forall good_sec csec) by (revert Cok; apply Forall_impl; intros s [G _]; assumption).
    rewrite write_sectors_spec by assumption.
    set (b3 := wrs csec b2). exists b3. split; [reflexivity|].
    assert (Hb3 : zlen b3 = 143360) by (apply zlen_wrs; assumption).
    assert (Ho3 : bytes_ok b3) by (apply bytes_ok_wrs; assumption).
    assert (Hcn : forall n, In n (map s_num csec) -> In n cat) by (intros n Hin; rewrite Cnum in Hin; eapply In_firstn; eassumption).
    pose proof (links_nodup _ _ _ Hlinks1) as Hcatnd.
    assert (Hcnd : NoDup (map s_num csec)).
    { rewrite Cnum. pose proof Hcatnd as N.
      rewrite <- (firstn_skipn (length csec) cat) in N. apply NoDup_app_left in N. assumption. }
    assert (Hc272 : ~ In 272 (map s_num csec)) by (intros C; apply (k3_cat_vtoc _ _ _ D), Hcn, C).
    assert (S2 : forall n, 0 <= n < 560 -> sec b2 n = if n =? 272 then v1 else sec b n).
    { intros n Hin. rewrite Eb2. rewrite sec_wr by (assumption || lia).
      destruct (Z.eqb_spec n 272) as [->|Hne]; [reflexivity|]. apply W4; assumption. }
    assert (Svt : vtoc b3 = vtoc b1).
    { rewrite W3. unfold vtoc, b3. rewrite sec_wrs_other by (assumption || lia). rewrite S2 by lia. reflexivity. }
    assert (Scat : forall s, In s csec -> sec b3 (s_num s) = s_data s).
    { intros s Hs. apply sec_wrs_in; assumption. }
    assert (Soth : forall n, 0 <= n < 560 -> n <> 272 -> ~ In n (map s_num csec) -> sec b3 n = sec b n).
    { intros n Hin Hne H2. unfold b3. rewrite sec_wrs_other by assumption. rewrite S2 by assumption.
      replace (n =? 272) with false by lia. reflexivity. }
    assert (FB : forall n, 0 <= n < 800 -> free_bit3 b3 n = if zmem n (tl ++ dl) then 1 else free_bit3 b n).
    { intros n Hin. unfold free_bit3 at 1. rewrite Svt. fold (free_bit3 b1 n). rewrite W6 by assumption.
      rewrite Hg by lia. destruct (zmem n (tl ++ dl)); [reflexivity|].
      rewrite getb_smap3 by (assumption || lia). replace (n <? 800) with true by lia. reflexivity. }
    destruct (slots_after b b3 cat ds es csec pad Hb Hb3 Hcatr F2 Cnum Clen Cflat ltac:(lia) Ccount Scat) as [SL1 SL2].
    { intros n Hin. destruct (Hcatno n (In_skipn _ _ _ Hin)) as (A1 & A2).
      apply Soth; try assumption. rewrite Cnum. intros C.
      pose proof Hcatnd as N. rewrite <- (firstn_skipn (length csec) cat) in N.
      apply (NoDup_app_disj _ _ _ N C Hin). }
    assert (Henc : forall j, 0 <= j < k -> enc_of (nth (Z.to_nat j) ds d1) (slot3 b3 cat j)).
    { intros j Hj. rewrite SL1 by lia. apply (Forall2_nth _ _ _ F2). clear -Hj Hzds. unfold zlen in *. lia. }
    assert (Hesame : forall j, 0 <= j < k -> j <> i -> j < k /\ same_ent (slot3 b cat j) (slot3 b3 cat j)).
    { intros j Hj Hne. split; [lia|]. pose proof (Henc j Hj) as E. rewrite Hnth in E by assumption.
      destruct (Z.eqb_spec j i); [contradiction|].
      destruct (k3_used _ _ _ D j ltac:(lia)) as [U1 U2].
      apply (reencode (H3 f)); try assumption; [apply bytes_ok_slot3; assumption|].
      intros L. destruct (k3_files _ _ _ D j ltac:(lia) L) as (_ & T & _). assumption. }
    assert (Hunl : forall j, 0 <= j < k -> j <> i -> x_live (slot3 b cat j) -> ~ x_locked (slot3 b3 cat j)).
    { intros j Hj Hne L. pose proof (Henc j Hj) as E. rewrite Hnth in E by assumption.
      destruct (Z.eqb_spec j i); [contradiction|].
      apply (reencode_unlocks (H3 f) (slot3 b cat j)); try assumption. apply bytes_ok_slot3; assumption. }
    pose proof (Henc i Hi) as E1. rewrite Hnth, Z.eqb_refl in E1 by lia.
    destruct E1 as (N1 & N2 & N3 & N4 & N5 & N6 & N7 & N8).
    unfold d1, mark_del in N3, N4, N6, N7, N8. cbn [d3_del d3_name d3_track d3_sector d3_count] in N3, N4, N6, N7, N8.
    rewrite d3_name_parse in N7. rewrite d3_count_parse in N6. specialize (N8 eq_refl).
    rewrite slice_all in N7 by apply zlen_x_name.
    destruct (k3_used _ _ _ D i Hi) as [_ Hrs]. rewrite Hrs in N7.
    unfold parse_ent in N4, N8. cbn [d3_track d3_sector] in N4, N8.
    constructor; try assumption.
    - apply Soth; [lia|lia|].
      intros C. apply Hcn in C. pose proof (cat_pos b cat k D) as P. rewrite Forall_forall in P. specialize (P 0 C). lia.
    - intros j Hj. rewrite Svt. apply W5. assumption.
    - intros n Hin. destruct (in_dec Z.eq_dec n (map s_num csec)) as [Hx|Hx].
      + apply in_map_iff in Hx. destruct Hx as (s & <- & Hs). rewrite Scat by assumption.
        rewrite Forall_forall in Cok. destruct (Cok s Hs) as [_ Ec]. rewrite Ec.
        destruct (Hcatno (s_num s) Hin) as (A1 & A2). rewrite W4 by assumption. reflexivity.
      + destruct (Hcatno n Hin) as (A1 & A2). rewrite Soth by assumption. reflexivity.
    - intros n Hin Hne Hc. apply Soth; try assumption. intros C. apply Hc, Hcn, C.
    - intros j Hj Hne. apply Hesame; assumption.
    - intros j Hj Hne L. pose proof (Henc j Hj) as E. rewrite Hnth in E by assumption.
      destruct (Z.eqb_spec j i); [contradiction|]. exact (reencode_dead _ _ _ L E).
    - split; [assumption|]. unfold x_stale, x_start. rewrite N4, N8. split.
      + intros [L _]. destruct (Z.eqb_spec (getb (slot3 b cat i) 0) 255); [contradiction|reflexivity].
      + intros L. unfold x_dead in L. rewrite L. reflexivity.
    - intros j Hj. destruct (SL2 j ltac:(lia)) as [E|E]; [|assumption]. rewrite E.
      apply (k3_unused _ _ _ D). lia.
  Qed.

  (** When the sectors freed are data sectors of no other file, the disk stays
      consistent. *)
  Hypothesis Hdat : forall n, In n (tl ++ dl) -> data_sector3 cat n.
  Hypothesis Hother : forall j tl' dl' n, 0 <= j < k -> j <> i -> x_live (slot3 b cat j) ->
        file_at b (slot3 b cat j) tl' dl' -> In n (tl' ++ dl') -> ~ In n (tl ++ dl).
  Hypothesis Hnm : forall j, 0 <= j < k -> j <> i -> x_live (slot3 b cat j) -> x_name (slot3 b cat j) <> name.

  Lemma raw_effect3 b' : delete_raw3 b cat k b' i (tl ++ dl) -> delete_effect3 b cat k b' i tl dl.
  Proof.
    clear Hlow Ef Hsec. intros R. split; [|assumption]. pose proof (k3_k _ _ _ D) as Hk. destruct R. constructor; try assumption.
    - intros n Hin E. rewrite r3_free0 in E by assumption. destruct (zmem n (tl ++ dl)) eqn:Em.
      + apply zmem_In in Em. apply Hdat. assumption.
      + apply (k3_free _ _ _ D); assumption.
    - lia.
    - intros j Hj Hne. split; [lia|]. apply r3_kept0; assumption.
    - intros j tl' dl' n Hj Hne L Ff Hin.
      destruct (live_sector b cat k j tl' dl' n D Hj L Ff Hin) as [(Rg & N & C) Z0].
      split; [apply r3_frame0; [lia|assumption|assumption]|].
      rewrite r3_free0 by lia. pose proof (Hother j tl' dl' n Hj Hne L Ff Hin) as Hno.
      apply zmem_false in Hno. rewrite Hno. assumption.
    - intros _. unfold new_slot_ok. cbv zeta. split; [left; assumption|].
      destruct (k3_used _ _ _ D i Hi) as [_ Hrs].
      split; [rewrite r3_name0; assumption|]. split.
      + intros j Hj Hne L E. rewrite r3_name0 in E. apply (Hnm j); [assumption..|congruence].
      + intros [C _]. contradiction.
  Qed.
End X.

Lemma delete_body3_spec b cat k name i tl dl : dos33_disk b cat k -> file_in3 b cat k name i tl dl -> exists b',
    delete_body3 (view3 b cat k) name = (with_bytes3 (view3 b cat k) b', Ok tt) /\
    delete_effect3 b cat k b' i tl dl.
Proof.
  intros D (Hi & HL & Hn & HA).
  assert (Hsec : forall n, In n (tl ++ dl) -> data_sector3 cat n /\ free_bit3 b n = 0)
    by (intros n Hin; apply (live_sector b cat k i tl dl n); assumption).
  assert (Hlow : forall j, 0 <= j < i -> x_name (slot3 b cat j) <> name)
    by (intros j Hj E; apply (k3_names _ _ _ D j i); [lia|lia|assumption|congruence]).
  destruct (delete_body3_raw b cat k name i tl dl D Hi Hn) as (b' & E & R).
  - exact Hlow.
  - apply (get_tslist_spec _ b (slot3 b cat i)); [apply (k3_size _ _ _ D)|assumption| |reflexivity].
    apply d3_start_parse. intros C. destruct HL. contradiction.
  - intros n Hin. destruct (Hsec n Hin) as [[? _] _]. lia.
  - exists b'. split; [assumption|].
    apply (raw_effect3 b cat k name i tl dl D); try assumption.
    + intros n Hin. apply Hsec. assumption.
    + intros j tl' dl' n Hj Hne L Ff Hin C. apply Hne.
      apply (k3_own _ _ _ D j i tl' dl' tl dl n); assumption.
    + intros j Hj Hne L E'. apply Hne. apply (live_names b cat k D j i); try assumption. congruence.
Qed.

(** Deleting a name that only a deleted entry has. *)
Lemma get_tslist_stale f b cat i tl dl : zlen b = 143360 -> x_dead (slot3 b cat i) -> zlen (slot3 b cat i) = 35 ->
  stale_at b (slot3 b cat i) tl dl ->
  get_tslist (fuel33 (H3 f)) (H3 f) b (parse_ent (H3 f) (slot3 b cat i)) = Ok (tl, dl).
Proof.
  intros Hb Hd Hz (L & Hc & Hr). set (e := slot3 b cat i) in *. unfold x_dead in Hd.
  apply (get_tslist_spec f b (upd e 0 (getb e 32))); try assumption.
  - unfold file_at, x_start, x_count. rewrite !getb_upd by lia.
    cbn [Z.eqb]. split; [exact L|]. split; [exact Hc|exact Hr].
  - unfold from_ts, parse_ent, x_start. cbn [d3_track d3_sector]. rewrite Hd. rewrite !getb_upd by lia.
    cbn [Z.eqb Pos.eqb]. lia.
  - unfold x_count. rewrite !getb_upd by lia. cbn [Z.eqb]. reflexivity.
Qed.
Lemma delete_stale3_raw b cat k name i tl dl : dos33_disk b cat k -> 0 <= i < k ->
  x_dead (slot3 b cat i) -> x_name (slot3 b cat i) = name ->
  (forall j, 0 <= j < i -> x_name (slot3 b cat j) <> name) ->
  stale_at b (slot3 b cat i) tl dl -> (forall n, In n dl -> 0 <= n < 1280) -> exists b',
    delete_body3 (view3 b cat k) name = (with_bytes3 (view3 b cat k) b', Ok tt) /\
    delete_raw3 b cat k b' i (tl ++ dl).
Proof.
  intros D Hi Hd Hn Hlow HS Hr. apply delete_body3_raw; try assumption.
  - apply get_tslist_stale; try assumption; [apply (k3_size _ _ _ D)|].
    pose proof (k3_k _ _ _ D). apply zlen_slot3; [apply (k3_size _ _ _ D)|apply (cat_range b cat k D)|lia].
  - intros n Hin. apply in_app_or in Hin. destruct Hin as [Hin|Hin]; [|apply Hr; assumption].
    destruct HS as [L _]. pose proof (links_in _ _ _ L) as R. rewrite Forall_forall in R. specialize (R n Hin). lia.
Qed.

Lemma delete_body3_none b cat k name : dos33_disk b cat k ->
  (forall j, 0 <= j < k -> x_name (slot3 b cat j) <> name) ->
  delete_body3 (view3 b cat k) name = (view3 b cat k, Err (EAtr FileNotFound)).
Proof.
  intros D H.
  assert (EG : get_directory3 (view3 b cat k) = (view3 b cat k, Ok (entries3 (fdir3 b) b cat k)))
    by (apply (get_directory3_view b cat k D)).
  unfold delete_body3. rewrite EG. rewrite find_index3_none by assumption. reflexivity.
Qed.
