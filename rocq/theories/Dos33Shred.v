(** Effect of shredding the free sectors of a DOS 3.3 disk. *)
From Verif Require Import Base BaseLemmas DiskModel DirLemmas Dos33Model Dos33Spec Dos33Geom Dos33Vtoc Dos33Dir Dos33Files Dos33Update Dos33Alloc.

Record shred_effect3 (b cat : list Z) (k : Z) (b' : list Z) (fill : Z) : Prop := mkSE3 {
  s3_upd : update3 b cat k b' k (-1);
  s3_sec : forall n, 0 <= n < 560 ->
    sec b' n = if free_bit3 b n =? 1 then zrepeat (u8 fill) 256 else sec b n
}.

Lemma shred_loop3_spec smap fill n : zlen smap = 1280 -> forall i b,
  zlen b = 143360 -> bytes_ok b -> 0 <= i -> i + Z.of_nat n <= 560 ->
  exists b', shred_loop3 n smap fill i b = (b', Ok tt) /\ zlen b' = 143360 /\ bytes_ok b' /\
    forall m, 0 <= m < 560 -> sec b' m =
      if (i <=? m) && (m <? i + Z.of_nat n) && (getb smap m =? 1) then zrepeat (u8 fill) 256 else sec b m.
Proof.
  intros Hs. assert (Hf : is_byte (u8 fill)) by (unfold is_byte, u8; apply Z.mod_pos_bound; lia).
  induction n as [|n IH]; intros i b Hb Ho Hi Hn.
  - exists b. split; [reflexivity|]. split; [assumption|]. split; [assumption|]. intros m Hm.
    destruct (_ && _) eqn:E; [lia|reflexivity].
  - cbn [shred_loop3]. replace (zlen smap <=? i) with false by lia.
    set (b1 := if getb smap i =? 1 then _ else b).
    assert (H1 : b1 = if getb smap i =? 1 then wr b i (zrepeat (u8 fill) 256) else b).
    { unfold b1, wr. rewrite zlen_slice by lia. destruct (getb smap i =? 1); [|reflexivity].
      f_equal; [lia|]. f_equal. lia. }
    assert (Hl1 : zlen b1 = 143360).
    { rewrite H1. destruct (_ =? _); [|assumption]. apply zlen_wr; [assumption|lia|apply zlen_zrepeat; lia]. }
    assert (Ho1 : bytes_ok b1).
    { rewrite H1. destruct (_ =? _); [|assumption]. apply bytes_ok_wr; [assumption|apply bytes_ok_zrepeat; assumption]. }
    destruct (IH (i + 1) b1 Hl1 Ho1 ltac:(lia) ltac:(lia)) as (b' & E & Hl & Hob & Hsec).
    exists b'. split; [exact E|]. split; [assumption|]. split; [assumption|]. intros m Hm. rewrite Hsec by assumption.
    assert (E1 : sec b1 m = if (m =? i) && (getb smap m =? 1) then zrepeat (u8 fill) 256 else sec b m).
    { rewrite H1. destruct (Z.eqb_spec m i) as [->|Hne].
      - destruct (getb smap i =? 1); cbn [andb]; [|reflexivity].
        rewrite sec_wr; [|assumption|lia|apply zlen_zrepeat; lia|lia]. rewrite Z.eqb_refl. reflexivity.
      - cbn [andb]. destruct (getb smap i =? 1); [|reflexivity].
        rewrite sec_wr; [|assumption|lia|apply zlen_zrepeat; lia|lia].
        destruct (Z.eqb_spec m i); [contradiction|reflexivity]. }
    rewrite E1. destruct (getb smap m =? 1); rewrite ?andb_false_r, ?andb_true_r; [|reflexivity].
    destruct (Z.eqb_spec m i) as [->|Hne].
    + destruct ((i + 1 <=? i) && _); destruct ((i <=? i) && (i <? i + Z.of_nat (S n))) eqn:E2; try reflexivity; lia.
    + replace ((i + 1 <=? m) && (m <? i + 1 + Z.of_nat n)) with ((i <=? m) && (m <? i + Z.of_nat (S n))); [reflexivity|].
      destruct (Z.leb_spec i m), (Z.leb_spec (i+1) m), (Z.ltb_spec m (i + Z.of_nat (S n))), (Z.ltb_spec m (i + 1 + Z.of_nat n)); try reflexivity; lia.
Qed.

Lemma same_ent_refl e : x_used e -> same_ent e e.
Proof. intros _. unfold same_ent. split; [reflexivity|]. split; [tauto|]. intros H. auto. Qed.

Lemma shred_body3_spec b cat k fill : dos33_disk b cat k -> exists b',
  shred_body3 (view3 b cat k) fill = (with_bytes3 (view3 b cat k) b', Ok tt) /\ shred_effect3 b cat k b' fill.
Proof.
  intros D. pose proof (k3_size _ _ _ D) as Hb. pose proof (k3_bytes _ _ _ D) as Ho.
  destruct (shred_loop3_spec (smap3 b) fill 560 (zlen_smap3 b Hb) 0 b Hb Ho ltac:(lia) ltac:(lia))
    as (b' & E & Hl & Hob & Hsec).
  exists b'. split.
  { unfold shred_body3. assert (Esm : get_smap3 (view3 b cat k) = Ok (smap3 b)).
    { unfold get_smap3. cbn [view3 i_hdr i_bytes]. rewrite get_raw3_in by lia. reflexivity. }
    rewrite Esm. cbn [lift3]. change (i_bytes (view3 b cat k)) with b.
    change (Z.to_nat (h_max3 (i_hdr (view3 b cat k)))) with 560%nat. rewrite E. reflexivity. }
  assert (Hs : forall n, 0 <= n < 560 ->
    sec b' n = if free_bit3 b n =? 1 then zrepeat (u8 fill) 256 else sec b n).
  { intros n Hn. rewrite Hsec by assumption. rewrite getb_smap3 by (assumption || lia).
    replace ((0 <=? n) && (n <? 0 + Z.of_nat 560)) with true by lia.
    replace (n <? 800) with true by lia. reflexivity. }
  assert (Hnd : forall n, 0 <= n < 560 -> ~ data_sector3 cat n -> sec b' n = sec b n).
  { intros n Hn Hd. rewrite Hs by assumption. destruct (Z.eqb_spec (free_bit3 b n) 1) as [X|X]; [|reflexivity].
    exfalso. apply Hd. apply (k3_free _ _ _ D); [lia|assumption]. }
  assert (Hcat : Forall (fun m => 0 < m < 560) cat) by (eapply links_in; apply (k3_cat _ _ _ D)).
  assert (Hv : vtoc b' = vtoc b).
  { unfold vtoc. apply Hnd; [lia|]. unfold data_sector3. lia. }
  assert (Hfb : forall n, free_bit3 b' n = free_bit3 b n) by (intros n; unfold free_bit3; rewrite Hv; reflexivity).
  assert (Hc : forall n, In n cat -> sec b' n = sec b n).
  { intros n Hn. rewrite Forall_forall in Hcat. specialize (Hcat n Hn). apply Hnd; [lia|]. intros (_ & _ & X). contradiction. }
  assert (Hcatalog : catalog b' cat = catalog b cat).
  { unfold catalog. apply flat_map_ext_in. intros n Hn. rewrite Hc by assumption. reflexivity. }
  assert (Hslot : forall i, slot3 b' cat i = slot3 b cat i) by (intros i; unfold slot3; rewrite Hcatalog; reflexivity).
  split; [|exact Hs]. constructor; try assumption.
  - apply Hnd; [lia|]. unfold data_sector3. lia.
  - intros i _. rewrite Hv. reflexivity.
  - intros n Hn. rewrite Hc by assumption. reflexivity.
  - intros n Hn H1. rewrite Hfb in H1. apply (k3_free _ _ _ D); assumption.
  - pose proof (k3_k _ _ _ D). lia.
  - intros i Hi _. split; [lia|]. rewrite Hslot. apply same_ent_refl. apply (k3_used _ _ _ D). assumption.
  - intros i Hi. rewrite Hslot. apply (k3_unused _ _ _ D). assumption.
  - intros i tl dl n Hi _ HL HA Hin.
    destruct (k3_files _ _ _ D i Hi HL) as (_ & _ & tl' & dl' & HA' & _ & _ & Hall).
    destruct (file_at_det _ _ _ _ _ _ HA HA') as [<- <-]. destruct (Hall n Hin) as [Hd Hf].
    rewrite Hfb. split; [|assumption]. rewrite Hs by (unfold data_sector3 in Hd; lia). rewrite Hf. reflexivity.
  - lia.
Qed.
