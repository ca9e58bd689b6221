(** The sectors of a new DOS 3.3 file: data sectors, track/sector lists, and
    the chain the lists form. *)
From Verif Require Import Base BaseLemmas DiskModel DirLemmas AtariVtoc AtariSectors Dos33Model Dos33Spec Dos33Geom Dos33Vtoc Dos33Dir.

(** * Chunks padded to full length *)
Definition all_but_last {A} (P : A -> Prop) (l : list A) : Prop :=
  forall c r, l = r ++ [c] -> Forall P r.
Lemma all_but_last_inv {A} (P : A -> Prop) x y l : all_but_last P (x :: y :: l) -> P x /\ all_but_last P (y :: l).
Proof.
  intros H. split.
  - destruct (@exists_last _ (y :: l)) as (r & c & E); [discriminate|].
    specialize (H c (x :: r)). rewrite E in H. specialize (H eq_refl). inversion H; assumption.
  - intros c r E. specialize (H c (x :: r)). rewrite E in H. specialize (H eq_refl). inversion H; assumption.
Qed.

Lemma concat_pad p : forall (cs : list (list Z)), Forall (fun c => 1 <= zlen c <= p) cs ->
  all_but_last (fun c => zlen c = p) cs ->
  0 <= p * zlen cs - zlen (concat cs) /\
  concat (map (fun c => c ++ zrepeat 0 (p - zlen c)) cs)
  = concat cs ++ zrepeat 0 (p * zlen cs - zlen (concat cs)).
Proof.
  intros cs; induction cs as [|c cs IH]; intros Hc Hl.
  - cbn [map concat]. rewrite !zlen_nil. split; [lia|]. replace (p * 0 - 0) with 0 by lia. reflexivity.
  - inversion Hc as [|? ? Hc1 Hc2]; subst. destruct cs as [|c' cs].
    + cbn [map concat]. rewrite !app_nil_r. rewrite zlen_cons, zlen_nil.
      replace (p * (1 + 0)) with p by lia. split; [lia|reflexivity].
    + apply all_but_last_inv in Hl. destruct Hl as [Hp Hl].
      destruct (IH Hc2 Hl) as [I1 I2]. clear IH. cbn [map] in *. set (t := c' :: cs) in *.
      change (concat (c :: t)) with (c ++ concat t).
      match goal with |- context [concat (?x :: ?y)] => change (concat (x :: y)) with (x ++ concat y) end.
      rewrite I2, Hp, Z.sub_diag. cbn [zrepeat Z.to_nat repeat]. rewrite app_nil_r.
      rewrite zlen_app, zlen_cons, Hp. replace (p * (1 + zlen t) - (p + zlen (concat t)))
        with (p * zlen t - zlen (concat t)) by lia.
      split; [lia|]. rewrite app_assoc. reflexivity.
Qed.

(** * Data sectors *)
Lemma s_data_make c n : zlen c <= 256 -> s_data (make_sector 256 c n) = c ++ zrepeat 0 (256 - zlen c).
Proof.
  intros H. rewrite make_sector_spec by assumption. unfold fill_sec. cbn [s_data app].
  rewrite zlen_nil, Z.sub_0_r. reflexivity.
Qed.

Lemma plain_link_some : forall secs ns s, length ns = length secs ->
  link_loop plain_setnext 0 (Some s) (combine secs ns)
  = s :: map (fun p => set_fnum (set_num (fst p) (snd p)) 0) (combine secs ns).
Proof.
  intros secs; induction secs as [|x secs IH]; intros ns s H; [reflexivity|].
  destruct ns as [|n ns]; [discriminate|]. cbn [combine link_loop map fst snd].
  rewrite IH by (cbn in H; lia). reflexivity.
Qed.
Lemma plain_link secs ns : length ns = length secs ->
  link_loop plain_setnext 0 None (combine secs ns)
  = map (fun p => set_fnum (set_num (fst p) (snd p)) 0) (combine secs ns).
Proof.
  destruct secs as [|x secs]; [reflexivity|]. destruct ns as [|n ns]; [discriminate|]. intros H.
  cbn [combine link_loop map fst snd]. rewrite plain_link_some by (cbn in H; lia). reflexivity.
Qed.

(** The data sectors as they are written. *)
Definition dsecs (cs : list (list Z)) (ns : list Z) : list wsector :=
  map (fun p => set_fnum (set_num (fst p) (snd p)) 0)
      (combine (map (fun c => make_sector 256 c (-1)) cs) ns).
Lemma dsecs_num cs : forall ns, length ns = length cs -> map s_num (dsecs cs ns) = ns.
Proof.
  induction cs as [|c cs IH]; intros ns H; destruct ns as [|n ns]; try discriminate; [reflexivity|].
  unfold dsecs. cbn [map combine fst snd s_num set_fnum set_num]. f_equal. apply IH. cbn in H; lia.
Qed.
Lemma dsecs_data cs : forall ns, length ns = length cs -> Forall (fun c => 1 <= zlen c <= 256) cs ->
  map s_data (dsecs cs ns) = map (fun c => c ++ zrepeat 0 (256 - zlen c)) cs.
Proof.
  induction cs as [|c cs IH]; intros ns H Hc; destruct ns as [|n ns]; try discriminate; [reflexivity|].
  inversion Hc; subst.
  unfold dsecs. cbn [map combine fst snd s_data set_fnum set_num]. f_equal.
  - apply s_data_make. lia.
  - apply IH; [cbn in H; lia|assumption].
Qed.

(** * Track/sector lists *)
Definition enc_pair (n : Z) : list Z := [u8 (n / 16); u8 (n mod 16)].
Definition tsd (c : list Z) : list Z :=
  zrepeat 0 12 ++ flat_map enc_pair c ++ zrepeat 0 (244 - 2 * zlen c).
Definition tsec (c : list Z) : wsector := mkS (-1) 256 0 (tsd c) 256 0.

Lemma ts_data_spec c : zlen c <= 122 -> ts_data c = Ok (tsd c).
Proof. intros H. unfold ts_data. replace (122 <? zlen c) with false by lia. reflexivity. Qed.

Lemma ts_chunks_spec : forall fuel nums, (length nums <= fuel)%nat ->
  exists cs, ts_chunks fuel 122 nums = Ok (map tsec cs) /\ concat cs = nums /\
    Forall (fun c => 1 <= zlen c <= 122) cs /\ zlen cs = lists3 (zlen nums) /\
    all_but_last (fun c => zlen c = 122) cs.
Proof.
  intros fuel; induction fuel as [|fuel IH]; intros nums Hf.
  - destruct nums; [|cbn in Hf; lia]. exists [].
    split; [reflexivity|]. split; [reflexivity|]. split; [constructor|]. split; [reflexivity|].
    intros c r E. symmetry in E. apply app_eq_nil in E. destruct E; discriminate.
  - destruct nums as [|x nums'] eqn:Ed.
    + exists []. split; [reflexivity|]. split; [reflexivity|]. split; [constructor|]. split; [reflexivity|].
      intros c r E. symmetry in E. apply app_eq_nil in E. destruct E; discriminate.
    + rewrite <- Ed in *. cbn [ts_chunks]. rewrite Ed. rewrite <- Ed.
      assert (Hl : 0 < zlen nums) by (rewrite Ed, zlen_cons; pose proof (zlen_nonneg nums'); lia).
      set (n := zlen nums) in *.
      assert (Hc : zlen (slice nums 0 122) = Z.min 122 n) by (rewrite zlen_slice_min by lia; fold n; lia).
      assert (Hr : zlen (slice nums 122 n) = Z.max 0 (n - 122)) by (rewrite zlen_slice_min by lia; fold n; lia).
      destruct (IH (slice nums 122 n)) as (cs & E1 & E2 & E3 & E4 & E5).
      { assert (zlen (slice nums 122 n) < n) by lia. clear -H Hf. unfold n, zlen in *. lia. }
      rewrite ts_data_spec by lia. cbn [rbind]. rewrite E1. cbn [rbind].
      exists (slice nums 0 122 :: cs). split; [reflexivity|]. split; [|split; [|split]].
      * cbn [concat]. rewrite E2. destruct (Z_le_gt_dec n 122) as [Hle|Hgt].
        -- rewrite slice_all by (fold n; lia). rewrite slice_oob by (fold n; lia). apply app_nil_r.
        -- rewrite <- slice_split by lia. apply slice_full.
      * constructor; [lia|assumption].
      * rewrite zlen_cons, E4, Hr. unfold lists3. Z.to_euclidean_division_equations. lia.
      * intros c r E. destruct r as [|r0 r]; [constructor|]. cbn [app] in E. injection E as E E'.
        constructor; [|apply (E5 c); assumption]. subst r0. rewrite Hc.
        assert (0 < zlen cs) by (rewrite E', zlen_app, zlen_cons, zlen_nil; pose proof (zlen_nonneg r); lia).
        rewrite E4, Hr in H. unfold lists3 in H. Z.to_euclidean_division_equations. lia.
Qed.

Lemma zlen_enc c : zlen (flat_map enc_pair c) = 2 * zlen c.
Proof. induction c as [|n c IH]; [reflexivity|]. cbn [flat_map]. rewrite zlen_app, zlen_cons, IH. cbn [enc_pair zlen length]. change (zlen (enc_pair n)) with 2. lia. Qed.
Lemma bytes_enc c : bytes_ok (flat_map enc_pair c).
Proof.
  induction c as [|n c IH]; [constructor|]. cbn [flat_map]. apply bytes_ok_app. split; [|assumption].
  repeat constructor; apply is_byte_u8.
Qed.
Lemma zlen_tsd c : zlen c <= 122 -> zlen (tsd c) = 256.
Proof.
  intros H. unfold tsd. rewrite !zlen_app, zlen_enc, !zlen_zrepeat by lia. lia.
Qed.
Lemma bytes_tsd c : bytes_ok (tsd c).
Proof.
  unfold tsd. rewrite !bytes_ok_app. split; [apply bytes_ok_zrepeat; unfold is_byte; lia|].
  split; [apply bytes_enc|apply bytes_ok_zrepeat; unfold is_byte; lia].
Qed.
Lemma getb_enc c : forall k, 0 <= k < zlen c ->
  getb (flat_map enc_pair c) (2 * k) = u8 (getb c k / 16) /\
  getb (flat_map enc_pair c) (2 * k + 1) = u8 (getb c k mod 16).
Proof.
  induction c as [|n c IH]; intros k Hk; [unfold zlen in Hk; cbn in Hk; lia|].
  rewrite zlen_cons in Hk. cbn [flat_map enc_pair app].
  destruct (Z.eq_dec k 0) as [->|Hk0].
  - split; reflexivity.
  - rewrite (getb_consS _ _ (2 * k)), (getb_consS _ _ (2 * k - 1)) by lia.
    rewrite (getb_consS _ _ (2 * k + 1)), (getb_consS _ _ (2 * k + 1 - 1)) by lia.
    rewrite (getb_consS _ _ k) by lia.
    replace (2 * k - 1 - 1) with (2 * (k - 1)) by lia.
    replace (2 * k + 1 - 1 - 1) with (2 * (k - 1) + 1) by lia. apply IH. lia.
Qed.

Lemma getb_map_zrange (f : Z -> Z) n i : 0 <= i < n -> getb (map f (zrange 0 n)) i = f i.
Proof.
  intros H. unfold getb.
  rewrite nth_indep with (d' := f 0).
  - rewrite map_nth. f_equal. change (nth (Z.to_nat i) (zrange 0 n) 0) with (getb (zrange 0 n) i).
    unfold zrange. rewrite getb_zseq_nat; lia.
  - rewrite map_length. pose proof (zlen_zrange 0 n ltac:(lia)). unfold zlen in *. lia.
Qed.

(** A list sector says which data sectors it names and where the next list is. *)
Definition good_ts (s : wsector) (c : list Z) (next : Z) : Prop :=
  zlen (s_data s) = 256 /\ bytes_ok (s_data s) /\ lnk (s_data s) = next /\
  pairs (s_data s) = c ++ zrepeat 0 (122 - zlen c).

Lemma setnext_ts c n next : zlen c <= 122 -> Forall (fun m => 0 <= m < 4096) c -> 0 <= next < 4096 ->
  s_num (ts_setnext (set_fnum (set_num (tsec c) n) 0) next) = n /\
  good_ts (ts_setnext (set_fnum (set_num (tsec c) n) 0) next) c next.
Proof.
  intros Hc Hm Hn. unfold ts_setnext, set_data, set_fnum, set_num, tsec. cbn [s_num s_size s_fnum s_data s_used].
  split; [reflexivity|]. pose proof (zlen_nonneg c).
  set (t := [u8 (next / 16); u8 (next mod 16)]).
  assert (Ht : zlen t = 2) by reflexivity.
  pose proof (zlen_tsd c Hc) as Hz.
  assert (Hg : forall i, 3 <= i < 256 -> getb (setslice (tsd c) 1 t) i = getb (tsd c) i).
  { intros i Hi. rewrite getb_setslice by lia. rewrite Ht.
    replace ((1 <=? i) && (i <? 1 + 2)) with false by lia. reflexivity. }
  unfold good_ts. cbn [s_data]. split; [rewrite zlen_setslice; lia|].
  split; [apply bytes_ok_setslice; [apply bytes_tsd|]; repeat constructor; apply is_byte_u8|]. split.
  - unfold lnk. rewrite !getb_setslice by lia. rewrite Ht. cbn [Z.leb Z.ltb Z.compare Pos.compare Pos.compare_cont Z.add Pos.add andb].
    change (getb t (1 - 1)) with (u8 (next / 16)). change (getb t (2 - 1)) with (u8 (next mod 16)).
    unfold u8. Z.to_euclidean_division_equations. lia.
  - apply list_ext_getb.
    + unfold pairs. rewrite zlen_map, zlen_zrange, zlen_app, zlen_zrepeat by lia. lia.
    + intros i Hi. unfold pairs in Hi. rewrite zlen_map, zlen_zrange in Hi by lia.
      unfold pairs. rewrite getb_map_zrange by lia. rewrite !Hg by lia.
      unfold tsd. rewrite !(getb_app_r (zrepeat 0 12)) by (rewrite zlen_zrepeat; lia).
      rewrite zlen_zrepeat by lia.
      replace (12 + 2 * i - 12) with (2 * i) by lia. replace (13 + 2 * i - 12) with (2 * i + 1) by lia.
      destruct (Z_lt_ge_dec i (zlen c)) as [Hlt|Hge].
      * rewrite !(getb_app_l (flat_map enc_pair c)) by (rewrite zlen_enc; lia).
        rewrite (getb_app_l c) by lia. destruct (getb_enc c i ltac:(lia)) as [-> ->].
        assert (Hr : 0 <= getb c i < 4096).
        { rewrite Forall_forall in Hm. apply Hm. unfold getb. apply nth_In. unfold zlen in *. lia. }
        unfold u8. Z.to_euclidean_division_equations. lia.
      * rewrite !(getb_app_r (flat_map enc_pair c)) by (rewrite zlen_enc; lia).
        rewrite (getb_app_r c) by lia. rewrite zlen_enc. rewrite !getb_zrepeat by lia. reflexivity.
Qed.

Lemma ts_link_some : forall ns cs c n,
  length ns = length cs -> zlen c <= 122 -> Forall (fun c => 1 <= zlen c <= 122) cs ->
  Forall (Forall (fun m => 0 <= m < 4096)) (c :: cs) ->
  Forall (fun n => 0 <= n < 4096) ns ->
  let l := link_loop ts_setnext 0 (Some (set_fnum (set_num (tsec c) n) 0)) (combine (map tsec cs) ns) in
  map s_num l = n :: ns /\
  Forall2 (fun s p => good_ts s (fst p) (snd p)) l (combine (c :: cs) (ns ++ [0])).
Proof.
  intros ns; induction ns as [|m ns IH]; intros cs c n Hl Hc Hcs Hm Hns; cbv zeta.
  - destruct cs; [|discriminate]. cbn [map combine link_loop app]. inversion Hm; subst.
    destruct (setnext_ts c n 0 Hc ltac:(assumption) ltac:(lia)) as [E1 E2]. cbn [map].
    rewrite E1. split; [reflexivity|]. constructor; [exact E2|constructor].
  - destruct cs as [|c' cs]; [discriminate|]. inversion Hcs as [|? ? Hc1 Hc2]; subst. inversion Hns; subst.
    inversion Hm as [|? ? Hm1 Hm2]; subst.
    cbn [map combine link_loop app].
    destruct (setnext_ts c n m Hc Hm1 ltac:(assumption)) as [E1 E2].
    destruct (IH cs c' m) as [I1 I2]; try assumption; [cbn in Hl; lia|lia|].
    cbn [map]. rewrite E1, I1. split; [reflexivity|].
    constructor; [exact E2|exact I2].
Qed.
Lemma ts_link ns cs :
  length ns = length cs -> cs <> [] -> Forall (fun c => 1 <= zlen c <= 122) cs ->
  Forall (Forall (fun m => 0 <= m < 4096)) cs ->
  Forall (fun n => 0 <= n < 4096) ns ->
  let l := link_loop ts_setnext 0 None (combine (map tsec cs) ns) in
  map s_num l = ns /\
  Forall2 (fun s p => good_ts s (fst p) (snd p)) l (combine cs (tl ns ++ [0])).
Proof.
  intros Hl Hne Hcs Hm Hns. destruct cs as [|c cs]; [congruence|]. destruct ns as [|n ns]; [discriminate|].
  inversion Hcs; subst. inversion Hns; subst. cbn [map combine link_loop tl].
  apply ts_link_some; try assumption; [cbn in Hl; lia|lia].
Qed.

(** On the disk they form a chain naming the data sectors. *)
Lemma ts_chain b : forall l cs ns,
  Forall2 (fun s p => good_ts s (fst p) (snd p)) l (combine cs (tl ns ++ [0])) ->
  map s_num l = ns -> length cs = length ns -> NoDup ns ->
  Forall (fun n => 0 < n < 560) ns ->
  (forall s, In s l -> sec b (s_num s) = s_data s) ->
  links b (hd 0 ns) ns /\
  flat_map (fun n => pairs (sec b n)) ns = concat (map (fun c => c ++ zrepeat 0 (122 - zlen c)) cs).
Proof.
  intros l; induction l as [|s l IH]; intros cs ns HF Hn Hlen Hnd Hr Hsec.
  - cbn in Hn. subst ns. destruct cs; [|discriminate]. split; [constructor|reflexivity].
  - destruct ns as [|n ns]; [discriminate|]. destruct cs as [|c cs]; [discriminate|].
    cbn [map] in Hn. injection Hn as En Hn.
    assert (Hs : sec b n = s_data s) by (rewrite <- En; apply Hsec; left; reflexivity).
    pose proof (Forall_inv Hr) as Hd1. apply Forall_inv_tail in Hr.
    apply NoDup_cons_iff in Hnd. destruct Hnd as [Hni Hnd]. cbn [tl] in HF.
    destruct ns as [|m ns].
    + destruct l; [|discriminate]. destruct cs; [|discriminate].
      cbn [app combine] in HF. pose proof (Forall2_inv_head _ _ _ _ _ HF) as (L1 & L2 & L3 & L4). cbn [fst snd hd map] in *.
      split.
      * constructor; [assumption|assumption|]. rewrite Hs, L3. constructor.
      * cbn [flat_map concat]. rewrite Hs, L4. reflexivity.
    + cbn [app combine] in HF. pose proof (Forall2_inv_head _ _ _ _ _ HF) as (L1 & L2 & L3 & L4). apply Forall2_inv_tail in HF.
      cbn [fst snd] in *.
      destruct (IH cs (m :: ns)) as [I1 I2]; try assumption.
      * cbn in Hlen |- *; lia.
      * intros s' Hs'. apply Hsec. right; assumption.
      * cbn [hd] in *. split.
        -- constructor; [assumption|assumption|]. rewrite Hs, L3. exact I1.
        -- cbn [map concat]. change (flat_map (fun n => pairs (sec b n)) (n :: m :: ns))
             with (pairs (sec b n) ++ flat_map (fun n => pairs (sec b n)) (m :: ns)).
           rewrite I2, Hs, L4. reflexivity.
Qed.
