(** Proofs about BSAVE files and KBoot images. *)
From Verif Require Import Base BaseLemmas DiskModel AtariModel AtariHeader ExecModel ExecSpec ExecProofs.

(** * BSAVE *)
Lemma getb_zrepeat0 n i : getb (zrepeat 0 n) i = 0.
Proof.
  unfold getb, zrepeat. generalize (Z.to_nat n) as k. generalize (Z.to_nat i) as j. induction j as [|j IH]; intros [|k]; try reflexivity. cbn. apply IH.
Qed.
Lemma le2_u8 x : 0 <= x < 65536 -> le2 (u8 x) (u8 (x / 256)) = x.
Proof. intros. unfold le2, u8. Z.to_euclidean_division_equations. lia. Qed.
Lemma nth_zseq n : forall a k d, (k < n)%nat -> nth k (zseq_nat a n) d = a + Z.of_nat k.
Proof.
  induction n as [|n IH]; intros a [|k] d H; cbn [zseq_nat nth]; try lia. rewrite IH by lia. lia.
Qed.
Lemma nth_zrange lo hi i d : 0 <= i < hi - lo -> nth (Z.to_nat i) (zrange lo hi) d = lo + i.
Proof. intros H. unfold zrange. rewrite nth_zseq by lia. lia. Qed.
Lemma zlen_bsave_fill segs : forall o img,
  (forall s, In s segs -> o <= i_origin s /\ i_origin s + zlen (i_data s) - o + 4 <= zlen img) ->
  zlen (bsave_fill segs o img) = zlen img.
Proof.
  induction segs as [|s r IH]; intros o img H; [reflexivity|]. cbn [bsave_fill].
  destruct (H s (or_introl eq_refl)) as [H1 H2]. pose proof (zlen_nonneg (i_data s)).
  assert (Z1 : zlen (setslice img (i_origin s - o + 4) (i_data s)) = zlen img) by (apply zlen_setslice; lia).
  rewrite IH; [exact Z1|]. intros t Ht. rewrite Z1. apply H. right; exact Ht.
Qed.
Lemma bsave_fill_spec segs : forall o img i, 4 <= i ->
  (forall s, In s segs -> o <= i_origin s /\ i_origin s + zlen (i_data s) - o + 4 <= zlen img) ->
  getb (bsave_fill segs o img) i =
  if existsb (fun t => covers t (i - 4 + o)) segs then memory segs (i - 4 + o) else getb img i.
Proof.
  induction segs as [|s r IH]; intros o img i Hi H; [reflexivity|]. cbn [bsave_fill existsb memory].
  destruct (H s (or_introl eq_refl)) as [H1 H2]. pose proof (zlen_nonneg (i_data s)).
  assert (Z1 : zlen (setslice img (i_origin s - o + 4) (i_data s)) = zlen img) by (apply zlen_setslice; lia).
  rewrite IH; [|lia|intros t Ht; rewrite Z1; apply H; right; exact Ht].
  destruct (existsb (fun t => covers t (i - 4 + o)) r); [rewrite orb_true_r; reflexivity|].
  rewrite orb_false_r. rewrite getb_setslice by lia. unfold covers.
  replace (i_origin s - o + 4 <=? i) with (i_origin s <=? i - 4 + o) by lia.
  replace (i <? i_origin s - o + 4 + zlen (i_data s)) with (i - 4 + o <? i_origin s + zlen (i_data s)) by lia.
  destruct ((i_origin s <=? i - 4 + o) && (i - 4 + o <? i_origin s + zlen (i_data s))); [|reflexivity].
  f_equal. lia.
Qed.
Lemma bsave_fill_head segs : forall o img i, 0 <= i < 4 ->
  (forall s, In s segs -> o <= i_origin s /\ i_origin s + zlen (i_data s) - o + 4 <= zlen img) ->
  getb (bsave_fill segs o img) i = getb img i.
Proof.
  induction segs as [|s r IH]; intros o img i Hi H; [reflexivity|]. cbn [bsave_fill].
  destruct (H s (or_introl eq_refl)) as [H1 H2]. pose proof (zlen_nonneg (i_data s)).
  assert (Z1 : zlen (setslice img (i_origin s - o + 4) (i_data s)) = zlen img) by (apply zlen_setslice; lia).
  rewrite IH; [|lia|intros t Ht; rewrite Z1; apply H; right; exact Ht].
  rewrite getb_setslice by lia. replace (i_origin s - o + 4 <=? i) with false by lia. reflexivity.
Qed.
Lemma memory_uncovered segs a : existsb (fun t => covers t a) segs = false -> memory segs a = 0.
Proof.
  destruct segs as [|s r]; [reflexivity|]. cbn [existsb memory]. intros H. apply orb_false_iff in H. destruct H as [H1 H2].
  rewrite H1, H2. reflexivity.
Qed.

Lemma bsave_origin_spec segs lo : (forall s, In s segs -> lo <= i_origin s) -> Exists (fun s => i_origin s = lo) segs ->
  lo <= 100000000 -> bsave_origin segs = lo.
Proof.
  unfold bsave_origin. intros H1 H2 H3.
  enough (G : forall l x, (forall s, In s l -> lo <= i_origin s) -> lo <= x -> (Exists (fun s => i_origin s = lo) l \/ x = lo) ->
    fold_left (fun o s => Z.min o (i_origin s)) l x = lo) by (apply G; auto).
  clear. induction l as [|s r IH]; intros x H1 H2 H3; cbn [fold_left].
  - destruct H3 as [H3|H3]; [inversion H3|exact H3].
  - pose proof (H1 s (or_introl eq_refl)). apply IH; [intros; apply H1; right; assumption|lia|].
    destruct H3 as [H3|H3]; [|right; lia]. inversion H3; subst; [right; lia|left; assumption].
Qed.
Lemma bsave_last_spec segs hi : (forall s, In s segs -> i_origin s + zlen (i_data s) <= hi) ->
  Exists (fun s => i_origin s + zlen (i_data s) = hi) segs -> -1 <= hi -> bsave_last segs = hi.
Proof.
  unfold bsave_last. intros H1 H2 H3.
  enough (G : forall l x, (forall s, In s l -> i_origin s + zlen (i_data s) <= hi) -> x <= hi ->
     (Exists (fun s => i_origin s + zlen (i_data s) = hi) l \/ x = hi) ->
    fold_left (fun o s => Z.max o (i_origin s + zlen (i_data s))) l x = hi) by (apply G; auto).
  clear. induction l as [|s r IH]; intros x H1 H2 H3; cbn [fold_left].
  - destruct H3 as [H3|H3]; [inversion H3|exact H3].
  - pose proof (H1 s (or_introl eq_refl)). apply IH; [intros; apply H1; right; assumption|lia|].
    destruct H3 as [H3|H3]; [|right; lia]. inversion H3; subst; [right; lia|left; assumption].
Qed.

Lemma bsave_image_loads segs lo hi : lo <= hi -> 0 <= lo < 65536 -> hi - lo < 65536 ->
  (forall s, In s segs -> lo <= i_origin s /\ i_origin s + zlen (i_data s) <= hi) ->
  exists f, bsave_image lo hi segs = Ok f /\ loads_as f lo (hi - lo) (memory segs).
Proof.
  intros H1 H2 H3 H4. unfold bsave_image. replace (hi - lo + 4 <? 0) with false by lia. replace (hi - lo <? 0) with false by lia.
  eexists. split; [reflexivity|].
  set (img := setslice (setslice (zrepeat 0 (hi - lo + 4)) 0 (put2 lo)) 2 (put2 (hi - lo))).
  assert (Z0 : zlen (zrepeat 0 (hi - lo + 4)) = hi - lo + 4) by (apply zlen_zrepeat; lia).
  assert (Z1 : zlen (setslice (zrepeat 0 (hi - lo + 4)) 0 (put2 lo)) = hi - lo + 4)
    by (rewrite zlen_setslice; rewrite ?zlen_put2, ?Z0; lia).
  assert (Zi : zlen img = hi - lo + 4) by (unfold img; rewrite zlen_setslice; rewrite ?zlen_put2, ?Z1; lia).
  assert (Hs : forall s, In s segs -> lo <= i_origin s /\ i_origin s + zlen (i_data s) - lo + 4 <= zlen img)
    by (intros s Hs; specialize (H4 s Hs); lia).
  assert (Hg : forall i, 0 <= i -> getb img i = if i <? 2 then getb (put2 lo) i else if i <? 4 then getb (put2 (hi - lo)) (i - 2) else 0).
  { intros i Hi. unfold img. rewrite getb_setslice by (rewrite ?zlen_put2, ?Z1; lia). rewrite zlen_put2.
    rewrite getb_setslice by (rewrite ?zlen_put2, ?Z0; lia). rewrite zlen_put2.
    destruct (Z.ltb_spec i 2); [replace (2 <=? i) with false by lia; cbn [andb]; replace (0 <=? i) with true by lia; replace (i <? 0 + 2) with true by lia;
      cbn [andb]; f_equal; lia|].
    replace (2 <=? i) with true by lia. cbn [andb]. replace (2 + 2) with 4 by lia. destruct (i <? 4); [reflexivity|].
    replace (i <? 0 + 2) with false by lia. rewrite andb_false_r. apply getb_zrepeat0. }
  unfold loads_as. rewrite zlen_bsave_fill by exact Hs. rewrite Zi.
  rewrite !bsave_fill_head by (first [lia|exact Hs]). rewrite !Hg by lia. cbn [Z.ltb Z.compare Pos.compare Pos.compare_cont].
  split; [change (getb (put2 lo) 0) with (u8 lo); change (getb (put2 lo) 1) with (u8 (lo / 256)); apply le2_u8; lia|].
  split; [change (getb (put2 (hi - lo)) (2 - 2)) with (u8 (hi - lo)); change (getb (put2 (hi - lo)) (3 - 2)) with (u8 ((hi - lo) / 256));
    apply le2_u8; lia|].
  split; [lia|]. intros a Ha. rewrite bsave_fill_spec by (first [lia|exact Hs]).
  replace (4 + (a - lo) - 4 + lo) with a by lia.
  destruct (existsb (fun t => covers t a) segs) eqn:E; [reflexivity|]. rewrite memory_uncovered by exact E.
  rewrite Hg by lia. replace (4 + (a - lo) <? 2) with false by lia. replace (4 + (a - lo) <? 4) with false by lia. reflexivity.
Qed.

Lemma fits_le segs lo hi : fits segs lo hi -> lo <= hi.
Proof.
  intros (H1 & H2 & H3 & H4 & H5). apply Exists_exists in H4. destruct H4 as (s & Hs & E). specialize (H3 s Hs).
  pose proof (zlen_nonneg (i_data s)). lia.
Qed.
Lemma fits_bounds segs lo hi : fits segs lo hi -> bsave_origin segs = lo /\ bsave_last segs = hi.
Proof.
  intros H. pose proof (fits_le _ _ _ H) as Hle. destruct H as (H1 & H2 & H3 & H4 & H5).
  split; [apply bsave_origin_spec|apply bsave_last_spec]; try assumption; try lia; intros s Hs; destruct (H3 s Hs); assumption.
Qed.

Lemma get_bsave_plain segs run lo hi : fits segs lo hi -> hi - lo < 65536 -> (truthy run = None \/ truthy run = Some lo) -> lo < 65536 ->
  exists f, get_bsave segs run = Ok f /\ loads_as f lo (hi - lo) (memory segs).
Proof.
  intros H H0 Hr Hlo. pose proof (fits_le _ _ _ H) as Hle. destruct (fits_bounds _ _ _ H) as [B1 B2]. destruct H as (H1 & H2 & H3 & H4 & H5).
  unfold get_bsave. rewrite B1, B2.
  destruct Hr as [-> | ->]; [|rewrite Z.eqb_refl]; apply bsave_image_loads; auto; lia.
Qed.
Lemma get_bsave_run segs run r lo hi : fits segs lo hi -> truthy run = Some r -> r <> lo -> 0 <= r < 65536 ->
  existsb (fun s => covers s r) segs = true -> 3 <= lo -> hi - lo + 3 < 65536 -> lo < 65536 ->
  exists f, get_bsave segs run = Ok f /\
    loads_as f (lo - 3) (hi - lo + 3)
      (fun a => if a =? lo - 3 then 0x4c else if a =? lo - 2 then r mod 256 else if a =? lo - 1 then r / 256 else memory segs a).
Proof.
  intros H Hr Hne Hrr Hc Hlo H0 Hl6. pose proof (fits_le _ _ _ H) as Hle. destruct (fits_bounds _ _ _ H) as [B1 B2]. destruct H as (H1 & H2 & H3 & H4 & H5).
  unfold get_bsave. rewrite B1, B2, Hr. replace (r =? lo) with false by lia.
  replace (has_addr segs r) with true by (symmetry; exact Hc).
  set (J := mkI (lo - 3) [0x4c; u8 (r mod 256); u8 (r / 256)]).
  destruct (bsave_image_loads (J :: segs) (lo - 3) hi) as (f & E & L1 & L2 & L3 & L4); try lia.
  { intros s [<- |Hs]; [cbn [i_origin i_data J]; change (zlen [0x4c; u8 (r mod 256); u8 (r / 256)]) with 3; lia|].
    destruct (H3 s Hs). lia. }
  exists f. split; [exact E|]. unfold loads_as. replace (hi - lo + 3) with (hi - (lo - 3)) by lia.
  split; [exact L1|]. split; [exact L2|]. split; [exact L3|]. intros a Ha. rewrite L4 by exact Ha. cbn [memory].
  destruct (existsb (fun t => covers t a) segs) eqn:Ec.
  - apply existsb_exists in Ec. destruct Ec as (s & Hs & Ec). destruct (H3 s Hs) as [H6 _]. unfold covers in Ec.
    replace (a =? lo - 3) with false by lia. replace (a =? lo - 2) with false by lia. replace (a =? lo - 1) with false by lia. reflexivity.
  - unfold covers. cbn [J i_origin i_data]. change (zlen [0x4c; u8 (r mod 256); u8 (r / 256)]) with 3.
    destruct (Z.eqb_spec a (lo - 3)) as [-> |N1]; [replace (lo - 3 <=? lo - 3) with true by lia; replace (lo - 3 <? lo - 3 + 3) with true by lia; cbn [andb];
      rewrite Z.sub_diag; reflexivity|].
    destruct (Z.eqb_spec a (lo - 2)) as [-> |N2]; [replace (lo - 3 <=? lo - 2) with true by lia; replace (lo - 2 <? lo - 3 + 3) with true by lia; cbn [andb];
      replace (lo - 2 - (lo - 3)) with 1 by lia; change (u8 (r mod 256) = r mod 256); unfold u8; rewrite Z.mod_mod by lia; reflexivity|].
    destruct (Z.eqb_spec a (lo - 1)) as [-> |N3]; [replace (lo - 3 <=? lo - 1) with true by lia; replace (lo - 1 <? lo - 3 + 3) with true by lia; cbn [andb];
      replace (lo - 1 - (lo - 3)) with 2 by lia; change (u8 (r / 256) = r / 256); unfold u8; apply Z.mod_small;
      Z.to_euclidean_division_equations; lia|].
    replace (a <? lo - 3 + 3) with false by lia. rewrite andb_false_r. symmetry. apply memory_uncovered. exact Ec.
Qed.
Lemma get_bsave_outside segs run r lo hi : fits segs lo hi -> truthy run = Some r -> r <> lo ->
  existsb (fun s => covers s r) segs = false -> get_bsave segs run = Err (EAtr InvalidBinaryFile).
Proof.
  intros H Hr Hne Hc. destruct (fits_bounds _ _ _ H) as [B1 B2]. unfold get_bsave. rewrite B1, Hr. replace (r =? lo) with false by lia.
  replace (has_addr segs r) with false by (symmetry; exact Hc). reflexivity.
Qed.
Lemma parse_bsave_loads f lo n m : 0 <= n -> loads_as f lo n m ->
  parse_bsave f = Ok (mkX false NoName 0 4 lo (map m (zrange lo (lo + n)))).
Proof.
  intros Hn (L1 & L2 & L3 & L4). unfold parse_bsave. rewrite zlen_slice by lia. rewrite L1, L2.
  replace (4 - 0 =? 4) with true by lia.
  replace (n =? zlen f - 4) with true by lia. cbn [negb]. rewrite zlen_slice by lia. replace (4 + n - 4 =? n) with true by lia.
  do 2 f_equal. apply list_ext_getb.
  - rewrite zlen_slice by lia. unfold zlen at 1. rewrite map_length. fold (zlen (zrange lo (lo + n))). rewrite zlen_zrange by lia. lia.
  - intros i Hi. rewrite zlen_slice in Hi by lia. rewrite getb_slice by lia. replace (4 + i) with (4 + ((lo + i) - lo)) by lia. rewrite L4 by lia.
    symmetry. unfold getb. rewrite (nth_indep _ 0 (m 0)).
    + rewrite map_nth. f_equal. apply nth_zrange; lia.
    + rewrite map_length. pose proof (zlen_zrange lo (lo + n) ltac:(lia)) as Hz. unfold zlen in Hz. lia.
Qed.

(** * KBoot *)
Lemma boot_sectors_spec n : zlen (boot_sectors n) = 384 /\ getb (boot_sectors n) 9 = u8 n /\
  getb (boot_sectors n) 10 = u8 (n / 256) /\ getb (boot_sectors n) 11 = 0.
Proof.
  set (bc := setslice xexboot_header 9 (put2 n)).
  assert (B : zlen bc = 300 /\ getb bc 9 = u8 n /\ getb bc 10 = u8 (n / 256) /\ getb bc 11 = 0) by (repeat split; vm_compute; reflexivity).
  destruct B as (B0 & B1 & B2 & B3).
  set (s0 := setslice (zrepeat 0 384) 0 bc).
  assert (Z0 : zlen (zrepeat 0 384) = 384) by reflexivity.
  assert (Z1 : zlen s0 = 384) by (unfold s0; rewrite zlen_setslice; rewrite ?B0, ?Z0; lia).
  assert (G1 : forall i, 0 <= i < 12 -> getb s0 i = getb bc i).
  { intros i Hi. unfold s0. rewrite getb_setslice by (rewrite ?B0, ?Z0; lia). rewrite B0.
    replace (0 <=? i) with true by lia. replace (i <? 0 + 300) with true by lia. cbn [andb]. f_equal; lia. }
  assert (I : forall (data : list Z) off s c, zlen data = 384 -> 20 <= off -> zlen s <= 20 -> off + 40 <= 384 ->
     zlen (insert_bytes data off s c) = 384 /\ forall i, 0 <= i < 12 -> getb (insert_bytes data off s c) i = getb data i).
  { intros data off s c Hd H1 H2 H3. unfold insert_bytes. set (t := map _ s). assert (Zt : zlen t = zlen s) by (unfold t, zlen; rewrite map_length; reflexivity).
    pose proof (zlen_nonneg s). assert (0 <= (20 - zlen t) / 2 <= 10) by (rewrite Zt; Z.to_euclidean_division_equations; lia).
    split; [rewrite zlen_setslice; rewrite ?Zt; rewrite <- ?Zt; lia|]. intros i Hi. rewrite getb_setslice by lia.
    replace (off + (20 - zlen t) / 2 <=? i) with false by lia. reflexivity. }
  unfold boot_sectors. fold bc. fold s0.
  destruct (I s0 268 title 0xc0 Z1) as [I1 I2]; [lia|cbn; lia|lia|].
  destruct (I (insert_bytes s0 268 title 0xc0) 308 author 0x40 I1) as [J1 J2]; [lia|cbn; lia|lia|].
  split; [exact J1|]. rewrite !J2, !I2, !G1 by lia. auto.
Qed.
Lemma pad_spec (x : list Z) : zlen (pad_sectors x) = (zlen x + 127) / 128 * 128 /\ slice (pad_sectors x) 0 (zlen x) = x.
Proof.
  pose proof (zlen_nonneg x). unfold pad_sectors. split.
  - rewrite zlen_app, zlen_zrepeat; Z.to_euclidean_division_equations; lia.
  - rewrite slice_app_l by lia. apply slice_full.
Qed.
Lemma kboot_create_atr segs run x : get_xex segs None = Ok x ->
  kboot_create segs run = add_atr_header (add_xexboot_header x).
Proof.
  intros E. unfold kboot_create, add_atr_header. rewrite E. cbn [rbind].
  change atr_create with (Ok (mkH 16 0 128 0 0 125 0 0 0 0)). cbn [rbind].
  unfold check_size. cbn [h_ssize h_isize h_ninit h_offset h_crc h_unused h_flags]. reflexivity.
Qed.

Section KBOOT.
Variable x : list Z.
Hypothesis Hx : zlen x < 200000000.
Variable pay : list Z.
Hypothesis Hpay : pay = add_xexboot_header x.
Lemma zlen_pay : zlen pay = 384 + (zlen x + 127) / 128 * 128.
Proof. rewrite Hpay. unfold add_xexboot_header. destruct (boot_sectors_spec (zlen x)) as (B & _). destruct (pad_spec x) as (P & _). rewrite zlen_app. lia. Qed.
Lemma kboot_image_open : exists b h start, add_atr_header pay = Ok b /\ zlen b = 16 + zlen pay /\ slice b 16 (zlen b) = pay /\
  check_size (read_header b) (zlen b - h_offset (read_header b)) = Ok h /\ h_offset h = 16 /\
  (zlen x < 65536 -> 1 <= zlen x -> get_pos h 4 = Ok (400, 128)) /\
  (65536 <= zlen x -> exists sz, get_pos h 4 = Ok (start, sz) /\ start <= 784).
Proof.
  pose proof (zlen_nonneg x). pose proof zlen_pay as Zp.
  destruct (add_atr_header_open pay) as (b & E & S & Zb & Ho & Hd & h & H1 & H2 & H3); [rewrite Zp; Z.to_euclidean_division_equations; lia|rewrite Zp; Z.to_euclidean_division_equations; lia|].
  exists b, h. rewrite Ho, Zb. unfold check_size in H3.
  cbn [h_ssize h_isize h_ninit h_offset h_crc h_unused h_flags] in H3.
  assert (C : check_size (read_header b) (16 + zlen pay - 16) = Ok h) by (rewrite <- H1, Hd; f_equal; lia).
  destruct (Z.ltb_spec (zlen x) 65536) as [L|L].
  - exists 400. split; [exact E|]. split; [reflexivity|]. split; [rewrite <- Zb; exact S|]. split; [exact C|]. split; [exact H2|]. split; [|lia].
    intros _ Hx1.
    assert (zlen pay < 90000) by (rewrite Zp; Z.to_euclidean_division_equations; lia).
    assert (512 <= zlen pay) by (rewrite Zp; Z.to_euclidean_division_equations; lia).
    replace (zlen pay =? 92160) with false in H3 by lia. replace (zlen pay =? 92176) with false in H3 by lia.
    replace (zlen pay =? 184320) with false in H3 by lia. replace (zlen pay =? 184336) with false in H3 by lia.
    replace (zlen pay =? 183936) with false in H3 by lia. replace (zlen pay =? 183952) with false in H3 by lia.
    cbn [orb] in H3. replace (128 =? 0) with false in H3 by lia. injection H3 as <-.
    unfold get_pos, sector_valid. cbn [h_max h_ninit h_isize h_ssize h_offset].
    assert (4 <= (zlen pay - 0) / 128 + 0) by (Z.to_euclidean_division_equations; lia).
    set (m := (zlen pay - 0) / 128 + 0) in *. replace (m <? 0) with false by lia. replace (4 <? m + 1) with true by lia. reflexivity.
  - destruct ((zlen pay =? 92160) || (zlen pay =? 92176)) eqn:E1;
      [|destruct ((zlen pay =? 184320) || (zlen pay =? 184336)) eqn:E2;
        [|destruct ((zlen pay =? 183936) || (zlen pay =? 183952)) eqn:E3]].
    1: exists 400. 2: exists 784. 3: exists 400. 4: exists 400.
    all: split; [exact E|]; split; [reflexivity|]; split; [rewrite <- Zb; exact S|]; split; [exact C|]; split; [exact H2|]; split; [lia|]; intros _.
    1: cbn [Z.eqb] in H3; injection H3 as <-; exists 128. 2: cbn [Z.eqb] in H3; injection H3 as <-; exists 256. 3: cbn [Z.eqb] in H3; injection H3 as <-; exists 256.
    4: cbn [Z.eqb] in H3; injection H3 as <-; exists 128.
    1,2,3: split; [reflexivity|lia].
    split; [|lia]. unfold get_pos, sector_valid. cbn [h_max h_ninit h_isize h_ssize h_offset].
    assert (4 <= (zlen pay - 0) / 128 + 0) by (rewrite Zp; Z.to_euclidean_division_equations; lia).
    set (m := (zlen pay - 0) / 128 + 0) in *. replace (m <? 0) with false by lia. replace (4 <? m + 1) with true by lia. reflexivity.
Qed.
Lemma kboot_count b : zlen b = 16 + zlen pay -> slice b 16 (zlen b) = pay ->
  getb b 25 + 256 * getb b (25 + 1) + 256 * 256 * getb b (25 + 2) = zlen x mod 65536.
Proof.
  intros Zb S. pose proof (zlen_nonneg x). pose proof zlen_pay as Zp. destruct (boot_sectors_spec (zlen x)) as (B0 & B1 & B2 & B3).
  assert (0 <= (zlen x + 127) / 128) by (Z.to_euclidean_division_equations; lia).
  assert (G : forall i, 0 <= i < 12 -> getb b (16 + i) = getb (boot_sectors (zlen x)) i).
  { intros i Hi. rewrite <- (getb_slice b 16 (zlen b) i) by lia. rewrite S, Hpay. unfold add_xexboot_header. apply getb_app_l. lia. }
  replace (getb b 25) with (getb b (16 + 9)) by (f_equal; lia).
  replace (25 + 1) with (16 + 10) by lia. replace (25 + 2) with (16 + 11) by lia.
  rewrite !G by lia. rewrite B1, B2, B3. unfold u8. Z.to_euclidean_division_equations. lia.
Qed.
Lemma kboot_round : 1 <= zlen x < 65536 -> exists b, add_atr_header pay = Ok b /\
  exists k, kboot_open b = Ok k /\ kboot_file k = x.
Proof.
  intros H. destruct kboot_image_open as (b & h & start & E & Zb & S & C & Ho & P & _). exists b. split; [exact E|].
  pose proof zlen_pay as Zp. unfold kboot_open. rewrite C. cbn [rbind]. rewrite P by lia. cbn [rbind]. rewrite Ho.
  replace (16 + 9) with 25 by lia. rewrite kboot_count by assumption. rewrite Z.mod_small by lia.
  assert (zlen x <= (zlen x + 127) / 128 * 128 < zlen x + 128) by (Z.to_euclidean_division_equations; lia).
  replace (zlen b <=? 25 + 2) with false by lia. replace (zlen b <? 400 + zlen x) with false by lia.
  replace (400 + zlen x <? zlen b - 128) with false by lia. cbn [orb]. eexists. split; [reflexivity|].
  unfold kboot_file. cbn [k_bytes k_start k_size].
  replace 400 with (16 + 384) by lia. replace (16 + 384 + zlen x) with (16 + (384 + zlen x)) by lia.
  rewrite <- (slice_slice b 16 (zlen b)) by lia. rewrite S, Hpay. unfold add_xexboot_header.
  destruct (boot_sectors_spec (zlen x)) as (B0 & _). rewrite slice_app_r by lia. rewrite B0.
  replace (384 - 384) with 0 by lia. replace (384 + zlen x - 384) with (zlen x) by lia. apply pad_spec.
Qed.
Lemma kboot_refused : 65536 <= zlen x -> exists b, add_atr_header pay = Ok b /\
  kboot_open b = Err (EAtr InvalidDiskImage).
Proof.
  intros H. destruct kboot_image_open as (b & h & start & E & Zb & S & C & Ho & _ & P). exists b. split; [exact E|].
  destruct (P H) as (sz & P1 & P2).
  pose proof zlen_pay as Zp. unfold kboot_open. rewrite C. cbn [rbind]. rewrite P1. cbn [rbind]. rewrite Ho.
  replace (16 + 9) with 25 by lia. rewrite kboot_count by assumption.
  assert (zlen x mod 65536 <= zlen x - 65536) by (Z.to_euclidean_division_equations; lia).
  assert (zlen x <= (zlen x + 127) / 128 * 128 < zlen x + 128) by (Z.to_euclidean_division_equations; lia).
  replace (zlen b <=? 25 + 2) with false by lia.
  replace (start + zlen x mod 65536 <? zlen b - 128) with true by lia. rewrite orb_true_r. reflexivity.
Qed.
End KBOOT.
