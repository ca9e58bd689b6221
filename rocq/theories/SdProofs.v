(** Standard Delivery boot disks: the image against the loader. *)
From Verif Require Import Base BaseLemmas SdModel SdSpec.

(** * Sector order *)
Lemma order_ok : forallb (fun i => getb sector_order i =? dos_place (physical i)) (zrange 0 16) = true.
Proof. vm_compute. reflexivity. Qed.
Lemma place_of_at track index : 0 <= index < 16 -> place_of (track * 16 + index) = track * 16 + getb sector_order index.
Proof.
  intros H. unfold place_of. replace (track * 16 + index) with (index + track * 16) by lia. rewrite Z.div_add, Z.mod_add by lia.
  rewrite Z.div_small, Z.mod_small by lia. pose proof order_ok as O. rewrite forallb_forall in O. specialize (O index). rewrite In_zrange in O. specialize (O ltac:(lia)). lia.
Qed.
Lemma dos_inj : forallb (fun i => (0 <=? dos_place (physical i)) && (dos_place (physical i) <? 16) &&
  forallb (fun j => (i =? j) || negb (dos_place (physical i) =? dos_place (physical j))) (zrange 0 16)) (zrange 0 16) = true.
Proof. vm_compute. reflexivity. Qed.
Lemma dos_range i : 0 <= i < 16 -> 0 <= dos_place (physical i) < 16.
Proof.
  intros H. pose proof dos_inj as O. rewrite forallb_forall in O. specialize (O i). rewrite In_zrange in O. specialize (O ltac:(lia)). rewrite !andb_true_iff in O. lia.
Qed.
Lemma place_inj k l : 0 <= k -> 0 <= l -> place_of k = place_of l -> k = l.
Proof.
  intros Hk Hl E. unfold place_of in E. pose proof (Z.mod_pos_bound k 16 ltac:(lia)) as Mk. pose proof (Z.mod_pos_bound l 16 ltac:(lia)) as Ml.
  pose proof (dos_range (k mod 16) ltac:(lia)) as Rk. pose proof (dos_range (l mod 16) ltac:(lia)) as Rl.
  assert (Ed : k / 16 = l / 16) by lia. assert (Ep : dos_place (physical (k mod 16)) = dos_place (physical (l mod 16))) by lia.
  pose proof dos_inj as O. rewrite forallb_forall in O. specialize (O (k mod 16)). rewrite In_zrange in O. specialize (O ltac:(lia)). rewrite !andb_true_iff in O. destruct O as [_ O].
  rewrite forallb_forall in O. specialize (O (l mod 16)). rewrite In_zrange in O. specialize (O ltac:(lia)).
  assert (k mod 16 = l mod 16) by lia. pose proof (Z.div_mod k 16 ltac:(lia)). pose proof (Z.div_mod l 16 ltac:(lia)). lia.
Qed.
Lemma place_range k : 0 <= k -> (0 <= place_of k < 560 <-> k < 560).
Proof.
  intros Hk. unfold place_of. pose proof (Z.mod_pos_bound k 16 ltac:(lia)) as Mk. pose proof (dos_range (k mod 16) ltac:(lia)) as Rk.
  pose proof (Z.div_mod k 16 ltac:(lia)) as D. assert (0 <= k / 16) by (apply Z.div_pos; lia). lia.
Qed.

(** * Sectors *)
Fixpoint numbered (k : Z) (ds : list (list Z)) : list (Z * list Z) :=
  match ds with [] => [] | d :: r => (place_of k, d) :: numbered (k + 1) r end.
Lemma numbered_app k a b : numbered k (a ++ b) = numbered k a ++ numbered (k + zlen a) b.
Proof.
  revert k. induction a as [|x a IH]; intros k; cbn [app numbered]; [f_equal; change (@zlen (list Z) []) with 0; lia|].
  rewrite IH, zlen_cons. f_equal. f_equal. f_equal. lia.
Qed.
Definition page_data (c : chunk) (hi : Z) : list Z :=
  let d := slice (c_data c) ((hi - c_start c) * 256) ((hi - c_start c) * 256 + 256) in d ++ zrepeat 0 (256 - zlen d).
Lemma place_spec : forall his c track index, 0 <= index < 16 ->
  place his c track index = (numbered (track * 16 + index) (map (page_data c) his), (track * 16 + index + zlen his) / 16, (track * 16 + index + zlen his) mod 16).
Proof.
  induction his as [|hi r IH]; intros c track index H.
  - cbn [place map numbered]. change (@zlen Z []) with 0. rewrite Z.add_0_r. replace (track * 16 + index) with (index + track * 16) by lia.
    rewrite Z.div_add, Z.mod_add by lia. rewrite Z.div_small, Z.mod_small by lia. reflexivity.
  - cbn [place map numbered]. rewrite place_of_at by lia. rewrite zlen_cons. destruct (Z.leb_spec 16 (index + 1)).
    + rewrite IH by lia. replace ((track + 1) * 16 + 0) with (track * 16 + index + 1) by lia. replace (track * 16 + index + 1 + zlen r) with (track * 16 + index + (1 + zlen r)) by lia. reflexivity.
    + rewrite IH by lia. replace (track * 16 + (index + 1)) with (track * 16 + index + 1) by lia. replace (track * 16 + index + 1 + zlen r) with (track * 16 + index + (1 + zlen r)) by lia. reflexivity.
Qed.

(** Pages in the order in which they are stored, with their bytes. *)
Definition next_first (c : chunk) (first : bool) : bool := if c_show c && (c_start c =? 0x20) then false else first.
Definition show_cmd (c : chunk) (first : bool) : list Z :=
  if c_show c then
    if c_start c =? 0x40 then [0xd2] else if c_start c =? 0x20 then (if first then [] else [0xd1]) else []
  else [].
Fixpoint stored (cs : list chunk) (first : bool) : list (Z * list Z) :=
  match cs with
  | [] => []
  | c :: r => map (fun hi => (hi, page_data c hi)) (chunk_hi c first) ++ stored r (next_first c first)
  end.
Fixpoint commands (cs : list chunk) (first : bool) : list Z :=
  match cs with
  | [] => []
  | c :: r => address_order c first ++ show_cmd c first ++ commands r (next_first c first)
  end.
Lemma chunk_loop_spec : forall cs first track index, 0 <= index < 16 ->
  chunk_loop cs first track index = (numbered (track * 16 + index) (map snd (stored cs first)), commands cs first).
Proof.
  induction cs as [|c r IH]; intros first track index H; [reflexivity|]. cbn [chunk_loop stored commands]. rewrite place_spec by lia.
  set (k := track * 16 + index). set (n := zlen (chunk_hi c first)).
  fold (next_first c first). fold (show_cmd c first). rewrite IH by (apply Z.mod_pos_bound; lia).
  replace ((k + n) / 16 * 16 + (k + n) mod 16) with (k + n) by (pose proof (Z.div_mod (k + n) 16 ltac:(lia)); lia).
  rewrite map_app, numbered_app, !map_map. cbn [snd]. f_equal. f_equal. f_equal. unfold n. rewrite zlen_map. reflexivity.
Qed.

(** * Writing the sectors *)
Lemma write_list_spec : forall secs img, zlen img = 143360 -> Forall (fun s => zlen (snd s) = 256) secs -> NoDup (map fst secs) -> Forall (fun s => 0 <= fst s < 560) secs ->
  exists img', write_list secs img = Ok img' /\ zlen img' = 143360 /\
    (forall n d i, In (n, d) secs -> 0 <= i < 256 -> getb img' (n * 256 + i) = getb d i) /\
    (forall n i, ~ In n (map fst secs) -> 0 <= i < 256 -> 0 <= n -> getb img' (n * 256 + i) = getb img (n * 256 + i)).
Proof.
  induction secs as [|[n d] r IH]; intros img L F N R.
  - exists img. split; [reflexivity|]. split; [exact L|]. split; [intros n d i []|reflexivity].
  - inversion F as [|x l F1 F2]; subst. inversion N as [|x l N1 N2]; subst. inversion R as [|x l R1 R2]; subst. cbn [fst snd] in *.
    assert (L2 : zlen (setslice img (n * 256) d) = 143360) by (rewrite zlen_setslice by lia; exact L).
    destruct (IH (setslice img (n * 256) d) L2 F2 N2 R2) as (img' & E & Li & A & B).
    exists img'. cbn [write_list]. replace ((0 <=? n) && (n <? 560)) with true by lia. split; [exact E|]. split; [exact Li|]. split.
    + intros m e i [X|X] Hi; [injection X as <- <-|apply A; assumption].
      rewrite B by (try assumption; lia). rewrite getb_setslice by lia. replace ((n * 256 <=? n * 256 + i) && (n * 256 + i <? n * 256 + zlen d)) with true by lia. f_equal. lia.
    + intros m i Hm Hi Hp. cbn [map fst] in Hm. rewrite B by (try assumption; intros C; apply Hm; right; exact C).
      assert (m <> n) by (intros ->; apply Hm; left; reflexivity).
      rewrite getb_setslice by lia. replace ((n * 256 <=? m * 256 + i) && (m * 256 + i <? n * 256 + zlen d)) with false by lia. reflexivity.
Qed.
Lemma write_list_ok : forall secs img img', write_list secs img = Ok img' -> Forall (fun s => 0 <= fst s < 560) secs.
Proof.
  induction secs as [|[n d] r IH]; intros img img' E; [constructor|]. cbn [write_list] in E. destruct ((0 <=? n) && (n <? 560)) eqn:C; [|discriminate].
  constructor; [cbn [fst]; lia|]. apply (IH _ _ E).
Qed.
Lemma numbered_in ds : forall k n d, In (n, d) (numbered k ds) -> exists j, 0 <= j < zlen ds /\ n = place_of (k + j) /\ d = nth (Z.to_nat j) ds [].
Proof.
  induction ds as [|x ds IH]; intros k n d H; [destruct H|]. cbn [numbered] in H. rewrite zlen_cons. pose proof (zlen_nonneg ds). destruct H as [H|H].
  - injection H as <- <-. exists 0. split; [lia|]. split; [f_equal; lia|reflexivity].
  - destruct (IH _ _ _ H) as (j & Hj & E1 & E2). exists (j + 1). split; [lia|]. split; [rewrite E1; f_equal; lia|].
    replace (Z.to_nat (j + 1)) with (S (Z.to_nat j)) by lia. exact E2.
Qed.
Lemma in_numbered ds : forall k j, 0 <= j < zlen ds -> In (place_of (k + j), nth (Z.to_nat j) ds []) (numbered k ds).
Proof.
  induction ds as [|x ds IH]; intros k j Hj; [change (@zlen (list Z) []) with 0 in Hj; lia|]. rewrite zlen_cons in Hj. cbn [numbered].
  destruct (Z.eq_dec j 0) as [->|Nz]; [left; rewrite Z.add_0_r; reflexivity|]. right.
  replace (Z.to_nat j) with (S (Z.to_nat (j - 1))) by lia. cbn [nth]. replace (k + j) with (k + 1 + (j - 1)) by lia. apply IH. lia.
Qed.
Lemma numbered_nodup ds : forall k, 0 <= k -> NoDup (map fst (numbered k ds)).
Proof.
  induction ds as [|x ds IH]; intros k Hk; [constructor|]. cbn [numbered map fst]. constructor; [|apply IH; lia].
  intros C. apply in_map_iff in C. destruct C as ((n & d) & E & H). cbn [fst] in E. apply numbered_in in H. destruct H as (j & Hj & E1 & _).
  rewrite E1 in E. apply place_inj in E; lia.
Qed.
Lemma place_of_0 : place_of 0 = 0. Proof. reflexivity. Qed.

(** * The loader *)
Fixpoint loads (ps : list Z) (img : list Z) (k : Z) (m : mem) : mem :=
  match ps with [] => m | p :: r => loads r img (k + 1) (load img k p m) end.
Lemma loads_app a : forall b img k m, loads (a ++ b) img k m = loads b img (k + zlen a) (loads a img k m).
Proof.
  induction a as [|x a IH]; intros b img k m; cbn [app loads]; [change (@zlen Z []) with 0; rewrite Z.add_0_r; reflexivity|].
  rewrite IH, zlen_cons. f_equal. lia.
Qed.
Lemma load_many_loads : forall n img k p m, load_many n img k p m = loads (zseq_nat p n) img k m.
Proof. induction n as [|n IH]; intros img k p m; [reflexivity|]. cbn [load_many zseq_nat loads]. apply IH. Qed.
Definition page_ok (p : Z) : Prop := 1 <= p < 0xc0.
Lemma run_page c r img k page m : page_ok c -> run_commands (c :: r) img k page m = run_commands r img (k + 1) (c + 1) (load img k c m).
Proof.
  unfold page_ok. intros H. cbn [run_commands]. replace (c =? 192) with false by lia. replace ((c =? 208) || (c =? 209) || (c =? 210)) with false by lia.
  replace (224 <=? c) with false by lia. reflexivity.
Qed.
Lemma run_pages : forall ps r img k page m, Forall page_ok ps ->
  exists pg, run_commands (ps ++ r) img k page m = run_commands r img (k + zlen ps) pg (loads ps img k m).
Proof.
  induction ps as [|p ps IH]; intros r img k page m F.
  - exists page. cbn [app loads]. change (@zlen Z []) with 0. rewrite Z.add_0_r. reflexivity.
  - inversion F as [|x l F1 F2]; subst. cbn [app loads]. rewrite run_page by assumption. destruct (IH r img (k + 1) (p + 1) (load img k p m) F2) as (pg & E).
    exists pg. rewrite E, zlen_cons. f_equal. lia.
Qed.
Lemma run_group p n r img k page m : page_ok p -> 3 <= n <= 32 ->
  run_commands (p :: (0xe0 + n - 1) :: r) img k page m = run_commands r img (k + n) (p + n) (loads (zrange p (p + n)) img k m).
Proof.
  intros Hp Hn. rewrite run_page by assumption. cbn [run_commands].
  replace (224 + n - 1 =? 192) with false by lia. replace ((224 + n - 1 =? 208) || (224 + n - 1 =? 209) || (224 + n - 1 =? 210)) with false by lia.
  replace (224 <=? 224 + n - 1) with true by lia. rewrite load_many_loads.
  unfold zrange. replace (p + n - p) with n by lia. replace (Z.to_nat n) with (S (Z.to_nat (n - 1))) by lia. cbn [zseq_nat loads].
  replace (224 + n - 1 - 224) with (n - 1) by lia. f_equal; lia.
Qed.
Lemma zrange_split a b c : a <= b <= c -> zrange a c = zrange a b ++ zrange b c.
Proof.
  intros H. unfold zrange. replace (Z.to_nat (c - a)) with (Z.to_nat (b - a) + Z.to_nat (c - b))%nat by lia.
  assert (G : forall n m s, zseq_nat s (n + m) = zseq_nat s n ++ zseq_nat (s + Z.of_nat n) m).
  { induction n as [|n IH]; intros m s; cbn [Nat.add zseq_nat app]; [f_equal; lia|]. rewrite IH. f_equal. f_equal. f_equal. lia. }
  rewrite G. f_equal. f_equal. lia.
Qed.
Lemma run_groups : forall fuel a n r img k page m, (Z.to_nat n <= fuel)%nat -> 0 <= n -> 1 <= a -> a + n <= 0xc0 ->
  exists pg, run_commands (groups fuel (zrange a (a + n)) ++ r) img k page m = run_commands r img (k + n) pg (loads (zrange a (a + n)) img k m).
Proof.
  induction fuel as [|fuel IH]; intros a n r img k page m Hf Hn Ha Hc.
  - assert (n = 0) by lia. subst n. exists page. cbn [groups app]. rewrite !Z.add_0_r. unfold zrange. rewrite Z.sub_diag. reflexivity.
  - destruct (Z.eq_dec n 0) as [->|Nz].
    { exists page. rewrite !Z.add_0_r. unfold zrange. rewrite Z.sub_diag. reflexivity. }
    cbn [groups]. set (l := zrange a (a + n)). assert (Ll : zlen l = n) by (unfold l; rewrite zlen_zrange by lia; lia).
    assert (Hd : exists t, l = a :: t). { unfold l, zrange. replace (a + n - a) with n by lia. replace (Z.to_nat n) with (S (Z.to_nat (n - 1))) by lia. eexists. reflexivity. }
    destruct Hd as (t & Hd). rewrite Hd. rewrite <- Hd.
    set (q := Z.min n 32).
    assert (S1 : slice l 0 32 = zrange a (a + q)).
    { unfold l, q. destruct (Z.le_gt_cases n 32).
      - rewrite Z.min_l by lia. apply slice_all; rewrite ?zlen_zrange by lia; lia.
      - rewrite Z.min_r by lia. rewrite (zrange_split a (a + 32) (a + n)) by lia. rewrite slice_app_l by (rewrite ?zlen_zrange by lia; lia).
        apply slice_all; rewrite ?zlen_zrange by lia; lia. }
    assert (S2 : slice l 32 (zlen l) = zrange (a + q) (a + q + (n - q))).
    { rewrite Ll. unfold l, q. destruct (Z.le_gt_cases n 32).
      - rewrite Z.min_l by lia. replace (a + n + (n - n)) with (a + n) by lia. unfold zrange at 2. rewrite Z.sub_diag. cbn [Z.to_nat zseq_nat].
        unfold slice. replace (Z.to_nat (n - 32)) with O by lia. reflexivity.
      - rewrite Z.min_r by lia. rewrite (zrange_split a (a + 32) (a + n)) by lia. rewrite slice_app_r by (rewrite ?zlen_zrange by lia; lia).
        rewrite zlen_zrange by lia. replace (a + 32 + (n - 32)) with (a + n) by lia. replace (32 - (a + 32 - a)) with 0 by lia. apply slice_all; rewrite ?zlen_zrange by lia; lia. }
    rewrite S1, S2. assert (Lq : zlen (zrange a (a + q)) = q) by (rewrite ?zlen_zrange by lia; lia). rewrite Lq.
    assert (Lo : loads l img k m = loads (zrange (a + q) (a + q + (n - q))) img (k + q) (loads (zrange a (a + q)) img k m)).
    { unfold l. rewrite (zrange_split a (a + q) (a + n)) by lia. rewrite loads_app, Lq. replace (a + q + (n - q)) with (a + n) by lia. reflexivity. }
    rewrite Lo. rewrite <- app_assoc. destruct (2 <? q) eqn:E2.
    + cbn [app]. rewrite run_group by (unfold page_ok; lia).
      destruct (IH (a + q) (n - q) r img (k + q) (a + q) (loads (zrange a (a + q)) img k m) ltac:(lia) ltac:(lia) ltac:(lia) ltac:(lia)) as (pg & E). exists pg. rewrite E. f_equal. lia.
    + destruct (run_pages (zrange a (a + q)) (groups fuel (zrange (a + q) (a + q + (n - q))) ++ r) img k page m) as (pg1 & E1).
      { apply Forall_forall. intros x Hx. apply In_zrange in Hx. unfold page_ok. lia. }
      rewrite E1, Lq.
      destruct (IH (a + q) (n - q) r img (k + q) pg1 (loads (zrange a (a + q)) img k m) ltac:(lia) ltac:(lia) ltac:(lia) ltac:(lia)) as (pg & E). exists pg. rewrite E. f_equal. lia.
Qed.
Lemma run_show c first r img k page m : run_commands (show_cmd c first ++ r) img k page m = run_commands r img k page m.
Proof. unfold show_cmd. destruct (c_show c); [|reflexivity]. destruct (c_start c =? 64); [reflexivity|]. destruct (c_start c =? 32); [|reflexivity]. destruct first; reflexivity. Qed.

(** Chunks whose pages the loader can take. *)
Definition chunk_ok (c : chunk) : Prop :=
  zlen (c_data c) mod 256 = 0 /\ 1 <= c_start c /\ c_start c + zlen (c_data c) / 256 <= 0xc0.
Lemma hgr_pages : Forall page_ok hgr_order.
Proof. apply Forall_forall. intros x Hx. unfold page_ok. repeat (destruct Hx as [<-|Hx]; [lia|]). destruct Hx. Qed.
Lemma run_chunk c first r img k page m : chunk_ok c ->
  exists pg, run_commands (address_order c first ++ r) img k page m = run_commands r img (k + zlen (chunk_hi c first)) pg (loads (chunk_hi c first) img k m).
Proof.
  intros (C1 & C2 & C3). pose proof (zlen_nonneg (c_data c)) as Z0. assert (D0 : 0 <= zlen (c_data c) / 256) by (apply Z.div_pos; lia).
  unfold address_order, chunk_hi. destruct (_ && first).
  - apply run_pages. exact hgr_pages.
  - destruct (2 <? zlen _) eqn:E2.
    + rewrite zlen_zrange by lia. 
      destruct (run_groups (length (zrange (c_start c) (c_start c + zlen (c_data c) / 256))) (c_start c) (zlen (c_data c) / 256) r img k page m) as (pg & E); try lia.
      { unfold zrange. rewrite length_zseq_nat. lia. }
      exists pg. rewrite E. f_equal. lia.
    + apply run_pages. apply Forall_forall. intros x Hx. apply In_zrange in Hx. unfold page_ok. lia.
Qed.
Lemma run_all : forall cs first r img k page m, Forall chunk_ok cs ->
  exists pg, run_commands (commands cs first ++ r) img k page m = run_commands r img (k + zlen (stored cs first)) pg (loads (map fst (stored cs first)) img k m).
Proof.
  induction cs as [|c cs IH]; intros first r img k page m F.
  - exists page. cbn [commands stored map loads app]. change (@zlen (Z * list Z) []) with 0. rewrite Z.add_0_r. reflexivity.
  - inversion F as [|x l F1 F2]; subst. cbn [commands stored]. rewrite <- !app_assoc.
    destruct (run_chunk c first (show_cmd c first ++ commands cs (next_first c first) ++ r) img k page m F1) as (pg & E). rewrite E, run_show.
    destruct (IH (next_first c first) r img (k + zlen (chunk_hi c first)) pg (loads (chunk_hi c first) img k m) F2) as (pg2 & E2). exists pg2. rewrite E2.
    rewrite map_app, map_map. cbn [fst]. rewrite map_id, loads_app, zlen_app, zlen_map. f_equal. lia.
Qed.

(** * Memory *)
Definition put_page (a : Z) (v : Z) (w : Z * list Z) : Z := if a / 256 =? fst w then getb (snd w) (a mod 256) else v.
Lemma loads_mem : forall ws img k m a, Forall (fun w => fst w <> 0) ws ->
  (forall j i, 0 <= j < zlen ws -> 0 <= i < 256 -> getb img (256 * place_of (k + j) + i) = getb (nth (Z.to_nat j) (map snd ws) []) i) ->
  loads (map fst ws) img k m a = fold_left (put_page a) ws (m a).
Proof.
  induction ws as [|[p d] ws IH]; intros img k m a F H; [reflexivity|]. inversion F as [|x l F1 F2]; subst. cbn [map fst loads fold_left]. rewrite zlen_cons in H. pose proof (zlen_nonneg ws). cbn [fst] in F1.
  rewrite IH; [|exact F2|].
  - f_equal. unfold load, put_page. cbn [fst snd]. destruct (Z.eqb_spec (a / 256) p); cbn [andb]; [|reflexivity]. replace (p =? 0) with false by lia. cbn [negb].
    specialize (H 0 (a mod 256) ltac:(lia) ltac:(apply Z.mod_pos_bound; lia)). rewrite Z.add_0_r in H. exact H.
  - intros j i Hj Hi. specialize (H (j + 1) i ltac:(lia) Hi). replace (k + 1 + j) with (k + (j + 1)) by lia. rewrite H. replace (Z.to_nat (j + 1)) with (S (Z.to_nat j)) by lia. reflexivity.
Qed.
Lemma fold_pages (f : Z -> list Z) a : forall his v, NoDup his ->
  fold_left (put_page a) (map (fun hi => (hi, f hi)) his) v = if zmem (a / 256) his then getb (f (a / 256)) (a mod 256) else v.
Proof.
  induction his as [|x his IH]; intros v N; [reflexivity|]. inversion N as [|y l N1 N2]; subst. cbn [map fold_left]. rewrite IH by assumption.
  unfold put_page. cbn [fst snd]. unfold zmem. cbn [existsb]. fold (zmem (a / 256) his). destruct (Z.eqb_spec (a / 256) x) as [E|E]; cbn [orb].
  - rewrite E. replace (zmem x his) with false; [reflexivity|]. symmetry. apply zmem_false. exact N1.
  - reflexivity.
Qed.
