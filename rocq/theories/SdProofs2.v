(** Standard Delivery boot disks: the whole image. *)
From Verif Require Import Base BaseLemmas SdModel SdSpec SdProofs.

Definition to_seg (p : Z * list Z) : sdseg := mkSeg (fst p) (snd p).
Definition chunk_of (p : Z * list Z) : chunk := mk_chunk (to_seg p).

Lemma page_split o : o = 256 * (o / 256) + o mod 256 /\ 0 <= o mod 256 < 256.
Proof. split; [apply Z.div_mod; lia|apply Z.mod_pos_bound; lia]. Qed.
Definition eo (o : Z) : Z := if shown o then o else o - 1.
Lemma eo_facts o d : carried o d -> 256 <= eo o /\ eo o <= o /\ first_page (eo o) = first_page o /\ end_page (eo o) (zlen d) <= 0xc0.
Proof.
  intros (H1 & _). assert (256 <= o /\ end_page o (zlen d) <= 0xc0) as [H2 H3] by (destruct H1; lia). unfold eo, shown, first_page, end_page in *.
  destruct (Z.eqb_spec o 8193) as [->|]; [cbn [orb negb]; split; [lia|split; [lia|split; [reflexivity|]]]; apply Z.le_trans with (2 := H3), Z.div_le_mono; lia|].
  destruct (Z.eqb_spec o 16385) as [->|]; [cbn [orb negb]; split; [lia|split; [lia|split; [reflexivity|]]]; apply Z.le_trans with (2 := H3), Z.div_le_mono; lia|].
  cbn [orb negb]. lia.
Qed.
Lemma chunk_facts o d : carried o d ->
  let c := chunk_of (o, d) in
  c_start c = first_page o /\ c_show c = shown o /\ zlen (c_data c) = npages (o, d) * 256 /\ 0 <= npages (o, d) /\
  (forall i, 0 <= i -> getb (c_data c) i = piece_byte (eo o) d (256 * first_page o + i)).
Proof.
  intros H. destruct (eo_facts o d H) as (H1 & H2 & H3 & H4). cbv zeta. unfold chunk_of, to_seg, mk_chunk. cbn [fst snd sg_origin sg_data].
  unfold npages, effective. cbn [fst snd]. fold (eo o). pose proof (zlen_nonneg d) as Ld.
  destruct (page_split o) as [E M]. destruct (page_split (eo o)) as [E' M'].
  assert (Q : ((o / 256 =? 32) || (o / 256 =? 64)) && (o mod 256 =? 1) = negb (shown o)).
  { unfold shown. rewrite negb_involutive. destruct (Z.eqb_spec o 8193) as [->|]; [reflexivity|]. destruct (Z.eqb_spec o 16385) as [->|]; [reflexivity|]. lia. }
  rewrite Q. assert (P : (if negb (shown o) then 0 else o mod 256) = eo o mod 256).
  { unfold eo. destruct (shown o) eqn:S0; [reflexivity|]. cbn [negb]. unfold shown in S0. destruct (Z.eqb_spec o 8193) as [->|]; [reflexivity|]. destruct (Z.eqb_spec o 16385) as [->|]; [reflexivity|]. discriminate S0. }
  rewrite P, negb_involutive. cbn [c_start c_data c_show]. set (q := eo o mod 256) in *. clearbody q. unfold first_page in *. set (p := o / 256) in *. 
  assert (Sz : (zlen d + q + 255) / 256 = pages (eo o) d).
  { unfold pages, end_page, first_page. replace (eo o + zlen d + 255) with (zlen d + q + 255 + p * 256) by lia. rewrite Z.div_add by lia. lia. }
  rewrite Sz. assert (P0 : 0 <= pages (eo o) d) by (rewrite <- Sz; apply Z.div_pos; lia).
  assert (Fit : q + zlen d <= pages (eo o) d * 256) by (rewrite <- Sz; pose proof (Z.div_mod (zlen d + q + 255) 256 ltac:(lia)); pose proof (Z.mod_pos_bound (zlen d + q + 255) 256 ltac:(lia)); lia).
  assert (Lr : zlen (zrepeat 0 (pages (eo o) d * 256)) = pages (eo o) d * 256) by (rewrite zlen_zrepeat; lia).
  split; [reflexivity|]. split; [reflexivity|]. split; [rewrite zlen_setslice by lia; exact Lr|]. split; [exact P0|].
  intros i Hi. rewrite getb_setslice by lia. unfold piece_byte. replace (256 * p + i - eo o) with (i - q) by lia.
  destruct ((q <=? i) && (i <? q + zlen d)) eqn:C.
  - replace ((eo o <=? 256 * p + i) && (256 * p + i <? eo o + zlen d)) with true by lia. reflexivity.
  - replace ((eo o <=? 256 * p + i) && (256 * p + i <? eo o + zlen d)) with false by lia. destruct (Z.lt_ge_cases i (pages (eo o) d * 256)); [apply getb_zrepeat; lia|apply getb_oob; lia].
Qed.
Lemma chunk_is_ok o d : carried o d -> chunk_ok (chunk_of (o, d)).
Proof.
  intros H. destruct (chunk_facts o d H) as (A & _ & B & C & _). destruct (eo_facts o d H) as (H1 & H2 & H3 & H4). unfold chunk_ok. rewrite A, B, Z.mod_mul, Z.div_mul by lia.
  unfold npages, effective, pages in *. cbn [fst snd] in *. fold (eo o) in *. unfold first_page in *. destruct (page_split (eo o)). lia.
Qed.
Lemma hgr_perm : forall x, In x hgr_order <-> 0x20 <= x < 0x40.
Proof.
  intros x. split.
  - intros H. repeat (destruct H as [<-|H]; [lia|]). destruct H.
  - intros H. assert (G : forallb (fun x => zmem x hgr_order) (zrange 0x20 0x40) = true) by (vm_compute; reflexivity).
    rewrite forallb_forall in G. specialize (G x). rewrite In_zrange in G. apply zmem_In. apply G. exact H.
Qed.
Lemma hgr_nodup : NoDup hgr_order.
Proof. unfold hgr_order. repeat (constructor; [cbn; intros C; repeat (destruct C as [C|C]; [discriminate C|]); exact C|]). constructor. Qed.
Lemma chunk_hi_in c first x : chunk_ok c -> In x (chunk_hi c first) <-> c_start c <= x < c_start c + zlen (c_data c) / 256.
Proof.
  intros (C1 & C2 & C3). unfold chunk_hi. destruct (_ && first) eqn:E.
  - rewrite hgr_perm. assert (c_start c = 32 /\ zlen (c_data c) / 256 = 32) as [-> ->] by lia. reflexivity.
  - apply In_zrange.
Qed.
Lemma chunk_hi_nodup c first : NoDup (chunk_hi c first).
Proof. unfold chunk_hi. destruct (_ && first); [exact hgr_nodup|]. apply NoDup_zseq_nat. Qed.
Lemma chunk_hi_len c first : chunk_ok c -> zlen (chunk_hi c first) = zlen (c_data c) / 256.
Proof.
  intros (C1 & C2 & C3). unfold chunk_hi. pose proof (zlen_nonneg (c_data c)). assert (0 <= zlen (c_data c) / 256) by (apply Z.div_pos; lia). destruct (_ && first) eqn:E.
  - assert (zlen (c_data c) / 256 = 32) as -> by lia. reflexivity.
  - rewrite zlen_zrange by lia. lia.
Qed.
Lemma page_data_len c hi : c_start c <= hi -> zlen (page_data c hi) = 256.
Proof. intros H. unfold page_data. pose proof (zlen_slice_min (c_data c) ((hi - c_start c) * 256) ((hi - c_start c) * 256 + 256)). pose proof (zlen_nonneg (c_data c)). rewrite zlen_app, zlen_zrepeat by lia. lia. Qed.
Lemma page_data_get c hi i : zlen (c_data c) mod 256 = 0 -> c_start c <= hi < c_start c + zlen (c_data c) / 256 -> 0 <= i < 256 ->
  getb (page_data c hi) i = getb (c_data c) ((hi - c_start c) * 256 + i).
Proof.
  intros M H Hi. unfold page_data. pose proof (Z.div_mod (zlen (c_data c)) 256 ltac:(lia)).
  assert (L : zlen (slice (c_data c) ((hi - c_start c) * 256) ((hi - c_start c) * 256 + 256)) = 256) by (rewrite zlen_slice by lia; lia).
  rewrite getb_app_l by lia. rewrite getb_slice by lia. reflexivity.
Qed.

(** One piece. *)
Lemma piece_fold o d first a v : carried o d ->
  fold_left (put_page a) (map (fun hi => (hi, page_data (chunk_of (o, d)) hi)) (chunk_hi (chunk_of (o, d)) first)) v =
  if touches (eo o) d a then piece_byte (eo o) d a else v.
Proof.
  intros H. pose proof (chunk_is_ok o d H) as K. destruct (chunk_facts o d H) as (A & B & C & D & G). destruct (eo_facts o d H) as (H1 & H2 & H3 & H4). cbv zeta in *. set (c := chunk_of (o, d)) in *.
  rewrite fold_pages by apply chunk_hi_nodup. pose proof (chunk_hi_in c first (a / 256) K) as I. rewrite A, C, Z.div_mul in I by lia.
  unfold npages, effective in *. cbn [fst snd] in *. fold (eo o) in *.
  assert (T : zmem (a / 256) (chunk_hi c first) = touches (eo o) d a).
  { unfold touches. unfold pages in I. rewrite H3. rewrite H3 in I. destruct (zmem _ _) eqn:Z0.
    - apply zmem_In in Z0. apply I in Z0. lia.
    - apply zmem_false in Z0. assert (~ (first_page o <= a / 256 < first_page o + (end_page (eo o) (zlen d) - first_page o))) by (intros X; apply Z0, I, X). lia. }
  rewrite T. destruct (touches (eo o) d a) eqn:E; [|reflexivity]. unfold touches in E. destruct (page_split a) as [Ea Ma].
  rewrite page_data_get; [|destruct K as [K _]; exact K|rewrite A, C, Z.div_mul by lia; unfold pages; lia|lia].
  rewrite A, G by lia. f_equal. lia.
Qed.
Lemma all_fold ps : forall first a v, Forall (fun p => carried (fst p) (snd p)) ps ->
  fold_left (put_page a) (stored (map chunk_of ps) first) v = fold_left (fun v p => if touches (fst p) (snd p) a then piece_byte (fst p) (snd p) a else v) (map effective ps) v.
Proof.
  induction ps as [|[o d] ps IH]; intros first a v F; [reflexivity|]. inversion F as [|x l F1 F2]; subst. cbn [map stored fold_left]. rewrite fold_left_app. cbn [fst snd] in *.
  rewrite piece_fold by assumption. apply IH. exact F2.
Qed.
Lemma stored_len ps : forall first, Forall (fun p => carried (fst p) (snd p)) ps -> zlen (stored (map chunk_of ps) first) = total_pages ps.
Proof.
  induction ps as [|[o d] ps IH]; intros first F; [reflexivity|]. inversion F as [|x l F1 F2]; subst. cbn [map stored total_pages fst snd] in *.
  rewrite zlen_app, zlen_map, chunk_hi_len by (apply chunk_is_ok; assumption). destruct (chunk_facts o d F1) as (_ & _ & C & _). cbv zeta in C. rewrite C, Z.div_mul by lia. rewrite IH by assumption. reflexivity.
Qed.
Lemma stored_ok cs : forall first, Forall chunk_ok cs -> Forall (fun w => page_ok (fst w) /\ zlen (snd w) = 256) (stored cs first).
Proof.
  induction cs as [|c cs IH]; intros first F; [constructor|]. inversion F as [|x l F1 F2]; subst. cbn [stored]. apply Forall_app. split; [|apply IH; exact F2].
  apply Forall_forall. intros w Hw. apply in_map_iff in Hw. destruct Hw as (hi & <- & Hi). cbn [fst snd]. apply chunk_hi_in in Hi; [|exact F1]. split.
  - destruct F1 as (C1 & C2 & C3). unfold page_ok. lia.
  - apply page_data_len. lia.
Qed.

(** The command bytes. *)
Lemma groups_bytes : forall fuel a n, 0 <= n -> 1 <= a -> a + n <= 0xc0 -> Forall (fun b => 0 <= b < 256) (groups fuel (zrange a (a + n))).
Proof.
  intros fuel. assert (G : forall fuel l, Forall page_ok l -> Forall (fun b => 0 <= b < 256) (groups fuel l)).
  { clear. induction fuel as [|fuel IH]; intros l F; [constructor|]. cbn [groups]. destruct l as [|hi t]; [constructor|]. apply Forall_app. split.
    - pose proof (zlen_slice_min (hi :: t) 0 32). pose proof (zlen_nonneg (hi :: t)). inversion F as [|x y F1 F2]; subst. unfold page_ok in F1. destruct (2 <? zlen _) eqn:E.
      + constructor; [lia|]. constructor; [lia|]. constructor.
      + apply Forall_forall. intros x Hx. unfold slice in Hx.
        assert (In x (hi :: t)). { cbn [Z.to_nat skipn] in Hx. revert Hx. generalize (Z.to_nat (32 - 0)). generalize (hi :: t). induction l as [|z l0 IHl]; intros k Hk; destruct k; cbn [firstn] in Hk; try contradiction. destruct Hk as [->|Hk]; [left; reflexivity|right; apply (IHl k Hk)]. }
        pose proof (proj1 (Forall_forall _ _) F x H1) as P. unfold page_ok in P. lia.
    - apply IH. apply Forall_forall. intros x Hx. unfold slice in Hx.
      assert (In x (hi :: t)). { revert Hx. generalize (Z.to_nat 32) (Z.to_nat (zlen (hi :: t) - 32)). intros n m Hx. rewrite <- (firstn_skipn n (hi :: t)). apply in_or_app. right.
        rewrite <- (firstn_skipn m (skipn n (hi :: t))). apply in_or_app. left. exact Hx. }
      apply (proj1 (Forall_forall _ _) F x H). }
  intros a n Hn Ha Hc. apply G. apply Forall_forall. intros x Hx. apply In_zrange in Hx. unfold page_ok. lia.
Qed.
Lemma commands_bytes cs : forall first, Forall chunk_ok cs -> Forall (fun b => 0 <= b < 256) (commands cs first).
Proof.
  induction cs as [|c cs IH]; intros first F; [constructor|]. inversion F as [|x l F1 F2]; subst. cbn [commands]. apply Forall_app. split; [|apply Forall_app; split; [|apply IH; exact F2]].
  - destruct F1 as (C1 & C2 & C3). pose proof (zlen_nonneg (c_data c)). assert (0 <= zlen (c_data c) / 256) by (apply Z.div_pos; lia).
    unfold address_order. destruct (_ && first) eqn:E; [|destruct (2 <? zlen _)].
    + unfold chunk_hi. rewrite E. apply Forall_forall. intros x Hx. apply hgr_perm in Hx. lia.
    + unfold chunk_hi. rewrite E. apply groups_bytes; lia.
    + unfold chunk_hi. rewrite E. apply Forall_forall. intros x Hx. apply In_zrange in Hx. lia.
  - unfold show_cmd. destruct (c_show c); [|constructor]. destruct (c_start c =? 64); [constructor; [lia|constructor]|]. destruct (c_start c =? 32); [|constructor]. destruct first; [constructor|constructor; [lia|constructor]].
Qed.
Lemma groups_len : forall fuel l, (length l <= fuel)%nat -> zlen (groups fuel l) = 2 * (zlen l / 32) + Z.min (zlen l mod 32) 2.
Proof.
  induction fuel as [|fuel IH]; intros l H.
  - destruct l; [reflexivity|cbn [length] in H; lia].
  - cbn [groups]. destruct l as [|hi t]; [reflexivity|]. remember (hi :: t) as l eqn:El. assert (Lp : 1 <= zlen l) by (subst l; rewrite zlen_cons; pose proof (zlen_nonneg t); lia).
    assert (Ll : Z.of_nat (length l) = zlen l) by reflexivity.
    assert (L1 : zlen (slice l 0 32) = Z.min (zlen l) 32) by (rewrite zlen_slice_min; lia).
    assert (L2 : zlen (slice l 32 (zlen l)) = Z.max 0 (zlen l - 32)) by (rewrite zlen_slice_min; lia).
    assert (Ln : (length (slice l 32 (zlen l)) <= fuel)%nat) by (unfold zlen in *; lia).
    rewrite zlen_app, IH by exact Ln. rewrite L2, L1.
    assert (E1 : zlen (if 2 <? Z.min (zlen l) 32 then [hi; 224 + Z.min (zlen l) 32 - 1] else slice l 0 32) = Z.min (zlen l) 2).
    { destruct (Z.ltb_spec 2 (Z.min (zlen l) 32)); [cbn; lia|rewrite L1; lia]. }
    rewrite E1. destruct (Z.le_gt_cases 32 (zlen l)).
    + rewrite Z.max_r by lia. replace (zlen l) with (zlen l - 32 + 1 * 32) at 4 5 by lia. rewrite Z.div_add, Z.mod_add by lia. lia.
    + rewrite Z.max_l by lia. rewrite Zdiv_0_l, Zmod_0_l, Z.div_small, Z.mod_small by lia. lia.
Qed.
Lemma commands_len ps : forall seen, Forall (fun p => carried (fst p) (snd p)) ps -> zlen (commands (map chunk_of ps) (negb seen)) = list_cost seen ps.
Proof.
  induction ps as [|[o d] ps IH]; intros seen F; [reflexivity|]. inversion F as [|x l F1 F2]; subst. cbn [map commands list_cost fst snd] in *.
  pose proof (chunk_is_ok o d F1) as K. destruct (chunk_facts o d F1) as (A & B & C & D & _). cbv zeta in *. set (c := chunk_of (o, d)) in *. set (n := npages (o, d)) in *.
  pose proof (chunk_hi_len c (negb seen) K) as Lh. rewrite C, Z.div_mul in Lh by lia.
  assert (Nx : next_first c (negb seen) = negb (seen || ((first_page o =? 32) && shown o))).
  { unfold next_first. rewrite A, B. destruct (first_page o =? 32), seen, (shown o); reflexivity. }
  rewrite Nx, !zlen_app, IH by assumption. unfold piece_cost. cbn [fst snd]. fold n.
  assert (E1 : zlen (address_order c (negb seen)) = if (first_page o =? 32) && (n =? 32) && negb seen then 32 else 2 * (n / 32) + Z.min (n mod 32) 2).
  { unfold address_order. rewrite A, C, Z.div_mul by lia. destruct (_ && negb seen) eqn:E.
    - rewrite Lh. lia.
    - rewrite Lh. destruct (Z.ltb_spec 2 n).
      + rewrite groups_len by lia. rewrite Lh. reflexivity.
      + rewrite Lh. rewrite Z.div_small, Z.mod_small by lia. lia. }
  assert (E2 : zlen (show_cmd c (negb seen)) = if negb (shown o) then 0 else if first_page o =? 64 then 1 else if (first_page o =? 32) && seen then 1 else 0).
  { unfold show_cmd. rewrite A, B. destruct (shown o); [|reflexivity]. cbn [negb]. destruct (first_page o =? 64); [reflexivity|]. destruct (first_page o =? 32), seen; reflexivity. }
  rewrite E1, E2. lia.
Qed.
Lemma map_u8_id l : Forall (fun b => 0 <= b < 256) l -> map u8 l = l.
Proof. induction 1 as [|x l H F IH]; [reflexivity|]. cbn [map]. rewrite IH, u8_id by exact H. reflexivity. Qed.
Lemma chunks_ok ps : Forall (fun p => carried (fst p) (snd p)) ps -> Forall chunk_ok (map chunk_of ps).
Proof. induction 1 as [|[o d] l H F IH]; [constructor|]. constructor; [apply chunk_is_ok; exact H|exact IH]. Qed.
Definition run_of (ps : list (Z * list Z)) (run : option Z) : option Z :=
  match run with Some r => Some r | None => match ps with p :: _ => Some (fst p) | [] => None end end.

(** Creation, for pieces the format can carry. *)
Definition boot_bytes (ps : list (Z * list Z)) (r : Z) : list Z :=
  let l := 0xd1 :: commands (map chunk_of ps) true ++ [0xc0] in
  fstbt ++ [u8 (r mod 256); u8 (r / 256)] ++ l ++ zrepeat 0 (256 - (135 + zlen l)).
Lemma fstbt_len : zlen fstbt = 133. Proof. reflexivity. Qed.
Lemma boot_bytes_len ps r : list_cost false ps <= 119 -> Forall (fun p => carried (fst p) (snd p)) ps -> zlen (boot_bytes ps r) = 256.
Proof.
  intros H F. unfold boot_bytes. pose proof (commands_len ps false F) as L. cbn [negb] in L. pose proof (zlen_nonneg (commands (map chunk_of ps) true)).
  assert (Ll : zlen (209 :: commands (map chunk_of ps) true ++ [192]) = list_cost false ps + 2) by (rewrite zlen_cons, zlen_app, zlen_cons, L; change (@zlen Z []) with 0; lia).
  rewrite !zlen_app, fstbt_len. rewrite Ll. rewrite zlen_zrepeat by lia. change (zlen [u8 (r mod 256); u8 (r / 256)]) with 2. lia.
Qed.
Lemma create_eq ps run r : Forall (fun p => carried (fst p) (snd p)) ps -> run_of ps run = Some r ->
  sd_create (map to_seg ps) run =
  (if 119 <? list_cost false ps then Err EValue
   else write_list (numbered 0 (boot_bytes ps r :: map snd (stored (map chunk_of ps) true))) (zrepeat 0 143360)).
Proof.
  intros F Hr. unfold sd_create.
  assert (E : match run with Some r0 => Ok r0 | None => match map to_seg ps with [] => Err EIndex | s :: _ => Ok (sg_origin s) end end = Ok r).
  { unfold run_of in Hr. destruct run; [injection Hr as <-; reflexivity|]. destruct ps; [discriminate Hr|]. injection Hr as <-. reflexivity. }
  rewrite E. cbv iota beta. rewrite map_map. change (fun x => mk_chunk (to_seg x)) with chunk_of. rewrite chunk_loop_spec by lia. unfold boot_code.
  pose proof (commands_len ps false F) as L. cbn [negb] in L.
  assert (Ll : zlen ((209 :: commands (map chunk_of ps) true) ++ [192]) = list_cost false ps + 2) by (rewrite zlen_app, !zlen_cons, L; change (@zlen Z []) with 0; lia).
  rewrite Ll. destruct (Z.ltb_spec 119 (list_cost false ps)).
  - replace (256 <? 135 + (list_cost false ps + 2)) with true by lia. reflexivity.
  - replace (256 <? 135 + (list_cost false ps + 2)) with false by lia. cbn [numbered]. rewrite place_of_0. cbn [app].
    rewrite map_u8_id. 2:{ constructor; [lia|]. apply Forall_app. split; [|constructor; [lia|constructor]]. apply commands_bytes. apply chunks_ok. exact F. }
    unfold boot_bytes. cbn [app]. cbn [app] in Ll. rewrite Ll. reflexivity.
Qed.
Lemma create_ok ps run r : Forall (fun p => carried (fst p) (snd p)) ps -> run_of ps run = Some r ->
  list_cost false ps <= 119 -> total_pages ps <= 559 ->
  exists img, sd_create (map to_seg ps) run = Ok img /\ zlen img = 143360 /\
    forall j i, 0 <= j <= total_pages ps -> 0 <= i < 256 ->
      getb img (256 * place_of j + i) = getb (nth (Z.to_nat j) (boot_bytes ps r :: map snd (stored (map chunk_of ps) true)) []) i.
Proof.
  intros F Hr Hc Ht. rewrite (create_eq ps run r F Hr). replace (119 <? list_cost false ps) with false by lia.
  set (ds := boot_bytes ps r :: map snd (stored (map chunk_of ps) true)).
  assert (Ld : zlen ds = 1 + total_pages ps) by (unfold ds; rewrite zlen_cons, zlen_map, stored_len by exact F; reflexivity).
  assert (Fd : Forall (fun d => zlen d = 256) ds).
  { unfold ds. constructor; [apply boot_bytes_len; assumption|]. pose proof (stored_ok (map chunk_of ps) true (chunks_ok ps F)) as S0. rewrite Forall_forall in *. intros d Hd. apply in_map_iff in Hd. destruct Hd as (w & <- & Hw). apply (S0 w Hw). }
  destruct (write_list_spec (numbered 0 ds) (zrepeat 0 143360)) as (img & E & L & A & _).
  - apply zlen_zrepeat; lia.
  - apply Forall_forall. intros [n d] H. apply numbered_in in H. destruct H as (j & Hj & _ & Ed). cbn [snd]. rewrite Ed. apply (proj1 (Forall_forall _ _) Fd). apply nth_In. unfold zlen in Hj. lia.
  - apply numbered_nodup. lia.
  - apply Forall_forall. intros [n d] H. apply numbered_in in H. destruct H as (j & Hj & En & _). cbn [fst]. rewrite En. apply place_range; lia.
  - exists img. split; [exact E|]. split; [exact L|]. intros j i Hj Hi. replace (256 * place_of j + i) with (place_of j * 256 + i) by lia. apply A; [|exact Hi]. apply (in_numbered ds 0 j). lia.
Qed.
Lemma create_only ps run r img : Forall (fun p => carried (fst p) (snd p)) ps -> run_of ps run = Some r ->
  sd_create (map to_seg ps) run = Ok img -> list_cost false ps <= 119 /\ total_pages ps <= 559.
Proof.
  intros F Hr E. rewrite (create_eq ps run r F Hr) in E. destruct (Z.ltb_spec 119 (list_cost false ps)); [discriminate|]. split; [lia|].
  apply write_list_ok in E. set (ds := boot_bytes ps r :: map snd (stored (map chunk_of ps) true)) in *.
  assert (Ld : zlen ds = 1 + total_pages ps) by (unfold ds; rewrite zlen_cons, zlen_map, stored_len by exact F; reflexivity).
  assert (T0 : 0 <= total_pages ps) by (rewrite <- (stored_len ps true F); apply zlen_nonneg).
  pose proof (in_numbered ds 0 (total_pages ps) ltac:(lia)) as I. rewrite Forall_forall in E. apply E in I. cbn [fst] in I. apply place_range in I; lia.
Qed.
Lemma boot_runs ps run r img m0 : Forall (fun p => carried (fst p) (snd p)) ps -> run_of ps run = Some r -> 0 <= r < 65536 ->
  sd_create (map to_seg ps) run = Ok img ->
  zlen img = 143360 /\ jump img = r /\ exists m, boot img m0 = Some m /\ forall a, m a = loaded (map effective ps) m0 a.
Proof.
  intros F Hr Rr E. destruct (create_only ps run r img F Hr E) as [Hc Ht]. destruct (create_ok ps run r F Hr Hc Ht) as (img' & E' & L & G). rewrite E in E'. injection E' as <-.
  assert (T0 : 0 <= total_pages ps) by (rewrite <- (stored_len ps true F); apply zlen_nonneg).
  assert (B : slice img 0 256 = boot_bytes ps r).
  { pose proof (boot_bytes_len ps r Hc F) as Lb. apply list_ext_getb; [rewrite zlen_slice by lia; lia|]. intros i Hi. rewrite zlen_slice in Hi by lia. rewrite getb_slice by lia.
    specialize (G 0 i ltac:(lia) ltac:(lia)). rewrite place_of_0 in G. exact G. }
  split; [exact L|]. split.
  - unfold jump. assert (GB : forall i, 0 <= i < 256 -> getb img i = getb (boot_bytes ps r) i) by (intros i Hi; rewrite <- B, getb_slice by lia; f_equal; lia).
    rewrite !GB by lia. unfold boot_bytes. set (z := (209 :: _) ++ _).
    rewrite (getb_app_r fstbt _ 133) by (rewrite fstbt_len; lia). rewrite (getb_app_r fstbt _ 134) by (rewrite fstbt_len; lia). rewrite fstbt_len.
    change (getb ([u8 (r mod 256); u8 (r / 256)] ++ z) (133 - 133)) with (u8 (r mod 256)). change (getb ([u8 (r mod 256); u8 (r / 256)] ++ z) (134 - 133)) with (u8 (r / 256)).
    destruct (page_split r) as [Er Mr]. assert (Hr2 : 0 <= r / 256 < 256) by lia. rewrite (u8_id (r mod 256) Mr), (u8_id (r / 256) Hr2). unfold le2.  lia.
  - unfold boot. assert (Sl : slice img 135 256 = (209 :: commands (map chunk_of ps) true ++ [192]) ++ zrepeat 0 (256 - (135 + zlen (209 :: commands (map chunk_of ps) true ++ [192])))).
    { transitivity (slice (slice img 0 256) 135 256).
      - rewrite slice_slice by lia. reflexivity.
      - rewrite B. unfold boot_bytes. set (l := 209 :: _ ++ _). set (z := zrepeat 0 _).
        rewrite app_assoc. rewrite slice_app_r by (rewrite zlen_app, fstbt_len; cbn; lia).
        assert (Lx : zlen (fstbt ++ [u8 (r mod 256); u8 (r / 256)]) = 135) by (rewrite zlen_app, fstbt_len; reflexivity). rewrite Lx.
        apply slice_all. pose proof (boot_bytes_len ps r Hc F) as Lb. unfold boot_bytes in Lb. fold l in Lb. fold z in Lb. rewrite app_assoc, zlen_app, Lx in Lb. lia. }
    rewrite Sl. change ((209 :: ?x) ++ ?y) with (209 :: (x ++ y)). rewrite <- app_assoc.
    change (run_commands (209 :: ?x) img 1 0 m0) with (run_commands x img 1 0 m0).
    destruct (run_all (map chunk_of ps) true ([192] ++ zrepeat 0 (256 - (135 + zlen (209 :: commands (map chunk_of ps) true ++ [192])))) img 1 0 m0 (chunks_ok ps F)) as (pg & R).
    rewrite R. eexists. split; [reflexivity|]. intros a. rewrite loads_mem.
    + unfold loaded. apply all_fold. exact F.
    + apply Forall_impl with (2 := stored_ok _ true (chunks_ok ps F)). intros w [Hw _]. unfold page_ok in Hw. lia.
    + intros j i Hj Hi. rewrite stored_len in Hj by exact F. rewrite G by lia. replace (Z.to_nat (1 + j)) with (S (Z.to_nat j)) by lia. reflexivity.
Qed.
