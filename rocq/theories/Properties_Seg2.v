(** C71, C72: resizing containers; comments at lists of indexes. *)
From Verif Require Import Base BaseLemmas SegModel SegModel2 SegSpec SegProofs SegProofs2 SegProofs3 SegProofs4 SegProofs5 SegProofs6 Properties_Seg.

(** * np.resize *)
Lemma zlen_copies k a : zlen (copies k a) = Z.of_nat k * zlen a.
Proof. induction k as [|k IH]; [reflexivity|]. cbn [copies]. rewrite zlen_app, IH. lia. Qed.
Lemma getb_copies k : forall a i, 0 <= i < Z.of_nat k * zlen a -> getb (copies k a) i = getb a (i mod zlen a).
Proof.
  induction k as [|k IH]; intros a i Hi; [lia|]. cbn [copies]. destruct (Z.lt_ge_cases i (zlen a)) as [L|L].
  - rewrite getb_app_l by lia. rewrite Z.mod_small by lia. reflexivity.
  - rewrite getb_app_r by lia. rewrite IH by lia. f_equal. rewrite <- (Z_mod_plus_full (i - zlen a) 1). f_equal. lia.
Qed.
Lemma zlen_np_resize a n : 0 <= n -> n <= zlen (np_resize a n).
Proof.
  intros Hn. unfold np_resize. destruct ((zlen a =? 0) || (n =? 0)) eqn:E; [rewrite zlen_zrepeat by lia; lia|].
  rewrite zlen_copies. pose proof (zlen_nonneg a). assert (0 < zlen a) by lia. assert (0 <= (n + zlen a - 1) / zlen a) by (apply Z.div_pos; lia).
  rewrite Z2Nat.id by lia. pose proof (Z.div_mod (n + zlen a - 1) (zlen a) ltac:(lia)). pose proof (Z.mod_pos_bound (n + zlen a - 1) (zlen a) ltac:(lia)). nia.
Qed.
Lemma zlen_np_resize_same a b n : zlen a = zlen b -> zlen (np_resize a n) = zlen (np_resize b n).
Proof. intros E. unfold np_resize. rewrite E. destruct ((zlen b =? 0) || (n =? 0)); [reflexivity|]. rewrite !zlen_copies, E. reflexivity. Qed.
Lemma getb_np_resize a n i : 0 <= i < n -> getb (np_resize a n) i = if zlen a =? 0 then 0 else getb a (i mod zlen a).
Proof.
  intros Hi. pose proof (zlen_np_resize a n ltac:(lia)) as L. unfold np_resize in *. replace (n =? 0) with false in * by lia. rewrite orb_false_r in *.
  destruct (zlen a =? 0) eqn:E; [apply getb_zrepeat; lia|]. apply getb_copies. rewrite zlen_copies in L. lia.
Qed.
Lemma win_ok_resized a n : 0 <= n -> win_ok (zlen (np_resize a n)) (resized_win a n).
Proof.
  intros Hn. pose proof (zlen_np_resize a n Hn). unfold resized_win. destruct ((zlen a =? 0) || (n =? 0)); cbn [win_ok]; [exact I|lia].
Qed.
(** Where element [i] of the resized object lives: at position [i] of the new array. *)
Lemma positions_resized a n : 0 <= n -> positions (zlen (np_resize a n)) (resized_win a n) = zrange 0 n.
Proof.
  intros Hn. unfold resized_win. destruct ((zlen a =? 0) || (n =? 0)) eqn:E; cbn [positions]; [|reflexivity].
  unfold np_resize. rewrite E. rewrite zlen_zrepeat by lia. reflexivity.
Qed.

(** * Resizing *)
(** The value of byte [i] after resizing: bytes and styles stay, new ones are zero or,
    on request, repeat the old ones. *)
Definition resized (old : list Z) (zeros : bool) (i : Z) : Z :=
  if i <? zlen old then getb old i
  else if zeros || (zlen old =? 0) then 0 else getb old (i mod zlen old).

Lemma getb_scatter_zero a lo n i : 0 <= lo -> lo <= n -> n <= zlen a -> 0 <= i ->
  getb (scatter a (zrange lo n) (zrepeat 0 (zlen (zrange lo n)))) i = if (lo <=? i) && (i <? n) then 0 else getb a i.
Proof.
  intros H1 H2 H3 Hi. assert (F : Forall (fun p => 0 <= p < zlen a) (zrange lo n)) by (apply Forall_forall; intros p Hp; apply In_zrange in Hp; lia).
  rewrite getb_scatter by assumption.
  assert (Hr : zrepeat 0 (zlen (zrange lo n)) = map (fun _ => 0) (zrange lo n)).
  { apply list_ext_getb; [rewrite zlen_map, zlen_zrepeat by apply zlen_nonneg; reflexivity|]. intros j Hj. rewrite zlen_zrepeat in Hj by apply zlen_nonneg.
    rewrite getb_zrepeat by exact Hj. rewrite getb_map by exact Hj. reflexivity. }
  rewrite Hr, last_write_map. destruct (zmem i (zrange lo n)) eqn:E.
  - apply zmem_In in E. apply In_zrange in E. replace (_ && _) with true by lia. reflexivity.
  - replace ((lo <=? i) && (i <? n)) with false; [reflexivity|]. symmetry. apply not_true_iff_false. intros T.
    assert (In i (zrange lo n)) by (apply In_zrange; lia). rewrite <- zmem_In in H. congruence.
Qed.

(** ** C71: the container *)
Theorem C71_resize h r n zeros : raw_ok h r -> r_win r = WAll -> 0 <= n ->
  exists h' r', seg_resize h r true n zeros = (h', Ok (r', (raw_len h r, n))) /\ raw_ok h' r' /\ raw_len h' r' = n /\
   shows h' r' = zrange 0 n /\
   (forall i, 0 <= i < n -> getb (read_data h' r') i = resized (read_data h r) zeros i /\
                            getb (read_style h' r') i = resized (read_style h r) zeros i) /\
   r_extra r' = r_extra r /\ hp_ext h' = hp_ext h /\
   (forall x, raw_ok h x -> raw_ok h' x /\ read_data h' x = read_data h x /\ read_style h' x = read_style h x /\
                            r_data x <> r_data r' /\ r_style x <> r_style r').
Proof.
  intros R W Hn. pose proof R as (R1 & R2 & R3 & R4 & R5 & _). unfold seg_resize, raw_resize. cbn [negb]. rewrite W.
  set (d := arr h (r_data r)) in *. set (s := arr h (r_style r)) in *.
  set (h1 := mkHp (hp_arr h ++ [np_resize d n; np_resize s n]) (hp_ext h)).
  set (r1 := mkR (length (hp_arr h)) (S (length (hp_arr h))) (r_extra r) (resized_win d n)).
  assert (Ad : arr h1 (r_data r1) = np_resize d n) by apply arr_app_0.
  assert (As : arr h1 (r_style r1) = np_resize s n) by apply arr_app_1.
  assert (Zs : zlen (np_resize s n) = zlen (np_resize d n)) by (apply zlen_np_resize_same; exact R5).
  assert (K1 : raw_ok h1 r1).
  { unfold raw_ok. rewrite Ad, As, Zs. unfold h1, r1. cbn [r_data r_style r_extra r_win hp_arr hp_ext]. rewrite app_length. cbn [length].
    split; [lia|]. split; [lia|]. split; [lia|]. split; [exact R4|]. split; [reflexivity|]. apply win_ok_resized; exact Hn. }
  assert (Sh1 : shows h1 r1 = zrange 0 n) by (unfold shows; rewrite Ad; apply positions_resized; exact Hn).
  assert (L1 : raw_len h1 r1 = n) by (rewrite <- (zlen_shows h1 r1 K1), Sh1, zlen_zrange'; lia).
  assert (Lr : raw_len h r = zlen d) by (unfold raw_len; rewrite W; reflexivity).
  rewrite L1, Lr. set (h2 := if zeros && _ then _ else h1).
  assert (Dr : read_data h r = d) by (unfold read_data; rewrite W; reflexivity).
  assert (Sr : read_style h r = s) by (unfold read_style; rewrite W; reflexivity).
  pose proof (zlen_np_resize d n Hn) as Ln. pose proof (zlen_nonneg d) as Nd.
  (* the arrays of the new heap *)
  assert (H2 : (forall i, 0 <= i < n -> getb (arr h2 (r_data r1)) i = resized d zeros i /\ getb (arr h2 (r_style r1)) i = resized s zeros i) /\
               zlen (arr h2 (r_data r1)) = zlen (np_resize d n) /\ zlen (arr h2 (r_style r1)) = zlen (np_resize d n) /\
               length (hp_arr h2) = length (hp_arr h1) /\ hp_ext h2 = hp_ext h /\
               (forall m, m <> r_data r1 -> m <> r_style r1 -> arr h2 m = arr h1 m)).
  { assert (Plain : forall i, 0 <= i < n -> getb (np_resize d n) i = (if zlen d =? 0 then 0 else getb d (i mod zlen d)) /\
                              getb (np_resize s n) i = (if zlen d =? 0 then 0 else getb s (i mod zlen d))).
    { intros i Hi. rewrite !getb_np_resize by exact Hi. rewrite R5. split; reflexivity. }
    unfold h2. destruct (zeros && (zlen d <? n)) eqn:Ez.
    - apply andb_prop in Ez. destruct Ez as [-> Ez].
      assert (Ps : pyslice (shows h1 r1) (Some (zlen d)) None = zrange (zlen d) n).
      { rewrite Sh1. unfold pyslice, bound. rewrite zlen_zrange'. replace (Z.max 0 (n - 0)) with n by lia. replace (zlen d <? 0) with false by lia.
        rewrite slice_zrange by lia. f_equal; lia. }
      rewrite <- (win_slice_shows h1 r1 (Some (zlen d)) None K1), L1 in Ps. rewrite Ps. set (ps := zrange (zlen d) n).
      assert (Fp : Forall (fun p => 0 <= p < zlen (np_resize d n)) ps) by (apply Forall_forall; intros p Hp; apply In_zrange in Hp; lia).
      set (ha := set_arr h1 (r_data r1) _).
      assert (Hs : arr ha (r_style r1) = np_resize s n) by (unfold ha; rewrite arr_set_neq by (destruct K1 as (_ & _ & X & _); exact X); exact As).
      rewrite Hs. set (hb := set_arr ha (r_style r1) _).
      destruct K1 as (I1 & I2 & I3 & _).
      assert (A1 : arr hb (r_data r1) = scatter (np_resize d n) ps (zrepeat 0 (zlen ps))).
      { unfold hb. rewrite arr_set_neq by congruence. unfold ha. rewrite arr_set_eq by exact I1. rewrite Ad. reflexivity. }
      assert (A2 : arr hb (r_style r1) = scatter (np_resize s n) ps (zrepeat 0 (zlen ps))).
      { unfold hb. rewrite arr_set_eq; [reflexivity|]. unfold ha, set_arr. cbn [hp_arr]. rewrite length_replace. exact I2. }
      split; [|split; [|split; [|split; [|split]]]].
      + intros i Hi. rewrite A1, A2. unfold ps. rewrite !getb_scatter_zero by lia. destruct (Plain i Hi) as [P1 P2]. rewrite P1, P2.
        unfold resized. rewrite R5. cbn [orb]. destruct (i <? zlen d) eqn:Ei.
        * replace (zlen d <=? i) with false by lia. cbn [andb]. replace (zlen d =? 0) with false by lia. rewrite Z.mod_small by lia. split; reflexivity.
        * replace (zlen d <=? i) with true by lia. replace (i <? n) with true by lia. split; reflexivity.
      + rewrite A1. apply zlen_scatter. exact Fp.
      + rewrite A2, zlen_scatter by (rewrite Zs; exact Fp). exact Zs.
      + unfold hb, ha, set_arr. cbn [hp_arr]. rewrite !length_replace. reflexivity.
      + reflexivity.
      + intros m M1 M2. unfold hb. rewrite arr_set_neq by congruence. unfold ha. rewrite arr_set_neq by congruence. reflexivity.
    - split; [|rewrite Ad, As, Zs; repeat split; reflexivity].
      intros i Hi. rewrite Ad, As. destruct (Plain i Hi) as [P1 P2]. rewrite P1, P2. unfold resized. rewrite R5. destruct (i <? zlen d) eqn:Ei.
      + replace (zlen d =? 0) with false by lia. rewrite Z.mod_small by lia. split; reflexivity.
      + destruct zeros; cbn [andb orb] in *; [lia|]. destruct (zlen d =? 0); split; reflexivity. }
  clearbody h2. destruct H2 as (G & Z1 & Z2 & Ln2 & X2 & O2).
  assert (K2 : raw_ok h2 r1).
  { destruct K1 as (I1 & I2 & I3 & I4 & I5 & I6). unfold raw_ok. rewrite Z1, Z2, Ln2, X2. rewrite Ad in I6.
    split; [exact I1|]. split; [exact I2|]. split; [exact I3|]. split; [exact R4|]. split; [reflexivity|exact I6]. }
  assert (Sh2 : shows h2 r1 = zrange 0 n) by (unfold shows; rewrite Z1; apply positions_resized; exact Hn).
  exists h2, r1. split; [reflexivity|]. split; [exact K2|]. split; [rewrite <- (zlen_shows h2 r1 K2), Sh2, zlen_zrange'; lia|]. split; [exact Sh2|].
  split; [|split; [reflexivity|split; [exact X2|]]].
  - intros i Hi. rewrite read_data_shows, read_style_shows by exact K2. rewrite Sh2, !getb_map by (rewrite zlen_zrange'; lia). rewrite getb_zrange by lia.
    cbn [Z.add]. rewrite Dr, Sr. apply G; exact Hi.
  - intros x X. pose proof X as (Y1 & Y2 & Y3 & Y4 & Y5 & Y6).
    assert (Old : forall m, (m < length (hp_arr h))%nat -> arr h2 m = arr h m).
    { intros m Hm. rewrite O2 by (unfold r1; cbn [r_data r_style]; lia). unfold h1. apply arr_app_l. exact Hm. }
    assert (E1 := Old _ Y1). assert (E2 := Old _ Y2).
    split; [unfold raw_ok; rewrite E1, E2, Ln2, X2; unfold h1; cbn [hp_arr]; rewrite app_length; repeat split; try lia; assumption|].
    split; [unfold read_data; rewrite E1; reflexivity|]. split; [unfold read_style; rewrite E2; reflexivity|]. unfold r1. cbn [r_data r_style]. lia.
Qed.
Print Assumptions C71_resize.
(** Only an unsliced container that allows it can be resized. *)
Theorem C71_refusals h r can n zeros : (can = false \/ r_win r <> WAll) -> seg_resize h r can n zeros = (h, Err EValue).
Proof. unfold seg_resize. intros [-> |H]; [reflexivity|]. destruct (negb can); [reflexivity|]. destruct (r_win r); [congruence|reflexivity|reflexivity]. Qed.
Print Assumptions C71_refusals.

(** ** C71: segments of the container, re-pointed after it grew *)
Theorem C71_children h r n zeros h' r' sz x : raw_ok h r -> r_win r = WAll -> raw_len h r <= n ->
  seg_resize h r true n zeros = (h', Ok (r', sz)) ->
  raw_ok h x -> r_data x = r_data r -> r_style x = r_style r -> r_extra x = r_extra r -> r_win x <> WAll ->
  exists x', replace_arrays h' x r' = Ok x' /\ raw_ok h' x' /\
   r_data x' = r_data r' /\ r_style x' = r_style r' /\ r_extra x' = r_extra r' /\
   shows h' x' = shows h x /\ read_data h' x' = read_data h x /\ read_style h' x' = read_style h x /\
   (forall i, 0 <= i < raw_len h x -> get_comment h' x' i = get_comment h x i).
Proof.
  intros R W Hn E X Xd Xs Xe Xw. pose proof (zlen_nonneg (arr h (r_data r))) as Nd.
  assert (Lr : raw_len h r = zlen (arr h (r_data r))) by (unfold raw_len; rewrite W; reflexivity).
  destruct (C71_resize h r n zeros R W ltac:(lia)) as (h1 & r1 & E1 & K & L & Sh & B & Ex & He & O). rewrite E in E1. injection E1 as <- <- _.
  destruct (O x X) as (X' & Rd & Rs & _). destruct (O r R) as (R' & Rrd & _).
  assert (Ld : zlen (arr h' (r_data x)) = zlen (arr h (r_data r))).
  { rewrite Xd. assert (Q : read_data h' r = read_data h r) by exact Rrd. unfold read_data in Q. rewrite W in Q. cbn [win_read] in Q. rewrite Q. reflexivity. }
  assert (Dr : read_data h r = arr h (r_data r)) by (unfold read_data; rewrite W; reflexivity).
  assert (Sr : read_style h r = arr h (r_style r)) by (unfold read_style; rewrite W; reflexivity).
  assert (Ls : zlen (arr h (r_style r)) = zlen (arr h (r_data r))) by (destruct R as (_ & _ & _ & _ & Q & _); exact Q).
  (* the first bytes of the new arrays *)
  assert (G : forall p, 0 <= p < zlen (arr h (r_data r)) -> getb (arr h' (r_data r')) p = getb (arr h (r_data r)) p /\ getb (arr h' (r_style r')) p = getb (arr h (r_style r)) p).
  { intros p Hp. destruct (B p ltac:(lia)) as [B1 B2]. rewrite read_data_shows in B1 by exact K. rewrite read_style_shows in B2 by exact K.
    rewrite Sh in B1, B2. rewrite getb_map in B1, B2 by (rewrite zlen_zrange'; lia). rewrite getb_zrange in B1, B2 by lia. cbn [Z.add] in B1, B2.
    rewrite B1, B2. unfold resized. rewrite Dr, Sr, Ls. replace (p <? zlen (arr h (r_data r))) with true by lia. split; reflexivity. }
  unfold replace_arrays. rewrite L, Ld. replace (n <? zlen (arr h (r_data r))) with false by lia.
  set (w := match r_win x with WOrder o => WOrder o | WRange a b => r_win (raw_slice h' r' (Some a) (Some b)) | WAll => WAll end).
  set (x' := mkR (r_data r') (r_style r') (r_extra x) w).
  assert (Q : match r_win x with
              | WOrder o => Ok (mkR (r_data r') (r_style r') (r_extra x) (WOrder o))
              | WRange a b => Ok (mkR (r_data (raw_slice h' r' (Some a) (Some b))) (r_style (raw_slice h' r' (Some a) (Some b))) (r_extra x) (r_win (raw_slice h' r' (Some a) (Some b))))
              | WAll => Err EValue
              end = Ok x' /\ raw_ok h' x' /\ shows h' x' = shows h x).
  { pose proof X as (_ & _ & _ & _ & _ & Wx). pose proof K as (K1 & K2 & K3 & K4 & K5 & K6). rewrite Xd in Wx.
    assert (Ln : n <= zlen (arr h' (r_data r'))).
    { pose proof (shows_range h' r' K) as SR. rewrite Sh in SR. destruct (Z.eq_dec n 0) as [-> |Nz]; [apply zlen_nonneg|].
      rewrite Forall_forall in SR. assert (In (n - 1) (zrange 0 n)) by (apply In_zrange; lia). apply SR in H. lia. }
    unfold x', w. unfold shows at 2. destruct (r_win x) as [|a b|o]; cbn [win_ok] in Wx; [congruence| |].
    - destruct (raw_slice_shows h' r' (Some a) (Some b) K) as (S1 & S2 & S3 & S4 & S5). rewrite S3, S4. split; [reflexivity|].
      assert (Hs : mkR (r_data r') (r_style r') (r_extra x) (r_win (raw_slice h' r' (Some a) (Some b))) = raw_slice h' r' (Some a) (Some b)).
      { rewrite Xe, <- Ex, <- S5. destruct (raw_slice h' r' (Some a) (Some b)) as [q1 q2 q3 q4]. cbn in *. subst. reflexivity. }
      rewrite Hs. split; [exact S1|]. rewrite S2, Sh. cbn [positions]. unfold pyslice, bound. rewrite zlen_zrange'.
      replace (a <? 0) with false by lia. replace (b <? 0) with false by lia. rewrite slice_zrange by lia. f_equal; lia.
    - split; [reflexivity|]. split; [|reflexivity]. unfold raw_ok. cbn [r_data r_style r_extra r_win win_ok]. rewrite Xe, <- Ex.
      split; [exact K1|]. split; [exact K2|]. split; [exact K3|]. split; [exact K4|]. split; [exact K5|].
      eapply Forall_impl; [|exact Wx]. cbv beta. intros p Hp. lia. }
  destruct Q as (Q1 & Q2 & Q3). exists x'. split; [exact Q1|]. split; [exact Q2|]. split; [reflexivity|]. split; [reflexivity|].
  split; [cbn [r_extra x']; congruence|]. split; [exact Q3|].
  pose proof (shows_range h x X) as SR. rewrite Xd in SR. rewrite Forall_forall in SR.
  split; [|split].
  - rewrite (read_data_shows h' x' Q2), (read_data_shows h x X), Q3, Xd. apply map_ext_in. intros p Hp. cbn [r_data x']. apply G, SR, Hp.
  - rewrite (read_style_shows h' x' Q2), (read_style_shows h x X), Q3, Xs. apply map_ext_in. intros p Hp. cbn [r_style x']. apply G, SR, Hp.
  - intros i Hi. assert (Hi' : 0 <= i < raw_len h' x') by (rewrite <- (zlen_shows h' x' Q2), Q3, zlen_shows by exact X; exact Hi).
    rewrite (get_comment_eq h' x' i Q2 Hi'), (get_comment_eq h x i X Hi), Q3. unfold comments, ext. rewrite He. reflexivity.
Qed.
Print Assumptions C71_children.

(** A smaller container can not be given to its segments: an exception that the
    library does not document. *)
Theorem C71_shrink_refuted h r n zeros h' r' sz x : raw_ok h r -> r_win r = WAll -> 0 <= n < raw_len h r ->
  seg_resize h r true n zeros = (h', Ok (r', sz)) -> raw_ok h x -> r_data x = r_data r ->
  replace_arrays h' x r' = Err EAttribute.
Proof.
  intros R W Hn E X Xd. destruct (C71_resize h r n zeros R W ltac:(lia)) as (h1 & r1 & E1 & K & L & Sh & B & Ex & He & O). rewrite E in E1. injection E1 as <- <- _.
  destruct (O r R) as (_ & Rrd & _). unfold read_data in Rrd. rewrite W in Rrd. cbn [win_read] in Rrd.
  unfold replace_arrays. rewrite L, Xd, Rrd. unfold raw_len in Hn. rewrite W in Hn. replace (n <? zlen (arr h (r_data r))) with true by lia. reflexivity.
Qed.
Print Assumptions C71_shrink_refuted.

(** A container can be resized only once: afterwards its arrays are views. *)
Theorem C71_again_refuted h r n zeros h' r' sz m z : raw_ok h r -> r_win r = WAll -> 0 < raw_len h r -> 0 < n ->
  seg_resize h r true n zeros = (h', Ok (r', sz)) -> seg_resize h' r' true m z = (h', Err EValue).
Proof.
  intros R W L Hn E. unfold raw_len in L. rewrite W in L. apply C71_refusals. right. unfold seg_resize, raw_resize in E. cbn [negb] in E. rewrite W in E.
  injection E as _ <- _. cbn [r_win]. unfold resized_win. replace (zlen (arr h (r_data r)) =? 0) with false by lia. replace (n =? 0) with false by lia. discriminate.
Qed.
Print Assumptions C71_again_refuted.

Example C71_case : raw_ok xh xw /\
  match seg_resize xh xw true 11 true with
  | (h', Ok (r', sz)) => sz = (8, 11) /\ read_data h' r' = [10; 11; 12; 13; 14; 15; 16; 17; 0; 0; 0] /\
      read_style h' r' = [0; 64; 64; 0; 3; 3; 65; 0; 0; 0; 0] /\
      match replace_arrays h' (mkR 0 1 0 (WRange 2 5)) r' with
      | Ok x' => read_data h' x' = [12; 13; 14] /\ read_data (fst (set_slice h' x' (Some 0) (Some 2) [7])) r' = [10; 11; 7; 7; 14; 15; 16; 17; 0; 0; 0]
      | Err _ => False end
  | _ => False end /\
  match seg_resize xh xw true 19 false with
  | (h', Ok (r', _)) => read_data h' r' = [10; 11; 12; 13; 14; 15; 16; 17; 10; 11; 12; 13; 14; 15; 16; 17; 10; 11; 12]
  | _ => False end.
Proof. split; [exact xw_ok|]. vm_compute. repeat split. Qed.

(** * C72: comments at lists of indexes *)
(** The last text given for a base position. *)
Fixpoint last_text (p : Z) (ps : list Z) (texts : list (option (list Z))) : option (option (list Z)) :=
  match ps, texts with
  | q :: ps', t :: ts' =>
      match last_text p ps' ts' with
      | Some x => Some x
      | None => if q =? p then Some t else None
      end
  | _, _ => None
  end.
(** [None] and the empty text both mean: no comment. *)
Definition text_of (t : option (list Z)) : list Z := match t with Some t => t | None => [] end.

Lemma set_comments_at_spec r : forall idx texts h, raw_ok h r -> Forall (fun i => 0 <= i < raw_len h r) idx -> NoDup (map fst (comments h r)) ->
  exists h', set_comments_at h r idx texts = (h', Ok tt) /\ hp_arr h' = hp_arr h /\ same_shape h h' /\ NoDup (map fst (comments h' r)) /\
   (forall p, dget p (comments h' r) = match last_text p (map (getb (shows h r)) idx) texts with Some t => norm t | None => dget p (comments h r) end) /\
   (forall y, y <> r_extra r -> ext h' y = ext h y).
Proof.
  unfold set_comments_at. induction idx as [|i idx IH]; intros texts h R F N.
  - exists h. split; [destruct texts; reflexivity|]. split; [reflexivity|]. split; [apply shape_refl|]. split; [exact N|]. split; reflexivity.
  - inversion F as [|? ? F1 F2]; subst. destruct texts as [|t texts].
    + exists h. split; [reflexivity|]. split; [reflexivity|]. split; [apply shape_refl|]. split; [exact N|]. split; reflexivity.
    + cbn [combine each fst snd]. rewrite (raw_index_shows h r i R F1). set (p := getb (shows h r) i).
      pose proof (restore_items_spec r (fun _ => t) [p] h) as Q. cbn [map fold_left] in Q. destruct Q as (A & S1 & N1 & G & X); [apply R|exact N|].
      set (h1 := restore_item r h (p, t)) in *. pose proof (shape_raw_ok _ _ _ S1 R) as R1. rewrite <- (shape_raw_len h h1 r S1) in F2.
      destruct (IH texts h1 R1 F2 N1) as (h' & E & A' & S' & N' & G' & X'). exists h'. split; [exact E|]. split; [congruence|].
      split; [eapply shape_trans; eassumption|]. split; [exact N'|]. split.
      * intros q. rewrite G', (shape_shows h h1 r S1). cbn [map last_text]. fold p. destruct (last_text q _ texts) as [y|]; [reflexivity|].
        rewrite G. unfold zmem. cbn [existsb]. rewrite orb_false_r, Z.eqb_sym. destruct (p =? q); reflexivity.
      * intros y Hy. rewrite X', X by exact Hy. reflexivity.
Qed.
(** Afterwards every segment of the same container shows the last text given for each
    position, and its old comment everywhere else; bytes and styles stay. *)
Theorem C72_set h r idx texts v i : raw_ok h r -> Forall (fun i => 0 <= i < raw_len h r) idx -> NoDup (map fst (comments h r)) ->
  raw_ok h v -> r_extra v = r_extra r -> 0 <= i < raw_len h v ->
  exists h', set_comments_at h r idx texts = (h', Ok tt) /\ hp_arr h' = hp_arr h /\ raw_ok h' v /\
   get_comment h' v i = match last_text (getb (shows h v) i) (map (getb (shows h r)) idx) texts with
                        | Some t => Ok (text_of t) | None => get_comment h v i end.
Proof.
  intros R F N V Ex Hi. destruct (set_comments_at_spec r idx texts h R F N) as (h' & E & A & S & N' & G & X). exists h'. split; [exact E|]. split; [exact A|].
  pose proof (shape_raw_ok _ _ _ S V) as V'. split; [exact V'|]. rewrite !get_comment_eq by (first [exact V|exact V'|rewrite (shape_raw_len h h' v S); exact Hi|exact Hi]).
  rewrite (shape_shows h h' v S). unfold comments in *. rewrite Ex, G. destruct (last_text _ _ texts) as [t|]; [|reflexivity].
  destruct t as [[|a t]|]; reflexivity.
Qed.
Print Assumptions C72_set.
Theorem C72_remove h r idx v i : raw_ok h r -> Forall (fun i => 0 <= i < raw_len h r) idx -> NoDup (map fst (comments h r)) ->
  raw_ok h v -> r_extra v = r_extra r -> 0 <= i < raw_len h v ->
  exists h', remove_comments_at h r idx = (h', Ok tt) /\ hp_arr h' = hp_arr h /\ raw_ok h' v /\
   (In (getb (shows h v) i) (map (getb (shows h r)) idx) -> get_comment h' v i = Ok []) /\
   (~ In (getb (shows h v) i) (map (getb (shows h r)) idx) -> get_comment h' v i = get_comment h v i).
Proof.
  intros R F N V Ex Hi. destruct (each_remove r idx h R F) as (h' & E & A & S & C & X & U). exists h'. split; [exact E|]. split; [exact A|].
  pose proof (shape_raw_ok _ _ _ S V) as V'. split; [exact V'|]. destruct (C N) as [_ G].
  rewrite !get_comment_eq by (first [exact V|exact V'|rewrite (shape_raw_len h h' v S); exact Hi|exact Hi]).
  rewrite (shape_shows h h' v S). unfold comments. rewrite Ex, G. split; intros H.
  - apply zmem_In in H. rewrite H. reflexivity.
  - destruct (zmem _ _) eqn:Z; [apply zmem_In in Z; contradiction|reflexivity].
Qed.
Print Assumptions C72_remove.

(** ** Reading comments at indexes *)
(** The report goes by the style bit 0x40: exactly the places in the index list whose
    style has it, each with the comment stored for that position, if any. *)
Lemma comments_of_eq h r idx has : raw_ok h r -> Forall (fun i => 0 <= i < raw_len h r) idx -> Forall (fun w => 0 <= w < zlen idx) has ->
  comments_of h r idx has = Ok (map (fun w => dget (getb (shows h r) (getb idx w)) (comments h r)) has).
Proof.
  intros R F. induction has as [|w has IH]; intros H; [reflexivity|]. inversion H as [|? ? H1 H2]; subst. cbn [comments_of map].
  rewrite Forall_forall in F. rewrite (raw_index_shows h r _ R) by (apply F, getb_In; exact H1). cbn [rbind]. rewrite IH by exact H2. reflexivity.
Qed.
Theorem C72_get h r idx : raw_ok h r -> Forall (fun i => 0 <= i < raw_len h r) idx -> exists has,
  get_comments_at h r idx = Ok (has, map (fun w => dget (getb (shows h r) (getb idx w)) (comments h r)) has) /\
  (forall w, In w has <-> 0 <= w < zlen idx /\ 0 < Z.land (getb (read_style h r) (getb idx w)) 0x40).
Proof.
  intros R F. unfold get_comments_at. rewrite (win_pick_shows h r idx idx R) by (apply nindexes_ok; exact F). cbn [rbind].
  set (s := gather _ _). set (has := np_where _).
  assert (Hs : s = map (fun i => getb (read_style h r) i) idx).
  { unfold s. pose proof (shows_range h r R) as SR. rewrite Forall_forall in SR. rewrite Forall_forall in F. rewrite gather_map.
    - rewrite map_map. apply map_ext_in. intros i Hi. rewrite read_style_shows by exact R. rewrite getb_map by (rewrite zlen_shows by exact R; apply F; exact Hi). reflexivity.
    - pose proof R as (_ & _ & _ & _ & R5 & _). rewrite R5. apply Forall_forall. intros p Hp. apply in_map_iff in Hp. destruct Hp as (i & <- & Hi).
      apply SR, getb_In. rewrite zlen_shows by exact R. apply F, Hi. }
  assert (Hh : forall w, In w has <-> 0 <= w < zlen idx /\ 0 < Z.land (getb (read_style h r) (getb idx w)) 0x40).
  { intros w. unfold has, np_where. rewrite np_where_In, zlen_map, Hs, zlen_map, Z.sub_0_r.
    assert (Q : 0 <= w < zlen idx -> nth (Z.to_nat w) (map (fun x => 0 <? Z.land x 64) (map (fun i => getb (read_style h r) i) idx)) false =
                                       (0 <? Z.land (getb (read_style h r) (getb idx w)) 64)).
    { intros H. rewrite map_map. rewrite nth_indep with (d' := (fun i => 0 <? Z.land (getb (read_style h r) i) 64) 0) by (rewrite map_length; unfold zlen in H; lia).
exact (map_nth (fun i => 0 <? Z.land (getb (read_style h r) i) 64) idx 0 (Z.to_nat w)). }
    split; intros [H1 H2]; (split; [lia|]); rewrite Q in * by lia; lia. }
  rewrite comments_of_eq; [|exact R|exact F|apply Forall_forall; intros w Hw; apply Hh in Hw; apply Hw]. cbn [rbind]. exists has. split; [reflexivity|exact Hh].
Qed.
Print Assumptions C72_get.
(** Texts given to a list of indexes are not reported for the same indexes. *)
Theorem C72_get_refuted : exists h r idx texts h', raw_ok h r /\ set_comments_at h r idx texts = (h', Ok tt) /\
  get_comment h' r 3 = Ok [120] /\ In 3 idx /\ get_comments_at h' r idx = Ok ([], []).
Proof.
  exists xh, xw, [3; 5], [Some [120]; Some [121]]. eexists. split; [exact xw_ok|]. split; [reflexivity|]. split; [reflexivity|].
  split; [left; reflexivity|]. reflexivity.
Qed.
Print Assumptions C72_get_refuted.
(** After set_comment on ranges the report is complete: C34 sets the style bit. *)

(** ** The first comment of some ranges is the one at the smallest start *)
Theorem C72_first h r ranges : ranges <> [] -> exists m,
  In m (map fst ranges) /\ (forall s, In s (map fst ranges) -> m <= s) /\ first_comment h r ranges = get_comment h r m.
Proof.
  destruct ranges as [|x l]; [congruence|]. intros _. cbn [first_comment map].
  assert (G : forall l m, let m' := fold_left (fun m (y : Z * Z) => Z.min m (fst y)) l m in (m' = m \/ In m' (map fst l)) /\ m' <= m /\ forall s, In s (map fst l) -> m' <= s).
  { clear. induction l as [|y l IH]; intros m; cbn zeta; cbn [fold_left map].
    - split; [left; reflexivity|]. split; [lia|]. intros s [].
    - destruct (IH (Z.min m (fst y))) as (A & B & C). cbn zeta in *. set (m' := fold_left _ l _) in *. split; [|split].
      + destruct A as [A|A]; [|right; right; exact A]. rewrite A. destruct (Z.min_spec m (fst y)) as [[_ E]|[_ E]]; rewrite E; [left; reflexivity|right; left; reflexivity].
      + lia.
      + intros s [<- |Hs]; [lia|apply C; exact Hs]. }
  destruct (G l (fst x)) as (A & B & C). cbn zeta in *. set (m' := fold_left _ l _) in *. exists m'. split; [|split; [|reflexivity]].
  - destruct A as [A|A]; [left; symmetry; exact A|right; exact A].
  - intros s [<- |Hs]; [exact B|apply C; exact Hs].
Qed.
Print Assumptions C72_first.

Example C72_case : let v := mkR 0 1 0 (WOrder [6; 1; 3]) in
  (let h' := fst (set_comments_at xh v [0; 2; 0] [Some [120]; Some [121]; None]) in
   get_comment h' xw 6 = Ok [] /\ get_comment h' xw 3 = Ok [121] /\ get_comment h' xw 1 = Ok [97]) /\
  get_comments_at xh v [0; 1; 2] = Ok ([0; 1], [Some [98; 99]; Some [97]]) /\
  get_comment (fst (remove_comments_at xh v [1])) xw 1 = Ok [] /\ first_comment xh xw [(6, 8); (1, 2)] = Ok [97].
Proof. vm_compute. repeat split. Qed.
