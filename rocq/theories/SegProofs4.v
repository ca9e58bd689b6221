(** Proofs about style tilings, rectangles and byte labels. *)
From Verif Require Import Base BaseLemmas SegModel SegSpec SegProofs SegProofs2 SegProofs3.

(** * Tilings *)
Definition const_list (g : list Z) : Prop := g <> [] /\ forall i, 0 <= i < zlen g -> getb g i = getb g 0.
Lemma grp_const l : l <> [] -> Forall const_list (grp (fun d => negb (d =? 0)) l).
Proof.
  induction l as [|a [|b l] IH]; intros N; [congruence| |].
  - repeat constructor; [discriminate|]. intros i Hi. assert (i = 0) by (cbn in Hi; lia). subst. reflexivity.
  - change (grp (fun d => negb (d =? 0)) (a :: b :: l)) with (match grp (fun d => negb (d =? 0)) (b :: l) with
      g :: gs => if negb (b - a =? 0) then [a] :: g :: gs else (a :: g) :: gs | [] => [] end).
    specialize (IH ltac:(discriminate)). pose proof (grp_concat (fun d => negb (d =? 0)) (b :: l)) as C.
    destruct (grp (fun d => negb (d =? 0)) (b :: l)) as [|g gs]; [constructor|]. inversion IH as [|? ? [G1 G2] Gs]; subst.
    assert (H1 : const_list [a]) by (split; [discriminate|]; intros i Hi; assert (i = 0) by (cbn in Hi; lia); subst; reflexivity).
    destruct (Z.eqb_spec (b - a) 0) as [E|E]; cbn [negb]; [|constructor; [exact H1|constructor; [split; assumption|exact Gs]]]. constructor; [|exact Gs].
    split; [discriminate|]. intros i Hi. destruct (Z.eq_dec i 0) as [-> |Ni]; [reflexivity|].
    destruct g as [|x g]; [congruence|]. cbn [concat app] in C. injection C as -> _. change (getb (a :: b :: g) 0) with a.
    rewrite zlen_cons in Hi. replace (getb (a :: b :: g) i) with (getb (b :: g) (i - 1)) by (unfold getb; replace (Z.to_nat i) with (S (Z.to_nat (i - 1))) by lia; reflexivity).
    rewrite G2 by lia. change (getb (b :: g) 0) with b. lia.
Qed.
Lemma tiles_app l1 : forall a b c l2, tiles a b l1 -> tiles b c l2 -> tiles a c (l1 ++ l2).
Proof. induction l1 as [|[[s e] st] l1 IH]; intros a b c l2 H1 H2; cbn [tiles app] in *; [subst; exact H2|]. destruct H1 as (A & B & C). split; [exact A|]. split; [exact B|]. eapply IH; eassumption. Qed.
Lemma tiles_app_inv l1 : forall a c l2, tiles a c (l1 ++ l2) -> exists b, tiles a b l1 /\ tiles b c l2.
Proof. induction l1 as [|[[s e] st] l1 IH]; intros a c l2 H; cbn [tiles app] in *; [eauto|]. destruct H as (A & B & C). destruct (IH _ _ _ C) as (b & X & Y). exists b. auto. Qed.
Definition constant_in (m : list Z) (bits : Z) (l : list ((Z * Z) * Z)) : Prop :=
  forall s e st, In ((s, e), st) l -> forall i, s <= i < e -> Z.land (getb m i) bits = st.
(** neighbouring ranges have the same style only where a comment splits them *)
Fixpoint split_ok (m split : list Z) (racc : list ((Z * Z) * Z)) : Prop :=
  match racc with
  | x :: ((y :: _) as r) => (snd x = snd y -> In (snd x) split /\ Z.land (getb m (fst (fst x))) 0x40 <> 0) /\ split_ok m split r
  | _ => True
  end.
Lemma entire_loop_spec m bits split : 0 <= bits -> Forall (fun x => 0 <= x) m -> forall groups last_end last_style acc,
  Forall const_list groups -> 0 <= last_end <= zlen m -> concat groups = slice m last_end (zlen m) ->
  tiles 0 last_end (rev acc) -> constant_in m bits acc -> split_ok m split acc ->
  match acc with [] => last_style = -1 | x :: _ => snd x = last_style end ->
  let out := entire_loop groups bits split last_end last_style acc in
  tiles 0 (zlen m) out /\ constant_in m bits out /\ split_ok m split (rev out).
Proof.
  intros Hb Hm. induction groups as [|g groups IH]; intros le ls acc F Hle C T K P L; cbn zeta; cbn [entire_loop].
  - assert (le = zlen m).
    { cbn [concat] in C. assert (Z0 : zlen (slice m le (zlen m)) = 0) by (rewrite <- C; reflexivity). rewrite zlen_slice in Z0 by lia. lia. }
    subst le. split; [exact T|]. split; [intros s e st Hin; apply (K s e st); apply in_rev; exact Hin|rewrite rev_involutive; exact P].
  - inversion F as [|? ? [G1 G2] Fs]; subst. cbn [concat] in C. pose proof (zlen_nonneg g) as Zg.
    assert (Zg1 : 0 < zlen g) by (destruct g; [congruence|rewrite zlen_cons; pose proof (zlen_nonneg g); lia]).
    assert (Zc : zlen g + zlen (concat groups) = zlen m - le) by (rewrite <- zlen_app, C, zlen_slice by lia; lia).
    pose proof (zlen_nonneg (concat groups)) as Zr. set (ne := le + zlen g). set (masked := Z.land (getb g 0) bits).
    assert (Gm : forall i, le <= i < ne -> getb m i = getb g 0).
    { intros i Hi. rewrite <- (G2 (i - le)) by (unfold ne in Hi; lia). replace (getb g (i - le)) with (getb (g ++ concat groups) (i - le)) by (apply getb_app_l; unfold ne in Hi; lia).
      rewrite C, getb_slice by (unfold ne in Hi; lia). f_equal. lia. }
    assert (C' : concat groups = slice m ne (zlen m)).
    { replace (concat groups) with (slice (g ++ concat groups) (zlen g) (zlen g + zlen (concat groups))).
      - rewrite C. rewrite slice_slice by lia. f_equal; unfold ne; lia.
      - apply slice_app_full_r. reflexivity. }
    assert (Hnew : tiles 0 ne (rev (((le, ne), masked) :: acc))) by (cbn [rev]; eapply tiles_app; [exact T|cbn [tiles]; unfold ne; repeat split; lia]).
    assert (Knew : constant_in m bits (((le, ne), masked) :: acc)).
    { intros s e st [X|X] i Hi; [injection X as <- <- <-; rewrite Gm by exact Hi; reflexivity|apply (K s e st X i Hi)]. }
    assert (Hmask : 0 <= masked) by (apply Z.land_nonneg; right; exact Hb).
    assert (Step : forall acc', tiles 0 ne (rev acc') -> constant_in m bits acc' -> split_ok m split acc' -> match acc' with [] => masked = -1 | x :: _ => snd x = masked end ->
      let out := entire_loop groups bits split ne masked acc' in tiles 0 (zlen m) out /\ constant_in m bits out /\ split_ok m split (rev out)).
    { intros acc' A1 A2 A3 A4. apply IH; try assumption. unfold ne. lia. }
    assert (Pnew : (match acc with [] => True | x :: _ => masked = snd x -> In masked split /\ Z.land (getb g 0) 0x40 <> 0 end) -> split_ok m split (((le, ne), masked) :: acc)).
    { intros Q. destruct acc as [|x acc]; [exact I|]. cbn [split_ok fst snd]. split; [|exact P]. rewrite Gm by (unfold ne; lia). exact Q. }
    assert (Ext : let acc' := if ls =? masked then match acc with ((p, _), _) :: acc' => ((p, ne), masked) :: acc' | [] => [] end else ((le, ne), masked) :: acc in
      tiles 0 ne (rev acc') /\ constant_in m bits acc' /\ split_ok m split acc' /\ match acc' with [] => masked = -1 | x :: _ => snd x = masked end).
    { cbn zeta. destruct (Z.eqb_spec ls masked) as [E|E].
      - destruct acc as [|[[p q] st] acc]; [lia|]. cbn [snd] in L. cbn [rev] in *. destruct (tiles_app_inv _ _ _ _ T) as (b & T1 & T2). cbn [tiles] in T2.
        destruct T2 as (<- & T2 & T3). subst q. split; [eapply tiles_app; [exact T1|cbn [tiles]; unfold ne; repeat split; lia]|]. split; [|split; [|reflexivity]].
        + intros s e st' [X|X] i Hi; [|apply (K s e st'); [right; exact X|exact Hi]]. injection X as <- <- <-.
          destruct (Z.lt_ge_cases i le) as [Hi'|Hi']; [rewrite <- E, <- L; apply (K p le st); [left; reflexivity|lia]|rewrite Gm by lia; reflexivity].
        + destruct acc as [|y acc]; [exact I|]. cbn [split_ok fst snd] in *. rewrite <- E, <- L. exact P.
      - split; [exact Hnew|]. split; [exact Knew|]. split; [|reflexivity]. apply Pnew. destruct acc as [|x acc]; [exact I|]. intros X. congruence. }
    cbn zeta in Ext. destruct Ext as (E1 & E2 & E3 & E4).
    destruct (Z.eqb_spec (Z.land (getb g 0) 64) 0) as [Ec|Ec]; cbn [negb]; [apply Step; assumption|].
    destruct (zmem masked split) eqn:Es; [|apply Step; assumption].
    apply Step; [exact Hnew|exact Knew| |reflexivity]. apply Pnew. destruct acc as [|x acc]; [exact I|]. intros _. split; [apply zmem_In; exact Es|exact Ec].
Qed.
Lemma entire_ranges_spec m bits split : 0 <= bits -> Forall (fun x => 0 <= x) m ->
  match entire_ranges m bits split with
  | None => m = []
  | Some l => m <> [] /\ tiles 0 (zlen m) l /\ constant_in m bits l /\ split_ok m split (rev l)
  end.
Proof.
  intros Hb Hm. unfold entire_ranges. rewrite (np_split_grp (fun d => negb (d =? 0))). destruct m as [|x m]; [reflexivity|].
  pose proof (grp_const (x :: m) ltac:(discriminate)) as G. pose proof (grp_concat (fun d => negb (d =? 0)) (x :: m)) as C.
  assert (N : grp (fun d => negb (d =? 0)) (x :: m) <> [[]]) by (intros E; rewrite E in C; discriminate C).
  destruct (entire_loop_spec (x :: m) bits split Hb Hm (grp (fun d => negb (d =? 0)) (x :: m)) 0 (-1) [] G) as (E1 & E2 & E3).
  { pose proof (zlen_nonneg (x :: m)). lia. } { rewrite C, slice_full. reflexivity. } { reflexivity. } { intros s e st []. } { exact I. } { reflexivity. }
  destruct (grp (fun d => negb (d =? 0)) (x :: m)) as [|[|y g] [|g' gs]]; try congruence; (split; [discriminate|]; split; [exact E1|]; split; [exact E2|exact E3]).
Qed.
Lemma zmem_dec_map p (l : list Z) : zmem p l = true \/ ~ In p l.
Proof. destruct (zmem p l) eqn:E; [left; reflexivity|right]. intros H. apply zmem_In in H. congruence. Qed.
Lemma comment_locations_spec h r k : raw_ok h r ->
  Forall (fun p => 0 <= p < zlen (arr h (r_data r))) (map fst (comments h r)) ->
  zlen (comment_locations h r k) = raw_len h r /\
  forall i, 0 <= i < raw_len h r -> getb (comment_locations h r k) i =
    Z.lor (Z.land (getb (read_style h r) i) (style_bits k)) (if zmem (getb (shows h r) i) (map fst (comments h r)) then 0x40 else 0).
Proof.
  intros R F. pose proof R as (R1 & R2 & R3 & R4 & R5 & W). unfold comment_locations. fold (comments h r).
  set (base := map (fun s => Z.land s (style_bits k)) (arr h (r_style r))). rewrite <- R5 in F, W.
  assert (Zb : zlen base = zlen (arr h (r_style r))) by apply zlen_map.
  assert (F' : Forall (fun p => 0 <= p < zlen base) (map fst (comments h r))) by (rewrite Zb; exact F).
  assert (Zu : zlen (update (fun s => Z.lor s 64) base (map fst (comments h r))) = zlen (arr h (r_style r))) by (rewrite zlen_update by exact F'; exact Zb).
  rewrite win_read_positions by (rewrite Zu; exact W). rewrite Zu.
  assert (Es : positions (zlen (arr h (r_style r))) (r_win r) = shows h r) by (unfold shows; rewrite R5; reflexivity). rewrite Es.
  split; [rewrite zlen_map; apply zlen_shows; exact R|]. intros i Hi. rewrite <- (zlen_shows h r R) in Hi.
  rewrite getb_map by exact Hi. rewrite read_style_shows by exact R. rewrite getb_map by exact Hi.
  pose proof (shows_range h r R) as S. rewrite Forall_forall in S. specialize (S _ (getb_In _ _ Hi)). rewrite <- R5 in S.
  rewrite getb_update by (first [exact F'|lia]). unfold base. rewrite getb_map by lia.
  destruct (zmem _ _); [reflexivity|]. rewrite Z.lor_0_r. reflexivity.
Qed.

(** * Rectangles *)
Definition in_rect (w r1 c1 r2 c2 i : Z) : Prop := r1 <= i / w < r2 /\ c1 <= i mod w < c2.
(** The half-open rectangle selected between two corners: the second corner is
    exclusive when the selection was made rightwards. *)
Definition rect_of (a b w : Z) : Z * Z * Z * Z :=
  let ra := a / w in let ca := a mod w in let rb := b / w in let cb := b mod w in
  if ca <? cb then (Z.min ra rb, ca, Z.max ra rb + 1, if rb <? ra then cb + 1 else cb)
  else if rb <=? ra then (rb, cb, ra + 1, ca + 1)
  else if cb =? 0 then (ra, ca, rb, w)
  else (ra, cb - 1, rb + 1, ca + 1).
Lemma rect_indexes_spec a b w : 1 <= w -> 0 <= a -> 0 <= b ->
  let '(r1, c1, r2, c2) := rect_of a b w in
  rect_indexes a b w = Ok (r1 * w + c1, (r2 - 1) * w + c2, (r1, c1), (r2, c2)) /\
  0 <= r1 < r2 /\ 0 <= c1 < c2 /\ c2 <= w.
Proof.
  intros Hw Ha Hb. unfold rect_of, rect_indexes. replace (w =? 0) with false by lia.
  assert (A1 : 0 <= a / w) by (apply Z.div_pos; lia). assert (B1 : 0 <= b / w) by (apply Z.div_pos; lia).
  pose proof (Z.mod_pos_bound a w ltac:(lia)) as A2. pose proof (Z.mod_pos_bound b w ltac:(lia)) as B2.
  set (ra := a / w) in *. set (ca := a mod w) in *. set (rb := b / w) in *. set (cb := b mod w) in *.
  destruct (Z.ltb_spec ca cb) as [L|L].
  - replace (cb <=? ca) with false by lia. destruct (Z.ltb_spec rb ra) as [M|M].
    + rewrite Z.min_r, Z.max_l by lia. split; [repeat f_equal; lia|lia].
    + rewrite Z.min_l, Z.max_r by lia. split; [repeat f_equal; lia|lia].
  - replace (cb <=? ca) with true by lia. destruct (Z.leb_spec rb ra) as [M|M].
    + split; [repeat f_equal; lia|lia].
    + destruct (Z.eqb_spec cb 0) as [E|E]; (split; [repeat f_equal; lia|lia]).
Qed.
Lemma rect_positions_spec n a b w : 1 <= w -> 0 <= a -> 0 <= b ->
  let '(r1, c1, r2, c2) := rect_of a b w in
  exists l, rect_positions n a b w = Ok l /\ forall i, In i l <-> i < n /\ 0 <= i /\ in_rect w r1 c1 r2 c2 i.
Proof.
  intros Hw Ha Hb. pose proof (rect_indexes_spec a b w Hw Ha Hb) as H. destruct (rect_of a b w) as [[[r1 c1] r2] c2]. destruct H as (E & Hr & Hc & Hcw).
  unfold rect_positions. rewrite E. cbn [rbind fst snd]. eexists. split; [reflexivity|]. intros i. rewrite filter_In, in_flat_map. unfold in_rect. split.
  - intros ((row & Hrow & Hin) & Hn). apply in_map_iff in Hin. destruct Hin as (col & <- & Hcol). apply In_zrange in Hrow, Hcol.
    replace (col + row * w + (r1 * w + c1)) with (c1 + col + (r1 + row) * w) in * by lia.
    rewrite Z.div_add, Z.mod_add by lia. rewrite Z.div_small, Z.mod_small by lia. split; [lia|]. split; [nia|lia].
  - intros (Hn & H0 & Hi & Hj). pose proof (Z.div_mod i w ltac:(lia)) as DM. split; [|lia]. exists (i / w - r1). split; [apply In_zrange; lia|].
    apply in_map_iff. exists (i mod w - c1). split; [nia|apply In_zrange; lia].
Qed.

(** * Labels *)
(** On a disk the first [nboot] sectors have size [bsize], the others [psize]. *)
Definition sec_size (nboot bsize psize s : Z) : Z := if s <=? nboot then bsize else psize.
Definition total (l : list Z) : Z := fold_right Z.add 0 l.
Definition extent (nboot bsize psize first s : Z) : Z := total (map (sec_size nboot bsize psize) (zrange first s)).
Lemma total_const f c : forall n a, (forall x, a <= x < a + Z.of_nat n -> f x = c) -> total (map f (zseq_nat a n)) = c * Z.of_nat n.
Proof.
  induction n as [|n IH]; intros a H; [cbn; lia|]. unfold total in *; cbn [zseq_nat map fold_right]. rewrite IH by (intros; apply H; lia). rewrite H by lia. lia.
Qed.
Lemma extent_const nboot bsize psize first s c : first <= s -> (forall x, first <= x < s -> sec_size nboot bsize psize x = c) ->
  extent nboot bsize psize first s = c * (s - first).
Proof. intros L H. unfold extent, zrange. rewrite (total_const _ c) by (intros; apply H; lia). rewrite Z2Nat.id by lia. reflexivity. Qed.
