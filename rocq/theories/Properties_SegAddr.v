(** C91, C92: finding bytes by address, position and label; searching. *)
From Coq Require Import String.
From Verif Require Import Base BaseLemmas SegModel SegSpec SegProofs SegProofs2 SegProofs4 SegProofs5 SegProofs6 CliModel CliProofs TextModel TextProofs SegListModel SegAddrModel SegAddrProofs.
Open Scope Z_scope.

(** A base of ten bytes with a segment at $2000, a selection at $80, sectors and tracks. *)
Definition ah : heap := mkHp [[10; 11; 12; 13; 14; 15; 16; 17; 18; 19]; [0; 0; 0; 0; 0; 0; 0; 0; 0; 0]] [extra0].
Definition a_range : seg := mkSeg KObj (txt "code") 0x2000 (mkR 0 1 0 (WRange 3 9)).
Definition a_order : seg := mkSeg KDefault (txt "file") 0x80 (mkR 0 1 0 (WOrder [7; 2; 9; 2])).
Definition a_sectors : seg := mkSeg (KRaw 1 4 2 2 3) (txt "sectors") 0 (mkR 0 1 0 WAll).
Definition a_tracks : seg := mkSeg (KTrack 17 4 0 0 3) (txt "tracks") 0 (mkR 0 1 0 WAll).
Lemma a_range_ok : raw_ok ah (g_raw a_range). Proof. repeat split; cbn; lia. Qed.
Lemma a_order_ok : raw_ok ah (g_raw a_order).
Proof. repeat split; try (cbn; lia). cbn. repeat (constructor; [lia|]). constructor. Qed.
Lemma a_sectors_ok : raw_ok ah (g_raw a_sectors). Proof. repeat split; cbn; lia. Qed.

(** * C91 *)
(** A byte has an address, the address leads to its place in the base data, and the place
    leads back to an index of the same byte; to the same index if no place is selected
    twice. *)
Theorem C91_address h s i : raw_ok h (g_raw s) -> is_valid_index h s i = true ->
  exists p j, raw_index_from_address s (g_origin s + i) = Ok p /\
    0 <= p < zlen (arr h (r_data (g_raw s))) /\ getb (arr h (r_data (g_raw s))) p = getb (read_data h (g_raw s)) i /\
    index_from_base h s p = Ok j /\ i <= j /\ is_valid_index h s j = true /\ raw_index_from_address s (g_origin s + j) = Ok p /\
    (NoDup (shows h (g_raw s)) -> j = i).
Proof.
  intros R V. unfold is_valid_index, seg_len in *.
  assert (Hk : (match g_kind s with KEmpty _ | KFailed _ => 0 | _ => raw_len h (g_raw s) end) = raw_len h (g_raw s)) by (destruct (g_kind s); reflexivity || lia).
  rewrite Hk in *. assert (Hi : 0 <= i < raw_len h (g_raw s)) by lia. pose proof (zlen_shows h _ R) as L. pose proof (shows_range h _ R) as F.
  assert (Hp : 0 <= getb (shows h (g_raw s)) i < zlen (arr h (r_data (g_raw s)))) by (rewrite Forall_forall in F; apply F, getb_In; lia).
  unfold raw_index_from_address, index_from_base. exists (getb (shows h (g_raw s)) i).
  rewrite (reverse_index_spec h _ _ R Hp). destruct (last_index (getb (shows h (g_raw s)) i) (shows h (g_raw s)) 0) as [j|] eqn:E.
  2:{ exfalso. eapply last_index_none; [exact E|]. apply getb_In. lia. }
  exists j. destruct (last_index_range _ _ _ _ E) as (J1 & J2 & J3). rewrite Z.sub_0_r in J2.
  replace (g_origin s + i - g_origin s) with i by lia. replace (g_origin s + j - g_origin s) with j by lia.
  rewrite (raw_index_shows h) by assumption. split; [reflexivity|]. split; [exact Hp|].
  split; [rewrite read_data_shows by exact R; rewrite getb_map by lia; reflexivity|]. split; [reflexivity|].
  assert (Hij : i <= j). { destruct (Z.leb_spec i j) as [|G]; [assumption|]. exfalso. apply (J3 i); [lia|f_equal; lia]. }
  split; [exact Hij|]. split; [lia|]. split; [rewrite (raw_index_shows h) by (first [exact R|lia]); f_equal; exact J2|].
  intros N. rewrite (last_index_nodup _ 0 i N ltac:(lia)) in E. injection E as <-. lia.
Qed.
Print Assumptions C91_address.
Example C91_address_case :
  raw_index_from_address a_range 0x2004 = Ok 7 /\ index_from_base ah a_range 7 = Ok 4 /\
  raw_index_from_address a_order 0x81 = Ok 2 /\ index_from_base ah a_order 2 = Ok 3 /\
  map (is_valid_index ah a_range) [0; 5; 6; -1] = [true; true; false; false] /\
  is_valid_index ah (mkSeg (KEmpty []) (txt "none") 0 (mkR 0 1 0 WAll)) 0 = false.
Proof. repeat split. Qed.
(** Places that are not in the segment are refused, and only those. *)
Theorem C91_not_shown h s p : raw_ok h (g_raw s) -> 0 <= p < zlen (arr h (r_data (g_raw s))) ->
  (index_from_base h s p = Err EIndex <-> forall i, 0 <= i < raw_len h (g_raw s) -> raw_index_from_address s (g_origin s + i) <> Ok p).
Proof.
  intros R Hp. unfold index_from_base, raw_index_from_address. rewrite (reverse_index_spec h _ _ R Hp). pose proof (zlen_shows h _ R) as L. split.
  - destruct (last_index p (shows h (g_raw s)) 0) as [j|] eqn:E; [discriminate|]. intros _ i Hi. replace (g_origin s + i - g_origin s) with i by lia.
    rewrite (raw_index_shows h) by assumption. intros X. injection X as X. eapply last_index_none; [exact E|]. rewrite <- X. apply getb_In. lia.
  - intros H. destruct (last_index p (shows h (g_raw s)) 0) as [j|] eqn:E; [|reflexivity]. destruct (last_index_range _ _ _ _ E) as (J1 & J2 & _). rewrite Z.sub_0_r in J2.
    destruct (H j); [lia|]. replace (g_origin s + j - g_origin s) with j by lia. rewrite (raw_index_shows h) by (first [exact R|lia]). congruence.
Qed.
Print Assumptions C91_not_shown.
Example C91_not_shown_case : index_from_base ah a_range 2 = Err EIndex /\ index_from_base ah a_order 3 = Err EIndex.
Proof. split; reflexivity. Qed.
(** An address outside the segment is not refused: it leads to other bytes of the base
    data, to none at all, or, in a selection, to bytes counted from its end. *)
Theorem C91_outside_refuted :
  (exists h s a p, raw_ok h (g_raw s) /\ ~ (g_origin s <= a < g_origin s + raw_len h (g_raw s)) /\ raw_index_from_address s a = Ok p /\
     0 <= p < zlen (arr h (r_data (g_raw s))) /\ index_from_base h s p = Err EIndex) /\
  (exists h s a p, raw_ok h (g_raw s) /\ raw_index_from_address s a = Ok p /\ ~ 0 <= p < zlen (arr h (r_data (g_raw s)))) /\
  (exists h s a p, raw_ok h (g_raw s) /\ ~ (g_origin s <= a < g_origin s + raw_len h (g_raw s)) /\ raw_index_from_address s a = Ok p /\ exists j, index_from_base h s p = Ok j).
Proof.
  split; [|split].
  - exists ah, a_range, 0x1fff, 2. split; [exact a_range_ok|]. split; [cbn; lia|]. repeat split; cbn; lia.
  - exists ah, a_range, 0x1000, (-4093). split; [exact a_range_ok|]. split; [reflexivity|cbn; lia].
  - exists ah, a_order, 0x7f, 2. split; [exact a_order_ok|]. split; [cbn; lia|]. split; [reflexivity|]. exists 3. reflexivity.
Qed.

(** ** Labels *)
Definition addressed (s : seg) : Prop := match g_kind s with KRaw _ _ _ _ _ | KTrack _ _ _ _ _ => False | _ => True end.
(** The label of a byte is its address in at least four hexadecimal digits, which the
    program's own reader of numbers reads back. *)
Theorem C91_label s lower i : addressed s -> 0 <= g_origin s -> 0 <= i ->
  exists t, label s lower i = Ok t /\ 4 <= zlen t /\ Forall (is_digit 16) t /\ text_to_int t = Ok (g_origin s + i).
Proof.
  intros A Ho Hi. exists (cased lower (hex4 (i + g_origin s))). split; [unfold addressed in A; unfold label; destruct (g_kind s); (reflexivity || contradiction)|].
  unfold hex4. replace (i + g_origin s <? 0) with false by lia. destruct (pad_digits 16 4 (i + g_origin s)) as (F & V & N & L); [lia..|].
  destruct (cased_digits lower _ F) as (F' & V' & L'). rewrite L'. split; [exact L|]. split; [exact F'|].
  rewrite text_int_hex; [rewrite V', V; f_equal; lia|exact F'|]. intros E. apply N. destruct (pad0 4 (nat_text 16 (i + g_origin s))); [reflexivity|]. rewrite E in L'. cbn in L'. unfold zlen in L'. cbn [length] in L'. lia.
Qed.
Print Assumptions C91_label.
Example C91_label_case : label a_range true 0xabc = Ok (txt "2abc") /\ label a_range false 0xabc = Ok (txt "2ABC") /\ label a_order true 1 = Ok (txt "0081").
Proof. repeat split. Qed.
(** A view of sectors that starts at a sector and has sectors of positive size. *)
Definition sectored (s : seg) : Prop :=
  match g_kind s with
  | KRaw first _ bsize nboot psize | KTrack first _ bsize nboot psize =>
      0 <= first /\ 0 <= nboot /\ 1 <= psize /\ (nboot = 0 \/ 1 <= bsize)
  | _ => False
  end.
(** No two bytes of a segment have the same label. *)
Theorem C91_labels_differ s lower i j : (addressed s /\ 0 <= g_origin s) \/ sectored s -> 0 <= i -> 0 <= j ->
  (exists t, label s lower i = Ok t) /\ (label s lower i = label s lower j -> i = j).
Proof.
  intros [[A Ho]|C] Hi Hj.
  - destruct (C91_label s lower i A Ho Hi) as (t & E & _ & _ & T). destruct (C91_label s lower j A Ho Hj) as (u & E' & _ & _ & U).
    split; [eauto|]. rewrite E, E'. intros X. injection X as <-. rewrite T in U. assert (g_origin s + i = g_origin s + j) by congruence. lia.
  - unfold sectored in C. unfold label. destruct (g_kind s) as [| |first num bsize nboot psize|first num bsize nboot psize| | | |]; try contradiction; destruct C as (Hf & Hn & Hp & Hb);
      destruct (sector_label_ok first nboot bsize psize i Hp Hi Hb) as (a & b & Ei); destruct (sector_label_ok first nboot bsize psize j Hp Hj Hb) as (c & d & Ej);
      pose proof Ei as Bi; pose proof Ej as Bj; (apply sector_label_bounds in Bi; [|assumption..]); (apply sector_label_bounds in Bj; [|assumption..]);
      destruct Bi as (Bi1 & Bi2 & _); destruct Bj as (Bj1 & Bj2 & _); rewrite Ei, Ej; cbn [rbind].
    + split; [eauto|]. intros X. injection X as X. rewrite !pad_dec_pos in X by lia. apply (pad_end 10 3 58) in X; [|lia|apply nondigit_b; reflexivity|lia|lia].
      destruct X as [-> X]. apply hex_end in X; [|assumption..]. subst d. apply (sector_label_inj first nboot bsize psize i j (c, b)); assumption.
    + split; [eauto|]. intros X. injection X as X.
      assert (Ha : 0 <= a / 16) by (apply Z.div_pos; lia). assert (Hc : 0 <= c / 16) by (apply Z.div_pos; lia). pose proof (Z.mod_pos_bound a 16 ltac:(lia)). pose proof (Z.mod_pos_bound c 16 ltac:(lia)).
      rewrite !pad_dec_pos in X by lia. apply (pad_end 10 2 115) in X; [|lia|apply nondigit_b; reflexivity|lia|lia]. destruct X as [X1 X].
      apply (pad_end 10 2 58) in X; [|lia|apply nondigit_b; reflexivity|lia|lia]. destruct X as [X2 X]. apply hex_end in X; [|assumption..]. subst d.
      assert (a = c) by (rewrite (Z.div_mod a 16), (Z.div_mod c 16) by lia; congruence). subst c. apply (sector_label_inj first nboot bsize psize i j (a, b)); assumption.
Qed.
Print Assumptions C91_labels_differ.
Example C91_labels_case : sectored a_sectors /\ sectored a_tracks /\ label a_sectors true 3 = Ok (txt "s002:01") /\ label a_sectors true 9 = Ok (txt "s004:02") /\
  label a_tracks false 8 = Ok (txt "t01s03:02").
Proof. repeat split; try (cbn; lia). Qed.

(** ** Subsets, parallel data, lists of segments *)
(** A subset shows the selected bytes, in the order given, of the same base data; it is
    refused exactly if an index is not one of the segment's. *)
Theorem C91_subset h s order name : raw_ok h (g_raw s) -> Forall (fun i => 0 <= i < 4294967296) order ->
  match pyselect (shows h (g_raw s)) order with
  | Some ps => exists x, create_subset h s order name = Ok (mkSeg KDefault name 0 x) /\ raw_ok h x /\ r_data x = r_data (g_raw s) /\
      read_data h x = map (getb (read_data h (g_raw s))) order /\ (forall k, 0 <= k < zlen order -> raw_index x k = raw_index (g_raw s) (getb order k))
  | None => create_subset h s order name = Err EIndex
  end.
Proof.
  intros R F. assert (E : to_numpy_list order = order).
  { unfold to_numpy_list. rewrite <- (map_id order) at 2. apply map_ext_in. intros i Hi. rewrite Forall_forall in F. specialize (F i Hi). unfold u32. apply Z.mod_small. lia. }
  unfold create_subset. rewrite E. pose proof (raw_indexed_shows h (g_raw s) order R) as T. pose proof (zlen_shows h _ R) as L.
  assert (F0 : Forall (fun i => 0 <= i) order) by (eapply Forall_impl; [|exact F]; intros i Hi; cbv beta in *; lia). specialize (T F0).
  unfold pyselect in *. destruct (forallb (fun i => (0 <=? i) && (i <? zlen (shows h (g_raw s)))) order) eqn:B.
  - destruct T as (x & -> & R' & Sx & D & _). cbn [rbind]. exists x. split; [reflexivity|]. split; [exact R'|]. split; [exact D|].
    rewrite forallb_forall in B. split.
    + rewrite !read_data_shows by assumption. rewrite Sx, D, map_map. apply map_ext_in. intros i Hi. specialize (B i Hi). rewrite getb_map by lia. reflexivity.
    + intros k Hk. pose proof (zlen_shows h x R') as Lx. rewrite Sx, zlen_map in Lx. rewrite (raw_index_shows h) by (first [exact R'|lia]). rewrite Sx, getb_map by exact Hk.
      pose proof (B _ (getb_In _ _ Hk)). rewrite (raw_index_shows h) by (first [exact R|lia]). reflexivity.
  - rewrite T. reflexivity.
Qed.
Print Assumptions C91_subset.
Example C91_subset_case : (exists x, create_subset ah a_range [5; 0; 5] (txt "sub") = Ok (mkSeg KDefault (txt "sub") 0 x) /\ read_data ah x = [18; 13; 18] /\ raw_index x 1 = Ok 3) /\
  create_subset ah a_range [6] (txt "sub") = Err EIndex.
Proof. split; [eexists; split; [reflexivity|]; split; reflexivity|reflexivity]. Qed.
(** The parallel data of a contiguous segment are the bytes at the same places of another
    container of the same size. *)
Theorem C91_parallel_partial h s other : raw_ok h (g_raw s) -> raw_ok h (g_raw other) -> r_win (g_raw s) = WAll ->
  zlen (arr h (r_data (g_raw s))) = zlen (arr h (r_data (g_raw other))) -> (forall o, r_win (g_raw other) <> WOrder o) ->
  exists x, parallel_raw h s other = Ok x /\ raw_ok h x /\ r_data x = r_data (g_raw s) /\ raw_len h x = raw_len h (g_raw other) /\
    forall i, 0 <= i < raw_len h x -> exists p, raw_index (g_raw other) i = Ok p /\ getb (read_data h x) i = getb (arr h (r_data (g_raw s))) p.
Proof.
  intros R Ro W L No. unfold parallel_raw. pose proof Ro as (_ & _ & _ & _ & _ & Wo). unfold byte_bounds. set (n := zlen (arr h (r_data (g_raw other)))) in *.
  assert (Hn : 0 <= n) by apply zlen_nonneg.
  assert (G : forall a b, 0 <= a <= b -> b <= n -> shows h (g_raw other) = zrange a b -> exists x, Ok (raw_slice h (g_raw s) (Some a) (Some b)) = Ok x /\ raw_ok h x /\ r_data x = r_data (g_raw s) /\ raw_len h x = raw_len h (g_raw other) /\
    forall i, 0 <= i < raw_len h x -> exists p, raw_index (g_raw other) i = Ok p /\ getb (read_data h x) i = getb (arr h (r_data (g_raw s))) p).
  { intros a b Ha Hb So. eexists. split; [reflexivity|]. destruct (raw_slice_shows h (g_raw s) (Some a) (Some b) R) as (Rx & Sx & D & _). set (x := raw_slice h (g_raw s) (Some a) (Some b)) in *.
    assert (Ss : shows h (g_raw s) = zrange 0 n) by (unfold shows; rewrite W, L; reflexivity).
    assert (Sx' : shows h x = zrange a b).
    { rewrite Sx, Ss. unfold pyslice, bound. rewrite zlen_zrange by lia. replace (a <? 0) with false by lia. replace (b <? 0) with false by lia.
      replace (Z.max 0 (Z.min (n - 0) a)) with a by lia. replace (Z.max 0 (Z.min (n - 0) b)) with b by lia. rewrite slice_zrange by lia. f_equal. }
    assert (Lx : raw_len h x = raw_len h (g_raw other)) by (rewrite <- !zlen_shows by assumption; rewrite Sx', So; reflexivity).
    split; [exact Rx|]. split; [exact D|]. split; [exact Lx|]. intros i Hi. exists (getb (shows h (g_raw other)) i).
    rewrite (raw_index_shows h) by (first [exact Ro|lia]). split; [reflexivity|]. rewrite read_data_shows by exact Rx. rewrite getb_map by (rewrite zlen_shows by exact Rx; exact Hi). rewrite D, Sx', So. reflexivity. }
  unfold shows in G. destruct (r_win (g_raw other)) as [|a b|o] eqn:Ew; [| |destruct (No o eq_refl)]; cbn [win_ok positions] in *; apply G; lia || reflexivity || apply Wo.
Qed.
Print Assumptions C91_parallel_partial.
Definition bh : heap := mkHp (hp_arr ah ++ [[20; 21; 22; 23; 24; 25; 26; 27; 28; 29]; [0; 0; 0; 0; 0; 0; 0; 0; 0; 0]]) [extra0; extra0].
Definition b_all : seg := mkSeg KDefault (txt "other") 0 (mkR 2 3 1 WAll).
Example C91_parallel_case : exists x, parallel_raw bh b_all a_range = Ok x /\ read_data bh x = [23; 24; 25; 26; 27; 28].
Proof. eexists. split; reflexivity. Qed.
(** For a selection it fails. *)
Theorem C91_parallel_refuted : exists h s other, raw_ok h (g_raw s) /\ raw_ok h (g_raw other) /\ r_win (g_raw s) = WAll /\
  zlen (arr h (r_data (g_raw s))) = zlen (arr h (r_data (g_raw other))) /\ parallel_raw h s other = Err EAttribute.
Proof.
  exists bh, b_all, a_order. split; [repeat split; cbn; lia|]. split; [|repeat split].
  repeat split; try (cbn; lia). cbn. repeat (constructor; [lia|]). constructor.
Qed.
(** A list of segments grows by a segment that has data of its own. *)
Theorem C91_add_segment h l data origin name : 
  exists s, snd (add_segment h l data origin name) = l ++ [s] /\ let h1 := fst (add_segment h l data origin name) in
    raw_ok h1 (g_raw s) /\ read_data h1 (g_raw s) = data /\ g_origin s = origin /\ (forall t, name = Some t -> g_name s = t) /\
    (forall n, (n < length (hp_arr h))%nat -> arr h1 n = arr h n) /\
    (forall i v h2, set_index h1 (g_raw s) i v = (h2, Ok tt) -> forall n, (n < length (hp_arr h))%nat -> arr h2 n = arr h n).
Proof.
  unfold add_segment, new_raw. cbn [fst snd]. eexists. split; [reflexivity|]. cbn zeta. cbn [g_raw g_origin g_name].
  assert (A : forall n, (n < length (hp_arr h))%nat -> arr (mkHp (hp_arr h ++ [data; zrepeat 0 (zlen data)]) (hp_ext h ++ [extra0])) n = arr h n).
  { intros n Hn. unfold arr. cbn [hp_arr]. apply app_nth1. exact Hn. }
  split; [unfold raw_ok; cbn [r_data r_style r_extra r_win hp_arr hp_ext win_ok]; rewrite arr_app_0, arr_app_1, !app_length; cbn [length]; rewrite zlen_zrepeat by apply zlen_nonneg; repeat split; lia|].
  split; [unfold read_data; cbn [r_win r_data win_read]; apply arr_app_0|]. split; [reflexivity|]. split; [intros t ->; reflexivity|]. split; [exact A|].
  intros i v h2 E n Hn. unfold set_index in E. destruct (win_pick _ _ _) as [ps|]; [|discriminate].
  assert (Eh : h2 = set_arr (mkHp (hp_arr h ++ [data; zrepeat 0 (zlen data)]) (hp_ext h ++ [extra0])) (length (hp_arr h)) (scatter (arr (mkHp (hp_arr h ++ [data; zrepeat 0 (zlen data)]) (hp_ext h ++ [extra0])) (length (hp_arr h))) ps [u8 v])) by (cbn [r_data] in E; congruence).
  rewrite Eh, arr_set_neq by lia. apply A. exact Hn.
Qed.
Print Assumptions C91_add_segment.
Example C91_add_case : map g_name (snd (add_segment ah [a_range] [1; 2; 3] 0xfffe None)) = [txt "code"; txt "fffe - 10001, size=0003"].
Proof. reflexivity. Qed.

(** * C92: searching *)
(** What a search through view [k] looks at. *)
Definition searched (st : heap * list view) (k : nat) : list Z := snd (look (fst st) (nth k (snd st) no_view)).
Definition bytes_of (st : heap * list view) (k : nat) : list Z := read_data (fst st) (v_raw (nth k (snd st) no_view)).
Definition untouched (h : heap) (vs : list view) (k : nat) (o : sop) : Prop :=
  match o with
  | Look j => (j < length vs)%nat
  | Put j i x => (j < length vs)%nat /\ (j = k \/
      let a := v_raw (nth j vs no_view) in let b := v_raw (nth k vs no_view) in
      r_data b = r_data a -> forall p, at_index h a i p -> ~ In p (shows h b))
  end.
Lemma nth_replace {A} (d : A) : forall n m x l, (n < length l)%nat -> nth m (SegModel.replace n x l) d = if Nat.eqb m n then x else nth m l d.
Proof.
  induction n as [|n IH]; intros m x [|y l] H; cbn [length] in H; try lia; destruct m; cbn [SegModel.replace nth Nat.eqb]; try reflexivity. apply IH. lia.
Qed.
Lemma length_replace {A} : forall n (x : A) l, length (SegModel.replace n x l) = length l.
Proof. induction n as [|n IH]; intros x [|y l]; cbn [SegModel.replace length]; try reflexivity. rewrite IH. reflexivity. Qed.
Lemma step_shape h vs o h' vs' : Forall (fun v => raw_ok h (v_raw v)) vs -> (match o with Look j | Put j _ _ => (j < length vs)%nat end) ->
  step (h, vs) o = (h', vs') -> same_shape h h' /\ length vs' = length vs /\ forall m, v_raw (nth m vs' no_view) = v_raw (nth m vs no_view).
Proof.
  intros F Hj E. destruct o as [j|j i x]; cbn [step] in E.
  - injection E as <- <-. split; [apply shape_refl|]. split; [apply length_replace|]. intros m. rewrite nth_replace by exact Hj. destruct (Nat.eqb_spec m j) as [->|]; [|reflexivity].
    unfold look. destruct (v_copy _); reflexivity.
  - rewrite Forall_forall in F. pose proof (F _ (nth_In vs no_view Hj)) as R. pose proof (set_index_shape h _ i x R) as Sh. unfold put in E.
    destruct (set_index h (v_raw (nth j vs no_view)) i x) as [h1 [u|e]]; cbn [fst] in Sh; injection E as <- <-;
      (split; [exact Sh|]; split; [apply length_replace|]; intros m; rewrite nth_replace by exact Hj; destruct (Nat.eqb_spec m j) as [->|]; reflexivity).
Qed.
(** A search looks at the current bytes as long as nothing in the segment was changed
    through another segment. *)
Theorem C92_search_partial h vs k l : Forall (fun v => raw_ok h (v_raw v)) vs -> (k < length vs)%nat -> v_copy (nth k vs no_view) = None ->
  Forall (untouched h vs k) l -> searched (steps (h, vs) l) k = bytes_of (steps (h, vs) l) k.
Proof.
  intros F Hk N U.
  assert (G : forall l h1 vs1, same_shape h h1 -> length vs1 = length vs -> (forall m, v_raw (nth m vs1 no_view) = v_raw (nth m vs no_view)) ->
     (forall c, v_copy (nth k vs1 no_view) = Some c -> c = read_data h1 (v_raw (nth k vs no_view))) -> Forall (untouched h vs k) l -> searched (steps (h1, vs1) l) k = bytes_of (steps (h1, vs1) l) k).
  2:{ apply G; auto using shape_refl. intros c E. rewrite N in E. discriminate. }
  clear U l N. intros l. induction l as [|o l IH]; intros h1 vs1 Sh L V C U.
  - cbn [steps fold_left]. unfold searched, bytes_of. cbn [fst snd]. rewrite V. unfold look. destruct (v_copy (nth k vs1 no_view)) as [c|] eqn:E; cbn [snd]; [apply C; reflexivity|]. rewrite V. reflexivity.
  - inversion U as [|? ? Uo Ul]; subst. unfold steps. cbn [fold_left]. destruct (step (h1, vs1) o) as [h2 vs2] eqn:E. fold (steps (h2, vs2) l).
    assert (F1 : Forall (fun v => raw_ok h1 (v_raw v)) vs1).
    { apply Forall_forall. intros v Hv. apply (In_nth _ _ no_view) in Hv. destruct Hv as (m & Hm & <-). rewrite V. eapply shape_raw_ok; [exact Sh|]. rewrite Forall_forall in F. apply F, nth_In. lia. }
    assert (Hj : match o with Look j | Put j _ _ => (j < length vs1)%nat end) by (destruct o; cbn [untouched] in Uo; rewrite L; tauto).
    destruct (step_shape h1 vs1 o h2 vs2 F1 Hj E) as (Sh2 & L2 & V2).
    apply IH; [eapply shape_trans; eassumption|congruence|intros m; rewrite V2; apply V| |exact Ul].
    clear IH. rewrite Forall_forall in F1. pose proof (F1 _ (nth_In vs1 no_view ltac:(rewrite L; exact Hk))) as Rk. rewrite V in Rk.
    destruct o as [j|j i x]; cbn [step] in E; cbn [untouched] in Uo.
    + injection E as <- <-. rewrite nth_replace by exact Hj. destruct (Nat.eqb_spec k j) as [<-|].
      * unfold look. intros c. destruct (v_copy (nth k vs1 no_view)) as [d|] eqn:Ec; cbn [fst v_copy]; [rewrite Ec; intros X; injection X as <-; apply C; reflexivity|]. intros X. injection X as <-. rewrite V. reflexivity.
      * exact C.
    + pose proof (F1 _ (nth_In vs1 no_view Hj)) as Rj. unfold put in E. destruct Uo as [_ Uo].
      pose proof (set_index_other h1 (v_raw (nth j vs1 no_view)) i x (v_raw (nth k vs no_view)) Rj Rk) as Oth.
      pose proof (set_index_cases h1 (v_raw (nth j vs1 no_view)) i x Rj) as Cs.
      destruct (set_index h1 (v_raw (nth j vs1 no_view)) i x) as [h3 [u|e]]; cbn [fst] in Oth; injection E as <- <-; rewrite nth_replace by exact Hj; (destruct (Nat.eqb_spec k j) as [<-|Nk]).
      * cbn [v_copy]. discriminate.
      * intros c Ec. rewrite Oth; [apply C; exact Ec|]. destruct Uo as [->|Uo]; [congruence|]. rewrite V. unfold at_index in *. rewrite (shape_shows _ _ _ Sh), (shape_raw_len _ _ _ Sh), (shape_shows _ _ _ Sh). exact Uo.
      * destruct Cs as [(p & _ & X & _)|[X _]]; [discriminate|]. assert (h3 = h1) by congruence. subst h3. exact C.
      * destruct Cs as [(p & _ & X & _)|[X _]]; [discriminate|]. assert (h3 = h1) by congruence. subst h3. exact C.
Qed.
Print Assumptions C92_search_partial.
Definition vws : list view := [mkView (g_raw a_range) None; mkView (g_raw a_sectors) None].
Example C92_case : Forall (untouched ah vws 0) [Look 0; Put 0 (-1) 77; Look 1; Look 0; Put 1 9 5; Put 1 99 1] /\
  searched (steps (ah, vws) [Look 0; Put 0 (-1) 77; Look 1; Look 0; Put 1 9 5; Put 1 99 1]) 0 = [13; 14; 15; 16; 17; 77].
Proof.
  split; [|reflexivity].
  apply Forall_forall. intros o Ho. cbn [In] in Ho. destruct Ho as [<-|[<-|[<-|[<-|[<-|[<-|[]]]]]]]; cbn [untouched]; try (cbn; lia).
  - split; [cbn; lia|right]. cbn zeta. intros _ p [H <-]. intros X. vm_compute in X. intuition congruence.
  - split; [cbn; lia|right]. cbn zeta. intros _ p [H <-]. cbn in H. lia.
Qed.
(** A change made through another segment is not seen. *)
Theorem C92_stale_refuted : exists h vs k l, Forall (fun v => raw_ok h (v_raw v)) vs /\ (k < length vs)%nat /\ v_copy (nth k vs no_view) = None /\
  searched (steps (h, vs) l) k <> bytes_of (steps (h, vs) l) k.
Proof.
  exists ah, vws, 0%nat, [Look 0; Put 1 4 99]. split; [constructor; [exact a_range_ok|constructor; [exact a_sectors_ok|constructor]]|]. split; [cbn; lia|]. split; [reflexivity|]. vm_compute. discriminate.
Qed.
