(** Editing the bytes of an image through an indexed segment of it. *)
From Verif Require Import Base BaseLemmas SegModel SegSpec SegProofs SegProofs2 Properties_Seg EditModel EditSpec.

Lemma NoDup_join {A} (l m : list A) : NoDup l -> NoDup m -> (forall x, In x l -> ~ In x m) -> NoDup (l ++ m).
Proof.
  induction l as [|x l IH]; intros Hl Hm H; [exact Hm|]. inversion Hl as [|? ? H1 H2]; subst. cbn [app]. constructor.
  - intros Hin. apply in_app_or in Hin. destruct Hin as [Hin|Hin]; [exact (H1 Hin)|]. apply (H x); [left; reflexivity|exact Hin].
  - apply IH; try assumption. intros y Hy. apply H. right. exact Hy.
Qed.

(** * Windows of windows *)
Lemma slice_map_Z (f : Z -> Z) l a b : slice (map f l) a b = map f (slice l a b).
Proof. unfold slice. rewrite skipn_map, firstn_map. reflexivity. Qed.
Lemma pyslice_map f l a b : pyslice (map f l) a b = map f (pyslice l a b).
Proof. unfold pyslice. rewrite zlen_map. apply slice_map_Z. Qed.
Lemma pyselect_map f l idx : pyselect (map f l) idx = option_map (map f) (pyselect l idx).
Proof.
  unfold pyselect. rewrite zlen_map. destruct (forallb _ idx) eqn:E; [|reflexivity]. cbn [option_map]. f_equal. rewrite map_map.
  apply map_ext_in. intros i Hi. rewrite forallb_forall in E. specialize (E i Hi). apply getb_map. lia.
Qed.
Lemma choose_all_map f c : forall l, choose_all (map f l) c = option_map (map f) (choose_all l c).
Proof.
  induction c as [|s c IH]; intros l; [reflexivity|]. cbn [choose_all]. destruct s as [a b|idx]; cbn [choose].
  - rewrite pyslice_map. apply IH.
  - rewrite pyselect_map. destruct (pyselect l idx) as [l'|]; cbn [option_map]; [apply IH|reflexivity].
Qed.
Lemma choose_all_in c : forall l l', choose_all l c = Some l' -> forall x, In x l' -> In x l.
Proof.
  induction c as [|s c IH]; intros l l' E x Hx; cbn [choose_all] in E; [injection E as <-; exact Hx|].
  destruct s as [a b|idx]; cbn [choose] in E.
  - apply (IH _ _ E) in Hx. exact (In_slice _ _ _ _ Hx).
  - unfold pyselect in E. destruct (forallb _ idx) eqn:F; [|discriminate]. apply (IH _ _ E) in Hx. apply in_map_iff in Hx. destruct Hx as (i & <- & Hi).
    rewrite forallb_forall in F. specialize (F i Hi). apply getb_In. lia.
Qed.
Lemma last_write_inj f p qs : forall vals, (forall q, In q qs -> f q = f p -> q = p) -> last_write (f p) (map f qs) vals = last_write p qs vals.
Proof.
  induction qs as [|q qs IH]; intros [|v vals] H; cbn [map last_write]; try reflexivity. rewrite IH by (intros; apply H; [right|]; assumption).
  destruct (last_write p qs vals); [reflexivity|]. destruct (Z.eqb_spec q p) as [-> |N]; [rewrite Z.eqb_refl; reflexivity|].
  destruct (Z.eqb_spec (f q) (f p)) as [E|_]; [|reflexivity]. destruct N. apply H; [left; reflexivity|exact E].
Qed.
Lemma last_write_In p qs : forall vals v, last_write p qs vals = Some v -> In p qs /\ In v vals.
Proof.
  induction qs as [|q qs IH]; intros [|w vals] v E; cbn [last_write] in E; try discriminate. destruct (last_write p qs vals) as [x|] eqn:F.
  - injection E as <-. destruct (IH vals x F). split; right; assumption.
  - destruct (Z.eqb_spec q p) as [-> |N]; [|discriminate]. injection E as <-. split; left; reflexivity.
Qed.
Lemma getb_inj l i j : NoDup l -> 0 <= i < zlen l -> 0 <= j < zlen l -> getb l i = getb l j -> i = j.
Proof.
  intros N Hi Hj E. unfold getb, zlen in *. rewrite (NoDup_nth l 0) in N. specialize (N (Z.to_nat i) (Z.to_nat j) ltac:(lia) ltac:(lia) E). lia.
Qed.
Lemma zlen_patch data q vals : zlen (patch data q vals) = zlen data.
Proof. unfold patch. rewrite zlen_map, zlen_zrange'. pose proof (zlen_nonneg data). lia. Qed.
Lemma getb_patch data q vals i : 0 <= i < zlen data ->
  getb (patch data q vals) i = match last_write i q vals with Some v => v | None => getb data i end.
Proof. intros H. unfold patch. rewrite getb_map by (rewrite zlen_zrange'; lia). rewrite getb_zrange by lia. reflexivity. Qed.

(** * Assignments *)
Lemma targets_map f l e : (match e with One i _ => 0 <= i < zlen l | Many idx _ => Forall (fun i => 0 <= i < zlen l) idx | _ => True end) ->
  targets (map f l) e = map f (targets l e).
Proof.
  intros H. destruct e as [i v|idx vals|a b vals]; cbn [targets map].
  - rewrite getb_map by exact H. reflexivity.
  - rewrite map_map. apply map_ext_in. intros i Hi. rewrite Forall_forall in H. apply getb_map, H, Hi.
  - apply pyslice_map.
Qed.
Lemma targets_in l e : how_ok l e -> forall x, In x (targets l e) -> In x l.
Proof.
  intros (_ & _ & H) x Hx. destruct e as [i v|idx vals|a b vals]; cbn [targets] in Hx.
  - destruct Hx as [<- |[]]. apply getb_In. exact H.
  - apply in_map_iff in Hx. destruct Hx as (i & <- & Hi). rewrite Forall_forall in H. apply getb_In, H, Hi.
  - exact (In_slice _ _ _ _ Hx).
Qed.
Lemma how_ok_map f l e : how_ok l e -> how_ok (map f l) e.
Proof.
  intros (H1 & H2 & H3). split; [exact H1|]. split.
  - rewrite targets_map by exact H3. rewrite zlen_map. exact H2.
  - rewrite zlen_map. exact H3.
Qed.
Lemma assign_wrote h x e : raw_ok h x -> how_ok (shows h x) e ->
  exists h', assign h x e = (h', Ok tt) /\ wrote h x (targets (shows h x) e) (values e) h'.
Proof.
  intros R (B & L & H). rewrite zlen_shows in H by exact R. destruct e as [i v|idx vals|a b vals]; cbn [assign targets values] in *.
  - apply set_index_wrote; [exact R|exact H|]. inversion B; assumption.
  - apply set_indexes_wrote; try assumption. rewrite L, zlen_map. reflexivity.
  - apply set_slice_wrote; assumption.
Qed.

(** Writing goes only to the data array: other windows of the same arrays stay in place. *)
Lemma wrote_raw_ok h x ps vals h' r : raw_ok h x -> raw_ok h r -> wrote h x ps vals h' -> length (hp_arr h') = length (hp_arr h) -> raw_ok h' r.
Proof.
  intros X (R1 & R2 & R3 & R4 & R5 & R6) (W1 & W2 & W3 & W4) L.
  assert (Z : forall m, zlen (arr h' m) = zlen (arr h m)).
  { intros m. destruct (Nat.eq_dec m (r_data x)) as [-> |N]; [exact W2|rewrite W3 by exact N; reflexivity]. }
  unfold raw_ok. rewrite !Z, W4, L. auto 10.
Qed.
Lemma assign_length h x e h' u : assign h x e = (h', u) -> length (hp_arr h') = length (hp_arr h).
Proof.
  intros E. assert (G : forall n a, length (hp_arr (set_arr h n a)) = length (hp_arr h)) by (intros; apply length_replace).
  destruct e as [i v|idx vals|a b vals]; cbn [assign] in E; unfold set_index, set_indexes, set_slice in E.
  - destruct (win_pick _ _ _); injection E as <- <-; [apply G|reflexivity].
  - destruct (win_pick _ _ _); [destruct (broadcast _ _)|]; injection E as <- <-; try apply G; reflexivity.
  - destruct (broadcast _ _); injection E as <- <-; [apply G|reflexivity].
Qed.

(** * An indexed segment of an image *)
Definition order_ok (n : Z) (o : list Z) : Prop := NoDup o /\ Forall (fun p => 0 <= p < n) o.

Lemma to_numpy_small n o : n <= 4294967296 -> Forall (fun p => 0 <= p < n) o -> to_numpy_list o = o.
Proof.
  intros Hn H. unfold to_numpy_list. rewrite <- (map_id o) at 2. apply map_ext_in. intros p Hp. rewrite Forall_forall in H. specialize (H p Hp).
  unfold u32. apply Z.mod_small. lia.
Qed.
Lemma order_small n o : 0 <= n -> order_ok n o -> zlen o <= n.
Proof.
  intros Hn (N & F). assert (I : incl o (zrange 0 n)) by (intros p Hp; rewrite Forall_forall in F; specialize (F p Hp); apply In_zrange; lia).
  pose proof (NoDup_incl_length N I) as L. unfold zrange in L. rewrite length_zseq_nat in L. unfold zlen. lia.
Qed.
Lemma order_segment h r o : raw_ok h r -> raw_len h r <= 2147483648 -> order_ok (raw_len h r) o ->
  exists seg, raw_indexed h r (to_numpy_list o) = Ok seg /\ raw_ok h seg /\ shows h seg = map (getb (shows h r)) o /\
    r_data seg = r_data r /\ r_style seg = r_style r /\ r_extra seg = r_extra r /\
    read_data h seg = map (getb (read_data h r)) o.
Proof.
  intros R Hl (N & F). rewrite (to_numpy_small (raw_len h r)) by (try exact F; lia).
  assert (F0 : Forall (fun i => 0 <= i) o) by (eapply Forall_impl; [|exact F]; cbn; lia).
  pose proof (raw_indexed_shows h r o R F0) as X. unfold pyselect in X. rewrite zlen_shows in X by exact R.
  replace (forallb _ o) with true in X.
  2: { symmetry. apply forallb_forall. intros p Hp. rewrite Forall_forall in F. specialize (F p Hp). lia. }
  destruct X as (seg & E & R' & Sg & D1 & D2 & D3). exists seg. repeat (split; [assumption|]).
  rewrite (read_data_shows h seg R'), (read_data_shows h r R), Sg, D1, map_map. apply map_ext_in. intros p Hp.
  rewrite Forall_forall in F. rewrite getb_map by (rewrite zlen_shows by exact R; apply F; exact Hp). reflexivity.
Qed.

(** What the image and the segment hold after an assignment through a window of the
    segment. *)
Record edited (h : heap) (r : raw) (o : list Z) (q vals : list Z) (h' : heap) : Prop := mkEd {
  ed_ok : raw_ok h' r;
  ed_shows : shows h' r = shows h r;
  ed_byte : forall p, 0 <= p < raw_len h r -> getb (read_data h' r) p =
     match last_write p (map (getb o) q) vals with Some v => v | None => getb (read_data h r) p end;
  ed_len : zlen (read_data h' r) = zlen (read_data h r);
  ed_arr : forall n, n <> r_data r -> arr h' n = arr h n;
  ed_ext : hp_ext h' = hp_ext h;
  ed_raws : forall x, raw_ok h x -> raw_ok h' x /\ shows h' x = shows h x /\ raw_len h' x = raw_len h x
}.
Lemma edit_window h r o seg c ps e : raw_ok h r -> NoDup (shows h r) -> raw_len h r <= 2147483648 -> order_ok (raw_len h r) o ->
  raw_indexed h r (to_numpy_list o) = Ok seg -> Forall sel_ok c -> choose_all (zrange 0 (zlen o)) c = Some ps -> how_ok ps e ->
  exists h', assign_in h seg c e = (h', Ok tt) /\ edited h r o (targets ps e) (values e) h'.
Proof.
  intros R Nd Hl Ho E Hc Hps He. destruct (order_segment h r o R Hl Ho) as (seg' & E' & Rs & Ss & D1 & D2 & D3 & Rd).
  rewrite E in E'. injection E' as <-. pose proof (zlen_nonneg (shows h r)) as Hnn. rewrite zlen_shows in Hnn by exact R.
  pose proof (order_small _ _ Hnn Ho) as Hzo. destruct Ho as (No & Fo).
  pose proof (take_all_shows h c seg Rs ltac:(rewrite Ss, zlen_map; lia) Hc) as T.
  assert (Sx : choose_all (shows h seg) c = Some (map (fun i => getb (shows h r) (getb o i)) ps)).
  { rewrite Ss. rewrite <- (map_range o) at 1. rewrite map_map, choose_all_map, Hps. reflexivity. }
  rewrite Sx in T. destruct T as (x & Tx & Rx & Shx & X1 & X2 & X3).
  assert (Hex : how_ok (shows h x) e) by (rewrite Shx; apply how_ok_map; exact He).
  destruct (assign_wrote h x e Rx Hex) as (h' & Ea & W). exists h'. split; [unfold assign_in; rewrite Tx; exact Ea|].
  pose proof (assign_length _ _ _ _ _ Ea) as La. rewrite Shx, targets_map in W by (apply He).
  set (q := targets ps e) in *.
  assert (Hq : forall i, In i q -> 0 <= i < zlen o).
  { intros i Hi. apply (targets_in ps e He) in Hi. apply (choose_all_in _ _ _ Hps) in Hi. apply In_zrange in Hi. exact Hi. }
  assert (Rw : forall y, raw_ok h y -> raw_ok h' y /\ shows h' y = shows h y /\ raw_len h' y = raw_len h y).
  { intros y Y. pose proof W as (W1 & W2 & W3 & W4). assert (Z : forall m, zlen (arr h' m) = zlen (arr h m)).
    { intros m. destruct (Nat.eq_dec m (r_data x)) as [-> |N]; [exact W2|rewrite W3 by exact N; reflexivity]. }
    split; [exact (wrote_raw_ok h x _ _ h' y Rx Y W La)|]. split; [apply shows_same, Z|unfold raw_len; rewrite Z; reflexivity]. }
  destruct (Rw r R) as (R' & S' & L').
  constructor; try assumption.
  - intros p Hp. destruct (C29_edit_seen_by_views h x _ _ h' r p Rx R ltac:(congruence) W Hp) as (_ & _ & ->).
    rewrite <- (map_map (getb o) (getb (shows h r))). rewrite last_write_inj; [reflexivity|].
    intros s Hs. apply in_map_iff in Hs. destruct Hs as (i & <- & Hi). intros Eq. apply (getb_inj (shows h r)); try assumption; rewrite zlen_shows by exact R; [|exact Hp].
    rewrite Forall_forall in Fo. apply Fo, getb_In, Hq, Hi.
  - rewrite (read_data_shows h' r R'), (read_data_shows h r R), !zlen_map, S'. reflexivity.
  - intros n Hn. destruct W as (_ & _ & W3 & _). apply W3. congruence.
  - apply W.
Qed.
(** Seen from the file: byte [i] of the file is at place [getb o i] of the image. *)
Lemma edited_bytes h r o q vals h' : raw_ok h r -> order_ok (raw_len h r) o -> edited h r o q vals h' -> Forall (fun i => 0 <= i < zlen o) q ->
  map (getb (read_data h' r)) o = patch (map (getb (read_data h r)) o) q vals.
Proof.
  intros R (No & Fo) Ed Hq. apply list_ext_getb; [rewrite zlen_patch, !zlen_map; reflexivity|]. intros i Hi. rewrite zlen_map in Hi.
  rewrite getb_patch by (rewrite zlen_map; exact Hi). rewrite !getb_map by exact Hi. pose proof (getb_In o i Hi) as Hin.
  rewrite (ed_byte _ _ _ _ _ _ Ed) by (rewrite Forall_forall in Fo; apply Fo; exact Hin).
  rewrite last_write_inj; [reflexivity|]. intros s Hs Eq. rewrite Forall_forall in Hq. apply (getb_inj o); auto.
Qed.
Lemma edited_other h r o q vals h' p : edited h r o q vals h' -> Forall (fun i => 0 <= i < zlen o) q -> 0 <= p < raw_len h r -> ~ In p o ->
  getb (read_data h' r) p = getb (read_data h r) p.
Proof.
  intros Ed Hq Hp Hn. rewrite (ed_byte _ _ _ _ _ _ Ed) by exact Hp. rewrite last_write_none; [reflexivity|].
  intros Hin. apply in_map_iff in Hin. destruct Hin as (i & <- & Hi). rewrite Forall_forall in Hq. apply Hn, getb_In, Hq, Hi.
Qed.
Lemma edited_bytes_ok h r o q vals h' : raw_ok h r -> edited h r o q vals h' -> bytes_ok (read_data h r) -> bytes_ok vals -> bytes_ok (read_data h' r).
Proof.
  intros R Ed B V. apply Forall_forall. intros v Hv. apply In_getb in Hv. destruct Hv as (p & Hp & <-).
  assert (L : zlen (read_data h r) = raw_len h r) by (rewrite read_data_shows, zlen_map by exact R; apply zlen_shows, R).
  rewrite (ed_len _ _ _ _ _ _ Ed), L in Hp. rewrite (ed_byte _ _ _ _ _ _ Ed) by exact Hp.
  destruct (last_write _ _ _) as [v|] eqn:E; [|apply bytes_ok_getb; exact B]. apply last_write_In in E. unfold bytes_ok in V. rewrite Forall_forall in V. apply V, E.
Qed.
