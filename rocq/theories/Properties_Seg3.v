(** C29 for arbitrary values: what is stored when the values are not bytes or not as many
    as the places, and that arrays of bytes stay arrays of bytes. *)
From Verif Require Import Base BaseLemmas SegModel SegSpec SegProofs SegProofs2 Properties_Seg.

(** The values stored at [n] places: one value goes everywhere, otherwise there must be
    one for each place; they are reduced to bytes. *)
Inductive stored_as (n : Z) : list Z -> list Z -> Prop :=
| stored_each vals : zlen vals = n -> stored_as n vals (map (fun v => v mod 256) vals)
| stored_one v out : zlen out = n -> Forall (eq (v mod 256)) out -> stored_as n [v] out.
Lemma broadcast_spec n vals : 0 <= n ->
  (exists out, broadcast n vals = Ok out /\ stored_as n vals out) \/
  (broadcast n vals = Err EValue /\ zlen vals <> n /\ zlen vals <> 1).
Proof.
  intros Hn. unfold broadcast. destruct (Z.eqb_spec (zlen vals) n) as [E|E].
  - left. eexists. split; [reflexivity|]. constructor 1. exact E.
  - destruct vals as [|v [|w l]].
    + right. repeat split; try exact E; discriminate.
    + left. eexists. split; [reflexivity|]. constructor 2; [apply zlen_zrepeat; exact Hn|]. apply Forall_forall. intros x Hx. apply repeat_spec in Hx. subst. reflexivity.
    + right. split; [reflexivity|]. split; [exact E|]. rewrite !zlen_cons. pose proof (zlen_nonneg l). lia.
Qed.
Lemma stored_bytes n vals out : stored_as n vals out -> bytes_ok out /\ zlen out = n.
Proof.
  intros [vals' E|v out' E F].
  - split; [|rewrite zlen_map; exact E]. apply Forall_forall. intros x Hx. apply in_map_iff in Hx. destruct Hx as (y & <- & _). apply Z.mod_pos_bound. reflexivity.
  - split; [|exact E]. eapply Forall_impl; [|exact F]. intros x <-. apply Z.mod_pos_bound. reflexivity.
Qed.
Theorem C29_edit_indexes_any h r idx vals : raw_ok h r -> Forall (fun i => 0 <= i < raw_len h r) idx ->
  (exists h' out, set_indexes h r idx vals = (h', Ok tt) /\ stored_as (zlen idx) vals out /\ wrote h r (map (getb (shows h r)) idx) out h') \/
  (set_indexes h r idx vals = (h, Err EValue) /\ zlen vals <> zlen idx /\ zlen vals <> 1).
Proof.
  intros R J. unfold set_indexes. rewrite (win_pick_shows h r idx idx R (nindexes_ok _ _ J)). rewrite zlen_map.
  destruct (broadcast_spec (zlen idx) vals (zlen_nonneg _)) as [(out & E & S0)|(E & N)]; rewrite E; [left|right; split; [reflexivity|exact N]].
  exists (set_arr h (r_data r) (scatter (arr h (r_data r)) (map (getb (shows h r)) idx) out)), out. split; [reflexivity|]. split; [exact S0|].
  apply wrote_scatter; [exact R|]. apply Forall_sel; [apply shows_range; exact R|]. rewrite zlen_shows by exact R. exact J.
Qed.
Print Assumptions C29_edit_indexes_any.
Theorem C29_edit_index_any h r i v : raw_ok h r -> 0 <= i < raw_len h r ->
  exists h', set_index h r i v = (h', Ok tt) /\ wrote h r [getb (shows h r) i] [v mod 256] h'.
Proof.
  intros R J. unfold set_index. rewrite (win_pick_shows h r [i] [i] R) by (apply nindexes_ok; constructor; [exact J|constructor]).
  eexists. split; [reflexivity|]. apply (wrote_scatter h r (map (getb (shows h r)) [i]) [v mod 256]); [exact R|]. apply Forall_sel; [apply shows_range; exact R|].
  rewrite zlen_shows by exact R. constructor; [exact J|constructor].
Qed.
Print Assumptions C29_edit_index_any.
Theorem C29_edit_slice_any h r a b vals : raw_ok h r ->
  (exists h' out, set_slice h r a b vals = (h', Ok tt) /\ stored_as (zlen (pyslice (shows h r) a b)) vals out /\ wrote h r (pyslice (shows h r) a b) out h') \/
  (set_slice h r a b vals = (h, Err EValue) /\ zlen vals <> zlen (pyslice (shows h r) a b) /\ zlen vals <> 1).
Proof.
  intros R. unfold set_slice. rewrite (win_slice_shows h r a b R).
  destruct (broadcast_spec (zlen (pyslice (shows h r) a b)) vals (zlen_nonneg _)) as [(out & E & S0)|(E & N)]; rewrite E; [left|right; split; [reflexivity|exact N]].
  eexists. exists out. split; [reflexivity|]. split; [exact S0|]. apply wrote_scatter; [exact R|]. apply pyslice_Forall, shows_range, R.
Qed.
Print Assumptions C29_edit_slice_any.

(** Whatever is assigned, in any number of edits, arrays of bytes stay arrays of bytes. *)
Definition heap_bytes (h : heap) : Prop := forall n, bytes_ok (arr h n).
Lemma bytes_scatter ps : forall a vals, bytes_ok a -> bytes_ok vals -> bytes_ok (scatter a ps vals).
Proof.
  induction ps as [|p ps IH]; intros a [|v vals] Ha Hv; cbn [scatter]; try exact Ha. inversion Hv as [|? ? V1 V2]; subst.
  apply IH; [|exact V2]. unfold setn. apply bytes_ok_setslice; [exact Ha|constructor; [exact V1|constructor]].
Qed.
Lemma heap_bytes_set h n a : heap_bytes h -> bytes_ok a -> heap_bytes (set_arr h n a).
Proof.
  intros H A m. destruct (Nat.eq_dec n m) as [<- |N]; [|rewrite arr_set_neq by exact N; apply H].
  destruct (Nat.lt_ge_cases n (length (hp_arr h))) as [L|L]; [rewrite arr_set_eq by exact L; exact A|].
  unfold arr, set_arr. cbn [hp_arr]. rewrite nth_overflow by (rewrite ?length_replace; lia). constructor.
Qed.
Lemma broadcast_bytes n vals out : 0 <= n -> broadcast n vals = Ok out -> bytes_ok out.
Proof. intros Hn E. destruct (broadcast_spec n vals Hn) as [(o & E1 & S0)|(E1 & _)]; rewrite E in E1; [|discriminate]. injection E1 as <-. exact (proj1 (stored_bytes _ _ _ S0)). Qed.
Theorem C29_bytes_stay edits : forall h, heap_bytes h -> heap_bytes (fold_left do_edit edits h).
Proof.
  induction edits as [|e l IH]; intros h H; [exact H|]. cbn [fold_left]. apply IH. destruct e as [r i v|r idx vals|r a b vals]; cbn [do_edit].
  - unfold set_index. destruct (win_pick _ _ _); cbn [fst]; [|exact H]. apply heap_bytes_set; [exact H|]. apply bytes_scatter; [apply H|]. constructor; [apply is_byte_u8|constructor].
  - unfold set_indexes. destruct (win_pick _ _ _) as [ps|]; cbn [fst]; [|exact H]. destruct (broadcast (zlen ps) vals) as [out|] eqn:E; cbn [fst]; [|exact H].
    apply heap_bytes_set; [exact H|]. apply bytes_scatter; [apply H|]. exact (broadcast_bytes _ _ _ (zlen_nonneg _) E).
  - unfold set_slice. match goal with |- context [broadcast ?n vals] => destruct (broadcast n vals) as [out|] eqn:E; cbn [fst]; [|exact H]; pose proof (broadcast_bytes n vals out (zlen_nonneg _) E) end.
    apply heap_bytes_set; [exact H|]. apply bytes_scatter; [apply H|assumption].
Qed.
Print Assumptions C29_bytes_stay.
Example C29_any_case : let r := mkR 0 1 0 (WOrder [6; 1; 3]) in heap_bytes xh /\ raw_ok xh r /\
  (exists h', set_slice xh r None None [300] = (h', Ok tt) /\ read_data h' r = [44; 44; 44]) /\
  set_indexes xh r [0; 1; 2] [5; 6] = (xh, Err EValue).
Proof.
  cbn zeta. split; [intros [|[|[|n]]]; unfold arr; cbn [xh hp_arr nth]; try (destruct n; constructor); repeat constructor; unfold is_byte; lia|]. split; [okr|]. split; [eexists; split; reflexivity|reflexivity].
Qed.
