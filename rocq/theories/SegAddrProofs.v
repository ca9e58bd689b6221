(** Proofs about labels and about the copy used for searching. *)
From Coq Require Import String.
From Verif Require Import Base BaseLemmas SegModel SegSpec SegProofs SegProofs2 SegProofs4 SegProofs5 CliModel CliProofs TextModel TextProofs SegListModel SegAddrModel.
Open Scope Z_scope.

(** * Hexadecimal text *)
Lemma upper_digit c : is_digit 16 c -> is_digit 16 (upper c) /\ digit_val (upper c) = digit_val c.
Proof.
  intros [D N]. unfold upper. destruct ((97 <=? c) && (c <=? 122)) eqn:E; [|split; [split; assumption|reflexivity]].
  assert (V : digit_val (c - 32) = digit_val c).
  { unfold digit_val. replace ((48 <=? c - 32) && (c - 32 <=? 57)) with false by lia. replace ((97 <=? c - 32) && (c - 32 <=? 122)) with false by lia.
    replace ((65 <=? c - 32) && (c - 32 <=? 90)) with true by lia. replace ((48 <=? c) && (c <=? 57)) with false by lia. rewrite E. lia. }
  split; [|exact V]. split; [rewrite V; exact D|]. unfold digit_val in D. replace ((48 <=? c) && (c <=? 57)) with false in D by lia. rewrite E in D. lia.
Qed.
Lemma cased_digits lower t : Forall (is_digit 16) t -> Forall (is_digit 16) (cased lower t) /\ number 16 (cased lower t) = number 16 t /\ zlen (cased lower t) = zlen t.
Proof.
  intros F. destruct lower; cbn [cased]; [auto|]. split; [|split; [|apply zlen_map]].
  - apply Forall_map. eapply Forall_impl; [|exact F]. intros c Hc. apply upper_digit. exact Hc.
  - unfold number. generalize 0 as a. induction F as [|c t Hc F IH]; intros a; [reflexivity|]. cbn [map fold_left]. rewrite IH. f_equal. rewrite (proj2 (upper_digit c Hc)). reflexivity.
Qed.
Lemma pad_digits base w n : 2 <= base <= 36 -> 0 <= n -> Forall (is_digit base) (pad0 w (nat_text base n)) /\ number base (pad0 w (nat_text base n)) = n /\ pad0 w (nat_text base n) <> [] /\ w <= zlen (pad0 w (nat_text base n)).
Proof.
  intros Hb Hn. destruct (nat_text_spec base n Hb Hn) as (F & V & N). split; [apply zeros_digits; [lia|exact F]|]. split; [rewrite number_zeros; exact V|].
  split; [|unfold pad0; rewrite zlen_app; pose proof (zlen_nonneg (zrepeat 48 (w - zlen (nat_text base n)))); destruct (Z.leb_spec 0 (w - zlen (nat_text base n))); [rewrite zlen_zrepeat by assumption|]; lia].
  unfold pad0. intros E. apply app_eq_nil in E. apply N, E.
Qed.
Lemma text_int_hex t : Forall (is_digit 16) t -> t <> [] -> text_to_int t = Ok (number 16 t).
Proof.
  intros F N. rewrite <- (py_int_digits 16 t ltac:(cbn; auto) F N). unfold text_to_int. destruct t as [|c t]; [congruence|].
  inversion F as [|? ? Hc F']; subst. destruct (Z.eq_dec c 36) as [->|]; [destruct Hc as [Hc _]; cbv in Hc; intuition congruence|].
  destruct (Z.eq_dec c 35) as [->|]; [destruct Hc as [Hc _]; cbv in Hc; intuition congruence|].
  destruct (Z.eq_dec c 37) as [->|]; [destruct Hc as [Hc _]; cbv in Hc; intuition congruence|].
  destruct (Z.eq_dec c 48) as [->|].
  - destruct t as [|d t]; [reflexivity|]. inversion F' as [|? ? Hd _]; subst. destruct (Z.eq_dec d 120) as [->|]; [destruct Hd as [Hd _]; cbv in Hd; intuition congruence|].
    destruct d as [|p|]; try reflexivity. do 7 (destruct p as [p|p|]; try reflexivity; try congruence).
  - destruct c as [|p|]; try reflexivity. do 6 (destruct p as [p|p|]; try reflexivity; try congruence).
Qed.

(** * Labels of sectors *)
Lemma sector_label_bounds first nboot bsize psize i s b : 0 <= first -> 0 <= nboot -> 1 <= psize -> 0 <= i -> (nboot = 0 \/ 1 <= bsize) ->
  sector_label first nboot bsize psize i = Ok (s, b) ->
  0 <= b /\ first <= s /\ i = (if s - first <? nboot then (s - first) * bsize + b else nboot * bsize + (s - first - nboot) * psize + b) /\
  b < Z.max bsize psize.
Proof.
  intros Hf Hn Hp Hi Hb. unfold sector_label. destruct (Z.leb_spec (nboot * bsize) i) as [L|L].
  - replace (psize =? 0) with false by lia. intros E. injection E as <- <-. pose proof (Z.div_mod (i - nboot * bsize) psize ltac:(lia)). pose proof (Z.mod_pos_bound (i - nboot * bsize) psize ltac:(lia)).
    assert (0 <= (i - nboot * bsize) / psize) by (apply Z.div_pos; lia). split; [lia|]. split; [lia|]. split; [|lia].
    replace ((i - nboot * bsize) / psize + nboot + first - first <? nboot) with false by lia. lia.
  - assert (1 <= bsize) by nia. replace (bsize =? 0) with false by lia. intros E. injection E as <- <-. pose proof (Z.div_mod i bsize ltac:(lia)). pose proof (Z.mod_pos_bound i bsize ltac:(lia)).
    assert (0 <= i / bsize < nboot) by (split; [apply Z.div_pos; lia|apply Z.div_lt_upper_bound; lia]). split; [lia|]. split; [lia|]. split; [|lia].
    replace (i / bsize + first - first <? nboot) with true by lia. lia.
Qed.
Lemma sector_label_ok first nboot bsize psize i : 1 <= psize -> 0 <= i -> (nboot = 0 \/ 1 <= bsize) -> exists s b, sector_label first nboot bsize psize i = Ok (s, b).
Proof.
  intros Hp Hi Hb. unfold sector_label. replace (psize =? 0) with false by lia. destruct (Z.leb_spec (nboot * bsize) i) as [L|L]; [eauto|].
  destruct (Z.eqb_spec bsize 0); [|eauto]. exfalso. destruct Hb as [-> |]; lia.
Qed.
Lemma sector_label_inj first nboot bsize psize i j x : 0 <= first -> 0 <= nboot -> 1 <= psize -> 0 <= i -> 0 <= j -> (nboot = 0 \/ 1 <= bsize) ->
  sector_label first nboot bsize psize i = Ok x -> sector_label first nboot bsize psize j = Ok x -> i = j.
Proof.
  intros Hf Hn Hp Hi Hj Hb Ei Ej. destruct x as [s b].
  apply sector_label_bounds in Ei; [|assumption..]. apply sector_label_bounds in Ej; [|assumption..].
  destruct Ei as (_ & _ & Ei & _). destruct Ej as (_ & _ & Ej & _). congruence.
Qed.
Lemma pad_end base w c n m x y : 2 <= base <= 36 -> nondigit base c -> 0 <= n -> 0 <= m ->
  pad0 w (nat_text base n) ++ c :: x = pad0 w (nat_text base m) ++ c :: y -> n = m /\ x = y.
Proof.
  intros Hb Hc Hn Hm E. apply (code_pad (fun a => 0 <= a) base w (fun a => a) c [] Hb Hc (fun a H => H) n m x y Hn Hm).
  rewrite <- !app_assoc. exact E.
Qed.
Lemma hex_end lower w n m : 0 <= n -> 0 <= m -> cased lower (pad0 w (nat_text 16 n)) = cased lower (pad0 w (nat_text 16 m)) -> n = m.
Proof.
  intros Hn Hm E. destruct (pad_digits 16 w n) as (F & V & _); [lia..|]. destruct (pad_digits 16 w m) as (F2 & V2 & _); [lia..|].
  destruct (cased_digits lower _ F) as (_ & N1 & _). destruct (cased_digits lower _ F2) as (_ & N2 & _). rewrite <- V, <- V2, <- N1, <- N2, E. reflexivity.
Qed.
Lemma pad_dec_pos w n : 0 <= n -> pad_dec w n = pad0 w (nat_text 10 n).
Proof. intros H. unfold pad_dec. replace (n <? 0) with false by lia. reflexivity. Qed.

(** * Searching *)
(** The base position of index [i], which may count from the end. *)
Definition at_index (h : heap) (r : raw) (i p : Z) : Prop :=
  let n := raw_len h r in let j := if i <? 0 then i + n else i in 0 <= j < n /\ getb (shows h r) j = p.
Lemma set_index_cases h r i x : raw_ok h r ->
  (exists p, at_index h r i p /\ set_index h r i x = (set_arr h (r_data r) (scatter (arr h (r_data r)) [p] [u8 x]), Ok tt) /\ 0 <= p < zlen (arr h (r_data r))) \/
  (set_index h r i x = (h, Err EIndex) /\ forall p, ~ at_index h r i p).
Proof.
  intros R. unfold set_index, at_index. destruct (nindex (raw_len h r) i) as [j|e] eqn:E.
  - left. pose proof (win_pick_shows h r [i] [j] R) as W. cbn [nindexes] in W. rewrite E in W. cbn [rbind] in W. specialize (W eq_refl). rewrite W. cbn [map].
    unfold nindex in E. destruct ((- raw_len h r <=? i) && (i <? raw_len h r)) eqn:B; [|discriminate].
    assert (Ej : (if i <? 0 then i + raw_len h r else i) = j) by congruence. exists (getb (shows h r) j).
    cbn zeta. rewrite Ej. assert (Rj : 0 <= j < raw_len h r) by (destruct (Z.ltb_spec i 0); lia).
    split; [split; [exact Rj|reflexivity]|]. split; [reflexivity|]. pose proof (shows_range h r R) as F. rewrite Forall_forall in F. apply F, getb_In. rewrite zlen_shows by exact R. exact Rj.
  - right. assert (W : win_pick (raw_len h r) (r_win r) [i] = Err e) by (unfold win_pick; cbn [nindexes]; rewrite E; reflexivity). rewrite W.
    unfold nindex in E. destruct ((- raw_len h r <=? i) && (i <? raw_len h r)) eqn:B; [discriminate|]. injection E as <-. split; [reflexivity|].
    intros p [H _]. destruct (Z.ltb_spec i 0); lia.
Qed.
Lemma set_index_shape h r i x : raw_ok h r -> same_shape h (fst (set_index h r i x)).
Proof.
  intros R. destruct (set_index_cases h r i x R) as [(p & _ & E & Hp)|[E _]]; rewrite E; cbn [fst]; [|apply shape_refl].
  apply shape_set_arr; [apply R|]. apply zlen_scatter. constructor; [exact Hp|constructor].
Qed.
(** Another segment's bytes stay as they are unless the position is one of them. *)
Lemma set_index_other h r i x t : raw_ok h r -> raw_ok h t ->
  (r_data t = r_data r -> forall p, at_index h r i p -> ~ In p (shows h t)) -> read_data (fst (set_index h r i x)) t = read_data h t.
Proof.
  intros R T H. pose proof (set_index_shape h r i x R) as Sh. rewrite (read_data_shows _ t) by (eapply shape_raw_ok; eassumption).
  rewrite (read_data_shows h t) by exact T. rewrite (shape_shows _ _ _ Sh). apply map_ext_in. intros q Hq.
  destruct (set_index_cases h r i x R) as [(p & A & E & Hp)|[E _]]; rewrite E; cbn [fst]; [|reflexivity].
  destruct (Nat.eq_dec (r_data t) (r_data r)) as [Ed|Nd]; [|rewrite arr_set_neq by congruence; reflexivity].
  rewrite Ed, arr_set_eq by apply R. pose proof (shows_range h t T) as F. rewrite Forall_forall in F. specialize (F q Hq). rewrite Ed in F.
  rewrite getb_scatter by (first [lia|constructor; [exact Hp|constructor]]). cbn [last_write].
  destruct (Z.eqb_spec p q) as [->|]; [|reflexivity]. destruct (H Ed q A Hq).
Qed.
