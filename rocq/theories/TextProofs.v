(** Printed numbers and listings can be read back. *)
From Coq Require Import String.
From Verif Require Import Base BaseLemmas DiskModel AtariModel SpartaModel Dos33Model CliModel CliProofs TextModel TextSpec.

(** * Numbers *)
Lemma digit_dchar base n : base <= 36 -> 0 <= n < base -> is_digit base (dchar n) /\ digit_val (dchar n) = n.
Proof.
  intros Hb H. assert (E : digit_val (dchar n) = n).
  { unfold dchar, digit_val. destruct (Z.ltb_spec n 10).
    - replace ((48 <=? 48 + n) && (48 + n <=? 57)) with true by lia. lia.
    - replace ((48 <=? 87 + n) && (87 + n <=? 57)) with false by lia. replace ((97 <=? 87 + n) && (87 + n <=? 122)) with true by lia. lia. }
  split; [|exact E]. split; [rewrite E; lia|]. unfold dchar. destruct (Z.ltb_spec n 10); lia.
Qed.
Lemma number_app base a b : number base (a ++ [b]) = number base a * base + digit_val b.
Proof. unfold number. rewrite fold_left_app. reflexivity. Qed.
Lemma digits_spec base f : 2 <= base <= 36 -> forall n, 0 <= n < 2 ^ Z.of_nat f ->
  f <> O -> Forall (is_digit base) (digits f base n) /\ number base (digits f base n) = n /\ digits f base n <> [].
Proof.
  intros Hb. induction f as [|f IH]; intros n Hn Hf; [congruence|]. cbn [digits]. destruct (Z.ltb_spec n base).
  - destruct (digit_dchar base n) as [D E]; [lia..|]. split; [constructor; [exact D|constructor]|]. split; [|discriminate].
    unfold number. cbn [fold_left]. rewrite E. lia.
  - destruct f as [|f].
    { exfalso. rewrite Nat2Z.inj_succ in Hn. change (2 ^ Z.succ (Z.of_nat 0)) with 2 in Hn. lia. }
    assert (B : 0 <= n / base < 2 ^ Z.of_nat (S f)).
    { rewrite (Nat2Z.inj_succ (S f)), Z.pow_succ_r in Hn by lia. split; [apply Z.div_pos; lia|]. apply Z.div_lt_upper_bound; nia. }
    destruct (IH _ B) as (D & E & N); [discriminate|]. destruct (digit_dchar base (n mod base)) as [D2 E2]; [lia|apply Z.mod_pos_bound; lia|].
    split; [apply Forall_app; split; [exact D|constructor; [exact D2|constructor]]|]. split.
    + rewrite number_app, E, E2. pose proof (Z.div_mod n base). lia.
    + destruct (digits (S f) base (n / base)); discriminate.
Qed.
Lemma nat_text_spec base n : 2 <= base <= 36 -> 0 <= n ->
  Forall (is_digit base) (nat_text base n) /\ number base (nat_text base n) = n /\ nat_text base n <> [].
Proof.
  intros Hb Hn. unfold nat_text. apply digits_spec; [exact Hb| |discriminate]. split; [exact Hn|].
  pose proof (Z.log2_nonneg n). rewrite Nat2Z.inj_succ, Z2Nat.id by lia.
  destruct (Z.eq_dec n 0) as [->|]; [reflexivity|]. apply Z.log2_spec. lia.
Qed.
(** int() reads what %d printed. *)
Lemma py_int_dec n : py_int 10 (dec n) = Ok n.
Proof.
  unfold dec. destruct (Z.ltb_spec n 0).
  - destruct (nat_text_spec 10 (- n)) as (F & E & N); [lia..|].
    destruct (py_int_digits 10 (nat_text 10 (- n))) as []; [cbn; auto|exact F|exact N|].
    unfold py_int.
    assert (R : rstripf py_space (nat_text 10 (- n)) = nat_text 10 (- n)) by (apply (rstrip_digit 10); [lia|exact F]).
    assert (Hl : lstripf py_space (45 :: nat_text 10 (- n)) = 45 :: nat_text 10 (- n)) by reflexivity. rewrite Hl.
    assert (Hr : rstripf py_space (45 :: nat_text 10 (- n)) = 45 :: nat_text 10 (- n)).
    { cbn [rstripf]. rewrite R. destruct (nat_text 10 (- n)); [congruence|reflexivity]. }
    rewrite Hr.
    assert (T : forall r : list Z, (match r with
            | 48 :: x :: r0 =>
                if ((10 =? 16) && ((x =? 120) || (x =? 88))) || ((10 =? 2) && ((x =? 98) || (x =? 66)))
                then match r0 with 95 :: r' => r' | _ => r0 end else r
            | _ => r
            end) = r).
    { intros r. destruct r as [|c r]; [reflexivity|]. destruct (Z.eq_dec c 48) as [->|Nc]; [destruct r; reflexivity|].
      destruct c as [|p|]; try reflexivity. do 6 (destruct p as [p|p|]; try reflexivity; try congruence). }
    rewrite T. rewrite (int_digits_ok 10) by (assumption || (left; exact N)). cbn [rbind].
    unfold number in E. rewrite E. f_equal. lia.
  - destruct (nat_text_spec 10 n) as (F & E & N); [lia..|]. rewrite py_int_digits; [rewrite E; reflexivity|cbn; auto|exact F|exact N].
Qed.

(** * Texts that can be read back from the left *)
(** For entries that satisfy [P], [f] is a text after which it is known where it ends and
    what the [v] of the entry was. *)
Definition code {A B : Type} (P : A -> Prop) (f : A -> list Z) (v : A -> B) : Prop :=
  forall a b r s, P a -> P b -> f a ++ r = f b ++ s -> v a = v b /\ r = s.
Lemma code_app {A B C} (P : A -> Prop) f g (v : A -> B) (w : A -> C) : code P f v -> code P g w -> code P (fun a => f a ++ g a) (fun a => (v a, w a)).
Proof.
  intros Hf Hg a b r s Ha Hb E. rewrite <- !app_assoc in E. destruct (Hf _ _ _ _ Ha Hb E) as [Ev E2].
  destruct (Hg _ _ _ _ Ha Hb E2) as [Ew Er]. split; [congruence|exact Er].
Qed.
Lemma code_const {A} (P : A -> Prop) t : code P (fun _ : A => t) (fun _ => tt).
Proof. intros a b r s _ _ E. split; [reflexivity|]. apply (app_inv_head _ _ _ E). Qed.
Lemma code_view {A B C} (P : A -> Prop) f (v : A -> B) (w : A -> C) : (forall a b, P a -> P b -> v a = v b -> w a = w b) -> code P f v -> code P f w.
Proof. intros Hw Hf a b r s Ha Hb E. destruct (Hf _ _ _ _ Ha Hb E). split; [apply Hw; assumption|assumption]. Qed.
Lemma code_ext {A B} (P : A -> Prop) f g (v : A -> B) : (forall a, P a -> f a = g a) -> code P g v -> code P f v.
Proof. intros H Hg a b r s Ha Hb E. rewrite !H in E by assumption. exact (Hg _ _ _ _ Ha Hb E). Qed.
(** A text of fixed length. *)
Lemma code_fixed {A B} (P : A -> Prop) f (v : A -> B) n : (forall a, P a -> zlen (f a) = n) ->
  (forall a b, P a -> P b -> f a = f b -> v a = v b) -> code P f v.
Proof.
  intros Hl Hv a b r s Ha Hb E. pose proof (Hl a Ha). pose proof (Hl b Hb).
  assert (L : List.length (f a) = List.length (f b)) by (unfold zlen in *; lia).
  assert (E1 : firstn (List.length (f a)) (f a ++ r) = firstn (List.length (f a)) (f b ++ s)) by (rewrite E; reflexivity).
  rewrite L in E1 at 2. rewrite !firstn_app, !Nat.sub_diag, !firstn_all, !app_nil_r in E1. split; [apply Hv; assumption|].
  rewrite E1 in E. apply app_inv_head in E. exact E.
Qed.
Lemma code_pick {A} (P : A -> Prop) (p : A -> bool) y n : zlen (txt y) = 1 -> zlen (txt n) = 1 -> txt y <> txt n -> code P (fun a => pick (p a) y n) p.
Proof.
  intros Hy Hn Ne. apply code_fixed with (n := 1).
  - intros a _. unfold pick. destruct (p a); assumption.
  - intros a b _ _ E. unfold pick in E. destruct (p a), (p b); congruence.
Qed.

(** Digits end at the first character that is none. *)
Lemma span_eq (Q : Z -> Prop) l1 l2 c1 c2 r1 r2 : Forall Q l1 -> Forall Q l2 -> ~ Q c1 -> ~ Q c2 ->
  l1 ++ c1 :: r1 = l2 ++ c2 :: r2 -> l1 = l2 /\ c1 :: r1 = c2 :: r2.
Proof.
  intros F1. revert l2. induction F1 as [|x l1 Hx F1 IH]; intros l2 F2 N1 N2 E; destruct F2 as [|y l2 Hy F2]; cbn [app] in E.
  - auto.
  - injection E as -> _. congruence.
  - injection E as -> _. congruence.
  - injection E as -> E. destruct (IH l2 F2 N1 N2 E) as [-> E2]. auto.
Qed.
Lemma zeros_digits base w s : 2 <= base -> Forall (is_digit base) s -> Forall (is_digit base) (pad0 w s).
Proof.
  intros Hb F. unfold pad0. apply Forall_app. split; [|exact F]. unfold zrepeat. apply Forall_forall. intros x Hx. apply repeat_spec in Hx. subst x.
  split; [change (digit_val 48) with 0; lia|lia].
Qed.
Lemma number_zeros base w s : number base (pad0 w s) = number base s.
Proof.
  unfold pad0, zrepeat. induction (Z.to_nat (w - zlen s)) as [|k IH]; [reflexivity|]. cbn [repeat app]. rewrite <- IH. reflexivity.
Qed.
(** Characters of text constants that end a number. *)
Definition nondigit (base c : Z) : Prop := ~ is_digit base c.
Lemma nondigit_b base c : (base <=? digit_val c) = true -> nondigit base c.
Proof. intros H [[_ D] _]. lia. Qed.
Lemma code_pad {A} (P : A -> Prop) base w (n : A -> Z) c t : 2 <= base <= 36 -> nondigit base c -> (forall a, P a -> 0 <= n a) ->
  code P (fun a => pad0 w (nat_text base (n a)) ++ c :: t) n.
Proof.
  intros Hb Hc Hn a b r s Ha Hb' E. rewrite <- !app_assoc in E. cbn [app] in E.
  destruct (nat_text_spec base (n a) Hb (Hn a Ha)) as (F1 & V1 & _). destruct (nat_text_spec base (n b) Hb (Hn b Hb')) as (F2 & V2 & _).
  apply (span_eq (is_digit base)) in E; [|apply zeros_digits; [lia|assumption]|apply zeros_digits; [lia|assumption]|exact Hc|exact Hc].
  destruct E as [E1 E2]. split; [|injection E2 as E2; apply (app_inv_head _ _ _ E2)].
  rewrite <- V1, <- V2, <- (number_zeros base w), E1. apply number_zeros.
Qed.
Lemma code_pad_dec {A} (P : A -> Prop) w (n : A -> Z) c t : nondigit 10 c -> (forall a, P a -> 0 <= n a) ->
  code P (fun a => pad0 w (dec (n a)) ++ c :: t) n.
Proof.
  intros Hc Hn. apply code_ext with (g := fun a => pad0 w (nat_text 10 (n a)) ++ c :: t); [|apply code_pad; [lia|exact Hc|exact Hn]].
  intros a Ha. unfold dec. replace (n a <? 0) with false by (pose proof (Hn a Ha); lia). reflexivity.
Qed.
(** Signed numbers: digits and the sign. *)
Definition is_num (c : Z) : Prop := is_digit 10 c \/ c = 45.
Lemma dec_num n : Forall is_num (dec n).
Proof.
  unfold dec. destruct (Z.ltb_spec n 0).
  - constructor; [right; reflexivity|]. eapply Forall_impl; [|apply (nat_text_spec 10 (- n)); lia]. intros x Hx. left. exact Hx.
  - eapply Forall_impl; [|apply (nat_text_spec 10 n); lia]. intros x Hx. left. exact Hx.
Qed.
Lemma dec_inj a b : dec a = dec b -> a = b.
Proof. intros E. pose proof (py_int_dec a) as Ha. pose proof (py_int_dec b) as Hb. rewrite E in Ha. rewrite Ha in Hb. congruence. Qed.
Lemma dec_ne n : dec n <> [].
Proof. unfold dec. destruct (Z.ltb_spec n 0); [discriminate|]. apply (nat_text_spec 10 n); lia. Qed.
Lemma not_num_b c : negb (digit_val c <? 10) && negb (c =? 45) = true -> ~ is_num c.
Proof. intros H [[[_ D] _]|E]; lia. Qed.
Lemma code_dec {A} (P : A -> Prop) (n : A -> Z) c t : ~ is_num c -> code P (fun a => dec (n a) ++ c :: t) n.
Proof.
  intros Hc a b r s _ _ E. rewrite <- !app_assoc in E. cbn [app] in E. apply (span_eq is_num) in E; [|apply dec_num|apply dec_num|exact Hc|exact Hc].
  destruct E as [E1 E2]. split; [apply dec_inj; exact E1|]. injection E2 as E2. apply (app_inv_head _ _ _ E2).
Qed.
Lemma code_ljust_dec {A} (P : A -> Prop) w (n : A -> Z) t : code P (fun a => ljust w (dec (n a)) ++ 32 :: t) n.
Proof.
  intros a b r s _ _ E. unfold ljust in E. rewrite <- !app_assoc in E.
  assert (G : forall k (y : list Z), exists z, zrepeat 32 k ++ 32 :: y = 32 :: z /\ forall y' z', zrepeat 32 k ++ 32 :: y' = 32 :: z' -> z = z' -> y = y').
  { intros k y. exists (zrepeat 32 k ++ y). unfold zrepeat. split.
    - induction (Z.to_nat k) as [|m IH]; [reflexivity|]. cbn [repeat app]. rewrite IH. reflexivity.
    - intros y' z' E1 <-. assert (E2 : repeat 32 (Z.to_nat k) ++ 32 :: y' = 32 :: repeat 32 (Z.to_nat k) ++ y').
      { clear. induction (Z.to_nat k) as [|m IH]; [reflexivity|]. cbn [repeat app]. rewrite IH. reflexivity. }
      rewrite E2 in E1. injection E1 as E1. apply app_inv_head in E1. congruence. }
  cbn [app] in E. rewrite <- ?app_assoc in E. cbn [app] in E.
  destruct (G (w - zlen (dec (n a))) (t ++ r)) as (za & Ea & Ia). destruct (G (w - zlen (dec (n b))) (t ++ s)) as (zb & Eb & _).
  rewrite Ea, Eb in E.
  apply (span_eq is_num) in E; [|apply dec_num|apply dec_num|apply not_num_b; reflexivity|apply not_num_b; reflexivity].
  destruct E as [E1 E2]. split; [apply dec_inj; exact E1|]. rewrite <- E1 in Eb. apply (app_inv_head t). apply (Ia (t ++ s) zb Eb). congruence.
Qed.
Lemma code_rjust_dec {A} (P : A -> Prop) w (n : A -> Z) c t : ~ is_num c -> code P (fun a => rjust w (dec (n a)) ++ c :: t) n.
Proof.
  intros Hc a b r s _ _ E. unfold rjust in E. rewrite <- !app_assoc in E.
  assert (H : forall m, exists x y, dec m = x :: y /\ x <> 32 /\ is_num x).
  { intros m. pose proof (dec_num m) as D. pose proof (dec_ne m) as N. destruct (dec m) as [|x y]; [congruence|]. exists x, y. split; [reflexivity|].
    inversion D as [|? ? Hx _]; subst. split; [|exact Hx]. intros ->. revert Hx. apply not_num_b. reflexivity. }
  destruct (H (n a)) as (xa & ya & Ea & Na & _). destruct (H (n b)) as (xb & yb & Eb & Nb & _).
  assert (R : forall k, Forall (fun z => z = 32) (zrepeat 32 k)).
  { intros k. unfold zrepeat. apply Forall_forall. intros z Hz. apply repeat_spec in Hz. exact Hz. }
  pose proof E as E0. rewrite Ea, Eb in E0 at 2. cbn [app] in E0.
  apply (span_eq (fun z => z = 32)) in E0; [|apply R|apply R|exact Na|exact Nb]. destruct E0 as [E1 _].
  rewrite E1 in E. apply app_inv_head in E. cbn [app] in E. apply (span_eq is_num) in E; [|apply dec_num|apply dec_num|exact Hc|exact Hc].
  destruct E as [E2 E3]. split; [apply dec_inj; exact E2|]. injection E3 as E3. apply (app_inv_head _ _ _ E3).
Qed.

(** Names in columns of fixed width: known up to blanks at the end. *)
Lemma trim_ljust w l : trim32 (ljust w l) = trim32 l.
Proof.
  unfold trim32, ljust. apply rstripf_app_all. unfold zrepeat. induction (Z.to_nat (w - zlen l)); [reflexivity|]. cbn [repeat forallb]. assumption.
Qed.
Lemma code_ljust {A} (P : A -> Prop) w (n : A -> list Z) : (forall a, P a -> zlen (n a) <= w) -> code P (fun a => ljust w (n a)) (fun a => trim32 (n a)).
Proof.
  intros H. apply code_fixed with (n := w).
  - intros a Ha. unfold ljust. rewrite zlen_app, zlen_zrepeat by (pose proof (H a Ha); lia). lia.
  - intros a b Ha Hb E. cbv beta. rewrite <- (trim_ljust w (n a)), E. apply trim_ljust.
Qed.

(** Lists of such texts. *)
Lemma code_list {A B} (P : A -> Prop) f (v : A -> B) : code P f v -> (forall a, P a -> f a <> []) -> forall l1 l2,
  Forall P l1 -> Forall P l2 -> flat_map f l1 = flat_map f l2 -> map v l1 = map v l2.
Proof.
  intros Hf Hne. induction l1 as [|a l1 IH]; intros l2 F1 F2 E; destruct l2 as [|b l2]; cbn [flat_map map app] in *.
  - reflexivity.
  - exfalso. inversion F2 as [|? ? Hb _]; subst. specialize (Hne b Hb). destruct (f b); [congruence|discriminate].
  - exfalso. inversion F1 as [|? ? Ha _]; subst. specialize (Hne a Ha). destruct (f a); [congruence|discriminate].
  - inversion F1 as [|? ? Ha F1']; subst. inversion F2 as [|? ? Hb F2']; subst.
    destruct (Hf _ _ _ _ Ha Hb E) as [Ev E2]. rewrite Ev, (IH l2 F1' F2' E2). reflexivity.
Qed.

(** * Lines *)
Lemma print_loop_ok {E} (one : E -> res (list Z)) ds t : print_loop E one ds = (t, Ok tt) ->
  exists ts, Forall2 (fun d x => one d = Ok x) ds ts /\ t = flat_map (fun x => x ++ [10]) ts.
Proof.
  revert t. induction ds as [|d ds IH]; intros t; cbn [print_loop].
  - intros H. injection H as <-. exists []. split; [constructor|reflexivity].
  - destruct (one d) as [x|e] eqn:Ed; [|discriminate]. destruct (print_loop E one ds) as [t2 r]. intros H. injection H as <- ->.
    destruct (IH t2 eq_refl) as (ts & F & ->). exists (x :: ts). split; [constructor; assumption|]. cbn [flat_map]. rewrite <- app_assoc. reflexivity.
Qed.
(** The lines of `list`: each entry with the checksum of its contents, if wanted. *)
Definition shown_tail (show : bool) (c : Z) : list Z := if show then txt "  " ++ hex8 c else [].
Definition has_crc {E} (read : E -> res (list Z)) (crc : list Z -> Z) (show : bool) (d : E) (c : Z) : Prop :=
  if show then exists x, read d = Ok x /\ crc x = c else c = 0.
Lemma list_lines {E} line name (read : E -> res (list Z)) crc img head show files ds t :
  list_text E line name read crc img head show files ds = (t, Ok tt) ->
  exists cs, Forall2 (has_crc read crc show) (selected E name files ds) cs /\
    t = img ++ txt ": " ++ head ++ 10 :: flat_map (fun e => line (fst e) ++ shown_tail show (snd e) ++ [10]) (combine (selected E name files ds) cs).
Proof.
  unfold list_text. destruct (print_loop E (list_one E line read crc show) (selected E name files ds)) as [t0 x] eqn:Ep. intros H. injection H as <- ->.
  destruct (print_loop_ok _ _ _ Ep) as (ts & F & ->). clear Ep.
  assert (G : exists cs, Forall2 (has_crc read crc show) (selected E name files ds) cs /\
     flat_map (fun x => x ++ [10]) ts = flat_map (fun e => line (fst e) ++ shown_tail show (snd e) ++ [10]) (combine (selected E name files ds) cs)).
  { induction F as [|d x l ts Hd F IH].
    - exists []. split; [constructor|reflexivity].
    - destruct IH as (cs & F2 & Et). unfold list_one in Hd. destruct show.
      + destruct (read d) as [y|] eqn:Er; [|discriminate]. cbn [rbind] in Hd. injection Hd as <-.
        exists (crc y :: cs). split; [constructor; [exists y; auto|exact F2]|]. cbn [combine flat_map fst snd]. rewrite Et. unfold shown_tail. rewrite <- !app_assoc. reflexivity.
      + injection Hd as <-. exists (0 :: cs). split; [constructor; [reflexivity|exact F2]|]. cbn [combine flat_map fst snd]. rewrite Et. reflexivity. }
  destruct G as (cs & F2 & Et). exists cs. split; [exact F2|]. rewrite Et. reflexivity.
Qed.
Lemma code_pad_tail {A} (P : A -> Prop) w (n c : A -> Z) show : (forall a, P a -> 0 <= n a /\ 0 <= c a) ->
  code P (fun a => pad0 w (dec (n a)) ++ shown_tail show (c a) ++ [10]) (fun a => (n a, if show then c a else 0)).
Proof.
  intros H. destruct show.
  - apply code_ext with (g := fun a => (pad0 w (dec (n a)) ++ 32 :: [32]) ++ (pad0 8 (nat_text 16 (c a)) ++ 10 :: [])).
    { intros a _. cbn [shown_tail]. unfold hex8. rewrite <- !app_assoc. reflexivity. }
    eapply code_app; [apply code_pad_dec; [apply nondigit_b; reflexivity|apply H]|apply code_pad; [lia|apply nondigit_b; reflexivity|apply H]].
  - eapply code_view; [|apply (code_pad_dec P w n 10 []); [apply nondigit_b; reflexivity|apply H]]. cbv beta. congruence.
Qed.
Lemma code_dec_tail {A} (P : A -> Prop) (n c : A -> Z) show : (forall a, P a -> 0 <= c a) ->
  code P (fun a => dec (n a) ++ shown_tail show (c a) ++ [10]) (fun a => (n a, if show then c a else 0)).
Proof.
  intros H. destruct show.
  - apply code_ext with (g := fun a => (dec (n a) ++ 32 :: [32]) ++ (pad0 8 (nat_text 16 (c a)) ++ 10 :: [])).
    { intros a _. cbn [shown_tail]. unfold hex8. rewrite <- !app_assoc. reflexivity. }
    eapply code_app; [apply code_dec; apply not_num_b; reflexivity|apply code_pad; [lia|apply nondigit_b; reflexivity|apply H]].
  - eapply code_view; [|apply (code_dec P n 10 []); apply not_num_b; reflexivity]. cbv beta. congruence.
Qed.

(** * Atari entries *)
Record line_ok (d : dirent) : Prop := mkLok {
  lo_num : 0 <= d_num d; lo_start : 0 <= d_start d; lo_count : 0 <= d_count d;
  lo_base : zlen (d_base d) <= 8 /\ trim32 (d_base d) = d_base d;
  lo_ext : zlen (d_ext d) <= 3 /\ trim32 (d_ext d) = d_ext d }.
Lemma code_atari show : code (fun e : dirent * Z => line_ok (fst e) /\ 0 <= snd e)
  (fun e => atari_line (fst e) ++ shown_tail show (snd e) ++ [10])
  (fun e => (atari_view (fst e), if show then snd e else 0)).
Proof.
  set (P := fun e : dirent * Z => line_ok (fst e) /\ 0 <= snd e).
  apply code_ext with (g := fun e : dirent * Z => let d := fst e in
    txt "File #" ++ (ljust 2 (dec (d_num d)) ++ 32 :: txt "(") ++
    (pick (d_out d) "o" "." ++ pick (d_dos2 d) "2" "." ++ pick (d_mydos d) "m" "." ++
     pick (d_inuse d) "u" "." ++ pick (d_deleted d) "d" "." ++ pick (d_locked d) "*" " ") ++ txt ") " ++
    (pad0 3 (dec (d_start d)) ++ 32 :: []) ++ (ljust 8 (d_base d) ++ ljust 3 (d_ext d)) ++ txt "  " ++
    (pad0 3 (dec (d_count d)) ++ shown_tail show (snd e) ++ [10])).
  { intros [d c] _. cbn [fst snd]. cbv zeta. unfold atari_line, atari_summary. rewrite <- !app_assoc. reflexivity. }
  eapply code_view.
  2:{ cbv zeta. eapply code_app; [apply code_const|]. eapply code_app; [apply (code_ljust_dec P)|].
      eapply code_app; [repeat (eapply code_app; [apply code_pick; [reflexivity|reflexivity|discriminate]|]); apply code_pick; [reflexivity|reflexivity|discriminate]|].
      eapply code_app; [apply code_const|]. eapply code_app; [apply code_pad_dec; [apply nondigit_b; reflexivity|intros a Ha; apply Ha]|].
      eapply code_app; [eapply code_app; apply code_ljust; intros a Ha; apply Ha|]. eapply code_app; [apply code_const|].
      apply code_pad_tail. intros a Ha. split; apply Ha. }
  cbv beta. intros [a c] [b c'] [Ha _] [Hb _]. cbn [fst snd] in *. intros E.
  assert (T1 := proj2 (lo_base a Ha)). assert (T2 := proj2 (lo_base b Hb)). assert (T3 := proj2 (lo_ext a Ha)). assert (T4 := proj2 (lo_ext b Hb)).
  rewrite T1, T2, T3, T4 in E. unfold atari_view, flags_of. inversion E. congruence.
Qed.

(** * DOS 3.3 entries *)
Lemma zlen_type t : zlen (type_text t) = 1.
Proof. unfold type_text. repeat match goal with |- context [if ?b then _ else _] => destruct b; [reflexivity|] end. reflexivity. Qed.
Lemma type_text_inj a b : type_text a = type_text b -> known_type a = known_type b.
Proof.
  unfold type_text, known_type. cbn [zmem existsb].
  destruct (Z.eqb_spec a 0), (Z.eqb_spec b 0); subst; try (intros; reflexivity).
  all: repeat match goal with
       | |- context [?x =? ?y] => first [is_var x; destruct (Z.eqb_spec x y); [subst|]]
       end; cbn; intros H; try discriminate H; try reflexivity.
Qed.
Record line3_ok (e : Z * ent) : Prop := mkL3 {
  l3_num : 0 <= fst e; l3_count : 0 <= d3_count (snd e); l3_track : 0 <= d3_track (snd e); l3_sector : 0 <= d3_sector (snd e);
  l3_name : zlen (d3_name (snd e)) <= 30; l3_live : d3_del (snd e) = false }.
Lemma code_dos33 show : code (fun e : Z * ent * Z => line3_ok (fst e) /\ 0 <= snd e)
  (fun e => dos33_line (fst e) ++ shown_tail show (snd e) ++ [10])
  (fun e => (dos33_view (fst e), if show then snd e else 0)).
Proof.
  set (P := fun e : Z * ent * Z => line3_ok (fst e) /\ 0 <= snd e).
  apply code_ext with (g := fun e : Z * ent * Z => let d := snd (fst e) in
    txt "File #" ++ (ljust 2 (dec (fst (fst e))) ++ 32 :: txt "(") ++
    (pick (negb (d3_lock d =? 0)) "*" " " ++ type_text (d3_type d)) ++ txt ") " ++
    (pad0 3 (dec (d3_count d)) ++ 32 :: []) ++ ljust 30 (d3_name d) ++ txt " " ++
    (pad0 3 (dec (d3_track d)) ++ 32 :: []) ++ (pad0 3 (dec (d3_sector d)) ++ shown_tail show (snd e) ++ [10])).
  { intros [[n d] c] [H _]. cbn [fst snd] in *. cbv zeta. unfold dos33_line, dos33_summary. rewrite (l3_live _ H : d3_del d = false). rewrite <- !app_assoc. reflexivity. }
  eapply code_view.
  2:{ cbv zeta. eapply code_app; [apply code_const|]. eapply code_app; [apply (code_ljust_dec P)|].
      eapply code_app; [eapply code_app; [apply code_pick; [reflexivity|reflexivity|discriminate]|apply (code_fixed P _ (fun e => known_type (d3_type (snd (fst e)))) 1); [intros; apply zlen_type|intros a b _ _; apply type_text_inj]]|].
      eapply code_app; [apply code_const|]. eapply code_app; [apply code_pad_dec; [apply nondigit_b; reflexivity|intros a Ha; apply (proj1 Ha)]|].
      eapply code_app; [apply code_ljust; intros a Ha; apply (proj1 Ha)|]. eapply code_app; [apply code_const|].
      eapply code_app; [apply code_pad_dec; [apply nondigit_b; reflexivity|intros a Ha; apply (proj1 Ha)]|].
      apply code_pad_tail. intros a Ha. split; [apply (proj1 Ha)|apply Ha]. }
  cbv beta. intros [[m a] c] [[n b] c'] _ _. cbn [fst snd] in *. intros E. unfold dos33_view. cbn [fst snd]. inversion E. congruence.
Qed.

(** * SpartaDOS entries *)
Record lines_ok (e : sdirent * list Z) : Prop := mkLs {
  ls_start : 0 <= sd_start (fst e);
  ls_base : zlen (sd_base (fst e)) <= 8 /\ trim32 (sd_base (fst e)) = sd_base (fst e);
  ls_ext : zlen (sd_ext (fst e)) <= 3 /\ trim32 (sd_ext (fst e)) = sd_ext (fst e) }.
Lemma code_sparta show : code (fun e : sdirent * list Z * Z => lines_ok (fst e) /\ 0 <= snd e)
  (fun e => sparta_line (fst e) ++ shown_tail show (snd e) ++ [10])
  (fun e => (sparta_view (fst e), if show then snd e else 0)).
Proof.
  set (P := fun e : sdirent * list Z * Z => lines_ok (fst e) /\ 0 <= snd e).
  apply code_ext with (g := fun e : sdirent * list Z * Z => let d := fst (fst e) in let t := snd (fst e) in
    txt "File #" ++ (ljust 2 (dec (sd_num d)) ++ 32 :: txt "(") ++
    (pick (sd_out d) "o" "." ++ pick (sd_isdir d) "D" "." ++ pick (sd_inuse d) "u" "." ++
     pick (sd_deleted d) "d" "." ++ pick (sd_locked d) "*" " ") ++ txt " " ++
    (pad0 3 (dec (sd_start d)) ++ 41 :: txt " ") ++ (ljust 8 (sd_base d) ++ ljust 3 (sd_ext d)) ++ txt "  " ++
    (rjust 8 (dec (sd_length d)) ++ 32 :: txt " ") ++
    (dec (getb t 0) ++ 47 :: []) ++ (dec (getb t 1) ++ 47 :: []) ++ (dec (getb t 2) ++ 32 :: []) ++
    (dec (getb t 3) ++ 58 :: []) ++ (dec (getb t 4) ++ 58 :: []) ++ (dec (getb t 5) ++ shown_tail show (snd e) ++ [10])).
  { intros [[d t] c] _. cbn [fst snd]. cbv zeta. unfold sparta_line, stamp_text. rewrite <- !app_assoc. reflexivity. }
  eapply code_view.
  2:{ cbv zeta. eapply code_app; [apply code_const|]. eapply code_app; [apply (code_ljust_dec P)|].
      eapply code_app; [repeat (eapply code_app; [apply code_pick; [reflexivity|reflexivity|discriminate]|]); apply code_pick; [reflexivity|reflexivity|discriminate]|].
      eapply code_app; [apply code_const|]. eapply code_app; [apply code_pad_dec; [apply nondigit_b; reflexivity|intros a Ha; apply (proj1 Ha)]|].
      eapply code_app; [eapply code_app; apply code_ljust; intros a Ha; apply (proj1 Ha)|]. eapply code_app; [apply code_const|].
      eapply code_app; [apply code_rjust_dec; apply not_num_b; reflexivity|].
      do 5 (eapply code_app; [apply code_dec; apply not_num_b; reflexivity|]).
      apply code_dec_tail. intros a Ha. apply Ha. }
  cbv beta. intros [[a t] c] [[b u] c'] [Ha _] [Hb _]. cbn [fst snd] in *. intros E.
  assert (T1 := proj2 (ls_base _ Ha)). assert (T2 := proj2 (ls_base _ Hb)). assert (T3 := proj2 (ls_ext _ Ha)). assert (T4 := proj2 (ls_ext _ Hb)).
  cbn [fst] in T1, T2, T3, T4. rewrite T1, T2, T3, T4 in E. unfold sparta_view, sflags_of, stamp_view. cbn [fst snd]. inversion E. congruence.
Qed.

(** * The summary line *)
Lemma code_sizes {A} (P : A -> Prop) (x y z : A -> Z) : code P (fun a => sizes_text (x a) (y a) (z a)) (fun a => (x a, y a, z a)).
Proof.
  apply code_ext with (g := fun a => txt " Disk Image (size=" ++ (dec (x a) ++ 32 :: txt "(") ++ (dec (y a) ++ 120 :: []) ++ (dec (z a) ++ 66 :: txt ")")).
  { intros a _. unfold sizes_text. rewrite <- !app_assoc. reflexivity. }
  eapply code_view; [|eapply code_app; [apply code_const|]; eapply code_app; [apply code_dec; apply not_num_b; reflexivity|];
    eapply code_app; [apply code_dec; apply not_num_b; reflexivity|apply code_dec; apply not_num_b; reflexivity]].
  cbv beta. intros a b _ _ E. congruence.
Qed.
Definition atr_more (h : hdr) : list Z :=
  txt ", crc=" ++ (dec (h_crc h) ++ 32 :: txt "flags=") ++ (dec (h_flags h) ++ 32 :: txt "unused=") ++ (dec (h_unused h) ++ 41 :: []).
Lemma code_atr_more : code (fun _ => True) atr_more (fun h => (h_crc h, h_flags h, h_unused h)).
Proof.
  eapply code_view; [|eapply code_app; [apply code_const|]; eapply code_app; [apply code_dec; apply not_num_b; reflexivity|];
    eapply code_app; [apply code_dec; apply not_num_b; reflexivity|apply code_dec; apply not_num_b; reflexivity]].
  cbv beta. intros a b _ _ E. congruence.
Qed.
Lemma code_header : code (fun _ => True) (fun h => header_text h) header_view.
Proof.
  intros a b r s _ _ E. unfold header_text in E. unfold header_view.
  destruct (h_offset a =? 0), (h_offset b =? 0); try (cbn in E; discriminate E).
  - rewrite <- !app_assoc in E. apply app_inv_head in E.
    destruct (code_sizes (fun _ => True) h_image_size h_max h_ssize a b r s Logic.I Logic.I E) as [E1 E2]. split; [congruence|exact E2].
  - rewrite <- !app_assoc in E. apply app_inv_head in E.
    apply (code_sizes (fun _ => True) h_image_size h_max h_ssize a b _ _ Logic.I Logic.I) in E. destruct E as [E1 E2].
    assert (E3 : atr_more a ++ r = atr_more b ++ s).
    { unfold atr_more. rewrite <- !app_assoc. exact E2. }
    destruct (code_atr_more a b r s Logic.I Logic.I E3) as [E4 E5]. split; [congruence|exact E5].
Qed.
(** Header, sectors, free sectors and number of files *)
Lemma code_format f : code (fun _ : hdr * (Z * Z * Z) => True)
  (fun a => format_text (fst a) f (fst (fst (snd a))) (snd (fst (snd a))) (snd (snd a)) ++ [10])
  (fun a => (header_view (fst a), snd a)).
Proof.
  apply code_ext with (g := fun a : hdr * (Z * Z * Z) => header_text (fst a) ++ (txt " " ++ txt f ++ txt " Format: ") ++
    (dec (fst (fst (snd a))) ++ 32 :: txt "usable sectors (") ++ (dec (snd (fst (snd a))) ++ 32 :: txt "free), ") ++ (dec (snd (snd a)) ++ 32 :: txt "files" ++ [10])).
  { intros a _. unfold format_text. rewrite <- !app_assoc. reflexivity. }
  eapply code_view.
  2:{ eapply code_app; [intros a b r s _ _ E; apply (code_header (fst a) (fst b) r s Logic.I Logic.I E)|]. eapply code_app; [apply code_const|].
      eapply code_app; [apply code_dec; apply not_num_b; reflexivity|]. eapply code_app; apply code_dec; apply not_num_b; reflexivity. }
  cbv beta. intros [a [[x y] z]] [b [[x' y'] z']] _ _ E. cbn [fst snd] in *. congruence.
Qed.
