(** The machine code of the KBoot loader loads an Atari executable. *)
From Verif Require Import Base BaseLemmas ExecModel ExecSpec CpuModel AppleBoot KbSpec.

Ltac knorm := repeat match goal with
  | |- context [hardware ?e] => closed1 (hardware e) e
  | |- context [Z.lor ?e ?f] => closed2 (Z.lor e f) e f
  | _ => progress norm
  end.
Definition kcode (m : memory) : Prop := forall a, 0x700 <= a < 0x7e3 -> a <> 0x709 -> a <> 0x70a -> m a = getb xexboot_header (a - 0x700).
Lemma kbyte m : kcode m -> forall a v, (0x700 <=? a) && (a <? 0x7e3) && negb (a =? 0x709) && negb (a =? 0x70a) && (getb xexboot_header (a - 0x700) =? v) = true -> m a = v.
Proof. intros C a v H. rewrite C by lia. lia. Qed.

Definition kev (img : list Z) (junk : cpu unit -> Z -> Z) (bus : Z -> Z) (s : cpu unit) (Q : cpu unit -> Prop) : Prop :=
  exists s', atari_reach img junk bus s s' /\ Q s'.
Section Go.
Variables (img : list Z) (junk : cpu unit -> Z -> Z) (bus : Z -> Z).
Notation R := (kev img junk bus).
Lemma kgo s s1 s2 op o1 o2 : 0x700 <= pc s < 0x7f0 -> mm s (pc s) = op -> mm s (pc s + 1) = o1 -> mm s (pc s + 2) = o2 ->
  exec unit hardware (fun d a => (bus a, d)) (fun d _ _ => d) s op o1 o2 = Some s1 -> R s1 s2 -> R s s2.
Proof.
  intros H A B C E (s' & K & Q). exists s'. split; [|exact Q]. eapply reach_step; [|exact K]. unfold step, atari_rom. destruct (Z.eqb_spec (pc s) 0xe459); [lia|].
  unfold u16. rewrite !Z.mod_small by lia. rewrite A, B, C. exact E.
Qed.
Lemma kgo_rom s s1 s2 : pc s = 0xe459 -> sio img junk s = Some s1 -> R s1 s2 -> R s s2.
Proof. intros H E (s' & K & Q). exists s'. split; [|exact Q]. eapply reach_step; [|exact K]. unfold step, atari_rom. rewrite H. cbn [Z.eqb Pos.eqb]. exact E. Qed.
End Go.
Ltac kfetch C := cbn [mm pc]; lazymatch goal with |- ?m ?e = _ => let a := eval vm_compute in e in change e with a;
  first [ let v := eval vm_compute in (getb xexboot_header (a - 0x700)) in exact (kbyte _ C a v eq_refl) | reflexivity ] end.
Ltac kred := cbv beta iota zeta delta [exec rd wr set_a set_x set_y compare store modify goto branch push ra rx ry rs pc fn fz fc mm dv fst snd negb]; knorm;
  cbv beta iota zeta delta [fst snd negb]; knorm.
Ltac kinsx C tac := eapply kgo; [cbn [pc]; lia | kfetch C | kfetch C | kfetch C | kred; tac; cbv iota; reflexivity |].
Ltac kins C := kinsx C idtac.

Section Load.
Variables (img : list Z) (junk : cpu unit -> Z -> Z) (bus : Z -> Z) (x : list Z).
Notation N := (zlen x).
Hypothesis Hsize : 1 <= N < 65536.
Hypothesis Hdens : le2 (getb img 4) (getb img 5) = 128.
Hypothesis Hroom : forall k, 0 <= k -> 128 * k < N -> 128 * (4 + k) <= disk_size img /\ 128 * (4 + k) <= zlen img - 16.
Hypothesis Hdata : forall i, 0 <= i < N -> getb img (400 + i) = getb x i.
Notation R := (kev img junk bus).

(** Sector [4 + k] of the disk is in the buffer; [p] bytes of the executable were used. *)
Definition st (k p : Z) (M m : memory) : Prop :=
  kcode m /\ (0 <= m 0x709 < 256 /\ 0 <= m 0x70a < 256 /\ m 0x709 + 256 * m 0x70a = N - p) /\
  (m 0x300 = 0x31 /\ m 0x301 = 1 /\ m 0x302 = 0x52 /\ m 0x304 = 0 /\ m 0x305 = 1 /\ m 0x308 = 0x80 /\ m 0x309 = 0) /\
  (m 0x30a = (5 + k) mod 256 /\ m 0x30b = (5 + k) / 256) /\
  (forall i, 0 <= i < 128 -> 0 <= 128 * k + i < N -> m (0x100 + i) = getb x (128 * k + i)) /\
  forall a, writable a -> m a = M a.
Definition frame (sp : Z) (m m' : memory) : Prop := forall a, 0x43 <= a < 0x47 \/ 0x100 + sp < a < 0x200 -> m' a = m a.

Lemma st_upd k p M m a v : st k p M m -> a = 0x303 \/ 0x19 <= a < 0x4a \/ 0x180 <= a < 0x200 -> st k p M (upd m a v).
Proof.
  intros (C & (A1 & A2 & A3) & (B1 & B2 & B3 & B4 & B5 & B6 & B7) & (S1 & S2) & Bu & L) Ha. unfold st, kcode. rewrite !(upd_neq m a v _) by lia.
  split; [intros b H1 H2 H3; rewrite upd_neq by lia; apply C; assumption|]. split; [tauto|]. split; [tauto|]. split; [tauto|].
  split; [intros i H1 H2; rewrite upd_neq by lia; apply Bu; assumption|]. intros b Hb. rewrite upd_neq by (unfold writable in Hb; lia). apply L. exact Hb.
Qed.
Lemma st_load k p M m a v : st k p M m -> writable a -> st k p (upd M a v) (upd m a v).
Proof.
  intros (C & (A1 & A2 & A3) & (B1 & B2 & B3 & B4 & B5 & B6 & B7) & (S1 & S2) & Bu & L) Ha. unfold st, kcode. unfold writable in Ha. rewrite !(upd_neq m a v _) by lia.
  split; [intros b H1 H2 H3; rewrite upd_neq by lia; apply C; assumption|]. split; [tauto|]. split; [tauto|]. split; [tauto|].
  split; [intros i H1 H2; rewrite upd_neq by lia; apply Bu; assumption|]. intros b Hb. unfold upd. destruct (b =? a); [reflexivity|]. apply L. exact Hb.
Qed.
(** The cells that matter and are not changed by reading a sector. *)
Definition kept (a : Z) : Prop := 0x700 <= a < 0x7e3 \/ 0x300 <= a < 0x303 \/ 0x304 <= a < 0x30a \/ 0x2e2 <= a < 0x2e4 \/ writable a.
Lemma st_sector k p M m : st k p M m ->
  forall m', (forall a, kept a -> m' a = m a) -> m' 0x30a = (6 + k) mod 256 -> m' 0x30b = (6 + k) / 256 ->
  (forall i, 0 <= i < 128 -> 0 <= 128 * (k + 1) + i < N -> m' (0x100 + i) = getb x (128 * (k + 1) + i)) -> st (k + 1) p M m'.
Proof.
  intros (C & (A1 & A2 & A3) & (B1 & B2 & B3 & B4 & B5 & B6 & B7) & (S1 & S2) & Bu & L) m' E E1 E2 E3. unfold st, kcode.
  split; [intros b H1 H2 H3; rewrite E by (unfold kept; lia); apply C; assumption|]. split; [rewrite !(E _) by (unfold kept; lia); tauto|]. split; [rewrite !(E _) by (unfold kept; lia); tauto|].
  replace (5 + (k + 1)) with (6 + k) by lia. split; [tauto|].
  split; [exact E3|]. intros b Hb. rewrite E by (unfold kept; tauto). apply L. exact Hb.
Qed.
Lemma work_kept sp a : sp < 256 -> kept a -> os_work sp a = false.
Proof. unfold kept, writable, os_work. lia. Qed.

(** The operating system reads the sector. *)
Lemma read_sector a xx y sp n z c m k p M r s : st k p M m -> m 0x303 = 0x40 -> 0x90 - 4 <= sp < 254 -> -1 <= k -> 128 * (k + 1) < N ->
  le2 (m (256 + (sp + 1))) (m (256 + (sp + 2))) + 1 = r -> 0 <= r < 65536 ->
  (forall a xx c m', (forall b, kept b \/ b = 0x30a \/ b = 0x30b \/ 0x43 <= b < 0x47 \/ 0x100 + sp < b < 0x200 -> m' b = m b) ->
     (forall i, 0 <= i < 128 -> 0 <= 128 * (k + 1) + i < N -> m' (0x100 + i) = getb x (128 * (k + 1) + i)) ->
     R (mkC a xx 1 (sp + 2) r false false c m' tt) s) ->
  R (mkC a xx y sp 0xe459 n z c m tt) s.
Proof.
  intros (C & (A1 & A2 & A3) & (B1 & B2 & B3 & B4 & B5 & B6 & B7) & (S1 & S2) & Bu & L) H3 Hs Hk Hn Er Hr K.
  assert (Sec : le2 (m 0x30a) (m 0x30b) = 5 + k) by (rewrite S1, S2; unfold le2; pose proof (Z.div_mod (5 + k) 256 ltac:(lia)); lia).
  eapply kgo_rom; [reflexivity| |].
  - unfold sio. cbn [mm rs]. rewrite B1, B2, B3, B4, B5, B6, B7, H3, Sec, Hdens.
    replace (1 <=? 5 + k) with true by lia. destruct (Hroom (k + 1) ltac:(lia) Hn) as [Hr1 Hr2]. replace (128 * (5 + k) <=? disk_size img) with true by lia. replace (128 * (5 + k) <=? zlen img - 16) with true by lia.
    cbn [andb Z.eqb Pos.eqb]. change (le2 128 0 =? 128) with true. cbn [andb]. change (le2 0 1) with 256.
    assert (U1 : u8 (sp + 1) = sp + 1) by (apply Z.mod_small; lia). assert (U2 : u8 (sp + 2) = sp + 2) by (apply Z.mod_small; lia). rewrite U1, U2, Er.
    assert (U3 : u16 r = r) by (apply Z.mod_small; lia). rewrite U3. reflexivity.
  - apply K.
    + intros b Hb. assert (W : os_work sp b = false). { destruct Hb as [Hb|Hb]; [apply work_kept; [lia|exact Hb]|]. unfold os_work. lia. }
      rewrite W. unfold kept, writable in Hb. replace ((256 <=? b) && (b <? 256 + 128)) with false by lia. replace (b =? 771) with false by lia. reflexivity.
    + intros i Hi Hi2. replace ((256 <=? 256 + i) && (256 + i <? 256 + 128)) with true by lia.
      replace (16 + 128 * (5 + k - 1) + (256 + i - 256)) with (400 + (128 * (k + 1) + i)) by lia. apply Hdata. exact Hi2.
Qed.
(** $07BC: read the next sector. *)
Lemma next_sector a xx y sp n z c m k p M s : st k p M m -> 0x90 - 2 <= sp < 256 -> -1 <= k -> 128 * (k + 1) < N ->
  (forall a n z c m', st (k + 1) p M m' -> frame sp m m' -> R (mkC a 0 0 sp 0x7de n z c m' tt) s) ->
  R (mkC a xx y sp 0x7bc n z c m tt) s.
Proof.
  intros I Hs Hk Hn K. pose proof (proj1 I) as C. kins C.
  pose proof (st_upd _ _ _ _ 0x303 0x40 I (or_introl eq_refl)) as I1. assert (V1 : forall b, b <> 0x303 -> upd m 0x303 0x40 b = m b) by (intros b Hb; apply upd_neq; exact Hb).
  assert (V2 : upd m 0x303 0x40 0x303 = 0x40) by apply upd_eq. kins C. set (m1 := upd m 0x303 0x40) in *. clearbody m1. pose proof (proj1 I1) as C1. 
  kins C1. assert (U1 : u8 (sp - 1) = sp - 1) by (apply Z.mod_small; lia). assert (U2 : u8 (sp - 2) = sp - 2) by (apply Z.mod_small; lia). rewrite U1, U2.
  set (m2 := upd (upd m1 (256 + sp) 7) (256 + (sp - 1)) 195).
  assert (I2 : st k p M m2) by (unfold m2; apply st_upd; [apply st_upd; [exact I1|lia]|lia]).
  eapply (read_sector _ _ _ (sp - 2) _ _ _ m2 k p M 0x7c4); [exact I2|unfold m2; rewrite !upd_neq by lia; exact V2|lia|lia|exact Hn| |lia|].
  { unfold m2. replace (256 + (sp - 2 + 1)) with (256 + (sp - 1)) by lia. rewrite upd_eq. rewrite upd_neq by lia. replace (256 + (sp - 2 + 2)) with (256 + sp) by lia. rewrite upd_eq. reflexivity. }
  replace (sp - 2 + 2) with sp by lia. intros a3 x3 c3 m3 E3 B3. clear a xx c y.
  assert (C3 : kcode m3). { intros b H1 H2 H4. rewrite E3 by (unfold kept; lia). apply (proj1 I2); assumption. }
  kins C3. pose proof I2 as (_ & _ & _ & (S1 & S2) & _). assert (T1 : m3 0x30a = (5 + k) mod 256) by (rewrite E3 by lia; exact S1). assert (T2 : m3 0x30b = (5 + k) / 256) by (rewrite E3 by lia; exact S2).
  kins C3. rewrite T1. set (v := u8 ((5 + k) mod 256 + 1)). 
  assert (C4 : kcode (upd m3 0x30a v)) by (intros b H1 H2 H4; rewrite upd_neq by lia; apply C3; assumption).
  assert (Fin : forall m5 n z, (forall b, b <> 0x30a -> b <> 0x30b -> m5 b = m3 b) -> m5 0x30a = (6 + k) mod 256 -> m5 0x30b = (6 + k) / 256 -> R (mkC a3 x3 1 sp 0x7d4 n z c3 m5 tt) s).
  { intros m5 n5 z5 E5 F1 F2.
    assert (I5 : st (k + 1) p M m5).
    { apply (st_sector k p M m2 I2); [|exact F1|exact F2|].
      - intros b Hb. rewrite E5 by (unfold kept, writable in Hb; lia). apply E3. left. exact Hb.
      - intros i H1 H2. rewrite E5 by lia. apply B3; assumption. }
    pose proof (proj1 I5) as C5. kins C5. kins C5. kins C5. kins C5. apply K; [exact I5|].
    intros b Hb. rewrite E5 by lia. rewrite E3 by lia. unfold m2. rewrite !upd_neq by lia. apply V1. lia. }
  destruct (Z.eq_dec ((5 + k) mod 256) 255) as [Ev|Nv].
  - assert (Hv : v = 0) by (unfold v; rewrite Ev; reflexivity). rewrite Hv in *. kins C4. kins C4. rewrite (upd_neq m3) by lia. rewrite T2.
    assert (D : (6 + k) mod 256 = 0 /\ (6 + k) / 256 = (5 + k) / 256 + 1) by (Z.to_euclidean_division_equations; lia). destruct D as [D1 D2].
    assert (Hu : u8 ((5 + k) / 256 + 1) = (5 + k) / 256 + 1) by (apply Z.mod_small; Z.to_euclidean_division_equations; lia). rewrite Hu. apply Fin.
    + intros b H1 H2. rewrite !upd_neq by lia. reflexivity.
    + rewrite upd_neq by lia. rewrite upd_eq. congruence.
    + rewrite upd_eq. congruence.
  - assert (Hv : v = (5 + k) mod 256 + 1) by (apply Z.mod_small; pose proof (Z.mod_pos_bound (5 + k) 256); lia).
    assert (D : (6 + k) mod 256 = (5 + k) mod 256 + 1 /\ (6 + k) / 256 = (5 + k) / 256) by (Z.to_euclidean_division_equations; lia). destruct D as [D1 D2].
    kinsx C4 ltac:(replace (zero v) with false by (unfold zero; pose proof (Z.mod_pos_bound (5 + k) 256); lia)). apply Fin.
    + intros b H1 H2. rewrite !upd_neq by lia. reflexivity.
    + rewrite upd_eq. congruence.
    + rewrite upd_neq by lia. congruence.
Qed.

(** A byte was taken. *)
Lemma st_count k p M m : st k p M m -> forall m', (forall b, b <> 0x709 -> b <> 0x70a -> m' b = m b) -> 0 <= m' 0x709 < 256 -> 0 <= m' 0x70a < 256 -> m' 0x709 + 256 * m' 0x70a = N - (p + 1) -> st k (p + 1) M m'.
Proof.
  intros (C & (A1 & A2 & A3) & (B1 & B2 & B3 & B4 & B5 & B6 & B7) & (S1 & S2) & Bu & L) m' E E1 E2 E3. unfold st, kcode.
  split; [intros b H1 H2 H3; rewrite E by lia; apply C; assumption|]. split; [tauto|]. split; [rewrite !(E _) by lia; tauto|]. split; [rewrite !(E _) by lia; tauto|].
  split; [intros i H1 H2; rewrite E by lia; apply Bu; assumption|]. intros b Hb. rewrite E by (unfold writable in Hb; lia). apply L. exact Hb.
Qed.
(** JSR $07A5: the next byte of the executable. *)
Lemma next_byte q a xx sp n z c m k p M s : st k p M m -> 0x90 <= sp < 256 -> 0 <= k -> xx = p - 128 * k -> 0 <= xx <= 128 -> 0 <= p < N ->
  0x700 <= q < 0x7a0 -> m q = 0x20 -> m (q + 1) = 0xa5 -> m (q + 2) = 7 ->
  (forall n z c m' k', st k' (p + 1) M m' -> 0 <= k' -> 0 <= p + 1 - 128 * k' <= 128 -> (forall b, 0x43 <= b < 0x47 -> m' b = m b) ->
     R (mkC (getb x p) (p + 1 - 128 * k') 0 sp (q + 3) n z c m' tt) s) ->
  R (mkC a xx 0 sp q n z c m tt) s.
Proof.
  intros I Hs Hk Ex Hx Hp Hq Q1 Q2 Q3 K. 
  eapply kgo; [cbn [pc]; lia|exact Q1|exact Q2|exact Q3|kred; reflexivity|].
  assert (U0 : u16 (q + 2) = q + 2) by (apply Z.mod_small; lia). rewrite U0.
  assert (U1 : u8 (sp - 1) = sp - 1) by (apply Z.mod_small; lia). assert (U2 : u8 (sp - 2) = sp - 2) by (apply Z.mod_small; lia). rewrite U1, U2.
  set (m2 := upd (upd m (256 + sp) _) (256 + (sp - 1)) _).
  assert (I2 : st k p M m2) by (unfold m2; apply st_upd; [apply st_upd; [exact I|lia]|lia]).
  assert (W1 : m2 (256 + sp) = (q + 2) / 256) by (unfold m2; rewrite upd_neq by lia; apply upd_eq). assert (W2 : m2 (256 + (sp - 1)) = (q + 2) mod 256) by apply upd_eq.
  assert (W3 : forall b, 0x43 <= b < 0x47 -> m2 b = m b) by (intros b Hb; unfold m2; rewrite !upd_neq by lia; reflexivity). clearbody m2.
  assert (Rest : forall a xx' n z c m' k', st k' (p + 1) M m' -> 0 <= k' -> p = 128 * k' + xx' -> 0 <= xx' < 128 -> frame (sp - 2) m2 m' -> R (mkC a xx' 0 (sp - 2) 0x7de n z c m' tt) s).
  { clear a n z c. intros a xx' n z c m' k' I' Hk' Ep Hx' Fr. pose proof (proj1 I') as C'. kinsx C' ltac:(replace (u16 (256 + xx')) with (256 + xx') by (symmetry; apply Z.mod_small; lia); replace (hardware (256 + xx')) with false by (unfold hardware; lia)).
    assert (Bx : m' (256 + xx') = getb x p) by (rewrite Ep; apply I'; lia). rewrite Bx. kins C'.
    assert (Ux : u8 (xx' + 1) = xx' + 1) by (apply Z.mod_small; lia). rewrite Ux.
    kinsx C' ltac:(replace (u8 (sp - 2 + 1)) with (sp - 1) by (symmetry; transitivity (u8 (sp - 1)); [f_equal; lia|exact U1]); replace (u8 (sp - 2 + 2)) with sp by (symmetry; transitivity (u8 sp); [f_equal; lia|apply Z.mod_small; lia])).
    rewrite !Fr by lia. rewrite W1, W2. assert (Er : u16 (le2 ((q + 2) mod 256) ((q + 2) / 256) + 1) = q + 3).
    { unfold le2. pose proof (Z.div_mod (q + 2) 256 ltac:(lia)). transitivity (u16 (q + 3)); [f_equal; lia|apply Z.mod_small; lia]. }
    rewrite Er. replace (xx' + 1) with (p + 1 - 128 * k') by lia. apply K; [exact I'|exact Hk'|lia|]. intros b Hb. rewrite Fr by lia. apply W3. exact Hb. }
  assert (Take : forall a n z c m3, st k (p + 1) M m3 -> (forall b, b <> 0x709 -> b <> 0x70a -> m3 b = m2 b) -> R (mkC a xx 0 (sp - 2) 0x7b8 n z c m3 tt) s).
  { clear a n z c. intros a n z c m3 I3 E3. pose proof (proj1 I3) as C3. kins C3. destruct (Z.leb_spec 128 xx) as [Ge|Lt].
    - kinsx C3 ltac:(replace (128 <=? xx) with true by lia). assert (xx = 128) by lia.
      eapply (next_sector _ _ _ (sp - 2) _ _ _ m3 k (p + 1) M); [exact I3|lia|lia|lia|]. intros a4 n4 z4 c4 m4 I4 F4. apply (Rest a4 0 n4 z4 c4 m4 (k + 1) I4); [lia|lia|lia|].
      intros b Hb. rewrite F4 by exact Hb. apply E3; lia.
    - kinsx C3 ltac:(replace (128 <=? xx) with false by lia). apply (Rest a xx _ _ _ m3 k I3); [lia|lia|lia|]. intros b Hb. apply E3; lia. }
  pose proof (proj1 I2) as C2. pose proof I2 as (_ & (A1 & A2 & A3) & _).
  kins C2. destruct (Z.eq_dec (m2 0x709) 0) as [Ez|Nz].
  - rewrite Ez. kins C2. kins C2. assert (Nz : m2 0x70a <> 0) by lia. kinsx C2 ltac:(replace (zero (m2 1802)) with false by (unfold zero; lia)). kins C2.
    assert (Uv : u8 (m2 1802 - 1) = m2 1802 - 1) by (apply Z.mod_small; lia). rewrite Uv.
    assert (C3 : kcode (upd m2 1802 (m2 1802 - 1))) by (intros b H1 H2 H3; rewrite upd_neq by lia; apply C2; assumption).
    kins C3. rewrite (upd_neq m2) by lia. rewrite Ez. knorm. apply Take.
    + apply (st_count k p M m2 I2).
      * intros b H1 H2. rewrite !upd_neq by lia. reflexivity.
      * rewrite upd_eq. lia.
      * rewrite upd_neq by lia. rewrite upd_eq. lia.
      * rewrite upd_eq. rewrite upd_neq by lia. rewrite upd_eq. lia.
    + intros b H1 H2. rewrite !upd_neq by lia. reflexivity.
  - kinsx C2 ltac:(replace (zero (m2 1801)) with false by (unfold zero; lia)). kins C2.
    assert (Uv : u8 (m2 1801 - 1) = m2 1801 - 1) by (apply Z.mod_small; lia). rewrite Uv. apply Take.
    + apply (st_count k p M m2 I2).
      * intros b H1 H2. rewrite !upd_neq by lia. reflexivity.
      * rewrite upd_eq. lia.
      * rewrite upd_neq by lia. lia.
      * rewrite upd_eq. rewrite upd_neq by lia. lia.
    + intros b H1 H2. rewrite !upd_neq by lia. reflexivity.
Qed.
(** After the last byte: the jump through $02E0. *)
Lemma no_byte a xx sp n z c m k M s : st k N M m -> 0x90 <= sp < 256 ->
  (forall a n z c m', (forall b, writable b -> m' b = M b) -> R (mkC a xx 0 (sp - 2) (le2 (M 0x2e0) (M 0x2e1)) n z c m' tt) s) ->
  R (mkC a xx 0 sp 0x75a n z c m tt) s.
Proof.
  intros I Hs K. pose proof (proj1 I) as C. kins C.
  assert (U1 : u8 (sp - 1) = sp - 1) by (apply Z.mod_small; lia). assert (U2 : u8 (sp - 2) = sp - 2) by (apply Z.mod_small; lia). rewrite U1, U2.
  set (m2 := upd (upd m (256 + sp) _) (256 + (sp - 1)) _).
  assert (I2 : st k N M m2) by (unfold m2; apply st_upd; [apply st_upd; [exact I|lia]|lia]). clearbody m2. pose proof (proj1 I2) as C2. pose proof I2 as (_ & (A1 & A2 & A3) & _ & _ & _ & L).
  assert (Z1 : m2 1801 = 0) by lia. assert (Z2 : m2 1802 = 0) by lia. kins C2. rewrite Z1. kins C2. kins C2. rewrite Z2. kins C2. kins C2.
  rewrite !L by (unfold writable; lia). apply K. exact L.
Qed.
Hypothesis Hbytes : forall i, 0 <= getb x i < 256.
Lemma st_ext k p M M' m : st k p M m -> (forall a, writable a -> M a = M' a) -> st k p M' m.
Proof. intros (C & A & B & S0 & Bu & L) E. repeat (split; [assumption|]). intros a Ha. rewrite L by exact Ha. apply E. exact Ha. Qed.
(** $075A: a word of the executable; $FFFF is passed over. *)
Lemma first_word a xx sp n z c m k p M s : st k p M m -> 0x90 <= sp < 256 -> 0 <= k -> xx = p - 128 * k -> 0 <= xx <= 128 -> 0 <= p -> p + 1 < N ->
  (forall n z c m' k', st k' (p + 2) M m' -> 0 <= k' -> 0 <= p + 2 - 128 * k' <= 128 -> m' 0x43 = getb x p -> m' 0x44 = getb x (p + 1) ->
     R (mkC (getb x (p + 1)) (p + 2 - 128 * k') 0 sp 0x764 n z c m' tt) s) ->
  R (mkC a xx 0 sp 0x75a n z c m tt) s.
Proof.
  intros I Hs Hk Ex Hx Hp Hn K. pose proof (proj1 I) as C.
  eapply (next_byte 0x75a); [exact I|exact Hs|exact Hk|exact Ex|exact Hx|lia|lia|kfetch C|kfetch C|kfetch C|]. clear n z c C. intros n z c m1 k1 I1 Hk1 Hx1 _. change (0x75a + 3) with 0x75d.
  pose proof (proj1 I1) as C1. kins C1. pose proof (st_upd _ _ _ _ 67 (getb x p) I1 ltac:(lia)) as I2. assert (V : upd m1 67 (getb x p) 67 = getb x p) by apply upd_eq. set (m2 := upd m1 67 (getb x p)) in *. clearbody m2.
  pose proof (proj1 I2) as C2. eapply (next_byte 0x75f); [exact I2|exact Hs|exact Hk1|reflexivity|exact Hx1|lia|lia|kfetch C2|kfetch C2|kfetch C2|]. clear n z c C1 C2. intros n z c m3 k3 I3 Hk3 Hx3 E3. change (0x75f + 3) with 0x762.
  pose proof (proj1 I3) as C3. kins C3. pose proof (st_upd _ _ _ _ 68 (getb x (p + 1)) I3 ltac:(lia)) as I4. replace (p + 1 + 1) with (p + 2) in * by lia. apply K; [exact I4|exact Hk3|exact Hx3| |apply upd_eq].
  rewrite upd_neq by lia. rewrite E3 by lia. exact V.
Qed.
Lemma land_byte u v : 0 <= u < 256 -> 0 <= v < 256 -> (Z.land u v =? 255) = ((u =? 255) && (v =? 255)).
Proof.
  intros Hu Hv. destruct (Z.eqb_spec (Z.land u v) 255) as [E|N0].
  - assert (Eu : Z.land u 255 = 255) by (rewrite <- E, Z.land_assoc, Z.land_diag; reflexivity).
    assert (Ev : Z.land v 255 = 255) by (rewrite <- E, (Z.land_comm u v), Z.land_assoc, Z.land_diag; reflexivity).
    change 255 with (Z.ones 8) in Eu, Ev. rewrite Z.land_ones in Eu, Ev by lia. rewrite Z.mod_small in Eu, Ev by lia. change (Z.ones 8) with 255 in *. rewrite Eu, Ev. reflexivity.
  - destruct (Z.eqb_spec u 255) as [->|]; [|reflexivity]. destruct (Z.eqb_spec v 255) as [->|]; [|reflexivity]. exfalso. apply N0. reflexivity.
Qed.
Lemma mark a xx sp n z c m k p M s : st k p M m -> 0x90 <= sp < 256 -> 0 <= k -> xx = p - 128 * k -> 0 <= xx <= 128 -> 0 <= p -> p + 1 < N ->
  getb x p = 255 -> getb x (p + 1) = 255 ->
  (forall a n z c m' k', st k' (p + 2) M m' -> 0 <= k' -> 0 <= p + 2 - 128 * k' <= 128 -> R (mkC a (p + 2 - 128 * k') 0 sp 0x75a n z c m' tt) s) ->
  R (mkC a xx 0 sp 0x75a n z c m tt) s.
Proof.
  intros I Hs Hk Ex Hx Hp Hn E1 E2 K. eapply first_word; try eassumption. clear n z c. intros n z c m1 k1 I1 Hk1 Hx1 V1 V2. pose proof (proj1 I1) as C1.
  kins C1. rewrite V1, E1, E2. change (Z.land 255 255) with 255. kins C1. kins C1. apply K; assumption.
Qed.
Lemma header a xx sp n z c m k p M s : st k p M m -> 0x90 <= sp < 256 -> 0 <= k -> xx = p - 128 * k -> 0 <= xx <= 128 -> 0 <= p -> p + 3 < N ->
  ~ (getb x p = 255 /\ getb x (p + 1) = 255) ->
  (forall a n z c m' k', st k' (p + 4) M m' -> 0 <= k' -> 0 <= p + 4 - 128 * k' <= 128 ->
     m' 0x43 = getb x p -> m' 0x44 = getb x (p + 1) -> m' 0x45 = getb x (p + 2) -> m' 0x46 = getb x (p + 3) -> R (mkC a (p + 4 - 128 * k') 0 sp 0x774 n z c m' tt) s) ->
  R (mkC a xx 0 sp 0x75a n z c m tt) s.
Proof.
  intros I Hs Hk Ex Hx Hp Hn Nf K. eapply first_word; try eassumption; [lia|]. clear n z c. intros n z c m1 k1 I1 Hk1 Hx1 V1 V2. pose proof (proj1 I1) as C1.
  kins C1. rewrite V1. kins C1.
  kinsx C1 ltac:(replace (Z.land (getb x (p + 1)) (getb x p) =? 255) with false by (rewrite land_byte by apply Hbytes; lia)).
  match goal with |- context [mkC ?A _ _ _ _ ?F1 ?F2 ?F3 _ _] => generalize A F1 F2 F3 end. clear a n z c. intros a n z c.
  eapply (next_byte 0x76a); [exact I1|exact Hs|exact Hk1|reflexivity|exact Hx1|lia|lia|kfetch C1|kfetch C1|kfetch C1|]. clear a n z c C1. intros n z c m2 k2 I2 Hk2 Hx2 E2. change (0x76a + 3) with 0x76d.
  pose proof (proj1 I2) as C2. kins C2. pose proof (st_upd _ _ _ _ 69 (getb x (p + 2)) I2 ltac:(lia)) as I3.
  assert (W : upd m2 69 (getb x (p + 2)) 69 = getb x (p + 2) /\ upd m2 69 (getb x (p + 2)) 67 = getb x p /\ upd m2 69 (getb x (p + 2)) 68 = getb x (p + 1)).
  { rewrite upd_eq, !upd_neq by lia. rewrite !E2 by lia. auto. }
  set (m3 := upd m2 69 (getb x (p + 2))) in *. clearbody m3. destruct W as (W1 & W2 & W3).
  pose proof (proj1 I3) as C3. eapply (next_byte 0x76f); [exact I3|exact Hs|exact Hk2|reflexivity|exact Hx2|lia|lia|kfetch C3|kfetch C3|kfetch C3|]. clear n z c C2 C3. intros n z c m4 k4 I4 Hk4 Hx4 E4. change (0x76f + 3) with 0x772.
  pose proof (proj1 I4) as C4. kins C4. replace (p + 2 + 1 + 1) with (p + 4) in * by lia. replace (p + 2 + 1) with (p + 3) in * by lia.
  apply K; [apply st_upd; [exact I4|lia]|exact Hk4|exact Hx4| | | |apply upd_eq]; rewrite upd_neq by lia; rewrite E4 by lia; assumption.
Qed.
(** $0774: the bytes of a segment. *)
Definition put_data (o : Z) (d : list Z) (M : memory) : memory := fun a => if (o <=? a) && (a <? o + zlen d) then getb d (a - o) else M a.
Lemma data : forall d a sp n z c m k p M o s, st k p M m -> 0x90 <= sp < 256 -> 0 <= k -> 0 <= p - 128 * k <= 128 -> 0 <= p -> p + zlen d <= N ->
  d <> [] -> (forall i, 0 <= i < zlen d -> getb x (p + i) = getb d i) -> (forall b, o <= b < o + zlen d -> writable b) ->
  m 0x43 = o mod 256 -> m 0x44 = o / 256 -> m 0x45 = (o + zlen d - 1) mod 256 -> m 0x46 = (o + zlen d - 1) / 256 ->
  (forall a n z c m' k', st k' (p + zlen d) (put_data o d M) m' -> 0 <= k' -> 0 <= p + zlen d - 128 * k' <= 128 -> R (mkC a (p + zlen d - 128 * k') 0 sp 0x789 n z c m' tt) s) ->
  R (mkC a (p - 128 * k) 0 sp 0x774 n z c m tt) s.
Proof.
  induction d as [|v d IH]; intros a sp n z c m k p M o s I Hs Hk Hx Hp Hn Ne Eq Ld V1 V2 V3 V4 K; [congruence|]. clear Ne. rewrite zlen_cons in *. pose proof (zlen_nonneg d) as Zd.
  assert (Lo : writable o) by (apply Ld; lia). assert (Ll : writable (o + (1 + zlen d) - 1)) by (apply Ld; lia). assert (Ro : 0x2e0 <= o < 0xc000) by (unfold writable in Lo; lia).
  assert (Ev : getb x p = v) by (specialize (Eq 0 ltac:(lia)); rewrite Z.add_0_r in Eq; exact Eq).
  pose proof (proj1 I) as C. eapply (next_byte 0x774); [exact I|exact Hs|exact Hk|reflexivity|exact Hx|lia|lia|kfetch C|kfetch C|kfetch C|]. clear n z c C. intros n z c m1 k1 I1 Hk1 Hx1 E1. change (0x774 + 3) with 0x777.
  rewrite <- (E1 0x43) in V1 by lia. rewrite <- (E1 0x44) in V2 by lia. rewrite <- (E1 0x45) in V3 by lia. rewrite <- (E1 0x46) in V4 by lia. clear E1 m I. rewrite Ev.
  pose proof (proj1 I1) as C1.
  assert (Ad : u16 (le2 (m1 0x43) (m1 0x44) + 0) = o).
  { rewrite V1, V2. unfold le2. pose proof (Z.div_mod o 256 ltac:(lia)). transitivity (u16 o); [f_equal; lia|apply Z.mod_small; lia]. }
  kinsx C1 ltac:(rewrite Ad; replace (hardware o) with false by (unfold hardware; lia)).
  pose proof (st_load _ _ _ _ o v I1 Lo) as I2. rewrite <- (upd_neq m1 o v) in V1 by lia. rewrite <- (upd_neq m1 o v) in V2 by lia. rewrite <- (upd_neq m1 o v) in V3 by lia. rewrite <- (upd_neq m1 o v) in V4 by lia.
  set (m2 := upd m1 o v) in *. clearbody m2. clear Ad C1 I1. pose proof (proj1 I2) as C2.
  kins C2. rewrite V1.
  (* the compare at $077F *)
  assert (Cmp : forall m3 n z, st k1 (p + 1) (upd M o v) m3 -> m3 0x43 = (o + 1) mod 256 -> m3 0x44 = (o + 1) / 256 -> m3 0x45 = (o + (1 + zlen d) - 1) mod 256 -> m3 0x46 = (o + (1 + zlen d) - 1) / 256 ->
            R (mkC v (p + 1 - 128 * k1) 0 sp 0x77f n z c m3 tt) s).
  { clear n z C2 V1 V2 V3 V4 I2 m2. intros m3 n z I3 W1 W2 W3 W4. pose proof (proj1 I3) as C3. kins C3. kins C3. kins C3. kins C3.
    rewrite W1, W2, W3, W4. set (e := o + (1 + zlen d) - 1) in *.
    assert (Q : (0 <=? e / 256 - (o + 1) / 256 - (if (o + 1) mod 256 <=? e mod 256 then 0 else 1)) = (o + 1 <=? e)).
    { pose proof (Z.div_mod e 256 ltac:(lia)). pose proof (Z.div_mod (o + 1) 256 ltac:(lia)). pose proof (Z.mod_pos_bound e 256 ltac:(lia)). pose proof (Z.mod_pos_bound (o + 1) 256 ltac:(lia)).
      destruct (Z.leb_spec ((o + 1) mod 256) (e mod 256)); lia. }
    rewrite Q. destruct (Z.eqb_spec (zlen d) 0) as [Z0|Z1].
    - kinsx C3 ltac:(replace (o + 1 <=? e) with false by lia). destruct d as [|v2 d2]; [|rewrite zlen_cons in Z0; pose proof (zlen_nonneg d2); lia]. 
      replace (p + (1 + zlen [])) with (p + 1) in * by (change (@zlen Z []) with 0; lia). apply K; [|exact Hk1|exact Hx1].
      apply (st_ext _ _ _ _ _ I3). intros b Hb. unfold put_data, upd. change (zlen [v]) with 1. destruct (Z.eqb_spec b o) as [->|]; [replace ((o <=? o) && (o <? o + 1)) with true by lia; rewrite Z.sub_diag; reflexivity|].
      replace ((o <=? b) && (b <? o + 1)) with false by lia. reflexivity.
    - kinsx C3 ltac:(replace (o + 1 <=? e) with true by lia). eapply (IH _ _ _ _ _ m3 k1 (p + 1) (upd M o v) (o + 1)); [exact I3|exact Hs|exact Hk1|exact Hx1|lia|lia| | | |exact W1|exact W2| | |].
      + intros ->. apply Z1. reflexivity.
      + intros i Hi. replace (p + 1 + i) with (p + (1 + i)) by lia. rewrite Eq by lia. unfold getb. replace (Z.to_nat (1 + i)) with (S (Z.to_nat i)) by lia. reflexivity.
      + intros b Hb. apply Ld. lia.
      + rewrite W3. f_equal. unfold e. lia.
      + rewrite W4. f_equal. unfold e. lia.
      + intros a4 n4 z4 c4 m4 k4 I4 Hk4 Hx4. replace (p + 1 + zlen d) with (p + (1 + zlen d)) in * by lia. apply K; [|exact Hk4|exact Hx4].
        apply (st_ext _ _ _ _ _ I4). intros b Hb. unfold put_data, upd. rewrite zlen_cons. destruct (Z.eqb_spec b o) as [->|].
        * replace (o + 1 <=? o) with false by lia. cbn [andb]. replace ((o <=? o) && (o <? o + (1 + zlen d))) with true by lia. rewrite Z.sub_diag. reflexivity.
        * replace ((o <=? b) && (b <? o + (1 + zlen d))) with ((o + 1 <=? b) && (b <? o + 1 + zlen d)) by lia. destruct ((o + 1 <=? b) && (b <? o + 1 + zlen d)) eqn:Eb; [|reflexivity].
          unfold getb. replace (Z.to_nat (b - o)) with (S (Z.to_nat (b - (o + 1)))) by lia. reflexivity. }
  destruct (Z.eq_dec (o mod 256) 255) as [E255|N255].
  - rewrite E255. knorm. assert (D : (o + 1) mod 256 = 0 /\ (o + 1) / 256 = o / 256 + 1) by (Z.to_euclidean_division_equations; lia). destruct D as [D1 D2].
    assert (C3 : kcode (upd m2 67 0)) by (intros b H1 H2 H3; rewrite upd_neq by lia; apply C2; assumption). kins C3. kins C3. rewrite (upd_neq m2) by lia. rewrite V2.
    assert (Hu : u8 (o / 256 + 1) = o / 256 + 1) by (apply Z.mod_small; Z.to_euclidean_division_equations; lia). rewrite Hu. apply Cmp.
    + apply st_upd; [apply st_upd; [exact I2|lia]|lia].
    + rewrite upd_neq by lia. rewrite upd_eq. congruence.
    + rewrite upd_eq. congruence.
    + rewrite !upd_neq by lia. exact V3.
    + rewrite !upd_neq by lia. exact V4.
  - pose proof (Z.mod_pos_bound o 256 ltac:(lia)) as Mb. assert (Hu : u8 (o mod 256 + 1) = o mod 256 + 1) by (apply Z.mod_small; lia). rewrite Hu.
    assert (D : (o + 1) mod 256 = o mod 256 + 1 /\ (o + 1) / 256 = o / 256) by (Z.to_euclidean_division_equations; lia). destruct D as [D1 D2].
    assert (C3 : kcode (upd m2 67 (o mod 256 + 1))) by (intros b H1 H2 H3; rewrite upd_neq by lia; apply C2; assumption).
    kinsx C3 ltac:(replace (zero (o mod 256 + 1)) with false by (unfold zero; lia)). apply Cmp.
    + apply st_upd; [exact I2|lia].
    + rewrite upd_eq. congruence.
    + rewrite upd_neq by lia. congruence.
    + rewrite upd_neq by lia. exact V3.
    + rewrite upd_neq by lia. exact V4.
Qed.
(** $0789: a routine to call, if there is one. *)
Lemma init a xx sp n z c m k p M s : st k p M m -> 0x90 <= sp < 256 -> 0 <= xx < 256 ->
  (M 0x2e2 = 0 -> M 0x2e3 = 0 -> forall a n z c, R (mkC a xx 0 sp 0x75a n z c m tt) s) ->
  (~ (M 0x2e2 = 0 /\ M 0x2e3 = 0) -> exists M', subroutine img junk bus (le2 (M 0x2e2) (M 0x2e3)) M M' /\
     forall a n z c m', st k p (clear_init M') m' -> R (mkC a xx 0 sp 0x75a n z c m' tt) s) ->
  R (mkC a xx 0 sp 0x789 n z c m tt) s.
Proof.
  intros I Hs Hx K0 K1. pose proof (proj1 I) as C. pose proof I as (_ & _ & _ & _ & _ & L). assert (L1 : m 738 = M 738) by (apply L; unfold writable; lia). assert (L2 : m 739 = M 739) by (apply L; unfold writable; lia).
  kins C. kins C. rewrite L1, L2. destruct (Z.eq_dec (Z.lor (M 738) (M 739)) 0) as [E|NE].
  - rewrite E. kins C. apply Z.lor_eq_0_iff in E. apply K0; apply E.
  - kinsx C ltac:(replace (zero (Z.lor (M 738) (M 739))) with false by (unfold zero; lia)).
    destruct K1 as (M' & Sub & K); [intros E; apply NE, Z.lor_eq_0_iff; exact E|]. 
    kins C. pose proof (st_upd _ _ _ _ 0x19 xx I ltac:(lia)) as I1. assert (V : upd m 0x19 xx 0x19 = xx) by apply upd_eq. set (m1 := upd m 0x19 xx) in *. clearbody m1. pose proof (proj1 I1) as C1.
    kins C1. assert (U1 : u8 (sp - 1) = sp - 1) by (apply Z.mod_small; lia). assert (U2 : u8 (sp - 2) = sp - 2) by (apply Z.mod_small; lia). rewrite U1, U2.
    set (m2 := upd (upd m1 (256 + sp) _) (256 + (sp - 1)) _).
    assert (I2 : st k p M m2) by (unfold m2; apply st_upd; [apply st_upd; [exact I1|lia]|lia]).
    assert (V2 : m2 0x19 = xx) by (unfold m2; rewrite !upd_neq by lia; exact V).
    assert (W1 : m2 (256 + sp) = 7) by (unfold m2; rewrite upd_neq by lia; apply upd_eq). assert (W2 : m2 (256 + (sp - 1)) = 0x95) by apply upd_eq. clearbody m2. pose proof (proj1 I2) as C2.
    pose proof I2 as (_ & _ & _ & _ & _ & L'). kins C2. rewrite !L' by (unfold writable; lia).
    match goal with |- kev _ _ _ ?s0 _ => destruct (Sub s0) as (s' & Re & Rs & Pc & Lo & Wr) end; [reflexivity|cbn [rs]; lia|exact L'|]. cbn [rs mm] in *.
    enough (H : R s' s) by (destruct H as (t & Ht & Q); exists t; split; [|exact Q]; clear - Re Ht; unfold atari_reach in *; induction Re as [|u v w St Re IH]; [exact Ht|eapply reach_step; [exact St|apply IH; exact Ht]]).
    replace (256 + (sp - 2 + 1)) with (256 + (sp - 1)) in Pc by lia. replace (256 + (sp - 2 + 2)) with (256 + sp) in Pc by lia. rewrite W1, W2 in Pc. change (u16 (le2 0x95 7 + 1)) with 0x796 in Pc.
    destruct s' as [a3 x3 y3 sp3 q3 n3 z3 c3 m3 []]. cbn [rs pc mm] in *. subst q3. assert (sp3 = sp) by lia. subst sp3.
    assert (I3 : st k p M' m3).
    { destruct I2 as (D1 & (A1 & A2 & A3) & (B1 & B2 & B3 & B4 & B5 & B6 & B7) & (S1 & S2) & Bu & _). unfold st, kcode. rewrite !(Lo _) by (unfold loaders; lia).
      split; [intros b G1 G2 G3; rewrite Lo by (unfold loaders; lia); apply D1; assumption|]. split; [tauto|]. split; [tauto|]. split; [tauto|].
      split; [intros i G1 G2; rewrite Lo by (unfold loaders; lia); apply Bu; assumption|exact Wr]. }
    assert (V3 : m3 0x19 = xx) by (rewrite Lo by (unfold loaders; lia); exact V2). pose proof (proj1 I3) as C3. clear Lo Wr Re.
    kins C3. rewrite V3. kins C3. kins C3. pose proof (st_load _ _ _ _ 0x2e2 0 I3 ltac:(unfold writable; lia)) as I4. set (m4 := upd m3 0x2e2 0) in *. clearbody m4. pose proof (proj1 I4) as C4.
    kins C4. pose proof (st_load _ _ _ _ 0x2e3 0 I4 ltac:(unfold writable; lia)) as I5. set (m5 := upd m4 0x2e3 0) in *. clearbody m5. pose proof (proj1 I5) as C5. kins C5. replace (sp - 2 + 2) with sp by lia. apply K. exact I5.
Qed.
(** The pieces of an executable. *)
Definition placed (q : piece) : Prop :=
  match q with
  | PMark => True
  | PSeg o d => d <> [] /\ forall a, o <= a < o + zlen d -> writable a
  | _ => False
  end.
Lemma pieces_load : forall ps a xx sp n z c m k p M M', st k p M m -> 0x90 <= sp < 256 -> 0 <= k -> xx = p - 128 * k -> 0 <= xx <= 128 -> 0 <= p -> p + zlen (encode ps) = N ->
  (forall i, 0 <= i < zlen (encode ps) -> getb x (p + i) = getb (encode ps) i) -> Forall placed ps -> xex_loads (subroutine img junk bus) ps M M' ->
  R (mkC a xx 0 sp 0x75a n z c m tt) (fun s' => pc s' = le2 (M' 0x2e0) (M' 0x2e1) /\ rs s' = sp - 2 /\ forall b, writable b -> mm s' b = M' b).
Proof.
  induction ps as [|q ps IH]; intros a xx sp n z c m k p M M' I Hs Hk Ex Hx Hp Hn Eq F XL.
  - inversion XL; subst. change (zlen (encode [])) with 0 in Hn. assert (p = N) by lia. subst p. eapply no_byte; [exact I|exact Hs|]. clear a n z c. intros a n z c m' L. eexists. split; [apply reach_refl|]. cbn [pc rs mm]. split; [reflexivity|]. split; [reflexivity|exact L].
  - inversion F as [|y l Fq Fr]; subst y l. change (encode (q :: ps)) with (encode_piece q ++ encode ps) in *. rewrite zlen_app in *. pose proof (zlen_nonneg (encode ps)) as Z0.
    assert (Er : forall p', p' = p + zlen (encode_piece q) -> forall i, 0 <= i < zlen (encode ps) -> getb x (p' + i) = getb (encode ps) i).
    { intros p' -> i Hi. pose proof (zlen_nonneg (encode_piece q)). replace (p + zlen (encode_piece q) + i) with (p + (zlen (encode_piece q) + i)) by lia. rewrite Eq by lia. rewrite getb_app_r by lia. f_equal. lia. }
    destruct q as [|o d|y|l|o e d]; try (exfalso; exact Fq); cbn [encode_piece] in *.
    + change (zlen [255; 255]) with 2 in *. eapply mark; [exact I|exact Hs|exact Hk|exact Ex|exact Hx|exact Hp|lia| | |].
      * specialize (Eq 0 ltac:(lia)). rewrite Z.add_0_r in Eq. exact Eq.
      * apply (Eq 1). lia.
      * intros a1 n1 z1 c1 m1 k1 I1 Hk1 Hx1. assert (XL' : xex_loads (subroutine img junk bus) ps M M') by (inversion XL; assumption). eapply (IH _ _ _ _ _ _ m1 k1 (p + 2) M); [exact I1|exact Hs|exact Hk1|reflexivity|exact Hx1|lia|lia|apply Er; reflexivity|exact Fr|exact XL'].
    + destruct Fq as [Nd Ld]. pose proof (zlen_nonneg d) as Zd. assert (Z1 : 1 <= zlen d) by (destruct d; [congruence|rewrite zlen_cons in *; pose proof (zlen_nonneg d); lia]).
      assert (Lo : writable o) by (apply Ld; lia). assert (Le : writable (o + zlen d - 1)) by (apply Ld; lia). unfold writable in Lo, Le.
      rewrite !zlen_app in *. rewrite !zlen_put2 in *.
      assert (G : forall i, 0 <= i < zlen d -> getb x (p + 4 + i) = getb d i).
      { intros i Hi. replace (p + 4 + i) with (p + (4 + i)) by lia. rewrite Eq by lia. rewrite getb_app_l by (rewrite !zlen_app, !zlen_put2; lia). rewrite getb_app_r by (rewrite zlen_put2; lia). rewrite zlen_put2.
        rewrite getb_app_r by (rewrite zlen_put2; lia). rewrite zlen_put2. f_equal. lia. }
      assert (G4 : getb x p = o mod 256 /\ getb x (p + 1) = o / 256 /\ getb x (p + 2) = (o + zlen d - 1) mod 256 /\ getb x (p + 3) = (o + zlen d - 1) / 256).
      { assert (B : forall v, 0 <= v < 65536 -> u8 (v / 256) = v / 256) by (intros v Hv; apply Z.mod_small; Z.to_euclidean_division_equations; lia).
        pose proof (Eq 0 ltac:(lia)) as E0. rewrite Z.add_0_r in E0. pose proof (Eq 1 ltac:(lia)) as E1. pose proof (Eq 2 ltac:(lia)) as E2. pose proof (Eq 3 ltac:(lia)) as E3.
        rewrite E0, E1, E2, E3. unfold put2. cbn [app]. change (getb (?a :: ?l) 0) with a. change (getb (?a :: ?b :: ?l) 1) with b. change (getb (?a :: ?b :: ?c :: ?l) 2) with c. change (getb (?a :: ?b :: ?c :: ?d :: ?l) 3) with d.
        rewrite !B by lia. repeat split; reflexivity. }
      destruct G4 as (G0 & G1 & G2 & G3).
      eapply header; [exact I|exact Hs|exact Hk|exact Ex|exact Hx|exact Hp|lia| |].
      * rewrite G0, G1. intros [_ X]. assert (o / 256 < 192) by (apply Z.div_lt_upper_bound; lia). lia.
      * rewrite G0, G1, G2, G3. intros a1 n1 z1 c1 m1 k1 I1 Hk1 Hx1 W1 W2 W3 W4.
        eapply (data d); [exact I1|exact Hs|exact Hk1|exact Hx1|lia|lia|exact Nd|exact G|exact Ld|exact W1|exact W2|exact W3|exact W4|].
        clear a1 n1 z1 c1 m1 k1 I1 Hk1 Hx1 W1 W2 W3 W4. intros a1 n1 z1 c1 m1 k1 I1 Hk1 Hx1. change (put_data o d M) with (place_piece M (PSeg o d)) in I1.
        eapply init; [exact I1|exact Hs|lia| |]; clear a1 n1 z1 c1.
        -- intros Z2 Z3 a1 n1 z1 c1.
           assert (XL' : xex_loads (subroutine img junk bus) ps (place_piece M (PSeg o d)) M').
           { inversion XL as [|?|o' d' ps' m0 m0' mm1 X2 X3 X4|o' d' ps' m0 m2' m0' mm1 X2 X3 X4]; subst; [exact X4|]. exfalso. apply X2. split; assumption. }
           eapply (IH _ _ _ _ _ _ m1 k1 (p + 4 + zlen d)); [exact I1|exact Hs|exact Hk1|reflexivity|exact Hx1|lia|lia|apply Er; lia|exact Fr|exact XL'].
        -- intros NZ.
           assert (XL' : exists m2', subroutine img junk bus (le2 (place_piece M (PSeg o d) 0x2e2) (place_piece M (PSeg o d) 0x2e3)) (place_piece M (PSeg o d)) m2' /\ xex_loads (subroutine img junk bus) ps (clear_init m2') M').
           { inversion XL as [|?|o' d' ps' m0 m0' mm1 X2 X3 X4|o' d' ps' m0 m2' m0' mm1 X2 X3 X4]; subst; [exfalso; apply NZ; split; assumption|]. exists m2'. split; assumption. }
           destruct XL' as (M2 & Sub & XL'). exists M2. split; [exact Sub|]. intros a1 n1 z1 c1 m2 I2.
           eapply (IH _ _ _ _ _ _ m2 k1 (p + 4 + zlen d)); [exact I2|exact Hs|exact Hk1|reflexivity|exact Hx1|lia|lia|apply Er; lia|exact Fr|exact XL'].
Qed.
(** From the entry to the main loop. *)
Lemma kcode_upd m a v : kcode m -> a < 0x700 \/ 0x7e3 <= a -> kcode (upd m a v).
Proof. intros C Ha b H1 H2 H3. rewrite upd_neq by lia. apply C; assumption. Qed.
Ltac kst := match goal with C : kcode ?m |- kev _ _ _ (mkC _ _ _ _ _ _ _ _ ?m _) _ => kins C;
  try match goal with |- kev _ _ _ (mkC _ _ _ _ _ _ _ _ (upd m ?a ?v) _) _ => pose proof (kcode_upd m a v C ltac:(lia)) end end.
Lemma setup a xx y sp n z c m s : kcode m -> m 0x709 = N mod 256 -> m 0x70a = N / 256 -> 0x90 <= sp < 256 ->
  (forall a n z c m', st 0 0 (clear_init m) m' -> R (mkC a 0 0 sp 0x75a n z c m' tt) s) -> R (mkC a xx y sp 0x706 n z c m tt) s.
Proof.
  intros C V1 V2 Hs K. do 30 kst.
  match goal with |- kev _ _ _ (mkC _ _ _ _ _ _ _ _ ?mf _) _ => assert (I : st (-1) 0 (clear_init m) mf); [|generalize dependent mf] end.
  { match goal with |- context [u8 ?e] => generalize (u8 e) end. intros w. unfold st, kcode.
    split; [intros b G1 G2 G3; rewrite !upd_neq by lia; apply C; assumption|].
    split; [rewrite !upd_neq by lia; rewrite V1, V2; pose proof (Z.div_mod N 256 ltac:(lia)); pose proof (Z.mod_pos_bound N 256 ltac:(lia)); assert (N / 256 < 256) by (apply Z.div_lt_upper_bound; lia); assert (0 <= N / 256) by (apply Z.div_pos; lia); lia|].
    split; [repeat split; repeat (rewrite upd_neq by lia); apply upd_eq|].
    split; [split; repeat (rewrite upd_neq by lia); apply upd_eq|].
    split; [intros i G1 G2; lia|].
    intros b Hb. unfold writable in Hb. unfold clear_init. destruct (Z.eq_dec b 0x2e3) as [->|N3]; [rewrite upd_eq; repeat (rewrite upd_neq by lia); apply upd_eq|]. rewrite (upd_neq _ 0x2e3) by lia.
    destruct (Z.eq_dec b 0x2e2) as [->|N2]; [rewrite upd_eq; repeat (rewrite upd_neq by lia); apply upd_eq|]. rewrite !upd_neq by lia. reflexivity. }
  intros m1 _ I. pose proof (proj1 I) as C1. kins C1.
  assert (U1 : u8 (sp - 1) = sp - 1) by (apply Z.mod_small; lia). assert (U2 : u8 (sp - 2) = sp - 2) by (apply Z.mod_small; lia). rewrite U1, U2.
  set (m2 := upd (upd m1 (256 + sp) _) (256 + (sp - 1)) _).
  assert (I2 : st (-1) 0 (clear_init m) m2) by (unfold m2; apply st_upd; [apply st_upd; [exact I|lia]|lia]).
  assert (W1 : m2 (256 + sp) = 7) by (unfold m2; rewrite upd_neq by lia; apply upd_eq). assert (W2 : m2 (256 + (sp - 1)) = 0x58) by apply upd_eq. clearbody m2.
  eapply (next_sector _ _ _ (sp - 2) _ _ _ m2 (-1) 0 (clear_init m)); [exact I2|lia|lia|lia|]. intros a3 n3 z3 c3 m3 I3 F3. change (-1 + 1) with 0 in I3. pose proof (proj1 I3) as C3. kins C3. kins C3.
  kinsx C3 ltac:(replace (u8 (sp - 2 + 1)) with (sp - 1) by (symmetry; transitivity (u8 (sp - 1)); [f_equal; lia|exact U1]); replace (u8 (sp - 2 + 2)) with sp by (symmetry; transitivity (u8 sp); [f_equal; lia|apply Z.mod_small; lia])).
  rewrite (F3 (256 + sp)), (F3 (256 + (sp - 1))) by lia. rewrite W1, W2. knorm. change (u16 (le2 88 7 + 1)) with 0x759. kins C3. apply K. exact I3.
Qed.
(** The whole loader. *)
Lemma kboot_runs ps s M' : x = encode ps -> Forall placed ps -> (forall i, 0 <= i < 0xe3 -> i <> 9 -> i <> 10 -> getb img (16 + i) = getb xexboot_header i) ->
  getb img 25 = N mod 256 -> getb img 26 = N / 256 -> booted img s -> xex_loads (subroutine img junk bus) ps (clear_init (mm s)) M' ->
  exists s', atari_reach img junk bus s s' /\ pc s' = le2 (M' 0x2e0) (M' 0x2e1) /\ rs s' = rs s - 2 /\ forall b, writable b -> mm s' b = M' b.
Proof.
  intros Ex F Cd V1 V2 (Ep & Hs & B) XL. pose proof (Cd 1 ltac:(lia) ltac:(lia) ltac:(lia)) as B17. pose proof (Cd 2 ltac:(lia) ltac:(lia) ltac:(lia)) as B18. pose proof (Cd 3 ltac:(lia) ltac:(lia) ltac:(lia)) as B19.
  change (getb img 17 = 3) in B17. change (getb img 18 = 0) in B18. change (getb img 19 = 7) in B19. rewrite B18, B19 in Ep. rewrite B17, B18, B19 in B. change (le2 0 7) with 0x700 in *. change (128 * 3) with 384 in *.
  destruct s as [a xx y sp q n z c m d]. cbn [pc rs mm] in *. subst q. destruct d.
  assert (Bm : forall b, 0x700 <= b < 0x880 -> m b = getb img (16 + (b - 0x700))) by (intros b Hb; rewrite <- B by lia; f_equal; lia).
  eapply (setup a xx y sp n z c m).
  - intros b H1 H2 H3. rewrite Bm by lia. apply Cd; lia.
  - rewrite Bm by lia. exact V1.
  - rewrite Bm by lia. exact V2.
  - exact Hs.
  - clear a n z c. intros a n z c m' I. eapply (pieces_load ps a 0 sp n z c m' 0 0 (clear_init m)); [exact I|exact Hs|lia|lia|lia|lia|rewrite <- Ex; lia|intros i Hi; rewrite <- Ex; f_equal; lia|exact F|exact XL].
Qed.
End Load.

(** Without routines to call, loading is placing the segments. *)
Definition calm (q : piece) : Prop :=
  match q with PMark => True | PSeg o d => forall a, 0x2e2 <= a < 0x2e4 -> ~ o <= a < o + zlen d | _ => False end.
Lemma calm_loads call ps : Forall calm ps -> forall m, m 0x2e2 = 0 -> m 0x2e3 = 0 -> xex_loads call ps m (xex_memory ps m).
Proof.
  intros F. induction F as [|q ps Cq _ IH]; intros m Z2 Z3; [constructor|]. destruct q as [|o d|y|l|o e d]; try contradiction Cq.
  - constructor. apply IH; assumption.
  - assert (E : forall a, 0x2e2 <= a < 0x2e4 -> place_piece m (PSeg o d) a = m a).
    { intros a Ha. specialize (Cq a Ha). cbn [place_piece]. destruct (_ && _) eqn:Q; [|reflexivity]. exfalso. apply Cq. lia. }
    apply XL_seg; [rewrite E by lia; exact Z2|rewrite E by lia; exact Z3|]. apply (IH (place_piece m (PSeg o d))); rewrite E by lia; assumption.
Qed.
Lemma xex_memory_ext (P : Z -> Prop) ps : forall M M', (forall a, P a -> M a = M' a) -> forall a, P a -> xex_memory ps M a = xex_memory ps M' a.
Proof.
  induction ps as [|q ps IH]; intros M M' E a Ha; [apply E; exact Ha|]. unfold xex_memory in *. cbn [fold_left]. apply IH; [|exact Ha]. intros b Hb. destruct q; cbn [place_piece]; try (apply E; exact Hb).
  destruct (_ && _); [reflexivity|apply E; exact Hb].
Qed.
