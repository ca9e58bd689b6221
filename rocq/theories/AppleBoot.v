(** The machine code of the Standard Delivery loader interprets the command list. *)
From Verif Require Import Base BaseLemmas SdModel SdSpec CpuModel AppleSpec.

Lemma upd_eq m a v : upd m a v a = v.
Proof. unfold upd. rewrite Z.eqb_refl. reflexivity. Qed.
Lemma upd_neq m a v b : b <> a -> upd m a v b = m b.
Proof. intros H. unfold upd. destruct (Z.eqb_spec b a); [contradiction|reflexivity]. Qed.

(** Normalise closed subterms. *)
Ltac lit t := lazymatch t with
  | Z0 => idtac | Zpos _ => idtac | Zneg _ => idtac
  | Z.add ?a ?b => lit a; lit b | Z.sub ?a ?b => lit a; lit b | Z.mul ?a ?b => lit a; lit b
  | Z.div ?a ?b => lit a; lit b | Z.modulo ?a ?b => lit a; lit b | Z.land ?a ?b => lit a; lit b
  | u8 ?a => lit a | u16 ?a => lit a | le2 ?a ?b => lit a; lit b | rel ?a ?b => lit a; lit b end.
Ltac closed1 t e := lit e; let v := eval vm_compute in t in change t with v.
Ltac closed2 t e f := lit e; lit f; let v := eval vm_compute in t in change t with v.
Ltac norm := repeat match goal with
  | |- context [u16 ?e] => closed1 (u16 e) e
  | |- context [u8 ?e] => closed1 (u8 e) e
  | |- context [le2 ?e ?f] => closed2 (le2 e f) e f
  | |- context [rel ?e ?f] => closed2 (rel e f) e f
  | |- context [io_page ?e] => closed1 (io_page e) e
  | |- context [neg ?e] => closed1 (neg e) e
  | |- context [zero ?e] => closed1 (zero e) e
  | |- context [Z.eqb ?e ?f] => closed2 (Z.eqb e f) e f
  | |- context [Z.leb ?e ?f] => closed2 (Z.leb e f) e f
  | |- context [Z.land ?e ?f] => closed2 (Z.land e f) e f
  | |- context [Z.div ?e ?f] => closed2 (Z.div e f) e f
  | |- context [Z.modulo ?e ?f] => closed2 (Z.modulo e f) e f
  end.

Definition code (op ptr : Z) (m : memory) : Prop :=
  forall a, 0x800 <= a < 0x885 -> m a = if a =? 0x80b then op else if a =? 0x81a then ptr else getb fstbt (a - 0x800).
Lemma byte_at op ptr m : code op ptr m -> forall a v, (0x800 <=? a) && (a <? 0x885) && negb (a =? 0x80b) && negb (a =? 0x81a) && (getb fstbt (a - 0x800) =? v) = true -> m a = v.
Proof. intros C a v H. rewrite C by lia. destruct (Z.eqb_spec a 0x80b); [lia|]. destruct (Z.eqb_spec a 0x81a); lia. Qed.
Lemma byte_op op ptr m : code op ptr m -> m 0x80b = op.
Proof. intros C. apply (C 0x80b). lia. Qed.
Lemma byte_ptr op ptr m : code op ptr m -> m 0x81a = ptr.
Proof. intros C. apply (C 0x81a). lia. Qed.

(** A state with [Q] is reached. *)
Definition ev (slot : Z) (img : list Z) (junk : cpu apple -> Z -> Z) (bus : apple -> Z -> Z) (s : cpu apple) (Q : cpu apple -> Prop) : Prop :=
  exists s', apple_reach slot img junk bus s s' /\ Q s'.

Section Boot.
Variables (slot : Z) (img : list Z) (junk : cpu apple -> Z -> Z) (bus : apple -> Z -> Z).
Hypothesis Hslot : 1 <= slot <= 7.
Notation R := (ev slot img junk bus).
Notation exc := (exec apple io_page (fun d a => (bus d a, access slot d a)) (fun d a _ => access slot d a)).

Lemma rom_none s : 0x800 <= pc s < 0x900 -> apple_rom slot img junk s = None.
Proof.
  intros H. unfold apple_rom. destruct (Z.eqb_spec (pc s) 0xf87b); [lia|]. destruct (Z.eqb_spec (pc s) 0xfca8); [lia|].
  destruct (Z.eqb_spec (pc s) (0xc05c + 256 * slot)); [lia|]. reflexivity.
Qed.
Lemma go s s1 s2 op o1 o2 : 0x800 <= pc s < 0x8f0 -> mm s (pc s) = op -> mm s (pc s + 1) = o1 -> mm s (pc s + 2) = o2 ->
  exc s op o1 o2 = Some s1 -> R s1 s2 -> R s s2.
Proof.
  intros H A B C E (s' & K & Q). exists s'. split; [|exact Q]. eapply reach_step; [|exact K]. unfold step. rewrite rom_none by lia. unfold u16. rewrite !Z.mod_small by lia. rewrite A, B, C. exact E.
Qed.
End Boot.

Ltac fetch C := cbn [mm pc]; lazymatch goal with |- ?m ?e = _ => let a := eval vm_compute in e in change e with a;
  lazymatch a with
  | 0x80b => exact (byte_op _ _ _ C)
  | 0x81a => exact (byte_ptr _ _ _ C)
  | _ => let v := eval vm_compute in (getb fstbt (a - 0x800)) in exact (byte_at _ _ _ C a v eq_refl)
  end end.
Ltac red1 := cbv beta iota zeta delta [exec rd wr set_a set_x set_y compare store modify goto branch push ra rx ry rs pc fn fz fc mm dv fst snd negb]; norm;
  cbv beta iota zeta delta [fst snd negb]; norm.
Ltac insx H C tac := eapply (go _ _ _ _ H); [cbn [pc]; lia | fetch C | fetch C | fetch C | red1; tac; cbv iota; reflexivity |].
Ltac ins H C := eapply (go _ _ _ _ H); [cbn [pc]; lia | fetch C | fetch C | fetch C | red1; reflexivity |].

Section Boot2.
Variables (slot : Z) (img : list Z) (junk : cpu apple -> Z -> Z) (bus : apple -> Z -> Z).
Hypothesis Hslot : 1 <= slot <= 7.
Notation R := (ev slot img junk bus).

(** The arm is on track [t], $40 holds [h], page [page] the next to be filled, [M] the memory
    of the specification; [ptr] points before the next command, [op] is the opcode at
    $080B. *)
Definition inv (op ptr t h page : Z) (M : mem) (m : memory) : Prop :=
  code op ptr m /\ (forall a, 0x885 <= a < 0x900 -> m a = getb img (a - 0x800)) /\
  m 0x26 = 0 /\ m 0x27 = page /\ m 0x2b = 16 * slot /\ m 0x40 = h /\ m 0x41 = t /\
  forall a, spare a -> m a = M a.
Definition dev (t : Z) (pg : bool) (d : apple) : Prop :=
  head d = 2 * t /\ (forall q, 0 <= q < 4 -> magnet d q = (q =? (2 * t) mod 4)) /\
  graphics d = true /\ whole d = true /\ hires d = true /\ second d = pg.

Lemma inv_upd op ptr t h page M m a v : inv op ptr t h page M m -> (a = 0x3d \/ a = 0xfe \/ 0x100 <= a < 0x200) -> inv op ptr t h page M (upd m a v).
Proof.
  intros (C & B & H1 & H2 & H3 & H4 & H5 & S0) Ha. unfold inv, code. repeat split; try (rewrite upd_neq by lia; assumption).
  - intros b Hb. rewrite upd_neq by lia. apply C. exact Hb.
  - intros b Hb. rewrite upd_neq by lia. apply B. exact Hb.
  - intros b Hb. rewrite upd_neq by (unfold spare in Hb; lia). apply S0. exact Hb.
Qed.
Lemma not_spare_8 b x : spare b -> b / 256 <> 8 -> 0x800 <= x < 0x900 -> b <> x.
Proof. intros H N Hx ->. apply N. Z.to_euclidean_division_equations. lia. Qed.
Lemma inv_ptr op ptr t h page M m v : inv op ptr t h page M m -> inv op v t h page M (upd m 0x81a v).
Proof.
  intros (C & B & H1 & H2 & H3 & H4 & H5 & S0). unfold inv, code. repeat split; try (rewrite upd_neq by lia; assumption).
  - intros b Hb. unfold upd. destruct (Z.eqb_spec b 2074) as [->|]; [reflexivity|]. rewrite C by exact Hb. destruct (Z.eqb_spec b 2074); [contradiction|reflexivity].
  - intros b Hb. rewrite upd_neq by lia. apply B. exact Hb.
  - intros b Hb. rewrite upd_neq by (apply not_spare_8; [exact Hb|apply Hb|lia]). apply S0. exact Hb.
Qed.
Lemma inv_op op ptr t h page M m v : inv op ptr t h page M m -> inv v ptr t h page M (upd m 0x80b v).
Proof.
  intros (C & B & H1 & H2 & H3 & H4 & H5 & S0). unfold inv, code. repeat split; try (rewrite upd_neq by lia; assumption).
  - intros b Hb. unfold upd. destruct (Z.eqb_spec b 2059) as [->|]; [reflexivity|]. rewrite C by exact Hb. destruct (Z.eqb_spec b 2059); [contradiction|reflexivity].
  - intros b Hb. rewrite upd_neq by lia. apply B. exact Hb.
  - intros b Hb. rewrite upd_neq by (apply not_spare_8; [exact Hb|apply Hb|lia]). apply S0. exact Hb.
Qed.
Lemma inv_page op ptr t h page M m v : inv op ptr t h page M m -> inv op ptr t h v M (upd m 0x27 v).
Proof.
  intros (C & B & H1 & H2 & H3 & H4 & H5 & S0). unfold inv, code. repeat split; try (rewrite upd_neq by lia; assumption); try apply upd_eq.
  - intros b Hb. rewrite upd_neq by lia. apply C. exact Hb.
  - intros b Hb. rewrite upd_neq by lia. apply B. exact Hb.
  - intros b Hb. rewrite upd_neq by (unfold spare in Hb; lia). apply S0. exact Hb.
Qed.

(** From $0816: the next command is in the accumulator at $081C. *)
Lemma next_command a x y sp n z c m d ptr t h page M s : inv 0xd0 ptr t h page M m -> 0x86 <= ptr < 255 ->
  (forall n z m', inv 0xd0 (ptr + 1) t h page M m' -> R (mkC (getb img (ptr + 1)) x y sp 0x81c n z c m' d) s) ->
  R (mkC a x y sp 0x816 n z c m d) s.
Proof.
  intros I P K. pose proof (proj1 I) as C. ins Hslot C. rewrite (byte_ptr _ _ _ C). replace (u8 (ptr + 1)) with (ptr + 1) by (symmetry; apply Z.mod_small; lia).
  pose proof (inv_ptr _ _ _ _ _ _ _ (ptr + 1) I) as I'. pose proof (proj1 I') as C'. set (m' := upd m 2074 (ptr + 1)) in *. clearbody m'.
  insx Hslot C' ltac:(replace (io_page (le2 (ptr + 1) 8)) with false by (unfold io_page, le2; lia)).
  replace (m' (le2 (ptr + 1) 8)) with (getb img (ptr + 1)).
  - apply K. exact I'.
  - symmetry. destruct I' as (_ & B & _). unfold le2. replace (ptr + 1 + 256 * 8) with (2048 + (ptr + 1)) by lia. rewrite B by lia. f_equal. lia.
Qed.

(** What the command does. *)
Lemma cmd_end x y sp n z c m d ptr t h page M s : inv 0xd0 ptr t h page M m ->
  (forall n z c, R (mkC 0xc0 x y sp (le2 (getb img 0x85) (getb img 0x86)) n z c m d) s) -> R (mkC 0xc0 x y sp 0x81c n z c m d) s.
Proof.
  intros I K. pose proof (proj1 I) as C. destruct I as (_ & B & _). ins Hslot C. ins Hslot C.
  eapply (go _ _ _ _ Hslot); [cbn [pc]; lia|exact (byte_at _ _ _ C 0x884 0x4c eq_refl)|cbn [mm pc]; apply (B 0x885); lia|cbn [mm pc]; apply (B 0x886); lia|red1; reflexivity|]. apply K.
Qed.
Lemma cmd_d0 x y sp n z c m d ptr t h page M s : inv 0xd0 ptr t h page M m ->
  (forall a n z c, R (mkC a x y sp 0x816 n z c m d) s) -> R (mkC 0xd0 x y sp 0x81c n z c m d) s.
Proof. intros I K. pose proof (proj1 I) as C. do 4 ins Hslot C. apply K. Qed.
Lemma cmd_d1 x y sp n z c m d ptr t h page pg M s : inv 0xd0 ptr t h page M m -> dev t pg d ->
  (forall a n z c d', dev t false d' -> R (mkC a x y sp 0x816 n z c m d') s) -> R (mkC 0xd1 x y sp 0x81c n z c m d) s.
Proof. intros I Dv K. pose proof (proj1 I) as C. do 8 ins Hslot C. apply K. unfold dev in *. cbn. tauto. Qed.
Lemma cmd_d2 x y sp n z c m d ptr t h page pg M s : inv 0xd0 ptr t h page M m -> dev t pg d ->
  (forall a n z c d', dev t true d' -> R (mkC a x y sp 0x816 n z c m d') s) -> R (mkC 0xd2 x y sp 0x81c n z c m d) s.
Proof. intros I Dv K. pose proof (proj1 I) as C. do 10 ins Hslot C. apply K. unfold dev in *. cbn. tauto. Qed.
Lemma land31 v : 0xe0 <= v < 256 -> Z.land v 31 = v - 0xe0.
Proof. intros H. change 31 with (Z.ones 5). rewrite Z.land_ones by lia. change (2 ^ 5) with 32. Z.to_euclidean_division_equations. lia. Qed.
Lemma cmd_page v x y sp n z c m d ptr t h page M s : inv 0xd0 ptr t h page M m -> 4 <= v < 0xc0 ->
  (forall n z c m', inv 0xd0 ptr t h v M m' -> R (mkC v x y sp 0x847 n z c m' d) s) -> R (mkC v x y sp 0x81c n z c m d) s.
Proof.
  intros I V K. pose proof (proj1 I) as C. assert (E1 : (v =? 0xc0) = false) by lia. assert (E2 : (v =? 0xd0) = false) by lia. assert (E3 : (v =? 0xd1) = false) by lia. assert (E4 : (v =? 0xd2) = false) by lia. assert (E5 : (0xe0 <=? v) = false) by lia.
  ins Hslot C. rewrite E1. ins Hslot C. ins Hslot C. rewrite E2. ins Hslot C. ins Hslot C. rewrite E3. ins Hslot C. ins Hslot C. rewrite E4. ins Hslot C. ins Hslot C. rewrite E5. ins Hslot C.
  ins Hslot C. apply K. apply (inv_page _ _ _ _ _ _ _ v I).
Qed.
Lemma cmd_more v x y sp n z c m d ptr t h page M s : inv 0xd0 ptr t h page M m -> 0xe0 <= v < 256 ->
  (forall a n z c m', inv 0x24 ptr t h page M m' -> m' 0xfe = v - 0xe0 -> R (mkC a x y sp 0x80b n z c m' d) s) -> R (mkC v x y sp 0x81c n z c m d) s.
Proof.
  intros I V K. pose proof (proj1 I) as C. assert (E1 : (v =? 0xc0) = false) by lia. assert (E2 : (v =? 0xd0) = false) by lia. assert (E3 : (v =? 0xd1) = false) by lia. assert (E4 : (v =? 0xd2) = false) by lia. assert (E5 : (0xe0 <=? v) = true) by lia.
  ins Hslot C. rewrite E1. ins Hslot C. ins Hslot C. rewrite E2. ins Hslot C. ins Hslot C. rewrite E3. ins Hslot C. ins Hslot C. rewrite E4. ins Hslot C. ins Hslot C. rewrite E5. ins Hslot C.
  ins Hslot C. rewrite land31 by exact V. ins Hslot C. pose proof (inv_upd _ _ _ _ _ _ _ 0xfe (v - 0xe0) I ltac:(lia)) as I1. pose proof (proj1 I1) as C1.
  ins Hslot C1. ins Hslot C1. pose proof (inv_op _ _ _ _ _ _ _ 0x24 I1) as I2. pose proof (proj1 I2) as C2. ins Hslot C2. apply K; [exact I2|]. rewrite upd_neq by lia. apply upd_eq.
Qed.

(** Magnet [h mod 4] of the drive on or off. *)
Lemma lor_slot v : 0 <= v < 8 -> Z.lor v (16 * slot) = 16 * slot + v.
Proof.
  intros Hv. assert (H : forallb (fun s => forallb (fun v => Z.lor v (16 * s) =? 16 * s + v) (zrange 0 8)) (zrange 1 8) = true) by reflexivity.
  rewrite forallb_forall in H. specialize (H slot ltac:(apply In_zrange; lia)). rewrite forallb_forall in H. specialize (H v ltac:(apply In_zrange; lia)). lia.
Qed.
Lemma land3 v : 0 <= v -> Z.land v 3 = v mod 4.
Proof. intros H. change 3 with (Z.ones 2). rewrite Z.land_ones by lia. reflexivity. Qed.
Lemma go_rom s s1 s2 : apple_rom slot img junk s = Some (Some s1) -> R s1 s2 -> R s s2.
Proof. intros E (s' & K & Q). exists s'. split; [|exact Q]. eapply reach_step; [|exact K]. unfold step. rewrite E. reflexivity. Qed.
Lemma u8s v : 0 <= v < 256 -> u8 v = v.
Proof. intros H. apply Z.mod_small. exact H. Qed.
Lemma phase a x y rs n z c m d op ptr t h page M s : inv op ptr t h page M m -> 0 <= h < 256 -> 0 <= rs < 254 ->
  (forall y n' z', R (mkC 0 x y (rs + 2) (u16 (le2 (m (257 + rs)) (m (258 + rs)) + 1)) n' z' true (upd m (256 + rs) 1) (set_magnet d (h mod 4) c)) s) ->
  R (mkC a x y rs 0x874 n z c m d) s.
Proof.
  intros I Hh Hs K. pose proof (proj1 I) as C. destruct I as (_ & _ & _ & _ & H2b & H40 & _). pose proof (Z.mod_pos_bound h 4 ltac:(lia)) as Hm.
  ins Hslot C. rewrite H40. ins Hslot C. rewrite land3 by lia. insx Hslot C idtac. rewrite (u8s (2 * (h mod 4) + _)) by (destruct c; lia). set (v := 2 * (h mod 4) + (if c then 1 else 0)).
  assert (Hv : 0 <= v < 8) by (unfold v; destruct c; lia). ins Hslot C. rewrite H2b, lor_slot by exact Hv. ins Hslot C.
  insx Hslot C ltac:(replace (u16 (49280 + (16 * slot + v))) with (49280 + 16 * slot + v) by (unfold u16; rewrite Z.mod_small by lia; lia); replace (io_page (49280 + 16 * slot + v)) with true by (unfold io_page; lia)).
  ins Hslot C. ins Hslot C.
  eapply go_rom; [reflexivity|]. unfold rom_wait, return_to. cbn [ra rx ry CpuModel.rs pc mm dv]. rewrite (u8s (rs + 1)), (u8s (rs + 2)) by lia.
  replace (256 + (rs + 1)) with (257 + rs) by lia. replace (256 + (rs + 2)) with (258 + rs) by lia.
  replace (access slot d (49280 + 16 * slot + v)) with (set_magnet d (h mod 4) c); [apply K|].
  unfold access. repeat match goal with |- context [?e =? ?f] => lazymatch f with Zpos _ => destruct (Z.eqb_spec e f); [lia|] end end.
  cbv zeta. replace (49280 + 16 * slot + v - (49280 + 16 * slot)) with v by lia. replace ((0 <=? v) && (v <? 8)) with true by lia.
  replace (v / 2) with (h mod 4) by (unfold v; destruct c; Z.to_euclidean_division_equations; lia).
  replace (v mod 2 =? 1) with c; [reflexivity|]. unfold v. destruct c; symmetry; [apply Z.eqb_eq|apply Z.eqb_neq]; Z.to_euclidean_division_equations; lia.
Qed.

(** The arm moves to the next track. *)
Definition stepped (d : apple) (t : Z) : apple :=
  set_magnet (set_magnet (set_magnet (set_magnet d ((2 * t) mod 4) false) ((2 * t + 1) mod 4) true) ((2 * t + 1) mod 4) false) ((2 * t + 2) mod 4) true.
Lemma set_off d h p pg : 0 <= p < 4 -> head d = h -> (forall q, 0 <= q < 4 -> magnet d q = (q =? p)) ->
  graphics d = true /\ whole d = true /\ hires d = true /\ second d = pg ->
  head (set_magnet d p false) = h /\ (forall q, 0 <= q < 4 -> magnet (set_magnet d p false) q = false) /\
  graphics (set_magnet d p false) = true /\ whole (set_magnet d p false) = true /\ hires (set_magnet d p false) = true /\ second (set_magnet d p false) = pg.
Proof.
  intros Hp Hh M X. assert (A : forall q, 0 <= q < 4 -> magnet (set_magnet d p false) q = false).
  { intros q Hq. unfold set_magnet. cbn [magnet]. destruct (Z.eqb_spec q p) as [|N]; [reflexivity|]. rewrite M by exact Hq. destruct (Z.eqb_spec q p); [contradiction|reflexivity]. }
  split; [|split; [exact A|exact X]]. unfold set_magnet at 1. cbn [head]. rewrite Hh. unfold pulled. unfold set_magnet in A. cbn [magnet] in A.
  rewrite (A (h mod 4)), (A ((h + 1) mod 4)), (A ((h - 1) mod 4)) by (apply Z.mod_pos_bound; lia). reflexivity.
Qed.
Lemma set_on d h pg : head d = h -> (forall q, 0 <= q < 4 -> magnet d q = false) ->
  graphics d = true /\ whole d = true /\ hires d = true /\ second d = pg -> let d' := set_magnet d ((h + 1) mod 4) true in
  head d' = h + 1 /\ (forall q, 0 <= q < 4 -> magnet d' q = (q =? (h + 1) mod 4)) /\ graphics d' = true /\ whole d' = true /\ hires d' = true /\ second d' = pg.
Proof.
  intros Hh M X d'. assert (A : forall q, 0 <= q < 4 -> magnet d' q = (q =? (h + 1) mod 4)).
  { intros q Hq. unfold d', set_magnet. cbn [magnet]. destruct (Z.eqb_spec q ((h + 1) mod 4)) as [|N]; [reflexivity|]. apply M. exact Hq. }
  split; [|split; [exact A|exact X]]. unfold d', set_magnet at 1. cbn [head]. rewrite Hh. unfold pulled. unfold d', set_magnet in A. cbn [magnet] in A.
  rewrite (A (h mod 4)), (A ((h + 1) mod 4)), (A ((h - 1) mod 4)) by (apply Z.mod_pos_bound; lia). rewrite Z.eqb_refl.
  destruct (Z.eqb_spec (h mod 4) ((h + 1) mod 4)) as [E|_]; [exfalso; revert E; Z.to_euclidean_division_equations; lia|].
  destruct (Z.eqb_spec ((h - 1) mod 4) ((h + 1) mod 4)) as [E|_]; [exfalso; revert E; Z.to_euclidean_division_equations; lia|]. reflexivity.
Qed.
Lemma mod4 x : 0 <= x mod 4 < 4.
Proof. apply Z.mod_pos_bound. reflexivity. Qed.
Lemma dev_step d t pg : dev t pg d -> dev (t + 1) pg (stepped d t).
Proof.
  intros (H & Mg & X). unfold stepped.
  destruct (set_off d (2 * t) ((2 * t) mod 4) pg (mod4 _) H Mg X) as (H1 & M1 & X1). generalize dependent (set_magnet d ((2 * t) mod 4) false). intros d1 H1 M1 X1.
  destruct (set_on _ (2 * t) pg H1 M1 X1) as (H2 & M2 & X2). generalize dependent (set_magnet d1 ((2 * t + 1) mod 4) true). intros d2 H2 M2 X2.
  destruct (set_off d2 (2 * t + 1) ((2 * t + 1) mod 4) pg (mod4 _) H2 M2 X2) as (H3 & M3 & X3). generalize dependent (set_magnet d2 ((2 * t + 1) mod 4) false). intros d3 H3 M3 X3.
  pose proof (set_on _ (2 * t + 1) pg H3 M3 X3) as F. cbv zeta in F. assert (E1 : 2 * t + 1 + 1 = 2 * t + 2) by ring. rewrite E1 in F. unfold dev. assert (E2 : 2 * (t + 1) = 2 * t + 2) by ring. rewrite E2. exact F.
Qed.
Lemma inv_track op ptr t h page M m u : inv op ptr t h page M m -> inv op ptr u h page M (upd m 0x41 u).
Proof.
  intros (C & B & H1 & H2 & H3 & H4 & H5 & S0). unfold inv, code. repeat split; try (rewrite upd_neq by lia; assumption); try apply upd_eq.
  - intros b Hb. rewrite upd_neq by lia. apply C. exact Hb.
  - intros b Hb. rewrite upd_neq by lia. apply B. exact Hb.
  - intros b Hb. rewrite upd_neq by (unfold spare in Hb; lia). apply S0. exact Hb.
Qed.
Lemma inv_half op ptr t h page M m u : inv op ptr t h page M m -> inv op ptr t u page M (upd m 0x40 u).
Proof.
  intros (C & B & H1 & H2 & H3 & H4 & H5 & S0). unfold inv, code. repeat split; try (rewrite upd_neq by lia; assumption); try apply upd_eq.
  - intros b Hb. rewrite upd_neq by lia. apply C. exact Hb.
  - intros b Hb. rewrite upd_neq by lia. apply B. exact Hb.
  - intros b Hb. rewrite upd_neq by (unfold spare in Hb; lia). apply S0. exact Hb.
Qed.
(** From $086F: off, on. *)
Lemma half_step a x y rs n z m d op ptr t h page M s : inv op ptr t h page M m -> 0 <= h < 255 -> 6 <= rs < 254 ->
  (forall y n z m', inv op ptr t (h + 1) page M m' -> m' 0xfe = m 0xfe -> (forall b, 256 + rs < b < 512 -> m' b = m b) ->
     R (mkC 0 x y (rs + 2) (u16 (le2 (m (257 + rs)) (m (258 + rs)) + 1)) n z true m' (set_magnet (set_magnet d (h mod 4) false) ((h + 1) mod 4) true)) s) ->
  R (mkC a x y rs 0x86f n z false m d) s.
Proof.
  intros I Hh Hs K. pose proof (proj1 I) as C. ins Hslot C. rewrite (u8s (rs - 1)), (u8s (rs - 2)) by lia.
  pose proof (inv_upd _ _ _ _ _ _ _ (256 + rs) 8 I ltac:(lia)) as I1. pose proof (inv_upd _ _ _ _ _ _ _ (256 + (rs - 1)) 113 I1 ltac:(lia)) as I2.
  eapply phase; [exact I2|lia|lia|]. intros y1 n1 z1. rewrite (upd_neq _ _ _ (258 + (rs - 2))) by lia. replace (258 + (rs - 2)) with (256 + rs) by lia. replace (257 + (rs - 2)) with (256 + (rs - 1)) by lia. rewrite !upd_eq. norm.
  pose proof (inv_upd _ _ _ _ _ _ _ (256 + (rs - 2)) 1 I2 ltac:(lia)) as I3. pose proof (proj1 I3) as C3.
  ins Hslot C3. replace (upd (upd (upd m (256 + rs) 8) (256 + (rs - 1)) 113) (256 + (rs - 2)) 1 64) with h by (symmetry; apply I3). rewrite (u8s (h + 1)) by lia. replace (rs - 2 + 2) with rs by lia.
  pose proof (inv_half _ _ _ _ _ _ _ (h + 1) I3) as I4. eapply phase; [exact I4|lia|lia|]. intros y2 n2 z2.
  pose proof (inv_upd _ _ _ _ _ _ _ (256 + rs) 1 I4 ltac:(lia)) as I5.
  assert (Z1 : forall b, 256 + rs < b < 512 -> upd (upd (upd (upd (upd m (256 + rs) 8) (256 + (rs - 1)) 113) (256 + (rs - 2)) 1) 64 (h + 1)) (256 + rs) 1 b = m b) by (intros b Hb; rewrite !upd_neq by lia; reflexivity).
  rewrite (upd_neq _ 64 _ (257 + rs)), (upd_neq _ 64 _ (258 + rs)) by lia. rewrite !(upd_neq _ _ _ (257 + rs)), !(upd_neq _ _ _ (258 + rs)) by lia.
  apply K; [exact I5|rewrite !upd_neq by lia; reflexivity|exact Z1].
Qed.
(** From $0867, called from $084E. *)
Lemma next_track a x y sp n z c m d op ptr t page pg M s : inv op ptr t t page M m -> dev t pg d -> 0 <= t < 100 -> 16 <= sp < 256 ->
  (forall y n z m' d', inv op ptr (t + 1) (2 * t + 2) page M m' -> dev (t + 1) pg d' -> m' 0xfe = m 0xfe -> R (mkC 0 x y sp 0x851 n z true m' d') s) ->
  R (mkC a x y sp 0x84e n z c m d) s.
Proof.
  intros I Dv Ht Hs K. pose proof (proj1 I) as C. ins Hslot C. rewrite (u8s (sp - 1)), (u8s (sp - 2)) by lia.
  pose proof (inv_upd _ _ _ _ _ _ _ (256 + sp) 8 I ltac:(lia)) as I1. pose proof (inv_upd _ _ _ _ _ _ _ (256 + (sp - 1)) 80 I1 ltac:(lia)) as I2.
  set (m2 := upd (upd m (256 + sp) 8) (256 + (sp - 1)) 80) in *. assert (F2 : m2 0xfe = m 0xfe) by (unfold m2; rewrite !upd_neq by lia; reflexivity).
  assert (T1 : m2 (256 + (sp - 1)) = 80) by apply upd_eq. assert (T2 : m2 (256 + sp) = 8) by (unfold m2; rewrite upd_neq by lia; apply upd_eq). clearbody m2.
  pose proof (proj1 I2) as C2. ins Hslot C2. replace (m2 65) with t by (symmetry; apply I2). rewrite (u8s (t + 1)) by lia.
  pose proof (inv_track _ _ _ _ _ _ _ (t + 1) I2) as I3. pose proof (proj1 I3) as C3. ins Hslot C3. rewrite (upd_neq m2 65 (t + 1) 64) by lia. replace (m2 64) with t by (symmetry; apply I2). rewrite (u8s (2 * t)) by lia. replace (128 <=? t) with false by lia.
  pose proof (inv_half _ _ _ _ _ _ _ (2 * t) I3) as I4. set (m4 := upd (upd m2 65 (t + 1)) 64 (2 * t)) in *. assert (F4 : m4 0xfe = m 0xfe) by (unfold m4; rewrite !upd_neq by lia; exact F2).
  assert (U1 : m4 (256 + (sp - 1)) = 80) by (unfold m4; rewrite !upd_neq by lia; exact T1). assert (U2 : m4 (256 + sp) = 8) by (unfold m4; rewrite !upd_neq by lia; exact T2). clearbody m4.
  pose proof (proj1 I4) as C4. ins Hslot C4. rewrite (u8s (sp - 2 - 1)), (u8s (sp - 2 - 2)) by lia.
  pose proof (inv_upd _ _ _ _ _ _ _ (256 + (sp - 2)) 8 I4 ltac:(lia)) as I5. pose proof (inv_upd _ _ _ _ _ _ _ (256 + (sp - 2 - 1)) 109 I5 ltac:(lia)) as I6.
  eapply half_step; [exact I6|lia|lia|]. intros y1 n1 z1 m7 I7 F7 B7.
  rewrite (upd_neq _ _ _ (258 + (sp - 2 - 2))) by lia. replace (258 + (sp - 2 - 2)) with (256 + (sp - 2)) by lia. replace (257 + (sp - 2 - 2)) with (256 + (sp - 2 - 1)) by lia. rewrite !upd_eq. norm. replace (sp - 2 - 2 + 2) with (sp - 2) by lia.
  pose proof (proj1 I7) as C7. ins Hslot C7. eapply half_step; [exact I7|lia|lia|]. intros y2 n2 z2 m8 I8 F8 B8.
  replace (258 + (sp - 2)) with (256 + sp) by lia. replace (257 + (sp - 2)) with (256 + (sp - 1)) by lia. rewrite !B7 by lia. rewrite !upd_neq by lia. rewrite U1, U2. norm. replace (sp - 2 + 2) with sp by lia.
  replace (2 * t + 1 + 1) with (2 * t + 2) in * by lia. apply K; [exact I8|exact (dev_step _ _ _ Dv)|]. rewrite F8, F7, !upd_neq by lia. exact F4.
Qed.

(** From $0801, where the boot ROM and the routine that reads a sector go. *)
Lemma enter v x y sp n z c m d op ptr t h page M s : inv op ptr t h page M m -> 0 < v < 256 -> head d = 2 * t -> (forall q, 0 <= q < 4 -> magnet d q = (q =? (2 * t) mod 4)) ->
  (forall n c d', dev t (second d) d' -> R (mkC v x v sp 0x80b n false c m d') s) -> R (mkC v x y sp 0x801 n z c m d) s.
Proof.
  intros I Hv Hh Mg K. pose proof (proj1 I) as C. ins Hslot C. replace (zero v) with false by (unfold zero; lia). ins Hslot C. ins Hslot C. ins Hslot C. apply K. unfold dev. cbn. tauto.
Qed.
(** From $0855: read sector [p] of the track. *)
Definition loaded_page (t p page : Z) (M : mem) : mem := fun a => if a / 256 =? page then getb img (256 * (16 * t + dos_place p) + a mod 256) else M a.
Lemma read_page a p sp n z c m d op ptr t h page pg M s : inv op ptr t h page M m -> dev t pg d -> 0 <= p < 16 -> 4 <= page < 0xc0 -> page <> 8 -> 16 <= sp < 256 ->
  (forall n c m' d', inv op ptr t t (page + 1) (loaded_page t p page M) m' -> dev t pg d' -> m' 0xfe = m 0xfe ->
     R (mkC (p + 1) (16 * slot) (p + 1) sp 0x80b n false c m' d') s) ->
  R (mkC a (16 * slot) p sp 0x855 n z c m d) s.
Proof.
  intros I Dv Hp Hpg N8 Hs K. pose proof (proj1 I) as C. ins Hslot C. pose proof (inv_upd _ _ _ _ _ _ _ 0x3d p I ltac:(lia)) as I1. pose proof (proj1 I1) as C1.
  set (m1 := upd m 0x3d p) in *. assert (F1 : m1 0xfe = m 0xfe) by (apply upd_neq; lia). assert (S1 : m1 0x3d = p) by apply upd_eq. clearbody m1.
  ins Hslot C1. ins Hslot C1. replace (m1 39) with page by (symmetry; apply I1). replace (zero page) with false by (unfold zero; lia). ins Hslot C1. ins Hslot C1. ins Hslot C1.
  rewrite (u8s (sp - 1)), (u8s (sp - 2)) by lia.
  eapply go_rom; [reflexivity|]. unfold rom_nibble, return_to. cbn [ra rx ry rs pc mm dv]. rewrite (u8s (sp - 2 + 1)), (u8s (sp - 2 + 2)) by lia.
  replace (sp - 2 + 2) with sp by lia. replace (sp - 2 + 1) with (sp - 1) by lia. rewrite upd_eq. rewrite (upd_neq _ _ _ (256 + sp)) by lia. rewrite upd_eq. norm.
  replace (16 * slot / 16) with slot by (symmetry; rewrite Z.mul_comm; apply Z.div_mul; lia).
  pose proof (inv_upd _ _ _ _ _ _ _ (256 + sp) 8 I1 ltac:(lia)) as I2. pose proof (inv_upd _ _ _ _ _ _ _ (256 + (sp - 1)) 95 I2 ltac:(lia)) as I3.
  set (m3 := upd (upd m1 (256 + sp) 8) (256 + (sp - 1)) 95) in *. assert (F3 : m3 0xfe = m 0xfe) by (unfold m3; rewrite !upd_neq by lia; exact F1). assert (S3 : m3 0x3d = p) by (unfold m3; rewrite !upd_neq by lia; exact S1). clearbody m3.
  pose proof (proj1 I3) as C3. ins Hslot C3.
  assert (Ls : Z.lor slot 192 = 192 + slot).
  { assert (H : forallb (fun s => Z.lor s 192 =? 192 + s) (zrange 1 8) = true) by reflexivity. rewrite forallb_forall in H. specialize (H slot ltac:(apply In_zrange; lia)). lia. }
  rewrite Ls. ins Hslot C3. rewrite (u8s (sp - 1)) by lia. pose proof (inv_upd _ _ _ _ _ _ _ (256 + sp) (192 + slot) I3 ltac:(lia)) as I4. pose proof (proj1 I4) as C4. ins Hslot C4. ins Hslot C4. rewrite (u8s (sp - 1 - 1)) by lia.
  pose proof (inv_upd _ _ _ _ _ _ _ (256 + (sp - 1)) 91 I4 ltac:(lia)) as I5. pose proof (proj1 I5) as C5. ins Hslot C5.
  rewrite (u8s (sp - 1 - 1 + 1)), (u8s (sp - 1 - 1 + 2)) by lia. replace (sp - 1 - 1 + 2) with sp by lia. replace (sp - 1 - 1 + 1) with (sp - 1) by lia. rewrite upd_eq. rewrite (upd_neq _ _ _ (256 + sp)) by lia. rewrite upd_eq.
  replace (u16 (le2 91 (192 + slot) + 1)) with (0xc05c + 256 * slot) by (unfold u16, le2; rewrite Z.mod_small by lia; lia).
  set (m5 := upd (upd m3 (256 + sp) (192 + slot)) (256 + (sp - 1)) 91) in *. assert (F5 : m5 0xfe = m 0xfe) by (unfold m5; rewrite !upd_neq by lia; exact F3). assert (S5 : m5 0x3d = p) by (unfold m5; rewrite !upd_neq by lia; exact S3). clearbody m5.
  clear C C1 C3 C4 I I1 I2 I3 I4. destruct I5 as (Cd & Bs & Q26 & Q27 & Q2b & Q40 & Q41 & Sp).
  pose proof Dv as (Hh & _). eapply go_rom.
  { unfold apple_rom. cbn [pc]. destruct (Z.eqb_spec (49244 + 256 * slot) 63611); [lia|]. destruct (Z.eqb_spec (49244 + 256 * slot) 64680); [lia|]. rewrite Z.eqb_refl. f_equal.
    unfold rom_read. cbn [mm rx dv rs]. rewrite Q26, Q27, Q2b, Q41, S5, Hh, !Z.eqb_refl. replace (0 <=? p) with true by lia. replace (p <? 16) with true by lia. replace (4 <=? page) with true by lia. replace (page <? 192) with true by lia. cbn [andb negb].
    match goal with |- (if ?b then _ else _) = _ => assert (Hb : b = false) end.
    { replace (2048 / 256 =? page) with false by (symmetry; apply Z.eqb_neq; change (2048 / 256) with 8; lia). replace ((2048 =? 60) || (768 <=? 2048) && (2048 <? 1024) || (256 <=? 2048) && (2048 <=? 256 + sp)) with false by lia. cbn [Z.eqb Pos.eqb].
      rewrite (Cd 2048) by lia. change (p + 1 <? 1 = false). lia. }
    rewrite Hb. reflexivity. }
  match goal with |- context [mkC _ _ ?j _ _ _ _ _ ?f _] => set (m6 := f); generalize j; intros jy end.
  assert (Ou : forall b, b <> 39 -> b <> 61 -> b <> 64 -> b <> 60 -> ~ (256 <= b < 512) -> ~ (768 <= b < 1024) -> b / 256 <> page -> m6 b = m5 b).
  { intros b H1 H2 H3 H4 H5 H6 H7. unfold m6. replace (b =? 39) with false by lia. replace (b =? 61) with false by lia. replace (b =? 64) with false by lia.
    replace ((b =? 60) || (768 <=? b) && (b <? 1024) || (256 <=? b) && (b <=? 256 + sp)) with false by lia. replace (b / 256 =? page) with false by lia. reflexivity. }
  assert (P8 : forall b, 0x800 <= b < 0x900 -> m6 b = m5 b).
  { intros b Hb. assert (b / 256 = 8) by (Z.to_euclidean_division_equations; lia). apply Ou; lia. }
  assert (P0 : forall b, 0 <= b < 256 -> b <> 39 -> b <> 61 -> b <> 64 -> b <> 60 -> m6 b = m5 b).
  { intros b Hb H1 H2 H3 H4. assert (b / 256 = 0) by (apply Z.div_small; lia). apply Ou; lia. }
  assert (I6 : inv op ptr t t (page + 1) (loaded_page t p page M) m6).
  { split; [|split; [|split; [|split; [|split; [|split; [|split]]]]]].
    - intros b Hb. rewrite P8 by lia. apply Cd. exact Hb.
    - intros b Hb. rewrite P8 by lia. apply Bs. exact Hb.
    - rewrite P0 by lia. exact Q26.
    - unfold m6. rewrite Z.eqb_refl. apply u8s. lia.
    - rewrite P0 by lia. exact Q2b.
    - reflexivity.
    - rewrite P0 by lia. exact Q41.
    - intros b (Hb1 & Hb2 & Hb3). unfold loaded_page. destruct (Z.eqb_spec (b / 256) page) as [E|N].
      + unfold m6. replace (b =? 39) with false by lia. replace (b =? 61) with false by lia. replace (b =? 64) with false by lia.
        replace ((b =? 60) || (768 <=? b) && (b <? 1024) || (256 <=? b) && (b <=? 256 + sp)) with false.
        * rewrite E, Z.eqb_refl. reflexivity.
        * assert (~ (768 <= b < 1024)) by (intros X; apply Hb2; Z.to_euclidean_division_equations; lia). lia.
      + assert (~ (768 <= b < 1024)) by (intros X; apply Hb2; Z.to_euclidean_division_equations; lia). rewrite Ou by lia. apply Sp. split; [exact Hb1|split; assumption]. }
  eapply enter; [exact I6|lia|exact Hh|apply Dv|]. intros n1 c1 d' Dv'. apply K; [exact I6|replace pg with (second d) by apply Dv; exact Dv'|]. rewrite P0 by lia. exact F5.
Qed.

(** From $0847: read the next sector. *)
Lemma load_next a sp n z c m d op ptr k page pg M s : let t := (k - 1) / 16 in inv op ptr t t page M m -> dev t pg d -> 1 <= k < 1600 -> 4 <= page < 0xc0 -> page <> 8 -> 16 <= sp < 256 ->
  (forall v n c m' d', 0 < v < 256 -> v = physical (k mod 16) + 1 -> inv op ptr (k / 16) (k / 16) (page + 1) (load img k page M) m' -> dev (k / 16) pg d' -> m' 0xfe = m 0xfe ->
     R (mkC v (16 * slot) (physical (k mod 16) + 1) sp 0x80b n false c m' d') s) ->
  R (mkC a (16 * slot) (physical ((k - 1) mod 16) + 1) sp 0x847 n z c m d) s.
Proof.
  intros t I Dv Hk Hpg N8 Hs K. pose proof (proj1 I) as C.
  assert (Ph : forall i, 0 <= i < 16 -> 0 <= physical i < 16) by (intros i Hi; unfold physical; destruct (Z.ltb_spec i 8); lia).
  pose proof (Z.mod_pos_bound k 16 ltac:(lia)) as Hm. pose proof (Ph _ Hm) as Hp.
  assert (Fin : forall u h a n z c m1 d1, u = k / 16 -> inv op ptr u h page M m1 -> dev u pg d1 -> m1 0xfe = m 0xfe -> R (mkC a (16 * slot) (physical (k mod 16)) sp 0x855 n z c m1 d1) s).
  { intros u h a1 n1 z1 c1 m1 d1 -> I1 D1 F1. eapply read_page; [exact I1|exact D1|exact Hp|exact Hpg|exact N8|exact Hs|]. intros n2 c2 m2 d2 (A1 & A2 & A3 & A4 & A5 & A6 & A7 & A8) D2 F2. apply K; [lia|reflexivity| |exact D2|congruence].
    unfold inv. repeat split; try assumption. intros b Hb. rewrite A8 by exact Hb. unfold loaded_page, load, place_of. replace (page =? 0) with false by lia. rewrite andb_true_r. reflexivity. }
  ins Hslot C. destruct (Z.eq_dec (k mod 16) 0) as [E0|N0].
  - assert (E1 : (k - 1) mod 16 = 15) by (Z.to_euclidean_division_equations; lia). assert (E2 : k / 16 = t + 1) by (unfold t; Z.to_euclidean_division_equations; lia). rewrite E1.
    change (u8 (physical 15 + 1 + 1)) with 17. ins Hslot C. ins Hslot C. ins Hslot C.
    eapply next_track; [exact I|exact Dv|unfold t; Z.to_euclidean_division_equations; lia|exact Hs|]. intros y1 n1 z1 m1 d1 I1 D1 F1. pose proof (proj1 I1) as C1. ins Hslot C1. ins Hslot C1.
    rewrite E0 in Fin. apply (Fin (t + 1) (2 * t + 2)); [lia|exact I1|exact D1|exact F1].
  - assert (E2 : k / 16 = t) by (unfold t; Z.to_euclidean_division_equations; lia). assert (E1 : (k - 1) mod 16 = k mod 16 - 1) by (Z.to_euclidean_division_equations; lia). rewrite E1.
    destruct (Z.eq_dec (k mod 16) 8) as [E8|N8'].
    + rewrite E8. change (u8 (physical (8 - 1) + 1 + 1)) with 16. ins Hslot C. ins Hslot C. ins Hslot C. ins Hslot C. rewrite E8 in Fin. apply (Fin t t); [lia|exact I|exact Dv|reflexivity].
    + replace (u8 (physical (k mod 16 - 1) + 1 + 1)) with (physical (k mod 16)).
      * ins Hslot C. assert (physical (k mod 16) < 16) by lia. insx Hslot C ltac:(replace (16 <=? physical (k mod 16)) with false by lia). norm. apply (Fin t t); [lia|exact I|exact Dv|reflexivity].
      * unfold physical. destruct (Z.ltb_spec (k mod 16 - 1) 8); destruct (Z.ltb_spec (k mod 16) 8); rewrite u8s; lia.
Qed.

(** From $080B, counting. *)
Definition page_fine (p : Z) : Prop := 4 <= p < 0xc0 /\ p <> 8.
Lemma load_more : forall i a sp n z c m d ptr k page pg M s, let t := (k - 1) / 16 in inv 0x24 ptr t t page M m -> dev t pg d -> m 0xfe = Z.of_nat i -> (i < 32)%nat -> 1 <= k -> k + Z.of_nat i <= 1600 -> 16 <= sp < 256 ->
  (forall j, 0 <= j < Z.of_nat i -> page_fine (page + j)) ->
  (forall a n z c m' d', let t' := (k + Z.of_nat i - 1) / 16 in inv 0xd0 ptr t' t' (page + Z.of_nat i) (load_many i img k page M) m' -> dev t' pg d' ->
     R (mkC a (16 * slot) (physical ((k + Z.of_nat i - 1) mod 16) + 1) sp 0x816 n z c m' d') s) ->
  R (mkC a (16 * slot) (physical ((k - 1) mod 16) + 1) sp 0x80b n z c m d) s.
Proof.
  induction i as [|i IH]; intros a sp n z c m d ptr k page pg M s t I Dv F L Hk Hk2 Hs Pg K; pose proof (proj1 I) as C.
  - ins Hslot C. ins Hslot C. rewrite F. change (u8 (Z.of_nat 0 - 1)) with 255. norm. pose proof (inv_upd _ _ _ _ _ _ _ 0xfe 255 I ltac:(lia)) as I1. pose proof (proj1 I1) as C1. ins Hslot C1. ins Hslot C1. ins Hslot C1.
    pose proof (inv_op _ _ _ _ _ _ _ 0xd0 I1) as I2. cbn [Z.of_nat load_many] in K. replace (k + 0) with k in K by lia. replace (page + 0) with page in K by lia. eapply K; [exact I2|exact Dv].
  - ins Hslot C. ins Hslot C. rewrite F. replace (u8 (Z.of_nat (S i) - 1)) with (Z.of_nat i) by (rewrite u8s; lia). replace (neg (Z.of_nat i)) with false by (unfold neg; lia).
    pose proof (inv_upd _ _ _ _ _ _ _ 0xfe (Z.of_nat i) I ltac:(lia)) as I1. pose proof (proj1 I1) as C1. ins Hslot C1.
    assert (P0 : page_fine page) by (replace page with (page + 0) by lia; apply Pg; lia).
    eapply (load_next _ _ _ _ _ _ _ _ _ k); [exact I1|exact Dv|lia|apply P0|apply P0|exact Hs|]. intros v n1 c1 m1 d1 Hv _ I2 D2 F2.
    assert (Ek : k / 16 = (k + 1 - 1) / 16) by (f_equal; lia). assert (Em : k mod 16 = (k + 1 - 1) mod 16) by (f_equal; lia). rewrite Ek in I2, D2. rewrite Em.
    apply (IH v sp n1 false c1 m1 d1 ptr (k + 1) (page + 1) pg (load img k page M) s I2 D2); try lia.
    + rewrite F2. apply upd_eq.
    + intros j Hj. replace (page + 1 + j) with (page + (1 + j)) by lia. apply Pg. lia.
    + intros a3 n3 z3 c3 m3 d3 t' I3 D3. specialize (K a3 n3 z3 c3 m3 d3). cbv zeta in K. replace (k + Z.of_nat (S i) - 1) with (k + 1 + Z.of_nat i - 1) in K by lia. replace (page + Z.of_nat (S i)) with (page + 1 + Z.of_nat i) in K by lia. apply K; assumption.
Qed.

(** The pages and sectors the commands ask for. *)
Fixpoint good (cmds : list Z) (k page : Z) : Prop :=
  match cmds with
  | [] => False
  | c :: r =>
      if c =? 0xc0 then True
      else if (c =? 0xd0) || (c =? 0xd1) || (c =? 0xd2) then good r k page
      else if 0xe0 <=? c then c < 256 /\ k + (c - 0xe0) <= 1600 /\ (forall j, 0 <= j < c - 0xe0 -> page_fine (page + j)) /\ good r (k + (c - 0xe0)) (page + (c - 0xe0))
      else k < 1600 /\ page_fine c /\ good r (k + 1) (c + 1)
  end.
Lemma run_loader : forall l a sp n z c m d ptr k page pg M M' s, let t := (k - 1) / 16 in inv 0xd0 ptr t t page M m -> dev t pg d -> 0x86 <= ptr -> zlen img >= 256 -> slice img (ptr + 1) 256 = l -> good l k page -> 1 <= k -> 16 <= sp < 256 ->
  run_commands l img k page M = Some M' ->
  (forall a x y n z c m' d', (forall b, spare b -> m' b = M' b) -> graphics d' = true -> whole d' = true -> hires d' = true -> second d' = screen2 l pg -> R (mkC a x y sp (jump img) n z c m' d') s) ->
  R (mkC a (16 * slot) (physical ((k - 1) mod 16) + 1) sp 0x816 n z c m d) s.
Proof.
  induction l as [|v l IH]; intros a sp n z c m d ptr k page pg M M' s t I Dv Hp Li Sl G Hk Hs Rn K; [contradiction G|].
  assert (Hp2 : ptr < 255).
  { destruct (Z.lt_ge_cases ptr 255) as [|Ge]; [assumption|]. rewrite slice_empty in Sl by lia. discriminate. }
  rewrite (slice_split img (ptr + 1) (ptr + 2) 256) in Sl by lia.
  assert (S1 : slice img (ptr + 1) (ptr + 2) = [getb img (ptr + 1)]).
  { apply list_ext_getb; [rewrite zlen_slice by lia; change (zlen [getb img (ptr + 1)]) with 1; lia|]. intros i Hi. rewrite zlen_slice in Hi by lia. rewrite getb_slice by lia. replace i with 0 by lia. rewrite Z.add_0_r. reflexivity. }
  rewrite S1 in Sl. injection Sl as Ev El. replace (ptr + 2) with (ptr + 1 + 1) in El by lia.
  eapply next_command; [exact I|lia|]. rewrite Ev. clear m n z I a. intros n z m I. cbn [good run_commands screen2] in G, Rn, K.
  destruct (Z.eqb_spec v 0xc0) as [->|N0].
  { injection Rn as <-. eapply cmd_end; [exact I|]. intros n1 z1 c1. apply K; try apply Dv. apply I. }
  destruct (Z.eqb_spec v 0xd0) as [->|N1].
  { cbn in G, Rn, K. eapply cmd_d0; [exact I|]. intros a1 n1 z1 c1. eapply (IH a1 sp n1 z1 c1 m d (ptr + 1) k page pg M M'); try eassumption. lia. }
  destruct (Z.eqb_spec v 0xd1) as [->|N2].
  { cbn in G, Rn, K. eapply cmd_d1; [exact I|exact Dv|]. intros a1 n1 z1 c1 d1 D1. eapply (IH a1 sp n1 z1 c1 m d1 (ptr + 1) k page false M M'); try eassumption. lia. }
  destruct (Z.eqb_spec v 0xd2) as [->|N3].
  { cbn in G, Rn, K. eapply cmd_d2; [exact I|exact Dv|]. intros a1 n1 z1 c1 d1 D1. eapply (IH a1 sp n1 z1 c1 m d1 (ptr + 1) k page true M M'); try eassumption. lia. }
  cbn [orb] in G, Rn. destruct (Z.leb_spec 0xe0 v) as [Ge|Lt].
  - destruct G as (V & Hk2 & Pg & G). eapply cmd_more; [exact I|lia|]. intros a1 n1 z1 c1 m1 I1 F1.
    assert (En : Z.of_nat (Z.to_nat (v - 224)) = v - 224) by lia.
    eapply (load_more (Z.to_nat (v - 224)) a1 sp n1 z1 c1 m1 d (ptr + 1) k page pg M); [exact I1|exact Dv|lia|lia|exact Hk|lia|exact Hs|rewrite En; exact Pg|].
    rewrite En. intros a2 n2 z2 c2 m2 d2 t2 I2 D2. eapply (IH a2 sp n2 z2 c2 m2 d2 (ptr + 1) (k + (v - 224)) (page + (v - 224)) pg _ M'); try eassumption; lia.
  - destruct G as (Hk2 & Pg & G). eapply cmd_page; [exact I|apply Pg|]. intros n1 z1 c1 m1 I1.
    eapply (load_next _ sp n1 z1 c1 m1 d 0xd0 (ptr + 1) k v pg M); [exact I1|exact Dv|lia|apply Pg|apply Pg|exact Hs|]. intros w n2 c2 m2 d2 Hw _ I2 D2 F2.
    assert (Ek : k / 16 = (k + 1 - 1) / 16) by (f_equal; lia). assert (Em : k mod 16 = (k + 1 - 1) mod 16) by (f_equal; lia). rewrite Ek in I2, D2. rewrite Em.
    pose proof (proj1 I2) as C2. ins Hslot C2. eapply (IH w sp n2 false c2 m2 d2 (ptr + 1) (k + 1) (v + 1) pg _ M'); try eassumption; lia.
Qed.

(** The first page does not matter: it is set by the first command that loads. *)
Lemma first_page_free : forall l k M q, good l k 0 -> run_commands l img k q M = run_commands l img k 0 M /\ good l k q.
Proof.
  induction l as [|v l IH]; intros k M q G; [contradiction G|]. cbn [good run_commands] in *. destruct (v =? 192); [split; [reflexivity|exact G]|].
  destruct ((v =? 208) || (v =? 209) || (v =? 210)); [apply IH; exact G|]. destruct (Z.leb_spec 224 v) as [Ge|]; [|split; [reflexivity|exact G]].
  destruct G as (V & Hk & Pg & G). destruct (Z.eq_dec v 224) as [->|N]; [|destruct (Pg 0 ltac:(lia)); lia].
  cbn [Z.sub Z.pos_sub Z.add Z.opp Pos.add load_many Z.to_nat] in *. change (224 - 224) with 0 in *. rewrite !Z.add_0_r in *. cbn [load_many Z.to_nat]. destruct (IH k M q G) as [E G']. split; [exact E|]. split; [exact V|]. split; [exact Hk|]. split; [intros j Hj; lia|exact G'].
Qed.
(** The whole loader. *)
Lemma loader_runs s M' : entered slot img s -> zlen img >= 256 -> (forall i, 0 <= i < 133 -> getb img i = getb fstbt i) ->
  good (slice img 0x87 256) 1 0 -> boot img (mm s) = Some M' ->
  exists s', apple_reach slot img junk bus s s' /\ pc s' = jump img /\ rs s' = rs s /\ (forall b, spare b -> mm s' b = M' b) /\
    graphics (dv s') = true /\ whole (dv s') = true /\ hires (dv s') = true /\ second (dv s') = screen2 (slice img 0x87 256) (second (dv s)).
Proof.
  intros (_ & Ep & Ea & Ex & Hs & B & Q26 & Q27 & Q2b & Q3d & Q40 & Q41 & Hh & Mg) Li Cd G Bt.
  destruct s as [a x y sp p n z c m d]. cbn [ra rx ry rs pc mm dv] in *. subst a x p. unfold boot in Bt. destruct (first_page_free _ 1 m 9 G) as [E G9]. rewrite <- E in Bt.
  assert (I : inv 0xd0 0x86 0 0 9 m m).
  { assert (B' : forall b, 2048 <= b < 2304 -> m b = getb img (b - 2048)) by (intros b Hb; replace b with (2048 + (b - 2048)) at 1 by lia; apply B; lia).
    unfold inv. split; [|split; [intros b Hb; apply B'; lia|repeat split; assumption]]. intros b Hb. rewrite B' by lia. rewrite Cd by lia. destruct (Z.eqb_spec b 2059) as [->|]; [reflexivity|]. destruct (Z.eqb_spec b 2074) as [->|]; reflexivity. }
  eapply (enter 1 (16 * slot) y sp n z c m d 0xd0 0x86 0 0 9 m (fun s' => pc s' = jump img /\ rs s' = sp /\ (forall b, spare b -> mm s' b = M' b) /\ graphics (dv s') = true /\ whole (dv s') = true /\ hires (dv s') = true /\ second (dv s') = screen2 (slice img 0x87 256) (second d))); [exact I|lia|exact Hh|exact Mg|].
  intros n1 c1 d1 D1. pose proof (proj1 I) as C. ins Hslot C.
  eapply (run_loader (slice img 0x87 256) 1 sp n1 false c1 m d1 0x86 1 9 (second d) m M'); try eassumption; try lia; try reflexivity.
  intros a2 x2 y2 n2 z2 c2 m2 d2 Sp Gr Wh Hi Se. eexists. split; [apply reach_refl|]. cbn [pc rs mm dv]. tauto.
Qed.
End Boot2.
