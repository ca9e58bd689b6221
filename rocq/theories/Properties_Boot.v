(** Boot disks on the machine: C81.  The disk made from a program, put into the drive of
    an Apple ][, starts the program: the 6502 code of the boot sector runs, byte for byte. *)
From Verif Require Import Base BaseLemmas SdModel SdSpec SdProofs SdProofs2 Properties_Sd CpuModel AppleSpec AppleBoot.

(** * The command list *)
Lemma page_fine_not p : page_fine p -> (p =? 192) = false /\ ((p =? 208) || (p =? 209) || (p =? 210)) = false /\ (224 <=? p) = false.
Proof. unfold page_fine. intros H. lia. Qed.
Lemma good_pages : forall ps r k page, Forall page_fine ps -> k + zlen ps <= 1600 -> (forall pg, good r (k + zlen ps) pg) -> good (ps ++ r) k page.
Proof.
  induction ps as [|p ps IH]; intros r k page F K G.
  - change (@zlen Z []) with 0 in G. rewrite Z.add_0_r in G. apply G.
  - inversion F as [|x l F1 F2]; subst. rewrite zlen_cons in *. pose proof (zlen_nonneg ps). cbn [app good]. destruct (page_fine_not p F1) as (-> & -> & ->).
    split; [lia|]. split; [exact F1|]. apply IH; [exact F2|lia|]. intros pg. replace (k + 1 + zlen ps) with (k + (1 + zlen ps)) by lia. apply G.
Qed.
Lemma good_groups : forall fuel a n r k page, (Z.to_nat n <= fuel)%nat -> 0 <= n -> (forall p, a <= p < a + n -> page_fine p) -> k + n <= 1600 ->
  (forall pg, good r (k + n) pg) -> good (groups fuel (zrange a (a + n)) ++ r) k page.
Proof.
  induction fuel as [|fuel IH]; intros a n r k page Hf Hn Hp Hk G.
  - assert (n = 0) by lia. subst n. rewrite Z.add_0_r in G. apply G.
  - destruct (Z.eq_dec n 0) as [->|Nz]; [rewrite Z.add_0_r in *; unfold zrange; rewrite Z.sub_diag; apply G|].
    cbn [groups]. set (l := zrange a (a + n)). assert (Ll : zlen l = n) by (unfold l; rewrite zlen_zrange by lia; lia).
    assert (Hd : exists t, l = a :: t). { unfold l, zrange. replace (a + n - a) with n by lia. replace (Z.to_nat n) with (S (Z.to_nat (n - 1))) by lia. eexists. reflexivity. }
    destruct Hd as (t & Hd). rewrite Hd. rewrite <- Hd.
    set (q := Z.min n 32).
    assert (S1 : slice l 0 32 = zrange a (a + q)).
    { unfold l, q. destruct (Z.le_gt_cases n 32).
      - rewrite Z.min_l by lia. apply slice_all; rewrite ?zlen_zrange by lia; lia.
      - rewrite Z.min_r by lia. rewrite (zrange_split a (a + 32) (a + n)) by lia. rewrite slice_app_l by (rewrite ?zlen_zrange by lia; lia).
        apply slice_all; rewrite ?zlen_zrange by lia; lia. }
    assert (S2 : slice l 32 (zlen l) = zrange (a + q) (a + q + (n - q))).
    { rewrite Ll. unfold l, q. destruct (Z.le_gt_cases n 32).
      - rewrite Z.min_l by lia. replace (a + n + (n - n)) with (a + n) by lia. unfold zrange at 2. rewrite Z.sub_diag. cbn [Z.to_nat zseq_nat].
        unfold slice. replace (Z.to_nat (n - 32)) with O by lia. reflexivity.
      - rewrite Z.min_r by lia. rewrite (zrange_split a (a + 32) (a + n)) by lia. rewrite slice_app_r by (rewrite ?zlen_zrange by lia; lia).
        rewrite zlen_zrange by lia. replace (a + 32 + (n - 32)) with (a + n) by lia. replace (32 - (a + 32 - a)) with 0 by lia. apply slice_all; rewrite ?zlen_zrange by lia; lia. }
    rewrite S1, S2. assert (Lq : zlen (zrange a (a + q)) = q) by (rewrite ?zlen_zrange by lia; lia). rewrite Lq.
    assert (Nx : forall pg, good (groups fuel (zrange (a + q) (a + q + (n - q))) ++ r) (k + q) pg).
    { intros pg. apply IH; [lia|lia|intros p Hp2; apply Hp; lia|lia|]. intros pg2. replace (k + q + (n - q)) with (k + n) by lia. apply G. }
    rewrite <- app_assoc. destruct (2 <? q) eqn:E2.
    + cbn [app]. assert (Fa : page_fine a) by (apply Hp; lia). cbn [good]. destruct (page_fine_not a Fa) as (-> & -> & ->).
      split; [lia|]. split; [exact Fa|]. replace (224 + q - 1 =? 192) with false by lia. replace ((224 + q - 1 =? 208) || (224 + q - 1 =? 209) || (224 + q - 1 =? 210)) with false by lia.
      replace (224 <=? 224 + q - 1) with true by lia. split; [lia|]. split; [lia|]. split; [intros j Hj; apply Hp; lia|].
      replace (k + 1 + (224 + q - 1 - 224)) with (k + q) by lia. apply Nx.
    + apply good_pages; [apply Forall_forall; intros x Hx; apply In_zrange in Hx; apply Hp; lia|lia|]. rewrite Lq. exact Nx.
Qed.
Definition chunk_fine (c : chunk) : Prop := chunk_ok c /\ forall p, c_start c <= p < c_start c + zlen (c_data c) / 256 -> page_fine p.
Lemma good_chunk c first r k page : chunk_fine c -> k + zlen (chunk_hi c first) <= 1600 -> (forall pg, good r (k + zlen (chunk_hi c first)) pg) -> good (address_order c first ++ r) k page.
Proof.
  intros (Ok & Fi). pose proof (fun x => chunk_hi_in c first x Ok) as In0. destruct Ok as (C1 & C2 & C3). pose proof (zlen_nonneg (c_data c)) as Z0. assert (D0 : 0 <= zlen (c_data c) / 256) by (apply Z.div_pos; lia).
  unfold address_order, chunk_hi in *. destruct (_ && first).
  - intros K G. apply good_pages; [|exact K|exact G]. apply Forall_forall. intros x Hx. apply Fi, In0, Hx.
  - intros K G. destruct (2 <? zlen _) eqn:E2.
    + rewrite zlen_zrange in K, G by lia. apply good_groups; [unfold zrange; rewrite length_zseq_nat; lia|lia|exact Fi|lia|]. intros pg. specialize (G pg). replace (k + zlen (c_data c) / 256) with (k + (c_start c + zlen (c_data c) / 256 - c_start c)) by lia. exact G.
    + apply good_pages; [|exact K|exact G]. apply Forall_forall. intros x Hx. apply Fi, In0, Hx.
Qed.
Lemma good_show c first r k : (forall pg, good r k pg) -> forall pg, good (show_cmd c first ++ r) k pg.
Proof. intros G pg. unfold show_cmd. destruct (c_show c); [|apply G]. destruct (c_start c =? 64); [apply G|]. destruct (c_start c =? 32); [|apply G]. destruct first; apply G. Qed.
Lemma good_all : forall cs first r k page, Forall chunk_fine cs -> k + zlen (stored cs first) <= 1600 ->
  (forall pg, good r (k + zlen (stored cs first)) pg) -> good (commands cs first ++ r) k page.
Proof.
  induction cs as [|c cs IH]; intros first r k page F K G.
  - cbn [commands stored app] in *. change (@zlen (Z * list Z) []) with 0 in G. rewrite Z.add_0_r in G. apply G.
  - inversion F as [|x l F1 F2]; subst. cbn [commands stored] in *. rewrite zlen_app, zlen_map in *. rewrite <- !app_assoc.
    pose proof (zlen_nonneg (stored cs (next_first c first))). apply good_chunk; [exact F1|lia|]. apply good_show. intros pg. apply IH; [exact F2|lia|]. intros pg2.
    replace (k + zlen (chunk_hi c first) + zlen (stored cs (next_first c first))) with (k + (zlen (chunk_hi c first) + zlen (stored cs (next_first c first)))) by lia. apply G.
Qed.
(** Which screen is selected. *)
Definition quiet (b : Z) : Prop := b < 0xc0 \/ 0xe0 <= b.
Lemma screen2_quiet : forall l r now, Forall quiet l -> screen2 (l ++ r) now = screen2 r now.
Proof.
  induction l as [|b l IH]; intros r now F; [reflexivity|]. inversion F as [|x y F1 F2]; subst. cbn [app screen2]. unfold quiet in F1.
  replace (b =? 192) with false by lia. replace (b =? 209) with false by lia. replace (b =? 210) with false by lia. apply IH. exact F2.
Qed.
Lemma in_slice (l : list Z) a b x : In x (slice l a b) -> In x l.
Proof.
  unfold slice. intros H. rewrite <- (firstn_skipn (Z.to_nat a) l). apply in_or_app. right. rewrite <- (firstn_skipn (Z.to_nat (b - a)) (skipn (Z.to_nat a) l)). apply in_or_app. left. exact H.
Qed.
Lemma groups_quiet : forall fuel l, Forall page_ok l -> Forall quiet (groups fuel l).
Proof.
  induction fuel as [|fuel IH]; intros l F; [constructor|]. cbn [groups]. destruct l as [|hi t]; [constructor|].
  assert (Q : forall x a b, In x (slice (hi :: t) a b) -> page_ok x) by (intros x a b Hx; apply (proj1 (Forall_forall _ _) F), (in_slice _ a b), Hx).
  apply Forall_app. split.
  - inversion F as [|x y F1 F2]; subst. unfold page_ok in F1. destruct (2 <? zlen _) eqn:E.
    + constructor; [left; lia|]. constructor; [right; lia|constructor].
    + apply Forall_forall. intros x Hx. apply Q in Hx. left. unfold page_ok in Hx. lia.
  - apply IH. apply Forall_forall. intros x Hx. apply (Q x _ _ Hx).
Qed.
Lemma order_quiet c first : chunk_ok c -> Forall quiet (address_order c first).
Proof.
  intros Ok. pose proof (fun x => chunk_hi_in c first x Ok) as In0. assert (P : Forall page_ok (chunk_hi c first)).
  { apply Forall_forall. intros x Hx. apply In0 in Hx. destruct Ok as (C1 & C2 & C3). unfold page_ok. lia. }
  assert (Q : Forall quiet (chunk_hi c first)) by (apply Forall_impl with (2 := P); intros x Hx; left; unfold page_ok in Hx; lia).
  unfold address_order. destruct (_ && first); [exact Q|]. destruct (2 <? zlen _); [apply groups_quiet; exact P|exact Q].
Qed.
(** The screens a program loads and wants shown, in order: pages $20 and $40. *)
Definition screens (ps : list (Z * list Z)) : list Z :=
  filter (fun p => (p =? 0x20) || (p =? 0x40)) (map (fun p => first_page (fst p)) (filter (fun p => shown (fst p)) ps)).
Fixpoint select (l : list Z) (first now : bool) : bool :=
  match l with [] => now | p :: r => if p =? 0x40 then select r first true else select r false (if first then now else false) end.
Lemma screen2_commands : forall ps first r now, all_carried ps ->
  screen2 (commands (map chunk_of ps) first ++ r) now = screen2 r (select (screens ps) first now).
Proof.
  induction ps as [|[o d] ps IH]; intros first r now F; [reflexivity|]. inversion F as [|x l F1 F2]; subst. cbn [fst snd] in F1.
  destruct (chunk_facts o d F1) as (A & B & _). cbn [map commands]. rewrite <- !app_assoc. rewrite screen2_quiet by (apply order_quiet, chunk_is_ok, F1).
  unfold screens. cbn [filter fst]. unfold show_cmd, next_first. rewrite A, B. destruct (shown o) eqn:So; cbn [andb map filter fst].
  2:{ apply IH. exact F2. }
  destruct (Z.eqb_spec (first_page o) 64) as [E4|N4].
  { rewrite E4. cbn [orb Z.eqb Pos.eqb app select screen2]. apply IH. exact F2. }
  destruct (Z.eqb_spec (first_page o) 32) as [E2|N2].
  { rewrite E2. cbn [orb Z.eqb Pos.eqb select]. destruct first; cbn [app screen2 Z.eqb Pos.eqb]; apply IH; exact F2. }
  cbn [orb app]. apply IH. exact F2.
Qed.
Lemma select_last : forall l now, Forall (fun p => p = 0x20 \/ p = 0x40) l -> select l false now = (last l (if now then 0x40 else 0x20) =? 0x40).
Proof.
  induction l as [|p l IH]; intros now F; [destruct now; reflexivity|]. inversion F as [|x y F1 F2]; subst. cbn [select last].
  destruct F1 as [->| ->]; cbn [Z.eqb Pos.eqb]; rewrite IH by exact F2; destruct l as [|q l]; try reflexivity; f_equal; clear; revert q; induction l as [|z l IHl]; intros q; try reflexivity; cbn [last] in *; apply IHl.
Qed.
Lemma screens_two ps : Forall (fun p => p = 0x20 \/ p = 0x40) (screens ps).
Proof. apply Forall_forall. intros p Hp. unfold screens in Hp. apply filter_In in Hp. lia. Qed.
(** The first screen that is shown is the first one, or the first one is never shown. *)
Definition first_before_second (ps : list (Z * list Z)) : Prop :=
  match screens ps with p :: r => p = 0x40 -> ~ In 0x20 r | [] => True end.
Lemma select_order l : Forall (fun p => p = 0x20 \/ p = 0x40) l -> (match l with p :: r => p = 0x40 -> ~ In 0x20 r | [] => True end) ->
  select l true false = (last l 0x20 =? 0x40).
Proof.
  intros F H. destruct l as [|p l]; [reflexivity|]. inversion F as [|x y F1 F2]; subst. destruct F1 as [->| ->].
  - cbn [select Z.eqb Pos.eqb]. rewrite select_last by exact F2. destruct l; reflexivity.
  - specialize (H eq_refl). cbn [select Z.eqb Pos.eqb]. assert (A : Forall (fun p => p = 0x40) l).
    { apply Forall_forall. intros q Hq. destruct (proj1 (Forall_forall _ _) F2 q Hq) as [->|]; [contradiction|assumption]. }
    clear -A. assert (G : select l true true = true /\ last (0x40 :: l) 0x20 = 0x40).
    { induction A as [|q l -> A IH]; [split; reflexivity|]. destruct IH as [I1 I2]. split; [exact I1|]. destruct l; [reflexivity|exact I2]. }
    destruct G as [-> ->]. reflexivity.
Qed.

(** * The boot sector *)
Lemma carried_fine o d : carried o d -> chunk_fine (chunk_of (o, d)).
Proof.
  intros H. split; [apply chunk_is_ok; exact H|]. destruct (chunk_facts o d H) as (A & _ & B & C & _). destruct (eo_facts o d H) as (H1 & H2 & H3 & H4).
  intros p. rewrite A, B, Z.div_mul by lia. assert (N : npages (o, d) = end_page (eo o) (zlen d) - first_page o) by (unfold npages, effective, pages; cbn [fst snd]; fold (eo o); rewrite H3; reflexivity).
  rewrite N. intros Hp. assert (Le : end_page (eo o) (zlen d) <= end_page o (zlen d)) by (unfold end_page; apply Z.div_le_mono; lia).
  destruct H as [[[Q1 Q2]|[Q1 Q2]] _]; unfold page_fine; unfold first_page in Hp.
  - assert (4 <= o / 256) by (apply (Z.div_le_mono 0x400 o 256); lia). lia.
  - assert (9 <= o / 256) by (apply (Z.div_le_mono 0x900 o 256); lia). lia.
Qed.
Lemma all_fine ps : all_carried ps -> Forall chunk_fine (map chunk_of ps).
Proof. induction 1 as [|[o d] l H F IH]; [constructor|]. constructor; [apply carried_fine; exact H|exact IH]. Qed.
Lemma boot_sector ps run r img : all_carried ps -> run_of ps run = Some r -> sd_create (map to_seg ps) run = Ok img ->
  zlen img = 143360 /\ (forall i, 0 <= i < 133 -> getb img i = getb fstbt i) /\
  exists z, slice img 135 256 = 0xd1 :: commands (map chunk_of ps) true ++ 0xc0 :: z.
Proof.
  intros F Hr E. destruct (create_only ps run r img F Hr E) as [Hc Ht]. destruct (create_ok ps run r F Hr Hc Ht) as (img' & E' & L & G). rewrite E in E'. injection E' as <-.
  assert (T0 : 0 <= total_pages ps) by (rewrite <- (stored_len ps true F); apply zlen_nonneg).
  assert (B : slice img 0 256 = boot_bytes ps r).
  { pose proof (boot_bytes_len ps r Hc F) as Lb. apply list_ext_getb; [rewrite zlen_slice by lia; lia|]. intros i Hi. rewrite zlen_slice in Hi by lia. rewrite getb_slice by lia.
    specialize (G 0 i ltac:(lia) ltac:(lia)). rewrite place_of_0 in G. exact G. }
  split; [exact L|]. split.
  - intros i Hi. assert (GB : getb img i = getb (boot_bytes ps r) i) by (rewrite <- B, getb_slice by lia; f_equal; lia). rewrite GB. unfold boot_bytes. apply getb_app_l. rewrite fstbt_len. lia.
  - exists (zrepeat 0 (256 - (135 + zlen (209 :: commands (map chunk_of ps) true ++ [192])))).
    transitivity (slice (slice img 0 256) 135 256); [rewrite slice_slice by lia; reflexivity|].
    rewrite B. unfold boot_bytes. set (l := 209 :: _ ++ _). set (z := zrepeat 0 _).
    rewrite app_assoc. rewrite slice_app_r by (rewrite zlen_app, fstbt_len; cbn; lia).
    assert (Lx : zlen (fstbt ++ [u8 (r mod 256); u8 (r / 256)]) = 135) by (rewrite zlen_app, fstbt_len; reflexivity). rewrite Lx.
    transitivity (l ++ z); [|unfold l; cbn [app]; rewrite <- app_assoc; reflexivity].
    apply slice_all. pose proof (boot_bytes_len ps r Hc F) as Lb. unfold boot_bytes in Lb. fold l in Lb. fold z in Lb. rewrite app_assoc, zlen_app, Lx in Lb. lia.
Qed.

Lemma boots (ps : list (Z * list Z)) (run : option Z) (r : Z) (img : list Z) slot junk bus (s : cpu apple) :
  all_carried ps -> starts_at ps run r -> 0 <= r < 65536 -> sd_create (map to_seg ps) run = Ok img ->
  entered slot img s ->
  exists s', apple_reach slot img junk bus s s' /\ pc s' = r /\ rs s' = rs s /\
    (forall a, spare a -> mm s' a = loaded (map effective ps) (mm s) a) /\
    graphics (dv s') = true /\ whole (dv s') = true /\ hires (dv s') = true /\ second (dv s') = select (screens ps) true false.
Proof.
  intros F St Hr E En. pose proof (starts_run _ _ _ St) as Ro. destruct (boot_sector ps run r img F Ro E) as (L & Cd & z & Sl).
  destruct (create_only ps run r img F Ro E) as [Hc Ht].
  destruct (C43_loads_exactly ps run r img (mm s) F St Hr E) as (_ & J & m & B & M).
  destruct (loader_runs slot img junk bus (proj1 En) s m En ltac:(lia) Cd) as (s' & Re & Pc & Rs & Sp & Gr & Wh & Hi & Se); [|exact B|].
  - rewrite Sl. cbn [good Z.eqb Pos.eqb orb]. apply good_all; [apply all_fine; exact F|rewrite (stored_len ps true F); lia|]. intros pg. exact Logic.I.
  - exists s'. split; [exact Re|]. split; [rewrite Pc; exact J|]. split; [exact Rs|]. split; [intros a Ha; rewrite (Sp a Ha); apply M|].
    split; [exact Gr|]. split; [exact Wh|]. split; [exact Hi|]. rewrite Se, Sl. cbn [screen2 Z.eqb Pos.eqb].
    rewrite (screen2_commands ps true (192 :: z) false F). reflexivity.
Qed.

(** * C81 *)
(** Whatever the machine holds, in whichever slot the controller is: the computer gets to
    the start address of the program, with every page of the program in memory, the rest
    of the memory as it was, and the graphics screen on.  [_partial]: the screen shown
    last is selected if a first screen does not come after a second one. *)
Theorem C81_boots_partial (ps : list (Z * list Z)) (run : option Z) (r : Z) (img : list Z) slot junk bus (s : cpu apple) :
  all_carried ps -> starts_at ps run r -> 0 <= r < 65536 -> sd_create (map to_seg ps) run = Ok img ->
  entered slot img s ->
  exists s', apple_reach slot img junk bus s s' /\ pc s' = r /\ rs s' = rs s /\
    (forall a, spare a -> mm s' a = loaded (map effective ps) (mm s) a) /\
    graphics (dv s') = true /\ whole (dv s') = true /\ hires (dv s') = true /\
    (first_before_second ps -> second (dv s') = (last (screens ps) 0x20 =? 0x40)).
Proof.
  intros F St Hr E En. destruct (boots ps run r img slot junk bus s F St Hr E En) as (s' & Re & Pc & Rs & Sp & Gr & Wh & Hi & Se).
  exists s'. split; [exact Re|]. split; [exact Pc|]. split; [exact Rs|]. split; [exact Sp|]. split; [exact Gr|]. split; [exact Wh|]. split; [exact Hi|].
  intros Fb. rewrite Se. apply select_order; [apply screens_two|exact Fb].
Qed.
Print Assumptions C81_boots_partial.
(** A machine about to run the boot sector. *)
Definition boot_mem (slot : Z) (img : list Z) (a : Z) : Z :=
  if (0x800 <=? a) && (a <? 0x900) then getb img (a - 0x800)
  else if a =? 0x27 then 9 else if a =? 0x2b then 16 * slot else if a =? 0x3d then 1
  else if (a =? 0x26) || (a =? 0x40) || (a =? 0x41) then 0 else 0xff.
Definition boot_state (slot : Z) (img : list Z) : cpu apple :=
  mkC 1 (16 * slot) 0 0xfd 0x801 false false true (boot_mem slot img) (mkA 0 (fun q => q =? 0) false false false false).
Lemma boot_entered slot img : 1 <= slot <= 7 -> entered slot img (boot_state slot img).
Proof.
  intros H. unfold entered. cbn [boot_state pc ra rx rs mm dv head magnet]. split; [exact H|]. repeat (split; [reflexivity || lia|]).
  split; [intros i Hi; unfold boot_mem; replace ((2048 <=? 2048 + i) && (2048 + i <? 2304)) with true by lia; f_equal; lia|].
  repeat (split; [reflexivity|]). intros q _. reflexivity.
Qed.
Example C81_case : exists img s', sd_create (map to_seg ex_ps) (Some 0x6123) = Ok img /\
  apple_reach 6 img (fun _ _ => 0x55) (fun _ _ => 0xaa) (boot_state 6 img) s' /\ pc s' = 0x6123 /\ mm s' 0x2000 = 7 /\ mm s' 0x6123 = 9 /\ mm s' 0x6122 = 0 /\ mm s' 0x402 = 3 /\ mm s' 0x500 = 0xff /\
  second (dv s') = false.
Proof.
  destruct ex_fits as (img & E).
  destruct (C81_boots_partial ex_ps (Some 0x6123) 0x6123 img 6 (fun _ _ => 0x55) (fun _ _ => 0xaa) (boot_state 6 img) ex_carried) as (s' & Re & Pc & _ & Sp & _ & _ & _ & Se); [left; reflexivity|lia|exact E|apply boot_entered; lia|].
  exists img, s'. split; [exact E|]. split; [exact Re|]. split; [exact Pc|].
  assert (Z1 : zlen (zrepeat 7 8192) = 8192) by (apply zlen_zrepeat; lia). assert (Z2 : zlen (zrepeat 9 10000) = 10000) by (apply zlen_zrepeat; lia).
  assert (V : forall a, spare a -> mm s' a = if touches 0x400 [1; 2; 3] a then piece_byte 0x400 [1; 2; 3] a else if touches 0x6123 (zrepeat 9 10000) a then piece_byte 0x6123 (zrepeat 9 10000) a else if touches 0x2000 (zrepeat 7 8192) a then piece_byte 0x2000 (zrepeat 7 8192) a else boot_mem 6 img a).
  { intros a Ha. rewrite (Sp a Ha). reflexivity. }
  assert (P : forall a, 0x900 <= a < 0xc000 -> spare a).
  { intros a Ha. unfold spare. assert (9 <= a / 256) by (apply (Z.div_le_mono 0x900 a 256); lia). lia. }
  assert (P4 : forall a, 0x400 <= a < 0x800 -> spare a).
  { intros a Ha. unfold spare. assert (4 <= a / 256) by (apply (Z.div_le_mono 0x400 a 256); lia). assert (a / 256 < 8) by (apply Z.div_lt_upper_bound; lia). lia. }
  split; [rewrite V by (apply P; lia); unfold touches, end_page, piece_byte; rewrite ?Z1, ?Z2; cbn -[zrepeat getb]; apply getb_zrepeat; lia|].
  split; [rewrite V by (apply P; lia); unfold touches, end_page, piece_byte; rewrite ?Z1, ?Z2; cbn -[zrepeat getb]; apply getb_zrepeat; lia|].
  split; [rewrite V by (apply P; lia); unfold touches, end_page, piece_byte; rewrite ?Z1, ?Z2; cbn -[zrepeat getb]; reflexivity|].
  split; [rewrite V by (apply P4; lia); reflexivity|].
  split; [rewrite V by (apply P4; lia); unfold touches, end_page; rewrite ?Z1, ?Z2; reflexivity|].
  apply Se. cbn. intros X. discriminate X.
Qed.
(** A first screen after a second one: the computer goes on showing the second one. *)
Theorem C81_screen_order_refuted : exists ps img s s',
  all_carried ps /\ sd_create (map to_seg ps) None = Ok img /\ entered 6 img s /\
  apple_reach 6 img (fun _ _ => 0) (fun _ _ => 0) s s' /\ pc s' = 0x4000 /\
  screens ps = [0x40; 0x20] /\ mm s' 0x2000 = 2 /\ second (dv s') = true.
Proof.
  set (ps := [(0x4000, [1]); (0x2000, [2])]).
  assert (F : all_carried ps) by (constructor; [apply (tiny 0x4000 1); lia|constructor; [apply (tiny 0x2000 2); lia|constructor]]).
  assert (St : starts_at ps None 0x4000) by (right; split; [reflexivity|]; exists [1], [(0x2000, [2])]; reflexivity).
  destruct (proj2 (C68_fits ps None 0x4000 F St)) as (img & E); [vm_compute; split; discriminate|].
  pose proof (boot_entered 6 img ltac:(lia)) as En.
  destruct (boots ps None 0x4000 img 6 (fun _ _ => 0) (fun _ _ => 0) (boot_state 6 img) F St ltac:(lia) E En) as (s' & Re & Pc & _ & Sp & _ & _ & _ & Se).
  exists ps, img, (boot_state 6 img), s'. split; [exact F|]. split; [exact E|]. split; [exact En|]. split; [exact Re|]. split; [exact Pc|]. split; [reflexivity|].
  split; [rewrite Sp by (unfold spare; cbn; lia); reflexivity|exact Se].
Qed.
Print Assumptions C81_screen_order_refuted.
