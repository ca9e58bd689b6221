(** Standard Delivery boot disks: C43 and C68. *)
From Verif Require Import Base BaseLemmas SdModel SdSpec SdProofs SdProofs2.

Definition all_carried (ps : list (Z * list Z)) : Prop := Forall (fun p => carried (fst p) (snd p)) ps.
(** Start address: the one given, or that of the first piece. *)
Definition starts_at (ps : list (Z * list Z)) (run : option Z) (r : Z) : Prop :=
  run = Some r \/ (run = None /\ exists d rest, ps = (r, d) :: rest).
Lemma starts_run ps run r : starts_at ps run r -> run_of ps run = Some r.
Proof. intros [->|(-> & d & rest & ->)]; reflexivity. Qed.

(** * C43 *)
(** What the loader leaves in memory, for every program on pages the loader can
    load.  Pieces that share a page are included: the last one wins. *)
Theorem C43_loads_exactly (ps : list (Z * list Z)) (run : option Z) (r : Z) (img : list Z) (m0 : mem) :
  all_carried ps -> starts_at ps run r -> 0 <= r < 65536 ->
  sd_create (map to_seg ps) run = Ok img ->
  zlen img = 143360 /\ jump img = r /\
  exists m, boot img m0 = Some m /\ forall a, m a = loaded (map effective ps) m0 a.
Proof. intros F S0 R E. apply (boot_runs ps run r img m0 F (starts_run _ _ _ S0) R E). Qed.

(** Pieces on different pages: every byte is at its address, the rest of the
    pages is zero, and no other byte of memory is touched. *)
Definition apart (p q : Z * list Z) : Prop :=
  forall a, touches (fst p) (snd p) a = true -> touches (fst q) (snd q) a = false.
Lemma fold_none ps a : forall v, Forall (fun p => touches (fst p) (snd p) a = false) ps ->
  fold_left (fun v (p : Z * list Z) => if touches (fst p) (snd p) a then piece_byte (fst p) (snd p) a else v) ps v = v.
Proof. intros v F. revert v. induction F as [|p l H F IH]; intros v; [reflexivity|]. cbn [fold_left]. rewrite H. apply IH. Qed.
Lemma fold_one ps a : ForallOrdPairs apart ps -> forall p v, In p ps -> touches (fst p) (snd p) a = true ->
  fold_left (fun v (p : Z * list Z) => if touches (fst p) (snd p) a then piece_byte (fst p) (snd p) a else v) ps v = piece_byte (fst p) (snd p) a.
Proof.
  induction 1 as [|q l H F IH]; intros p v I T; [destruct I|]. cbn [fold_left]. destruct I as [->|I].
  - rewrite T. apply fold_none. apply Forall_forall. intros x Hx. apply (proj1 (Forall_forall _ _) H x Hx). exact T.
  - apply IH; assumption.
Qed.
Lemma shown_same ps : Forall (fun p => fst p <> 0x2001 /\ fst p <> 0x4001) ps -> map effective ps = ps.
Proof.
  induction 1 as [|[o d] l H F IH]; [reflexivity|]. cbn [map]. rewrite IH. f_equal. unfold effective, shown. cbn [fst snd] in *. 
  destruct (Z.eqb_spec o 8193); [lia|]. destruct (Z.eqb_spec o 16385); [lia|]. reflexivity.
Qed.
Theorem C43_boot_partial (ps : list (Z * list Z)) (run : option Z) (r : Z) (img : list Z) (m0 : mem) :
  all_carried ps -> Forall (fun p => fst p <> 0x2001 /\ fst p <> 0x4001) ps -> ForallOrdPairs apart ps ->
  starts_at ps run r -> 0 <= r < 65536 ->
  sd_create (map to_seg ps) run = Ok img ->
  jump img = r /\
  exists m, boot img m0 = Some m /\
    (forall o d i, In (o, d) ps -> 0 <= i < zlen d -> m (o + i) = getb d i) /\
    (forall o d a, In (o, d) ps -> touches o d a = true -> ~ (o <= a < o + zlen d) -> m a = 0) /\
    (forall a, (forall o d, In (o, d) ps -> touches o d a = false) -> m a = m0 a).
Proof.
  intros F Sh Ap S0 R E. destruct (C43_loads_exactly ps run r img m0 F S0 R E) as (_ & J & m & B & M). rewrite (shown_same ps Sh) in M.
  split; [exact J|]. exists m. split; [exact B|]. split; [|split].
  - intros o d i I Hi.
    assert (T : touches o d (o + i) = true).
    { unfold touches, first_page, end_page. assert (o / 256 <= (o + i) / 256) by (apply Z.div_le_mono; lia).
      assert ((o + i) / 256 < (o + zlen d + 255) / 256); [|lia].
      pose proof (Z.div_mod (o + i) 256 ltac:(lia)). pose proof (Z.mod_pos_bound (o + i) 256 ltac:(lia)). pose proof (Z.div_mod (o + zlen d + 255) 256 ltac:(lia)). pose proof (Z.mod_pos_bound (o + zlen d + 255) 256 ltac:(lia)). lia. }
    rewrite M. unfold loaded. rewrite (fold_one ps (o + i) Ap (o, d) _ I T). cbn [fst snd]. unfold piece_byte. replace ((o <=? o + i) && (o + i <? o + zlen d)) with true by lia. f_equal. lia.
  - intros o d a I T N. rewrite M. unfold loaded. rewrite (fold_one ps a Ap (o, d) _ I T). cbn [fst snd]. unfold piece_byte. replace ((o <=? a) && (a <? o + zlen d)) with false by lia. reflexivity.
  - intros a N. rewrite M. unfold loaded. apply fold_none. apply Forall_forall. intros [o d] I. cbn [fst snd]. apply N. exact I.
Qed.

(** * C68 *)
(** Creation succeeds exactly if the pages fit on the sectors and the commands in
    the boot sector; otherwise it raises an exception. *)
Theorem C68_fits (ps : list (Z * list Z)) (run : option Z) (r : Z) :
  all_carried ps -> starts_at ps run r ->
  ((exists img, sd_create (map to_seg ps) run = Ok img) <-> total_pages ps <= 559 /\ list_cost false ps <= 119).
Proof.
  intros F S0. pose proof (starts_run _ _ _ S0) as R. split.
  - intros (img & E). destruct (create_only ps run r img F R E). split; assumption.
  - intros [H1 H2]. destruct (create_ok ps run r F R H2 H1) as (img & E & _). exists img. exact E.
Qed.
Lemma cost_bound p seen : carried (fst p) (snd p) -> 0 <= npages p /\ piece_cost seen p <= 32 /\
  (first_page (fst p) <> 0x20 -> piece_cost seen p <= 12) /\ (seen = true -> piece_cost seen p <= 12).
Proof.
  destruct p as [o d]. cbn [fst snd]. intros H. destruct (eo_facts o d H) as (H1 & H2 & H3 & H4). destruct (chunk_facts o d H) as (_ & _ & _ & N0 & _). cbv zeta in N0.
  assert (U : npages (o, d) = end_page (eo o) (zlen d) - first_page o) by (unfold npages, effective, pages; cbn [fst snd]; fold (eo o); rewrite H3; reflexivity).
  assert (P : 4 <= first_page o) by (unfold first_page; destruct H as [H _]; apply (Z.div_le_mono 1024 o 256); lia).
  set (n := npages (o, d)) in *. unfold piece_cost. fold n. cbn [fst snd]. clearbody n.
  pose proof (Z.div_mod n 32 ltac:(lia)) as DM. pose proof (Z.mod_pos_bound n 32 ltac:(lia)) as MB.
  assert (D5 : n / 32 <= 5) by (apply Z.lt_succ_r; apply Z.div_lt_upper_bound; lia).
  split; [exact N0|].
  assert (G : 2 * (n / 32) + Z.min (n mod 32) 2 + (if negb (shown o) then 0 else if first_page o =? 64 then 1 else if (first_page o =? 32) && seen then 1 else 0) <= 12).
  { destruct (negb (shown o)); [lia|]. destruct (Z.eqb_spec (first_page o) 64); [assert (n / 32 <= 4) by (apply Z.lt_succ_r; apply Z.div_lt_upper_bound; lia); lia|].
    destruct (Z.eqb_spec (first_page o) 32); [assert (n <= 160) by lia; destruct (Z.eq_dec n 160) as [->|]; [destruct seen; cbn; lia|]; assert (n / 32 <= 4) by (apply Z.lt_succ_r; apply Z.div_lt_upper_bound; lia); destruct seen; cbn [andb]; lia|]. cbn [andb]. lia. }
  split; [|split].
  - destruct ((first_page o =? 32) && (n =? 32) && negb seen) eqn:E.
    + destruct (negb (shown o)); [lia|]. replace (first_page o =? 64) with false by lia. destruct seen; [lia|]. rewrite andb_false_r. lia.
    + lia.
  - intros Ne. replace (first_page o =? 32) with false in * by lia. cbn [andb] in *. exact G.
  - intros ->. rewrite andb_false_r. exact G.
Qed.
Lemma cost_list ps : all_carried ps -> Forall (fun p => shown (fst p) = true) ps ->
  list_cost true ps <= 12 * zlen ps /\ list_cost false ps <= 12 * zlen ps + 20.
Proof.
  induction 1 as [|p l H F IH]; intros Sh; [cbn; lia|]. inversion Sh as [|x y S1 S2]; subst. destruct (IH S2) as [I1 I2]. rewrite zlen_cons. cbn [list_cost].
  destruct (cost_bound p true H) as (_ & _ & _ & A). destruct (cost_bound p false H) as (_ & B & C & _). specialize (A eq_refl). rewrite S1. cbn [orb negb andb] in *.
  rewrite andb_true_r. split; [lia|]. destruct (Z.eqb_spec (first_page (fst p)) 32) as [E|E].
  - cbn [orb negb] in B. lia.
  - specialize (C E). lia.
Qed.
(** A program of at most 559 pages in at most eight pieces always fits. *)
Theorem C68_eight_pieces_fit (ps : list (Z * list Z)) (run : option Z) (r : Z) :
  all_carried ps -> Forall (fun p => fst p <> 0x2001 /\ fst p <> 0x4001) ps -> starts_at ps run r ->
  zlen ps <= 8 -> total_pages ps <= 559 -> exists img, sd_create (map to_seg ps) run = Ok img.
Proof.
  intros F Sh S0 L T. apply (C68_fits ps run r F S0). split; [exact T|].
  assert (Sh2 : Forall (fun p => shown (fst p) = true) ps).
  { eapply Forall_impl; [|exact Sh]. intros p [H1 H2]. unfold shown. destruct (Z.eqb_spec (fst p) 8193); [lia|]. destruct (Z.eqb_spec (fst p) 16385); [lia|]. reflexivity. }
  destruct (cost_list ps F Sh2). lia.
Qed.

(** * Examples *)
Lemma bytes_rep b n : 0 <= b < 256 -> Forall (fun x => 0 <= x < 256) (zrepeat b n).
Proof. intros H. unfold zrepeat. apply Forall_forall. intros x Hx. apply repeat_spec in Hx. lia. Qed.
(** A hi-res picture, a program of 40 pages starting in the middle of a page, and
    a little piece in text memory. *)
Definition ex_ps : list (Z * list Z) := [(0x2000, zrepeat 7 8192); (0x6123, zrepeat 9 10000); (0x400, [1; 2; 3])].
Lemma ex_carried : all_carried ex_ps.
Proof.
  unfold ex_ps, all_carried. constructor; [|constructor; [|constructor; [|constructor]]]; cbn [fst snd]; (split; [|try apply bytes_rep; try lia]).
  - right. unfold end_page. rewrite zlen_zrepeat by lia. cbn. lia.
  - right. unfold end_page. rewrite zlen_zrepeat by lia. cbn. lia.
  - left. vm_compute. split; discriminate.
  - repeat (constructor; [lia|]). constructor.
Qed.
Example ex_fits : exists img, sd_create (map to_seg ex_ps) (Some 0x6123) = Ok img.
Proof.
  apply (proj2 (C68_fits ex_ps (Some 0x6123) 0x6123 ex_carried (or_introl eq_refl))). unfold ex_ps. cbn [total_pages list_cost].
  unfold piece_cost, npages, pages, end_page, effective, first_page, shown. cbn [fst snd]. rewrite !zlen_zrepeat by lia. vm_compute. split; discriminate.
Qed.
Example ex_boots : exists img m, sd_create (map to_seg ex_ps) (Some 0x6123) = Ok img /\ jump img = 0x6123 /\
  boot img (fun _ => 0xff) = Some m /\ m 0x2000 = 7 /\ m 0x6123 = 9 /\ m 0x6122 = 0 /\ m 0x402 = 3 /\ m 0x500 = 0xff.
Proof.
  destruct ex_fits as (img & E). destruct (C43_boot_partial ex_ps (Some 0x6123) 0x6123 img (fun _ => 0xff) ex_carried) as (J & m & B & M1 & M2 & M3); try assumption.
  - unfold ex_ps. repeat (constructor; [cbn; lia|]). constructor.
  - unfold ex_ps, apart, touches, first_page, end_page. repeat constructor; cbn [fst snd]; rewrite ?zlen_zrepeat by lia; change (zlen [1; 2; 3]) with 3; intros a; cbn; lia.
  - left. reflexivity.
  - lia.
  - exists img, m. split; [exact E|]. split; [exact J|]. split; [exact B|].
    assert (Z1 : zlen (zrepeat 7 8192) = 8192) by (apply zlen_zrepeat; lia). assert (Z2 : zlen (zrepeat 9 10000) = 10000) by (apply zlen_zrepeat; lia).
    split; [transitivity (getb (zrepeat 7 8192) 0); [apply (M1 0x2000 (zrepeat 7 8192) 0 (or_introl eq_refl)); lia|apply getb_zrepeat; lia]|].
    split; [transitivity (getb (zrepeat 9 10000) 0); [apply (M1 0x6123 (zrepeat 9 10000) 0 (or_intror (or_introl eq_refl))); lia|apply getb_zrepeat; lia]|].
    split; [apply (M2 0x6123 (zrepeat 9 10000) 0x6122 (or_intror (or_introl eq_refl))); [unfold touches, end_page; rewrite Z2; reflexivity|lia]|].
    split; [apply (M1 0x400 [1; 2; 3] 2 (or_intror (or_intror (or_introl eq_refl)))); vm_compute; split; [discriminate|reflexivity]|].
    apply M3. intros o d [X|[X|[X|[]]]]; injection X as <- <-; unfold touches, end_page; rewrite ?Z1, ?Z2; reflexivity.
Qed.

(** * What goes wrong *)
Lemma tiny o b : (0x900 <= o <= 0xbe00) -> 0 <= b < 256 -> carried o [b].
Proof.
  intros H B. split; [right; split; [lia|]|constructor; [exact B|constructor]]. unfold end_page. change (zlen [b]) with 1.
  Z.to_euclidean_division_equations. lia.
Qed.
(** Two pieces on one page: the second one wipes the first one. *)
Theorem C43_shared_page_refuted :
  exists ps img m, all_carried ps /\ sd_create (map to_seg ps) None = Ok img /\ boot img (fun _ => 0) = Some m /\
    In (0x6000, [1]) ps /\ m 0x6000 <> 1.
Proof.
  set (ps := [(0x6000, [1]); (0x6001, [2])]).
  assert (F : all_carried ps) by (constructor; [apply (tiny 0x6000 1); lia|constructor; [apply (tiny 0x6001 2); lia|constructor]]).
  assert (St : starts_at ps None 0x6000) by (right; split; [reflexivity|]; exists [1], [(0x6001, [2])]; reflexivity).
  destruct (proj2 (C68_fits ps None 0x6000 F St)) as (img & E); [vm_compute; split; discriminate|].
  destruct (C43_loads_exactly ps None 0x6000 img (fun _ => 0) F St ltac:(lia) E) as (_ & _ & m & B & M).
  exists ps, img, m. split; [exact F|]. split; [exact E|]. split; [exact B|]. split; [left; reflexivity|]. rewrite M. vm_compute. discriminate.
Qed.
(** A piece at $2001 is loaded one byte too low. *)
Theorem C43_quiet_screen_refuted :
  exists ps img m, all_carried ps /\ sd_create (map to_seg ps) None = Ok img /\ boot img (fun _ => 0) = Some m /\
    In (0x2001, [1]) ps /\ m 0x2001 <> 1.
Proof.
  set (ps := [(0x2001, [1])]).
  assert (F : all_carried ps) by (constructor; [apply (tiny 0x2001 1); lia|constructor]).
  assert (St : starts_at ps None 0x2001) by (right; split; [reflexivity|]; exists [1], []; reflexivity).
  destruct (proj2 (C68_fits ps None 0x2001 F St)) as (img & E); [vm_compute; split; discriminate|].
  destruct (C43_loads_exactly ps None 0x2001 img (fun _ => 0) F St ltac:(lia) E) as (_ & _ & m & B & M).
  exists ps, img, m. split; [exact F|]. split; [exact E|]. split; [exact B|]. split; [left; reflexivity|]. rewrite M. vm_compute. discriminate.
Qed.
(** A piece in the language card is never loaded: page number $D0 is a command. *)
Theorem C43_high_page_refuted :
  exists img, sd_create [mkSeg 0xd000 [1]] None = Ok img /\ boot img (fun _ => 0) = Some (fun _ => 0).
Proof.
  set (b := fstbt ++ [0; 0xd0] ++ [0xd1; 0xd0; 0xc0] ++ zrepeat 0 118). set (d := 1 :: zrepeat 0 255).
  assert (E : sd_create [mkSeg 0xd000 [1]] None = write_list [(0, b); (14, d)] (zrepeat 0 143360)) by reflexivity.
  destruct (write_list_spec [(0, b); (14, d)] (zrepeat 0 143360)) as (img & W & L & A & _).
  - apply zlen_zrepeat. lia.
  - repeat constructor.
  - repeat constructor; cbn; lia.
  - repeat constructor; cbn; lia.
  - exists img. split; [rewrite E; exact W|]. unfold boot.
    assert (Sl : slice img 0x87 256 = [0xd1; 0xd0; 0xc0] ++ zrepeat 0 118).
    { apply list_ext_getb; [rewrite zlen_slice by lia; reflexivity|]. intros i Hi. rewrite zlen_slice in Hi by lia. rewrite getb_slice by lia.
      transitivity (getb b (135 + i)); [apply (A 0 b (135 + i)); [left; reflexivity|lia]|]. unfold b.
      rewrite app_assoc, getb_app_r by (change (zlen (fstbt ++ [0; 208])) with 135; lia). f_equal. change (zlen (fstbt ++ [0; 208])) with 135. lia. }
    rewrite Sl. reflexivity.
Qed.

Print Assumptions C43_loads_exactly.
Print Assumptions C43_boot_partial.
Print Assumptions C68_fits.
Print Assumptions C68_eight_pieces_fit.
Print Assumptions C43_shared_page_refuted.
Print Assumptions C43_quiet_screen_refuted.
Print Assumptions C43_high_page_refuted.
