(** Proofs about cartridge images. *)
From Coq Require Import String.
From Verif Require Import Base BaseLemmas CartModel.
Open Scope Z_scope.

(** * The table *)
Definition wf_cart (c : cart) : bool :=
  (0 <=? ct_size c) && (0 <=? ct_type c) && (ct_type c <? 4294967296) &&
  match ct_main c, ct_bank c with
  | None, None => true
  | Some (ms, mo, _), None => (ms =? ct_size c) && (mo =? 0)
  | Some (ms, mo, _), Some (bs, bo, _) =>
      (bo =? 0) && (0 <? bs) && (0 <? ms) && (ms <=? ct_size c) && ((ct_size c - ms) mod bs =? 0) && (mo =? ct_size c - ms)
  | None, Some _ => false
  end.
Lemma table_wf : forallb wf_cart known_cart_types = true.
Proof. vm_compute. reflexivity. Qed.
Fixpoint nodupb (l : list Z) : bool := match l with [] => true | x :: r => negb (zmem x r) && nodupb r end.
Lemma nodupb_ok l : nodupb l = true -> NoDup l.
Proof.
  induction l as [|x r IH]; intros H; [constructor|]. cbn [nodupb] in H. apply andb_true_iff in H. destruct H as [H1 H2]. constructor; [|auto].
  apply zmem_false. apply negb_true_iff. exact H1.
Qed.
Lemma table_nodup : NoDup (map ct_type known_cart_types).
Proof. apply nodupb_ok. vm_compute. reflexivity. Qed.
Lemma find_type (l : list cart) c : NoDup (map ct_type l) -> In c l -> find (fun x => ct_type x =? ct_type c) l = Some c.
Proof.
  induction l as [|x r IH]; intros N H; [destruct H|]. cbn [map] in N. inversion N as [|? ? N1 N2]; subst. cbn [find].
  destruct H as [->|H]; [rewrite Z.eqb_refl; reflexivity|]. destruct (Z.eqb_spec (ct_type x) (ct_type c)) as [E|E]; [|apply IH; assumption].
  exfalso. apply N1. rewrite E. apply in_map. exact H.
Qed.
Lemma get_cart_in c : In c known_cart_types -> get_cart (ct_type c) = Ok c.
Proof. intros H. unfold get_cart. rewrite (find_type _ _ table_nodup H). reflexivity. Qed.
Lemma get_cart_inv t c : get_cart t = Ok c -> In c known_cart_types /\ ct_type c = t.
Proof.
  unfold get_cart. destruct (find (fun x => ct_type x =? t) known_cart_types) eqn:E; [|discriminate]. intros H. injection H as <-.
  apply find_some in E. destruct E as [E1 E2]. split; [exact E1|lia].
Qed.
Lemma get_cart_none t : (forall c, In c known_cart_types -> ct_type c <> t) -> get_cart t = Err (EAtr InvalidDiskImage).
Proof.
  intros H. unfold get_cart. destruct (find (fun x => ct_type x =? t) known_cart_types) eqn:E; [|reflexivity].
  apply find_some in E. destruct E as [E1 E2]. exfalso. apply (H _ E1). lia.
Qed.
Lemma cart_wf c : In c known_cart_types -> wf_cart c = true.
Proof. intros H. pose proof table_wf as T. rewrite forallb_forall in T. apply T. exact H. Qed.

(** * Banks *)
(** The offsets a, a + bs, ... of n banks. *)
Fixpoint offsets (a bs : Z) (n : nat) : list Z := match n with O => [] | S n' => a :: offsets (a + bs) bs n' end.
Lemma bank_loop_ok bs n : 0 < bs -> forall a fuel, (Z.to_nat (Z.of_nat n * bs) <= fuel)%nat -> bank_loop fuel (Z.of_nat n * bs) a bs = Ok (offsets a bs n).
Proof.
  intros Hb. induction n as [|n IH]; intros a fuel Hf; [destruct fuel; reflexivity|].
  destruct fuel as [|fuel]; [nia|]. cbn [bank_loop]. replace (0 <? Z.of_nat (S n) * bs) with true by nia.
  replace (Z.of_nat (S n) * bs - bs) with (Z.of_nat n * bs) by nia. rewrite IH by nia. reflexivity.
Qed.
(** What set_type does to a header that has no type yet. *)
Record typed (h : cheader) (c : cart) (crc off : Z) : Prop := mkT {
  ty_type : h_type h = ct_type c; ty_name : h_name h = ct_name c; ty_size : h_size h = ct_size c; ty_crc : h_crc h = crc; ty_off : h_off h = off;
  ty_main : h_msize h + h_moff h = ct_size c /\ 0 <= h_msize h /\ 0 <= h_moff h;
  ty_banks : exists n, h_banks h = offsets 0 (h_bsize h) n /\ Z.of_nat n * h_bsize h = h_moff h /\ 0 <= h_bsize h;
  ty_tmain : ct_main c <> None -> ct_main c = Some (h_msize h, h_moff h, h_morigin h);
  ty_tbank : match ct_bank c with Some (bs, _, ba) => h_bsize h = bs /\ h_borigin h = ba | None => h_banks h = [] end }.
Lemma set_type_ok c ty nm sz crc off : In c known_cart_types -> exists h, set_type (mkH ty nm sz crc off [] 0 0 0 0 0) (ct_type c) = Ok h /\ typed h c crc off.
Proof.
  intros Hc. pose proof (cart_wf c Hc) as W. unfold set_type. rewrite (get_cart_in c Hc). cbn [rbind h_moff h_morigin h_banks h_bsize h_borigin h_crc h_off].
  unfold wf_cart in W. destruct c as [t n s m b]. cbn [ct_type ct_name ct_size ct_main ct_bank] in *.
  destruct m as [[[ms mo] ma]|]; destruct b as [[[bs bo] ba]|].
  - rewrite !andb_true_iff in W. destruct W as [[[W1 W2] W3] [[[[[B1 B2] B3] B4] B5] B6]].
    assert (Q : s - ms = Z.of_nat (Z.to_nat ((s - ms) / bs)) * bs).
    { rewrite Z2Nat.id by (apply Z.div_pos; lia). pose proof (Z.div_mod (s - ms) bs ltac:(lia)). nia. }
    assert (E : bank_loop (Z.to_nat (s - ms)) (s - ms) bo bs = Ok (offsets bo bs (Z.to_nat ((s - ms) / bs)))).
    { rewrite Q at 2. apply bank_loop_ok; [lia|]. rewrite <- Q. lia. }
    rewrite E. cbn [rbind]. eexists. split; [reflexivity|]. assert (bo = 0) as -> by lia.
    split; cbn; try reflexivity; try lia.
    + exists (Z.to_nat ((s - ms) / bs)). split; [reflexivity|]. lia.
  - rewrite !andb_true_iff in W. destruct W as [W1 [W2 W3]]. eexists. split; [reflexivity|]. split; cbn; try reflexivity; try lia.
    + exists O. split; [reflexivity|]. lia.
  - rewrite andb_false_r in W. discriminate.
  - eexists. split; [reflexivity|]. split; cbn; try reflexivity; try lia.
    + exists O. split; [reflexivity|]. lia.
    + congruence.
Qed.

Lemma banks_concat im a n : 0 <= a -> 0 <= h_off (ci_hdr im) -> 0 <= h_bsize (ci_hdr im) -> forall k,
  concat (map cs_data (bank_segments im k (offsets a (h_bsize (ci_hdr im)) n))) =
  slice (ci_bytes im) (h_off (ci_hdr im) + a * 1024) (h_off (ci_hdr im) + (a + Z.of_nat n * h_bsize (ci_hdr im)) * 1024).
Proof.
  intros Ha Ho Hb. revert a Ha. induction n as [|n IH]; intros a Ha k.
  - cbn [offsets bank_segments map concat]. rewrite slice_empty by lia. reflexivity.
  - cbn [offsets bank_segments map concat cs_data]. rewrite IH by lia.
    rewrite (slice_split _ (h_off (ci_hdr im) + a * 1024) (h_off (ci_hdr im) + a * 1024 + h_bsize (ci_hdr im) * 1024) (h_off (ci_hdr im) + (a + Z.of_nat (S n) * h_bsize (ci_hdr im)) * 1024)) by nia.
    f_equal. f_equal; rewrite ?Nat2Z.inj_succ; unfold Z.succ; ring.
Qed.
Lemma tiles im c crc off : typed (ci_hdr im) c crc off -> 0 <= off -> zlen (ci_bytes im) = off + ct_size c * 1024 ->
  concat (map cs_data (bank_segments im 1 (h_banks (ci_hdr im)))) ++ cs_data (main_segment im) = slice (ci_bytes im) off (zlen (ci_bytes im)).
Proof.
  intros [T1 T2 T3 T4 T5 [T6 [T7 T8]] (n & N1 & N2 & N3) T9 T10] Ho L. rewrite N1, banks_concat by lia. unfold main_segment. cbn [cs_data]. rewrite T5 in *.
  rewrite N2. rewrite Z.mul_0_l, Z.add_0_r, Z.add_0_l. rewrite L. rewrite <- slice_split by lia. f_equal. lia.
Qed.

(** * Opening *)
Lemma be4_put x : 0 <= x < 4294967296 -> be4 (u8 (x / 16777216)) (u8 (x / 65536)) (u8 (x / 256)) (u8 x) = x.
Proof. intros H. unfold be4, u8. Z.to_euclidean_division_equations. lia. Qed.
Lemma put_be4_bytes a b c d : is_byte a -> is_byte b -> is_byte c -> is_byte d -> put_be4 (be4 a b c d) = [a; b; c; d].
Proof.
  unfold is_byte, put_be4, be4, u8. intros. repeat f_equal; Z.to_euclidean_division_equations; lia.
Qed.
Definition cart_file (t crc : Z) (data : list Z) : list Z := cart_magic ++ put_be4 t ++ put_be4 crc ++ [0; 0; 0; 0] ++ data.
Lemma cart_file_head t crc data : slice (cart_file t crc data) 0 16 = cart_magic ++ put_be4 t ++ put_be4 crc ++ [0; 0; 0; 0].
Proof. unfold cart_file. cbn. reflexivity. Qed.
Lemma cart_file_len t crc data : zlen (cart_file t crc data) = 16 + zlen data.
Proof. unfold cart_file. rewrite !zlen_app. change (zlen cart_magic) with 4. change (zlen (put_be4 t)) with 4. change (zlen (put_be4 crc)) with 4. change (zlen [0; 0; 0; 0]) with 4. lia. Qed.
Lemma cart_file_tail t crc data : slice (cart_file t crc data) 16 (16 + zlen data) = data.
Proof.
  unfold cart_file. rewrite !app_assoc. apply (slice_app_full_r (((cart_magic ++ put_be4 t) ++ put_be4 crc) ++ [0; 0; 0; 0]) data (16 + zlen data)). reflexivity.
Qed.
Lemma read_made c crc data : In c known_cart_types -> 0 <= crc < 4294967296 ->
  exists h, read_cart_header (slice (cart_file (ct_type c) crc data) 0 16) = Ok h /\ typed h c crc 16.
Proof.
  intros Hc Hr. rewrite cart_file_head. unfold read_cart_header.
  change (zlen (cart_magic ++ put_be4 (ct_type c) ++ put_be4 crc ++ [0; 0; 0; 0]) =? 16) with true. cbv iota.
  change (zlist_eqb (slice (cart_magic ++ put_be4 (ct_type c) ++ put_be4 crc ++ [0; 0; 0; 0]) 0 4) cart_magic) with true. cbv iota zeta.
  set (X := cart_magic ++ put_be4 (ct_type c) ++ put_be4 crc ++ [0; 0; 0; 0]).
  pose proof (cart_wf c Hc) as W. unfold wf_cart in W. rewrite !andb_true_iff in W. destruct W as [[[W1 W2] W3] _].
  change (be4 (getb X 4) (getb X 5) (getb X 6) (getb X 7)) with (be4 (u8 (ct_type c / 16777216)) (u8 (ct_type c / 65536)) (u8 (ct_type c / 256)) (u8 (ct_type c))).
  change (be4 (getb X 8) (getb X 9) (getb X 10) (getb X 11)) with (be4 (u8 (crc / 16777216)) (u8 (crc / 65536)) (u8 (crc / 256)) (u8 crc)).
  rewrite !be4_put by lia. apply set_type_ok. exact Hc.
Qed.
Lemma cart_size_ok im c crc off : typed (ci_hdr im) c crc off -> In c known_cart_types -> 
  cart_check_size im = if zlen (ci_bytes im) =? off + ct_size c * 1024 then Ok tt else Err (EAtr InvalidDiskImage).
Proof.
  intros T Hc. unfold cart_check_size. pose proof (cart_wf c Hc) as W. unfold wf_cart in W. rewrite !andb_true_iff in W. destruct W as [[[W1 W2] W3] _].
  rewrite (ty_type _ _ _ _ T), (ty_off _ _ _ _ T). replace (ct_type c =? -1) with false by lia. rewrite (get_cart_in c Hc). cbn [rbind].
  set (n := zlen (ci_bytes im) - off). pose proof (Z.div_mod n 1024 ltac:(lia)). pose proof (Z.mod_pos_bound n 1024 ltac:(lia)).
  destruct (Z.ltb_spec 0 (n mod 1024)); [replace (zlen (ci_bytes im) =? off + ct_size c * 1024) with false by (unfold n in *; lia); reflexivity|].
  destruct (Z.eqb_spec (n / 1024) (ct_size c)); cbn [negb].
  - replace (zlen (ci_bytes im) =? off + ct_size c * 1024) with true by (unfold n in *; lia). reflexivity.
  - replace (zlen (ci_bytes im) =? off + ct_size c * 1024) with false by (unfold n in *; lia). reflexivity.
Qed.
(** Every header that is read is one of the known types. *)
Lemma read_inv b h : bytes_ok b -> read_cart_header (slice b 0 16) = Ok h -> exists c crc rest, In c known_cart_types /\ 0 <= crc < 4294967296 /\ typed h c crc 16 /\
  16 <= zlen b /\ zlen rest = 4 /\ b = cart_magic ++ put_be4 (ct_type c) ++ put_be4 crc ++ rest ++ slice b 16 (zlen b).
Proof.
  intros Bk E. unfold read_cart_header in E. destruct (Z.eqb_spec (zlen (slice b 0 16)) 16) as [L|L]; [|discriminate].
  destruct (zlist_eqb (slice (slice b 0 16) 0 4) cart_magic) eqn:M; [|discriminate]. apply zlist_eqb_eq in M.
  assert (Lb : 16 <= zlen b) by (rewrite zlen_slice_min in L by lia; lia).
  assert (Eb : b = slice b 0 16 ++ slice b 16 (zlen b)) by (rewrite <- slice_split by lia; symmetry; apply slice_full).
  set (x := slice b 0 16) in *. assert (Bx : bytes_ok x) by (apply bytes_ok_slice; exact Bk). clearbody x.
  assert (Ex : exists x0 x1 x2 x3 x4 x5 x6 x7 x8 x9 x10 x11 x12 x13 x14 x15, x = [x0;x1;x2;x3;x4;x5;x6;x7;x8;x9;x10;x11;x12;x13;x14;x15]).
  { unfold zlen in L. do 16 (destruct x as [|? x]; [cbn in L; lia|]). destruct x; [|cbn in L; lia]. do 16 eexists. reflexivity. }
  destruct Ex as (x0&x1&x2&x3&x4&x5&x6&x7&x8&x9&x10&x11&x12&x13&x14&x15&->).
  change (slice [x0;x1;x2;x3;x4;x5;x6;x7;x8;x9;x10;x11;x12;x13;x14;x15] 0 4) with [x0;x1;x2;x3] in M. injection M as -> -> -> ->.
  change (getb [67;65;82;84;x4;x5;x6;x7;x8;x9;x10;x11;x12;x13;x14;x15] 4) with x4 in E.
  change (getb [67;65;82;84;x4;x5;x6;x7;x8;x9;x10;x11;x12;x13;x14;x15] 5) with x5 in E.
  change (getb [67;65;82;84;x4;x5;x6;x7;x8;x9;x10;x11;x12;x13;x14;x15] 6) with x6 in E.
  change (getb [67;65;82;84;x4;x5;x6;x7;x8;x9;x10;x11;x12;x13;x14;x15] 7) with x7 in E.
  change (getb [67;65;82;84;x4;x5;x6;x7;x8;x9;x10;x11;x12;x13;x14;x15] 8) with x8 in E.
  change (getb [67;65;82;84;x4;x5;x6;x7;x8;x9;x10;x11;x12;x13;x14;x15] 9) with x9 in E.
  change (getb [67;65;82;84;x4;x5;x6;x7;x8;x9;x10;x11;x12;x13;x14;x15] 10) with x10 in E.
  change (getb [67;65;82;84;x4;x5;x6;x7;x8;x9;x10;x11;x12;x13;x14;x15] 11) with x11 in E.
  assert (B : forall y, In y [67;65;82;84;x4;x5;x6;x7;x8;x9;x10;x11;x12;x13;x14;x15] -> is_byte y) by (apply Forall_forall; exact Bx).
  cbv zeta in E. destruct (get_cart (be4 x4 x5 x6 x7)) as [c|] eqn:G; [|unfold set_type in E; rewrite G in E; discriminate].
  apply get_cart_inv in G. destruct G as [Hc Et].
  destruct (set_type_ok c (be4 x4 x5 x6 x7) EmptyString 0 (be4 x8 x9 x10 x11) 16 Hc) as (h' & E' & T). rewrite Et in E'. rewrite E' in E. injection E as ->.
  exists c, (be4 x8 x9 x10 x11), [x12;x13;x14;x15]. split; [exact Hc|]. split.
  { pose proof (B x8 ltac:(cbn; tauto)). pose proof (B x9 ltac:(cbn; tauto)). pose proof (B x10 ltac:(cbn; tauto)). pose proof (B x11 ltac:(cbn; tauto)). unfold is_byte, be4 in *. lia. }
  split; [exact T|]. split; [exact Lb|]. split; [reflexivity|]. rewrite Et.
  rewrite !put_be4_bytes by (apply B; cbn; tauto). exact Eb.
Qed.
Lemma read_err b e : read_cart_header b = Err e -> e = EAtr InvalidCartHeader \/ e = EAtr InvalidDiskImage.
Proof.
  unfold read_cart_header. destruct (zlen b =? 16); [|intros E; injection E as <-; auto]. destruct (zlist_eqb (slice b 0 4) cart_magic); [|intros E; injection E as <-; auto].
  cbv zeta. set (t := be4 _ _ _ _). destruct (get_cart t) as [c|x] eqn:G.
  - apply get_cart_inv in G. destruct G as [Hc <-]. edestruct (set_type_ok c (ct_type c)) as (h & -> & _); [exact Hc|discriminate].
  - unfold set_type. rewrite G. cbn [rbind]. intros E. injection E as <-. unfold get_cart in G. destruct (find _ _); [discriminate|]. injection G as <-. auto.
Qed.
(** Opening and checking fail only with errors of the library. *)
Lemma cart_check_err im e : cart_check_size im = Err e -> e = EAtr InvalidDiskImage.
Proof.
  unfold cart_check_size. destruct (h_type (ci_hdr im) =? -1); [discriminate|]. unfold get_cart. destruct (find _ _); cbn [rbind]; [|intros E; injection E as <-; reflexivity].
  destruct (0 <? _); [intros E; injection E as <-; reflexivity|]. destruct (negb _); [intros E; injection E as <-; reflexivity|discriminate].
Qed.
Lemma open_cart_err b t e : open_cart b t = Err e -> e = EAtr InvalidDiskImage.
Proof.
  unfold open_cart. unfold get_cart. destruct (find _ _); cbn [rbind]; [|intros E; injection E as <-; reflexivity].
  destruct (read_cart_header (slice b 0 16)) as [h|x] eqn:R; cbn [rbind].
  - destruct (cart_check_size _) eqn:C; cbn [rbind]; [discriminate|]. intros E. injection E as <-. eapply cart_check_err. exact C.
  - apply read_err in R. destruct R as [-> | ->]; cbn [rbind]; [|intros E; injection E as <-; reflexivity].
    destruct (cart_check_size _) eqn:C; cbn [rbind]; [discriminate|]. intros E. injection E as <-. eapply cart_check_err. exact C.
Qed.
Lemma cart_parse_err k b t e : cart_parse k b t = Err e -> e = EAtr InvalidSegmentParser.
Proof.
  unfold cart_parse. destruct (open_cart b t) as [im|x] eqn:O; cbn [rbind].
  - unfold cart_strict. repeat match goal with |- context [if ?c then _ else _] => destruct c; cbn [rbind]; try discriminate; try (intros E; injection E as <-; reflexivity) end.
  - apply open_cart_err in O. subst x. intros E. injection E as <-. reflexivity.
Qed.
