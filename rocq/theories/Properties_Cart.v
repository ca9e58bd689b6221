(** Cartridges and ROM images: C38, C64 and C65. *)
From Coq Require Import String.
From Verif Require Import Base BaseLemmas CartModel CartProofs.
Open Scope Z_scope.

(** A cartridge file: "CART", type and checksum as big-endian words, four unused bytes, data. *)
Definition cart_bytes (t crc : Z) (unused data : list Z) : list Z := cart_magic ++ put_be4 t ++ put_be4 crc ++ unused ++ data.

(** * C38 *)
(** The banks, in order, and the main bank after them are the data: nothing is lost and
    nothing shown twice. *)
Definition tiled (im : cimage) (head data : list Z) : Prop :=
  exists main banks,
    cart_segments im = (if 0 <? zlen head then [mkCS KHeader 0 0 head] else []) ++ main :: banks /\
    cs_kind main = KMain /\ Forall (fun s => exists n, cs_kind s = KBank n) banks /\
    concat (map cs_data banks) ++ cs_data main = data.
Lemma banks_kind im : forall l k, Forall (fun s => exists n, cs_kind s = KBank n) (bank_segments im k l).
Proof. induction l as [|o l IH]; intros k; cbn [bank_segments]; constructor; [exists k; reflexivity|apply IH]. Qed.
Lemma typed_tiled im c crc head data : typed (ci_hdr im) c crc (zlen head) -> ci_bytes im = head ++ data -> zlen data = ct_size c * 1024 -> tiled im head data.
Proof.
  intros T E L. exists (main_segment im), (bank_segments im 1 (h_banks (ci_hdr im))).
  assert (Lb : zlen (ci_bytes im) = zlen head + ct_size c * 1024) by (rewrite E, zlen_app; lia).
  split; [unfold cart_segments; rewrite (ty_off _ _ _ _ T), E, slice_app_full_l; reflexivity|]. split; [reflexivity|]. split; [apply banks_kind|].
  rewrite (tiles im c crc (zlen head) T (zlen_nonneg head) Lb). rewrite E. apply slice_app_full_r. apply zlen_app.
Qed.
Theorem C38_with_header (c : cart) (crc : Z) (data : list Z) :
  In c known_cart_types -> 0 <= crc < 4294967296 -> zlen data = ct_size c * 1024 ->
  exists im, open_cart (cart_bytes (ct_type c) crc [0; 0; 0; 0] data) (ct_type c) = Ok im /\
    cart_strict AnyMachine im = Ok tt /\ cart_relaxed im = Ok im /\
    tiled im (header_array (ci_hdr im)) data /\ header_array (ci_hdr im) ++ data = cart_bytes (ct_type c) crc [0; 0; 0; 0] data.
Proof.
  intros Hc Hr L. change (cart_bytes (ct_type c) crc [0; 0; 0; 0] data) with (cart_file (ct_type c) crc data).
  destruct (read_made c crc data Hc Hr) as (h & R & T). exists (mkCI (cart_file (ct_type c) crc data) (ct_type c) h).
  assert (Eh : header_array h ++ data = cart_file (ct_type c) crc data).
  { unfold header_array, cart_file. rewrite (ty_type _ _ _ _ T), (ty_crc _ _ _ _ T), <- !app_assoc. reflexivity. }
  pose proof (cart_wf c Hc) as W. unfold wf_cart in W. rewrite !andb_true_iff in W. destruct W as [[[W1 W2] W3] _].
  split.
  { unfold open_cart. rewrite (get_cart_in c Hc). cbn [rbind]. rewrite R. cbn [rbind].
    rewrite (cart_size_ok (mkCI (cart_file (ct_type c) crc data) (ct_type c) h) c crc 16 T Hc). cbn [ci_bytes]. rewrite cart_file_len, L, Z.eqb_refl. reflexivity. }
  split; [unfold cart_strict; cbn [ci_hdr ci_type]; rewrite (ty_type _ _ _ _ T), Z.eqb_refl; replace (ct_type c =? -1) with false by lia; reflexivity|].
  split; [unfold cart_relaxed; cbn [ci_hdr ci_type]; rewrite (ty_type _ _ _ _ T), Z.eqb_refl; reflexivity|].
  split; [|exact Eh]. apply (typed_tiled _ c crc); [exact T|symmetry; exact Eh|exact L].
Qed.
Print Assumptions C38_with_header.
(** Plain cartridge data is cut the same way once the type is given. *)
Theorem C38_without_header (c : cart) (data : list Z) :
  In c known_cart_types -> zlen data = ct_size c * 1024 -> slice data 0 4 <> cart_magic ->
  exists im0 im, open_cart data (ct_type c) = Ok im0 /\ cart_relaxed im0 = Ok im /\ tiled im [] data /\
    boot_bytes im = cart_bytes (ct_type c) 0 [0; 0; 0; 0] data.
Proof.
  intros Hc L M. pose proof (cart_wf c Hc) as W. unfold wf_cart in W. rewrite !andb_true_iff in W. destruct W as [[[W1 W2] W3] _].
  destruct (set_type_ok c (-1) EmptyString 0 0 0 Hc) as (h & E & T).
  exists (mkCI data (ct_type c) no_header), (mkCI data (ct_type c) h). split.
  { unfold open_cart. rewrite (get_cart_in c Hc). cbn [rbind]. unfold read_cart_header.
    assert (Q : zlist_eqb (slice (slice data 0 16) 0 4) cart_magic = false).
    { apply zlist_eqb_neq. rewrite slice_slice by lia. exact M. }
    rewrite Q. destruct (zlen (slice data 0 16) =? 16); reflexivity. }
  split.
  { unfold cart_relaxed. cbn [ci_hdr ci_type ci_bytes h_type no_header]. replace (-1 =? ct_type c) with false by lia. cbn [negb].
    unfold no_header in *. rewrite E. cbn [rbind]. rewrite (cart_size_ok (mkCI data (ct_type c) h) c 0 0 T Hc). cbn [ci_bytes]. replace (zlen data =? 0 + ct_size c * 1024) with true by lia. reflexivity. }
  split; [apply (typed_tiled _ c 0); [exact T|reflexivity|exact L]|].
  unfold boot_bytes. cbn [ci_bytes ci_hdr]. rewrite L, Z.mod_mul by lia. cbn [Z.eqb]. unfold header_array, cart_bytes. cbn [h_type h_crc]. rewrite (ty_type _ _ _ _ T), <- !app_assoc. reflexivity.
Qed.
Print Assumptions C38_without_header.
(** The banks of a switched cartridge all have the size and address in the table. *)
Lemma bank_facts im : forall l k s, In s (bank_segments im k l) -> cs_origin s = h_borigin (ci_hdr im) /\ exists o, In o l /\
  cs_start s = h_off (ci_hdr im) + o * 1024 /\ cs_data s = slice (ci_bytes im) (cs_start s) (cs_start s + h_bsize (ci_hdr im) * 1024).
Proof.
  induction l as [|o l IH]; intros k s H; [destruct H|]. cbn [bank_segments In] in H. destruct H as [<-|H].
  - cbn. split; [reflexivity|]. exists o. auto.
  - destruct (IH _ _ H) as (E & o' & H1 & H2). split; [exact E|]. exists o'. split; [right; exact H1|exact H2].
Qed.
Lemma offsets_bound bs n : 0 <= bs -> forall a o, In o (offsets a bs n) -> a <= o /\ o + bs <= a + Z.of_nat n * bs.
Proof.
  intros Hb. induction n as [|n IH]; intros a o H; [destruct H|]. cbn [offsets In] in H. destruct H as [<-|H]; [nia|]. apply IH in H. nia.
Qed.
Theorem C38_bank_addresses (c : cart) (crc : Z) (data : list Z) im :
  In c known_cart_types -> 0 <= crc < 4294967296 -> zlen data = ct_size c * 1024 ->
  open_cart (cart_bytes (ct_type c) crc [0; 0; 0; 0] data) (ct_type c) = Ok im ->
  (forall ms mo ma, ct_main c = Some (ms, mo, ma) -> forall s, In s (cart_segments im) -> cs_kind s = KMain ->
     cs_start s = 16 + mo * 1024 /\ cs_origin s = ma /\ zlen (cs_data s) = ms * 1024) /\
  (forall bs bo ba, ct_bank c = Some (bs, bo, ba) -> forall s n, In s (cart_segments im) -> cs_kind s = KBank n ->
     cs_origin s = ba /\ zlen (cs_data s) = bs * 1024).
Proof.
  intros Hc Hr L O. change (cart_bytes (ct_type c) crc [0; 0; 0; 0] data) with (cart_file (ct_type c) crc data) in O.
  destruct (read_made c crc data Hc Hr) as (h & R & T). unfold open_cart in O. rewrite (get_cart_in c Hc) in O. cbn [rbind] in O. rewrite R in O. cbn [rbind] in O.
  rewrite (cart_size_ok (mkCI (cart_file (ct_type c) crc data) (ct_type c) h) c crc 16 T Hc) in O. cbn [ci_bytes] in O. rewrite cart_file_len, L, Z.eqb_refl in O. cbn [rbind] in O. injection O as <-.
  set (im := mkCI (cart_file (ct_type c) crc data) (ct_type c) h).
  assert (Lf : zlen (ci_bytes im) = 16 + ct_size c * 1024) by (cbn [ci_bytes im]; rewrite cart_file_len; lia).
  destruct T as [T1 T2 T3 T4 T5 [T6 [T7 T8]] (n & N1 & N2 & N3) T9 T10].
  assert (Hs : forall s, In s (cart_segments im) -> (cs_kind s = KHeader) \/ s = main_segment im \/ In s (bank_segments im 1 (h_banks h))).
  { intros s H. unfold cart_segments in H. apply in_app_or in H. destruct H as [H|H]; [|cbn [In] in H; destruct H as [<-|H]; auto].
    destruct (0 <? h_off (ci_hdr im)); [|destruct H]. destruct H as [<-|[]]. auto. }
  split.
  - intros ms mo ma Em s Hi Hk. rewrite T9 in Em by congruence. injection Em as <- <- <-.
    destruct (Hs s Hi) as [K|[->|K]]; [congruence| |].
    + unfold main_segment. cbn [cs_start cs_origin cs_data im ci_hdr]. rewrite T5. split; [reflexivity|]. split; [reflexivity|]. rewrite zlen_slice; lia.
    + pose proof (banks_kind im (h_banks h) 1) as F. rewrite Forall_forall in F. destruct (F s K) as (m & E). congruence.
  - intros bs bo ba Eb s m Hi Hk. rewrite Eb in T10. destruct T10 as [E1 E2].
    destruct (Hs s Hi) as [K|[->|K]]; [congruence|discriminate Hk|].
    destruct (bank_facts im _ _ _ K) as (Q1 & o & Q2 & Q3 & Q4). cbn [im ci_hdr] in Q1, Q3, Q4. rewrite E1, E2 in *. split; [exact Q1|]. rewrite N1 in Q2.
    apply offsets_bound in Q2; [|exact N3]. rewrite Q4, zlen_slice; rewrite Q3, T5; lia.
Qed.
Print Assumptions C38_bank_addresses.
Example C38_demo : exists c, In c known_cart_types /\ ct_type c = 12 /\ ct_size c = 32 /\ ct_bank c = Some (8, 0, 0x8000) /\ offsets 0 8 3 = [0; 8; 16].
Proof. exists (c_banked 12 "XEGS 32 KB" 32 8 24 0xa000 8 0 0x8000). cbn. tauto. Qed.
(** Cartridge data for every type exists. *)
Example C38_data c : In c known_cart_types -> exists data, zlen data = ct_size c * 1024 /\ (0 < ct_size c -> slice data 0 4 <> cart_magic).
Proof.
  intros Hc. pose proof (cart_wf c Hc) as W. unfold wf_cart in W. rewrite !andb_true_iff in W. destruct W as [[[W1 W2] W3] _].
  exists (zrepeat 0 (ct_size c * 1024)). split; [apply zlen_zrepeat; lia|]. intros Hp E.
  assert (X : getb (slice (zrepeat 0 (ct_size c * 1024)) 0 4) 0 = getb cart_magic 0) by (rewrite E; reflexivity).
  rewrite getb_slice in X by (rewrite ?zlen_zrepeat; lia). rewrite getb_zrepeat in X by lia. discriminate.
Qed.

(** * C64 *)
(** A cartridge of that machine. *)
Definition for_machine (k : machine) (c : cart) : bool :=
  match k with AnyMachine => true | HomeComputer => negb (is_5200 (ct_name c)) | A5200 => is_5200 (ct_name c) end.
Lemma parse_ok k b t im : bytes_ok b -> cart_parse k b t = Ok im ->
  exists c crc rest data, In c known_cart_types /\ for_machine k c = true /\ ct_type c = t /\ 0 <= crc < 4294967296 /\ zlen rest = 4 /\
    b = cart_bytes t crc rest data /\ zlen data = ct_size c * 1024 /\ h_type (ci_hdr im) = t /\ ci_bytes im = b.
Proof.
  intros Bk E. unfold cart_parse in E. destruct (open_cart b t) as [im0|x] eqn:O; cbn [rbind] in E; [|apply open_cart_err in O; subst x; discriminate].
  destruct (cart_strict k im0) as [u|x] eqn:S; cbn [rbind] in E; [injection E as ->|destruct x as [e| | | | | | | | | | | |]; try discriminate; destruct e; discriminate].
  unfold cart_strict in S. destruct (match k with AnyMachine => false | HomeComputer => is_5200 (h_name (ci_hdr im)) | A5200 => negb (is_5200 (h_name (ci_hdr im))) end) eqn:Mk; [discriminate|].
  destruct (Z.eqb_spec (h_type (ci_hdr im)) (-1)) as [H1|H1]; [discriminate|]. destruct (Z.eqb_spec (h_type (ci_hdr im)) (ci_type im)) as [H2|H2]; [|discriminate].
  unfold open_cart in O. destruct (get_cart t) as [c0|] eqn:G; [|discriminate]. cbn [rbind] in O.
  destruct (read_cart_header (slice b 0 16)) as [h|x] eqn:R; cbn [rbind] in O.
  - destruct (cart_check_size (mkCI b t h)) eqn:Ck; [|discriminate]. cbn [rbind] in O. injection O as <-. cbn [ci_hdr ci_type ci_bytes] in *.
    destruct (read_inv b h Bk R) as (c & crc & rest & Hc & Hr & T & Lb & Lr & Eb). exists c, crc, rest, (slice b 16 (zlen b)).
    split; [exact Hc|]. split; [rewrite (ty_name _ _ _ _ T) in Mk; destruct k; cbn [for_machine]; [reflexivity|rewrite Mk; reflexivity|destruct (is_5200 (ct_name c)); [reflexivity|discriminate]]|].
    rewrite (ty_type _ _ _ _ T) in H2. split; [exact H2|]. split; [exact Hr|]. split; [exact Lr|]. rewrite <- H2. split; [exact Eb|].
    rewrite (cart_size_ok (mkCI b t h) c crc 16 T Hc) in Ck. cbn [ci_bytes] in Ck. destruct (Z.eqb_spec (zlen b) (16 + ct_size c * 1024)) as [L|]; [|discriminate].
    split; [rewrite zlen_slice; lia|]. split; [apply (ty_type _ _ _ _ T)|reflexivity].
  - apply read_err in R. destruct R as [-> | ->]; cbn [rbind] in O; [|discriminate]. cbn in O. injection O as <-. cbn in H1. congruence.
Qed.
Lemma parse_complete k c crc rest data : In c known_cart_types -> for_machine k c = true -> 0 <= crc < 4294967296 -> zlen rest = 4 -> zlen data = ct_size c * 1024 ->
  exists im, cart_parse k (cart_bytes (ct_type c) crc rest data) (ct_type c) = Ok im.
Proof.
  intros Hc Mk Hr Lr L. set (b := cart_bytes (ct_type c) crc rest data).
  assert (Hs : exists h, read_cart_header (slice b 0 16) = Ok h /\ typed h c crc 16).
  { destruct rest as [|r0 [|r1 [|r2 [|r3 [|]]]]]; try (vm_compute in Lr; discriminate Lr).
    2:{ exfalso. unfold zlen in Lr. cbn [length] in Lr. lia. }
    destruct (read_made c crc data Hc Hr) as (h & R & T). rewrite cart_file_head in R. exists h. split; [|exact T].
    change (slice b 0 16) with (cart_magic ++ put_be4 (ct_type c) ++ put_be4 crc ++ [r0; r1; r2; r3]).
    exact R. }
  destruct Hs as (h & R & T). exists (mkCI b (ct_type c) h). unfold cart_parse, open_cart. rewrite (get_cart_in c Hc). cbn [rbind]. rewrite R. cbn [rbind].
  rewrite (cart_size_ok (mkCI b (ct_type c) h) c crc 16 T Hc). cbn [ci_bytes].
  assert (Lb : zlen b = 16 + ct_size c * 1024).
  { unfold b, cart_bytes. rewrite !zlen_app, Lr, L. change (zlen cart_magic) with 4. change (zlen (put_be4 (ct_type c))) with 4. change (zlen (put_be4 crc)) with 4. lia. }
  rewrite Lb, Z.eqb_refl. cbn [rbind]. unfold cart_strict. cbn [ci_hdr ci_type]. rewrite (ty_name _ _ _ _ T), (ty_type _ _ _ _ T), Z.eqb_refl.
  pose proof (cart_wf c Hc) as W. unfold wf_cart in W. rewrite !andb_true_iff in W. destruct W as [[[W1 W2] W3] _]. replace (ct_type c =? -1) with false by lia.
  destruct k; cbn [for_machine] in Mk; [reflexivity|apply negb_true_iff in Mk; rewrite Mk; reflexivity|rewrite Mk; reflexivity].
Qed.
Lemma guess_ok k b : forall l im, guess_cart k b l = Ok (Some im) -> exists t, In t l /\ cart_parse k b t = Ok im.
Proof.
  induction l as [|t l IH]; intros im E; [discriminate|]. cbn [guess_cart] in E. destruct (cart_parse k b t) as [i|x] eqn:P.
  - injection E as <-. exists t. split; [left; reflexivity|exact P].
  - pose proof (cart_parse_err _ _ _ _ P) as ->. destruct (IH _ E) as (t' & H1 & H2). exists t'. split; [right; exact H1|exact H2].
Qed.
Lemma guess_total k b : forall l, exists r, guess_cart k b l = Ok r /\ (r = None -> forall t, In t l -> exists e, cart_parse k b t = Err e).
Proof.
  induction l as [|t l (r & E & H)]; cbn [guess_cart]; [exists None; split; [reflexivity|intros _ t []]|].
  destruct (cart_parse k b t) as [i|x] eqn:P; [exists (Some i); split; [reflexivity|discriminate]|]. pose proof (cart_parse_err _ _ _ _ P) as ->.
  exists r. split; [exact E|]. intros Hr t' [<-|Ht]; [eauto|auto].
Qed.
Lemma parsers_complete k c : k <> AnyMachine -> In c known_cart_types -> for_machine k c = true -> In (ct_type c) (cart_parsers k).
Proof.
  intros Hk Hc Mk. assert (X : forallb (fun c => implb (for_machine k c) (zmem (ct_type c) (cart_parsers k))) known_cart_types = true) by (destruct k; [congruence| |]; vm_compute; reflexivity).
  rewrite forallb_forall in X. specialize (X c Hc). rewrite Mk in X. apply zmem_In. exact X.
Qed.
(** A file is recognised as a cartridge of a machine exactly if it has a header naming one of
    its types and just as much data as the type needs, and then it is of that type. *)
Theorem C64_recognised (k : machine) (b : list Z) : k <> AnyMachine -> bytes_ok b ->
  exists r, guess_cart k b (cart_parsers k) = Ok r /\
  forall t, (exists im, r = Some im /\ h_type (ci_hdr im) = t /\ ci_bytes im = b) <->
            (exists c crc rest data, In c known_cart_types /\ for_machine k c = true /\ ct_type c = t /\ 0 <= crc < 4294967296 /\
               b = cart_bytes t crc rest data /\ zlen rest = 4 /\ zlen data = ct_size c * 1024).
Proof.
  intros Hk Bk. destruct (guess_total k b (cart_parsers k)) as (r & E & N). exists r. split; [exact E|]. intros t. split.
  - intros (im & -> & Ht & Eb). apply guess_ok in E. destruct E as (t' & _ & P). destruct (parse_ok k b t' im Bk P) as (c & crc & rest & data & H1 & H2 & H3 & H4 & H5 & H6 & H7 & H8 & H9).
    assert (Et : t' = t) by congruence. rewrite <- Et. exists c, crc, rest, data. repeat (split; [assumption|]). assumption.
  - intros (c & crc & rest & data & H1 & H2 & H3 & H4 & H5 & H6 & H7).
    destruct r as [im|].
    + exists im. split; [reflexivity|]. apply guess_ok in E. destruct E as (t' & _ & P). destruct (parse_ok k b t' im Bk P) as (c' & crc' & rest' & data' & K1 & K2 & K3 & K4 & K5 & K6 & K7 & K8 & K9).
      split; [|exact K9]. rewrite K8.
      assert (Q : forall x crc r d, 0 <= x < 4294967296 -> be4 (getb (cart_bytes x crc r d) 4) (getb (cart_bytes x crc r d) 5) (getb (cart_bytes x crc r d) 6) (getb (cart_bytes x crc r d) 7) = x).
      { intros x cr rr dd Hx. change (be4 (u8 (x / 16777216)) (u8 (x / 65536)) (u8 (x / 256)) (u8 x) = x). apply be4_put. exact Hx. }
      pose proof (cart_wf c H1) as W. unfold wf_cart in W. rewrite !andb_true_iff in W. destruct W as [[[W1 W2] W3] _].
      pose proof (cart_wf c' K1) as W'. unfold wf_cart in W'. rewrite !andb_true_iff in W'. destruct W' as [[[W1' W2'] W3'] _].
      rewrite <- (Q t crc rest data) by lia. rewrite <- H5. rewrite K6 at 1 2 3 4. rewrite Q by lia. reflexivity.
    + exfalso. destruct (N eq_refl t) as (e & X); [rewrite <- H3; apply parsers_complete; assumption|].
      destruct (parse_complete k c crc rest data H1 H2 H4 H6 H7) as (im & P). rewrite H3, <- H5 in P. congruence.
Qed.
Print Assumptions C64_recognised.
(** An 8 KB home computer cartridge; it is not one for the 5200. *)
Example C64_demo : exists im, guess_cart HomeComputer (cart_bytes 1 7 [0; 0; 0; 0] (zrepeat 9 8192)) (cart_parsers HomeComputer) = Ok (Some im) /\ h_type (ci_hdr im) = 1 /\
  guess_cart A5200 (cart_bytes 1 7 [0; 0; 0; 0] (zrepeat 9 8192)) (cart_parsers A5200) = Ok None.
Proof. eexists. split; [vm_compute; reflexivity|]. split; vm_compute; reflexivity. Qed.

(** * C65 *)
Lemma power_of_two n : 0 < n -> Z.land n (n - 1) = 0 <-> exists k, 0 <= k /\ n = 2 ^ k.
Proof.
  intros Hn. split.
  - intros H. exists (Z.log2 n). split; [apply Z.log2_nonneg|]. pose proof (Z.log2_spec n Hn) as [L U]. destruct (Z.eq_dec n (2 ^ Z.log2 n)) as [E|E]; [exact E|]. exfalso.
    assert (P : 0 < 2 ^ Z.log2 n) by (apply Z.pow_pos_nonneg; [lia|apply Z.log2_nonneg]).
    assert (L1 : Z.log2 (n - 1) = Z.log2 n) by (apply Z.log2_unique; [apply Z.log2_nonneg|lia]).
    assert (B : Z.testbit (Z.land n (n - 1)) (Z.log2 n) = true).
    { rewrite Z.land_spec, (Z.bit_log2 n Hn). rewrite <- L1. rewrite Z.bit_log2 by lia. reflexivity. }
    rewrite H, Z.bits_0 in B. discriminate.
  - intros (k & Hk & ->). replace (2 ^ k - 1) with (Z.ones k) by (rewrite Z.ones_equiv; lia). rewrite Z.land_ones by exact Hk. apply Z.mod_same. apply Z.pow_nonzero; lia.
Qed.
(** Data is taken as a ROM exactly if its size is a power of two, or it is empty; the one
    segment shows all of it. *)
Theorem C65_rom_partial (b : list Z) :
  (zlen b <> 0 -> (open_rom b = Ok b <-> exists k, 0 <= k /\ zlen b = 2 ^ k)) /\
  (open_rom b <> Ok b -> open_rom b = Err (EAtr InvalidDiskImage)) /\
  map cs_data (rom_segments b) = [b].
Proof.
  split; [|split; [|reflexivity]].
  - intros Hn. pose proof (zlen_nonneg b). rewrite <- (power_of_two (zlen b)) by lia. unfold open_rom. destruct (Z.eqb_spec (Z.land (zlen b) (zlen b - 1)) 0); cbn [negb]; intuition (auto; discriminate).
  - unfold open_rom. destruct (negb _); [reflexivity|congruence].
Qed.
Print Assumptions C65_rom_partial.
Example C65_demo : open_rom (zrepeat 1 64) = Ok (zrepeat 1 64) /\ open_rom (zrepeat 1 65) = Err (EAtr InvalidDiskImage).
Proof. split; reflexivity. Qed.
Theorem C65_empty_refuted : exists b, open_rom b = Ok b /\ ~ exists k, 0 <= k /\ zlen b = 2 ^ k.
Proof.
  exists []. split; [reflexivity|]. intros (k & Hk & E). change (zlen []) with 0 in E. symmetry in E. apply Z.pow_nonzero in E; lia.
Qed.
Print Assumptions C65_empty_refuted.
