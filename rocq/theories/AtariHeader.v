(** ATR headers and sector addressing for arbitrary images. *)
From Verif Require Import Base BaseLemmas DiskModel DirLemmas AtariModel AtariSpec AtariGeom AtariDir AtariVtoc AtariChain AtariSectors AtariWrite AtariDelete.

(** ataridos.py 759-767: add_atr_header.  AtrHeader(create=True) has sector size
    128 and header_offset 16 (lines 352-355). *)
Definition add_atr_header (data : list Z) : res (list Z) :=
  let! h := check_size (mkH 16 0 128 0 0 128 0 0 0 0) (zlen data) in
  Ok (atr_encode h ++ data).

Lemma zlen_atr_encode h : zlen (atr_encode h) = 16.
Proof. reflexivity. Qed.
Lemma le4_put4 x : le4 (u8 x) (u8 (x / 256)) (u8 (x / 65536)) (u8 (x / 16777216)) = u32 x.
Proof. unfold le4, u8, u32. Z.to_euclidean_division_equations. lia. Qed.

Lemma atr_round h : h_image_size h mod 16 = 0 -> 0 <= h_image_size h < 268435456 ->
  0 <= h_ssize h < 65536 -> 0 <= h_crc h < 4294967296 -> 0 <= h_unused h < 4294967296 ->
  0 <= h_flags h < 256 ->
  atr_header (atr_encode h) = Ok (mkH 16 (h_image_size h) (h_ssize h) 0 0 128 0 (h_crc h) (h_unused h) (h_flags h)).
Proof.
  intros H1 H2 H3 H4 H5 H6. set (P := h_image_size h / 16).
  transitivity (Ok (mkH 16 ((u8 (P / 65536) * 256 * 256 + le2 (u8 (P mod 65536)) (u8 (P mod 65536 / 256))) * 16)
    (le2 (u8 (h_ssize h)) (u8 (h_ssize h / 256))) 0 0 128 0
    (le4 (u8 (h_crc h)) (u8 (h_crc h / 256)) (u8 (h_crc h / 65536)) (u8 (h_crc h / 16777216)))
    (le4 (u8 (h_unused h)) (u8 (h_unused h / 256)) (u8 (h_unused h / 65536)) (u8 (h_unused h / 16777216)))
    (u8 (h_flags h)))); [reflexivity|].
  rewrite !le4_put4, !le2_u8. unfold u32, u16, u8.
  rewrite !(Z.mod_small (h_crc h)), !(Z.mod_small (h_unused h)), !(Z.mod_small (h_flags h)),
    !(Z.mod_small (h_ssize h)) by lia.
  f_equal. f_equal. rewrite Z.mod_mod by lia. unfold P. Z.to_euclidean_division_equations. lia.
Qed.

(** What opening does to data wrapped by [add_atr_header]. *)
Lemma add_atr_header_open data : zlen data mod 16 = 0 -> zlen data < 268435456 ->
  exists b, add_atr_header data = Ok b /\ slice b 16 (zlen b) = data /\ zlen b = 16 + zlen data /\
    h_offset (read_header b) = 16 /\ hdr_of b = check_size (read_header b) (zlen data) /\
    (exists h, hdr_of b = Ok h /\ h_offset h = 16 /\ check_size (mkH 16 0 128 0 0 128 0 0 0 0) (zlen data) = Ok h).
Proof.
  intros Hm Hl. pose proof (zlen_nonneg data) as Hp.
  set (h0 := mkH 16 0 128 0 0 128 0 0 0 0).
  assert (E : exists h, check_size h0 (zlen data) = Ok h /\ h_offset h = 16 /\ h_crc h = 0 /\ h_unused h = 0 /\
     h_flags h = 0 /\ 0 < h_ssize h < 65536 /\ h_image_size h mod 16 = 0 /\ 0 <= h_image_size h < 268435456 /\
     check_size (mkH 16 (h_image_size h) (h_ssize h) 0 0 128 0 0 0 0) (zlen data) = Ok h).
  { unfold check_size, h0. cbn [h_ssize h_isize h_ninit h_offset h_crc h_unused h_flags].
    destruct ((zlen data =? 92160) || (zlen data =? 92176)) eqn:E1.
    { eexists; split; [reflexivity|]. cbn [h_ssize h_offset h_crc h_unused h_flags h_image_size].
      repeat (split; [try reflexivity; lia|]). reflexivity. }
    destruct ((zlen data =? 184320) || (zlen data =? 184336)) eqn:E2.
    { eexists; split; [reflexivity|]. cbn [h_ssize h_offset h_crc h_unused h_flags h_image_size].
      repeat (split; [try reflexivity; lia|]). reflexivity. }
    destruct ((zlen data =? 183936) || (zlen data =? 183952)) eqn:E3.
    { eexists; split; [reflexivity|]. cbn [h_ssize h_offset h_crc h_unused h_flags h_image_size].
      repeat (split; [try reflexivity; lia|]). reflexivity. }
    eexists; split; [reflexivity|]. cbn [h_ssize h_offset h_crc h_unused h_flags h_image_size].
    repeat (split; [try reflexivity; lia|]). reflexivity. }
  destruct E as (h & E & Ho & Hc & Hu & Hf & Hs & Hi & Hi2 & E2).
  exists (atr_encode h ++ data). unfold add_atr_header. fold h0. rewrite E. cbn [rbind].
  split; [reflexivity|]. assert (Z16 := zlen_atr_encode h).
  assert (Zb : zlen (atr_encode h ++ data) = 16 + zlen data) by (rewrite zlen_app; lia).
  split; [rewrite <- Z16; apply slice_app_drop; lia|]. split; [exact Zb|].
  assert (R : read_header (atr_encode h ++ data) = mkH 16 (h_image_size h) (h_ssize h) 0 0 128 0 0 0 0).
  { unfold read_header. rewrite slice_app_l by lia. rewrite slice_all by lia.
    rewrite atr_round by lia. rewrite Hc, Hu, Hf. reflexivity. }
  assert (H : hdr_of (atr_encode h ++ data) = check_size (read_header (atr_encode h ++ data)) (zlen data)).
  { unfold hdr_of. rewrite R. cbn [h_offset]. rewrite Zb. f_equal. lia. }
  split; [rewrite R; reflexivity|]. split; [exact H|].
  exists h. rewrite H, R. auto.
Qed.

(** * Sector addressing of any image *)
Lemma read_header_facts b : bytes_ok b ->
  h_isize (read_header b) = 0 /\ h_ninit (read_header b) = 0 /\ 0 <= h_ssize (read_header b) /\
  (h_offset (read_header b) = 0 \/ h_offset (read_header b) = 16 /\ 16 <= zlen b).
Proof.
  intros Hb. unfold read_header, atr_header.
  destruct (zlen (slice b 0 16) =? 16) eqn:E16; [|cbn; lia].
  rewrite zlen_slice_min in E16 by lia.
  destruct (negb _); cbn [h_offset h_isize h_ninit h_ssize xfd_header]; [lia|].
  assert (B : bytes_ok (slice b 0 16)) by (apply bytes_ok_slice; assumption).
  pose proof (le2_range _ _ (bytes_ok_getb _ 4 B) (bytes_ok_getb _ 5 B)). lia.
Qed.

Definition boot_geometry (h : hdr) : Prop :=
  h_ninit h = 3 /\ h_isize h = 128 /\ h_ssize h = 256 /\ h_image_size h = 183936 /\ h_max h = 720.
Lemma hdr_of_facts b h : bytes_ok b -> hdr_of b = Ok h ->
  0 < h_ssize h /\ 0 <= h_offset h /\ 0 <= h_max h /\ h_offset h + h_image_size h <= zlen b /\
  (boot_geometry h \/
   h_ninit h = 0 /\ h_max h = h_image_size h / h_ssize h).
Proof.
  intros Hb E. destruct (read_header_facts b Hb) as (Hi & Hn & Hs & Ho).
  unfold hdr_of, check_size in E. set (sz := zlen b - h_offset (read_header b)) in *.
  rewrite Hi, Hn in E. assert (0 <= h_offset (read_header b)) by lia.
  assert (Hsz : 0 <= sz) by (unfold sz; pose proof (zlen_nonneg b); lia).
  assert (Hz : h_offset (read_header b) + sz = zlen b) by (unfold sz; lia).
  destruct ((sz =? 92160) || (sz =? 92176)) eqn:E1;
  [|destruct ((sz =? 184320) || (sz =? 184336)) eqn:E2;
  [|destruct ((sz =? 183936) || (sz =? 183952)) eqn:E3]].
  - cbn in E. injection E as <-. cbn [h_ssize h_max h_ninit h_isize h_image_size h_offset].
    split; [lia|]. split; [lia|]. split; [lia|]. split; [lia|]. right. split; reflexivity.
  - cbn in E. injection E as <-. cbn [h_ssize h_max h_ninit h_isize h_image_size h_offset].
    split; [lia|]. split; [lia|]. split; [lia|]. split; [lia|]. right. split; reflexivity.
  - cbn in E. injection E as <-. cbn [h_ssize h_max h_ninit h_isize h_image_size h_offset].
    split; [lia|]. split; [lia|]. split; [lia|]. split; [lia|]. left. repeat split; reflexivity.
  - destruct (Z.eqb_spec (h_ssize (read_header b)) 0); [discriminate|]. injection E as <-.
    cbn [h_ssize h_max h_ninit h_isize h_image_size h_offset].
    rewrite ?Z.mul_0_l, ?Z.sub_0_r, ?Z.add_0_r.
    assert (0 <= sz / h_ssize (read_header b)) by (apply Z.div_pos; lia).
    split; [lia|]. split; [lia|]. split; [lia|]. split; [lia|]. right. split; reflexivity.
Qed.

Lemma get_pos_valid h n : 0 <= h_max h ->
  (1 <= n <= h_max h -> exists p s, get_pos h n = Ok (p, s)) /\
  (~ 1 <= n <= h_max h -> get_pos h n = Err (EAtr ByteNotInFile166)).
Proof.
  intros Hm. unfold get_pos, sector_valid. split; intros H.
  - replace (negb _) with false by lia. destruct (n <=? h_ninit h); eauto.
  - replace (negb _) with true by lia. reflexivity.
Qed.
Lemma get_pos_inside b h n p s : bytes_ok b -> hdr_of b = Ok h -> get_pos h n = Ok (p, s) ->
  h_offset h <= p /\ 0 < s /\ p + s <= zlen b.
Proof.
  intros Hb E P. destruct (hdr_of_facts b h Hb E) as (F1 & F2 & F3 & F4 & F5).
  unfold get_pos in P. destruct (sector_valid h n) eqn:V; [|discriminate]. cbn [negb] in P.
  unfold sector_valid in V.
  destruct F5 as [(B1 & B2 & B3 & B4 & B5)|(B1 & B2)].
  - destruct (n <=? h_ninit h) eqn:L; injection P as <- <-; rewrite B1 in *; rewrite B2 in *; rewrite ?B3 in *; lia.
  - replace (n <=? h_ninit h) with false in P by lia. injection P as <- <-. rewrite B1 in *.
    assert (h_ssize h * h_max h <= h_image_size h) by (rewrite B2; apply Z.mul_div_le; lia). nia.
Qed.
Lemma get_pos_disjoint b h n m p s q t : bytes_ok b -> hdr_of b = Ok h -> h_ninit h = 0 ->
  n <> m -> get_pos h n = Ok (p, s) -> get_pos h m = Ok (q, t) -> p + s <= q \/ q + t <= p.
Proof.
  intros Hb E Hi Hne P Q. destruct (hdr_of_facts b h Hb E) as (F1 & F2 & F3 & F4 & F5).
  unfold get_pos in P, Q. destruct (sector_valid h n) eqn:V; [|discriminate]. destruct (sector_valid h m) eqn:W; [|discriminate].
  cbn [negb] in P, Q. unfold sector_valid in V, W. 
  replace (n <=? h_ninit h) with false in P by lia. replace (m <=? h_ninit h) with false in Q by lia.
  injection P as <- <-. injection Q as <- <-. nia.
Qed.
Lemma get_pos_disjoint_boot b h n m p s q t : bytes_ok b -> hdr_of b = Ok h -> 3 < n -> 3 < m ->
  n <> m -> get_pos h n = Ok (p, s) -> get_pos h m = Ok (q, t) -> p + s <= q \/ q + t <= p.
Proof.
  intros Hb E Hn Hm Hne P Q. destruct (hdr_of_facts b h Hb E) as (F1 & F2 & F3 & F4 & F5).
  unfold get_pos in P, Q. destruct (sector_valid h n) eqn:V; [|discriminate]. destruct (sector_valid h m) eqn:W; [|discriminate].
  cbn [negb] in P, Q. unfold sector_valid in V, W.
  assert (h_ninit h <= 3) by (destruct F5 as [(B1 & _)|(B1 & _)]; lia).
  replace (n <=? h_ninit h) with false in P by lia. replace (m <=? h_ninit h) with false in Q by lia.
  injection P as <- <-. injection Q as <- <-. nia.
Qed.
Lemma get_pos_cover b h p : bytes_ok b -> hdr_of b = Ok h -> h_ninit h = 0 ->
  h_offset h <= p < h_offset h + h_max h * h_ssize h ->
  exists n q s, get_pos h n = Ok (q, s) /\ q <= p < q + s.
Proof.
  intros Hb E Hi Hp. destruct (hdr_of_facts b h Hb E) as (F1 & F2 & F3 & F4 & F5).
  set (i := (p - h_offset h) / h_ssize h).
  assert (Hq : h_ssize h * i <= p - h_offset h < h_ssize h * i + h_ssize h).
  { unfold i. pose proof (Z.div_mod (p - h_offset h) (h_ssize h) ltac:(lia)).
    pose proof (Z.mod_pos_bound (p - h_offset h) (h_ssize h) ltac:(lia)). lia. }
  assert (0 <= i) by (unfold i; apply Z.div_pos; lia). assert (i < h_max h) by nia.
  exists (i + 1), (h_ninit h * h_isize h + (i + 1 - 1 - h_ninit h) * h_ssize h + h_offset h), (h_ssize h).
  unfold get_pos, sector_valid. replace (negb _) with false by lia. rewrite Hi.
  replace (i + 1 <=? 0) with false by lia. split; [reflexivity|]. lia.
Qed.

(** Reading terminates with the fuel the model uses. *)
Lemma get_file_no_fuel im d : 0 <= h_max (a_hdr im) -> d_my d = false ->
  forall fuel, (chain_fuel (a_hdr im) <= fuel)%nat ->
  get_file_fuel fuel im d <> Err EFuel /\ get_file_fuel fuel im d = get_file im d.
Proof.
  intros Hm Hd.
  assert (Mono : forall f1 cur seen r, read_runs f1 (a_hdr im) (a_bytes im) false (d_num d) cur seen = r -> r <> Err EFuel ->
     forall f2, (f1 <= f2)%nat -> read_runs f2 (a_hdr im) (a_bytes im) false (d_num d) cur seen = r).
  { induction f1 as [|f1 IH]; intros cur seen r Hr Hne f2 Hle; [cbn in Hr; congruence|].
    destruct f2 as [|f2]; [lia|]. cbn [read_runs] in *.
    destruct (read_sector _ _ _ _ _ _) as [[[[nx seen'] p] n]|e] eqn:E; cbn [rbind] in *; [|assumption].
    destruct (nx =? 0); [assumption|].
    destruct (read_runs f1 (a_hdr im) (a_bytes im) false (d_num d) nx seen') as [rest|e] eqn:E1.
    - rewrite (IH _ _ _ E1 ltac:(discriminate) f2 ltac:(lia)). assumption.
    - cbn [rbind] in Hr. rewrite (IH _ _ _ E1 ltac:(congruence) f2 ltac:(lia)). assumption. }
  intros fuel Hf.
  assert (F : read_runs (chain_fuel (a_hdr im)) (a_hdr im) (a_bytes im) false (d_num d) (d_start d) [] <> Err EFuel).
  { apply (read_fuel (a_hdr im) (a_bytes im) (d_num d) (chain_fuel (a_hdr im)) Hm (d_start d) []).
    - constructor; [intros []|constructor].
    - intros m [].
    - unfold chain_fuel. cbn [length]. lia. }
  pose proof (Mono _ _ _ _ eq_refl F fuel Hf) as E.
  unfold get_file, get_file_fuel. rewrite Hd, E. split; [|reflexivity].
  unfold start_read. destruct (d_sane d); cbn [rbind]; [|discriminate].
  destruct (read_runs _ _ _ _ _ _ _) as [runs|e]; cbn [rbind]; [|congruence].
  destruct (forallb _ runs); [discriminate|]. unfold indexed_bytes. destruct (forallb _ _); discriminate.
Qed.
