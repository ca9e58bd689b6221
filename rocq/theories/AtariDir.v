(** Directory entries and the directory area. *)
From Verif Require Import Base BaseLemmas DiskModel DirLemmas AtariModel AtariSpec AtariGeom.

(** * Flags *)
Definition flag_of (d : dirent) : Z :=
  1 * b2z (d_out d) + 2 * b2z (d_dos2 d) + 4 * b2z (d_mydos d) +
  0x10 * b2z (d_isdir d) + 0x20 * b2z (d_locked d) + 0x40 * b2z (d_inuse d) +
  0x80 * b2z (d_deleted d).

Lemma flag_bit_has e k : flag_bit (e_flag e) k = true <-> flag_has e k.
Proof.
  unfold flag_bit, flag_has. pose proof (Z.mod_pos_bound (e_flag e / k) 2). lia.
Qed.
Lemma flag_bit_has_false e k : flag_bit (e_flag e) k = false <-> ~ flag_has e k.
Proof. rewrite <- flag_bit_has. destruct (flag_bit _ _); split; congruence. Qed.

Definition bits_of_flag (f : Z) : Z :=
  1 * b2z (flag_bit f 1) + 2 * b2z (flag_bit f 2) + 4 * b2z (flag_bit f 4) +
  0x10 * b2z (flag_bit f 0x10) + 0x20 * b2z (flag_bit f 0x20) +
  0x40 * b2z (flag_bit f 0x40) + 0x80 * b2z (flag_bit f 0x80).
Lemma bits_of_flag_sweep :
  forallb (fun f => flag_bit f 8 || (bits_of_flag f =? f)) (zrange 0 256) = true.
Proof. reflexivity. Qed.
Lemma bits_of_flag_id f : is_byte f -> flag_bit f 8 = false -> bits_of_flag f = f.
Proof.
  intros Hf H8. pose proof bits_of_flag_sweep as S. rewrite forallb_forall in S.
  specialize (S f). rewrite In_zrange in S. unfold is_byte in Hf. specialize (S Hf).
  rewrite H8 in S. cbn in S. lia.
Qed.

Lemma flag_of_bits : forall o d2 my dir lk iu del,
  let f := 1 * b2z o + 2 * b2z d2 + 4 * b2z my + 0x10 * b2z dir + 0x20 * b2z lk +
           0x40 * b2z iu + 0x80 * b2z del in
  flag_bit f 1 = o /\ flag_bit f 2 = d2 /\ flag_bit f 4 = my /\ flag_bit f 8 = false /\
  flag_bit f 0x10 = dir /\ flag_bit f 0x20 = lk /\ flag_bit f 0x40 = iu /\
  flag_bit f 0x80 = del /\ is_byte f.
Proof.
  intros [] [] [] [] [] [] []; cbn; unfold is_byte; repeat split; try reflexivity; discriminate.
Qed.

(** * Name fields *)
(** A field value that survives encoding into [n] bytes and parsing. *)
Definition field_ok (n : Z) (s : list Z) : Prop := zlen s <= n /\ trim (put_s n s) = s.

Lemma trim_put_s n s : 0 <= n -> zlen s <= n -> no_nul_end s -> rstrip s = s ->
  trim (put_s n s) = s.
Proof.
  intros Hn Hs H0 Hsp. unfold trim. rewrite rstrip0_put_s; assumption.
Qed.
Lemma zlen_trim s : zlen (trim s) <= zlen s.
Proof.
  unfold trim, rstrip, rstrip0. pose proof (zlen_rstripf is_space (rstripf (Z.eqb 0) s)).
  pose proof (zlen_rstripf (Z.eqb 0) s). lia.
Qed.
Lemma trim_field n s : 0 <= n -> zlen s = n -> no_nul_end (trim s) -> field_ok n (trim s).
Proof.
  intros Hn Hs H0. split; [pose proof (zlen_trim s); lia|].
  apply trim_put_s; [assumption|pose proof (zlen_trim s); lia|assumption|].
  unfold trim. apply rstripf_idem.
Qed.

Lemma clean_end_strip f s : (forall c, f c = true -> is_space c = true \/ c = 0) ->
  clean_end s -> rstripf f s = s.
Proof.
  intros Hf Hc. destruct s as [|x s]; [reflexivity|].
  destruct (@exists_last _ (x :: s)) as (p & c & E); [discriminate|].
  rewrite E. apply no_trail_snoc. destruct (Hc p c E) as [H1 H2].
  destruct (f c) eqn:Ef; [|reflexivity]. destruct (Hf c Ef); congruence.
Qed.

(** Blank padding as done for new names. *)
Lemma trim_put_ljust n s : 0 <= n -> zlen s <= n -> clean_end s ->
  trim (put_s n (ljust n s)) = s.
Proof.
  intros Hn Hs Hc. unfold put_s, ljust, trim, rstrip, rstrip0.
  assert (El : length (s ++ zrepeat 32 (n - zlen s)) = Z.to_nat n).
  { rewrite app_length. unfold zrepeat, zlen in *. rewrite repeat_length. lia. }
  rewrite firstn_all2 by lia.
  replace (zrepeat 0 _) with (@nil Z).
  2:{ assert (El' : zlen (s ++ zrepeat 32 (n - zlen s)) = n) by (unfold zlen at 1; lia).
      rewrite El', Z.sub_diag. reflexivity. }
  rewrite app_nil_r.
  destruct (Z.eq_dec (n - zlen s) 0) as [E|E].
  - rewrite E. cbn [zrepeat Z.to_nat repeat]. rewrite app_nil_r.
    rewrite (clean_end_strip (Z.eqb 0)); [|intros c H; right; lia|assumption].
    apply clean_end_strip; auto.
  - rewrite rstripf_app.
    + assert (Hr : rstripf (Z.eqb 0) (zrepeat 32 (n - zlen s)) = zrepeat 32 (n - zlen s)).
      { unfold zrepeat. destruct (Z.to_nat (n - zlen s)) as [|m] eqn:Em; [lia|].
        replace (S m) with (m + 1)%nat by lia. rewrite repeat_app. cbn [repeat].
        apply no_trail_snoc. reflexivity. }
      rewrite Hr. rewrite rstripf_app_all.
      * apply clean_end_strip; auto.
      * unfold zrepeat. apply forallb_forall. intros x Hx. apply repeat_spec in Hx. subst; reflexivity.
    + intros C. apply rstripf_nil_iff in C.
      unfold zrepeat in C. destruct (Z.to_nat (n - zlen s)) eqn:Em; [lia|]. cbn in C. discriminate.
Qed.
Lemma trim_blank3 : trim (put_s 3 [32; 32; 32]) = [].
Proof. reflexivity. Qed.
Lemma trim_put_clean n s : 0 <= n -> zlen s <= n -> clean_end s -> trim (put_s n s) = s.
Proof.
  intros Hn Hs Hc. apply trim_put_s; try assumption.
  - apply clean_end_strip; [|assumption]. intros c H; right; lia.
  - apply clean_end_strip; auto.
Qed.
Lemma clean_no_nul s : clean_end s -> no_nul_end s.
Proof. intros. apply clean_end_strip; [|assumption]. intros c Hc; right; lia. Qed.

(** * Encoding then parsing *)
Lemma slice_at {A} (x y z : list A) a b :
  a = zlen x -> b = zlen x + zlen y -> slice (x ++ y ++ z) a b = y.
Proof.
  intros -> ->. rewrite slice_app_r by lia. rewrite Z.sub_diag, Z.add_simpl_l.
  apply slice_app_full_l.
Qed.

Lemma encode_fields d :
  let e := encode_dirent d in
  zlen e = 16 /\ e_flag e = flag_of d /\ e_count e = u16 (d_count d) /\
  e_start e = u16 (d_start d) /\ slice e 5 13 = put_s 8 (d_base d) /\
  slice e 13 16 = put_s 3 (d_ext d).
Proof.
  cbv zeta.
  assert (E : encode_dirent d
    = ([flag_of d] ++ put2 (d_count d) ++ put2 (d_start d)) ++ put_s 8 (d_base d) ++ put_s 3 (d_ext d)).
  { unfold encode_dirent. fold (flag_of d). rewrite <- !app_assoc. reflexivity. }
  assert (L8 : zlen (put_s 8 (d_base d)) = 8) by (apply zlen_put_s; lia).
  assert (L3 : zlen (put_s 3 (d_ext d)) = 3) by (apply zlen_put_s; lia).
  rewrite E. split; [rewrite !zlen_app, L8, L3; reflexivity|].
  split; [reflexivity|].
  split; [apply le2_u8|]. split; [apply le2_u8|].
  split.
  - apply slice_at; rewrite ?L8; reflexivity.
  - rewrite app_assoc.
    replace 13 with (zlen (([flag_of d] ++ put2 (d_count d) ++ put2 (d_start d)) ++ put_s 8 (d_base d)))
      by (rewrite !zlen_app, L8; reflexivity).
    apply slice_app_full_r. rewrite !zlen_app, L8, L3. reflexivity.
Qed.

Lemma e_name_filename h num e : filename (parse_dirent h num e) = e_name e.
Proof.
  unfold filename, e_name, join_name, e_base, e_ext, trim. cbn [parse_dirent d_base d_ext].
  destruct (rstrip (rstrip0 (slice e 13 16))); reflexivity.
Qed.
Lemma d_inuse_live h num e : d_inuse (parse_dirent h num e) = true <-> e_live e.
Proof. unfold parse_dirent; cbn [d_inuse]. apply (flag_bit_has e 64). Qed.
Lemma d_inuse_dead h num e : d_inuse (parse_dirent h num e) = false <-> ~ e_live e.
Proof. rewrite <- (d_inuse_live h num). destruct (d_inuse _); split; congruence. Qed.

(** Everything the code reads from a slot, compared field by field. *)
Definition same_entry (e e' : list Z) : Prop :=
  e_flag e' = e_flag e /\ e_count e' = e_count e /\ e_start e' = e_start e /\
  e_base e' = e_base e /\ e_ext e' = e_ext e.
Lemma same_entry_parse h num e e' : same_entry e e' ->
  parse_dirent h num e' = parse_dirent h num e.
Proof.
  unfold same_entry, e_flag, e_count, e_start, e_base, e_ext, trim.
  intros (H1 & H2 & H3 & H4 & H5). unfold parse_dirent.
  rewrite H1, H2, H3, H4, H5. reflexivity.
Qed.

Definition slot_ok (e : list Z) : Prop :=
  zlen e = 16 /\ bytes_ok e /\ ~ flag_has e 8 /\
  no_nul_end (e_base e) /\ no_nul_end (e_ext e).

(** Re-encoding an entry read from a slot preserves every field (C13). *)
Lemma encode_parse_same h num e : slot_ok e ->
  same_entry e (encode_dirent (parse_dirent h num e)).
Proof.
  intros (Hl & Hb & H8 & Hn1 & Hn2).
  pose proof (encode_fields (parse_dirent h num e)) as (L & F & C & S & B & X).
  set (e' := encode_dirent (parse_dirent h num e)) in *.
  unfold same_entry. rewrite F, C, S. unfold e_base at 1, e_ext at 1. rewrite B, X.
  apply flag_bit_has_false in H8.
  assert (R : forall i, is_byte (getb e i)) by (intros; apply bytes_ok_getb; assumption).
  split; [|split; [|split; [|split]]].
  - unfold flag_of. cbn [parse_dirent d_out d_dos2 d_mydos d_isdir d_locked d_inuse d_deleted].
    apply bits_of_flag_id; [apply R|exact H8].
  - cbn [parse_dirent d_count]. apply u16_id, le2_range; apply R.
  - cbn [parse_dirent d_start]. apply u16_id, le2_range; apply R.
  - apply (trim_field 8 (slice e 5 13)); [lia|rewrite zlen_slice; lia|assumption].
  - apply (trim_field 3 (slice e 13 16)); [lia|rewrite zlen_slice; lia|assumption].
Qed.

Lemma bytes_ok_put2 x : bytes_ok (put2 x).
Proof. unfold put2; repeat constructor; apply is_byte_u8. Qed.
Lemma bytes_ok_encode d : bytes_ok (d_base d) -> bytes_ok (d_ext d) -> bytes_ok (encode_dirent d).
Proof.
  intros. unfold encode_dirent. fold (flag_of d). rewrite !bytes_ok_app.
  repeat split; try apply bytes_ok_put2; try (apply bytes_ok_put_s; assumption).
  constructor; [|constructor]. unfold flag_of. apply flag_of_bits.
Qed.
Lemma bytes_ok_trim s : bytes_ok s -> bytes_ok (trim s).
Proof. intros; unfold trim; apply bytes_ok_rstripf, bytes_ok_rstripf; assumption. Qed.

(** * Runs of sectors *)
Lemma sectors_concat h b : hgeo h b -> forall m x, 4 <= x -> x + Z.of_nat m <= h_max h + 1 ->
  slice b (spos (geom_of h) x) (spos (geom_of h) (x + Z.of_nat m))
  = flat_map (sector (geom_of h) b) (zseq_nat x m).
Proof.
  intros G m; induction m as [|m IH]; intros x H1 H2.
  - rewrite Z.add_0_r. apply slice_empty; lia.
  - cbn [zseq_nat flat_map]. rewrite <- (IH (x + 1)) by lia.
    unfold sector at 1. rewrite <- spos_succ.
    replace (x + Z.of_nat (S m)) with (x + 1 + Z.of_nat m) by lia.
    pose proof (spos_bounds h b G x ltac:(lia)).
    apply slice_split; [lia| |].
    + rewrite spos_succ. change (g_ss (geom_of h)) with (h_ssize h). destruct G; lia.
    + rewrite (spos_diff _ (x + 1) (x + 1 + Z.of_nat m)). change (g_ss (geom_of h)) with (h_ssize h). destruct G; nia.
Qed.

(** * Reading the directory *)
Lemma parse_dirents_spec h : forall n fuel num db k,
  zlen db = 16 * Z.of_nat n -> (n <= fuel)%nat -> 0 <= k <= Z.of_nat n ->
  (forall i, 0 <= i < k -> e_flag (slice db (16 * i) (16 * i + 16)) <> 0) ->
  (k < Z.of_nat n -> e_flag (slice db (16 * k) (16 * k + 16)) = 0) ->
  parse_dirents fuel h num db
  = (map (fun i => parse_dirent h (num + i) (slice db (16 * i) (16 * i + 16))) (zrange 0 k), None).
Proof.
  induction n as [|n IH]; intros fuel num db k Hl Hf Hk Hu He.
  - apply zlen_0_nil in Hl. subst db. replace k with 0 by lia.
    destruct fuel; reflexivity.
  - destruct fuel as [|fuel]; [lia|].
    assert (Hne : db <> []) by (intros ->; rewrite zlen_nil in Hl; lia).
    destruct db as [|b0 db0] eqn:Edb; [congruence|]. rewrite <- Edb in *. clear Hne.
    cbn [parse_dirents]. rewrite Edb. rewrite <- Edb. clear b0 db0 Edb.
    assert (H16 : zlen (slice db 0 16) = 16) by (rewrite zlen_slice; lia).
    rewrite H16. cbn [Z.eqb negb Pos.eqb].
    change (negb (16 =? 16)) with false. cbn match.
    destruct (Z.eq_dec k 0) as [->|Hk0].
    + rewrite zrange_nil by lia. cbn [map].
      specialize (He ltac:(lia)). change (16 * 0) with 0 in He. rewrite Z.add_0_l in He.
      unfold e_flag in He. unfold parse_dirent. cbn [d_inuse d_flag]. rewrite He.
      reflexivity.
    + pose proof (Hu 0 ltac:(lia)) as Hu0. change (16 * 0) with 0 in Hu0. rewrite Z.add_0_l in Hu0.
      unfold e_flag in Hu0.
      replace (d_flag (parse_dirent h num (slice db 0 16)) =? 0) with false
        by (cbn [parse_dirent d_flag]; lia).
      rewrite Bool.andb_false_r.
      rewrite (IH fuel (num + 1) (slice db 16 (zlen db)) (k - 1)).
      * rewrite (zrange_cons 0 k) by lia. cbn [map]. rewrite Z.add_0_r.
        f_equal. f_equal. rewrite Z.add_0_l.
        rewrite <- (map_map (fun i => i) _ (zrange 1 k)). rewrite map_id.
        assert (Esh : zrange 1 k = map (fun i => i + 1) (zrange 0 (k - 1))).
        { unfold zrange. replace (k - 1 - 0) with (k - 1) by lia.
          generalize (Z.to_nat (k - 1)). intros m. change 1 with (0 + 1) at 1. generalize 0.
          induction m as [|m IHm]; intros z; cbn [zseq_nat map]; [reflexivity|]. f_equal. apply IHm. }
        rewrite Esh, map_map. apply map_ext_in. intros i Hi. apply In_zrange in Hi.
        rewrite slice_slice by lia. f_equal; [lia|]. f_equal; lia.
      * rewrite zlen_slice; lia.
      * lia.
      * lia.
      * intros i Hi. rewrite slice_slice by lia. specialize (Hu (i + 1) ltac:(lia)).
        replace (16 + 16 * i) with (16 * (i + 1)) by lia.
        replace (16 + (16 * i + 16)) with (16 * (i + 1) + 16) by lia. assumption.
      * intros Hk'. rewrite slice_slice by lia. specialize (He ltac:(lia)).
        replace (16 + 16 * (k - 1)) with (16 * k) by lia.
        replace (16 + (16 * (k - 1) + 16)) with (16 * k + 16) by lia. assumption.
Qed.

(** The entries of a directory with [k] used slots. *)
Definition entries (h : hdr) (b : list Z) (k : Z) : list dirent :=
  map (fun i => parse_dirent h i (slot (geom_of h) b i)) (zrange 0 k).

Lemma zlen_entries h b k : 0 <= k -> zlen (entries h b k) = k.
Proof. intros. unfold entries. rewrite zlen_map, zlen_zrange; lia. Qed.

Definition dir_bytes (h : hdr) (b : list Z) : list Z :=
  slice b (spos (geom_of h) 361) (spos (geom_of h) 369).

Lemma spos_369 h : spos (geom_of h) 369 = spos (geom_of h) 361 + 8 * h_ssize h.
Proof. rewrite (spos_diff _ 361). change (g_ss (geom_of h)) with (h_ssize h). lia. Qed.

Lemma slot_dir h b i : hgeo h b -> 0 <= i < num_slots (geom_of h) ->
  slot (geom_of h) b i = slice (dir_bytes h b) (16 * i) (16 * i + 16).
Proof.
  intros G Hi. unfold slot, dir_bytes.
  pose proof (spos_bounds h b G 361 ltac:(destruct G; lia)).
  unfold num_slots in Hi. change (g_ss (geom_of h)) with (h_ssize h) in Hi.
  rewrite slice_slice; [f_equal; lia|lia|lia|].
  rewrite spos_369. destruct G. Z.to_euclidean_division_equations; lia.
Qed.

Lemma zlen_dir h b : hgeo h b -> zlen (dir_bytes h b) = 8 * h_ssize h.
Proof.
  intros G. unfold dir_bytes. pose proof (spos_bounds h b G 361 ltac:(destruct G; lia)).
  pose proof (spos_bounds h b G 368 ltac:(destruct G; lia)).
  assert (spos (geom_of h) 369 = spos (geom_of h) 368 + h_ssize h) by (apply (spos_succ (geom_of h) 368)).
  rewrite spos_369 in *. destruct G. rewrite zlen_slice; lia.
Qed.

Lemma get_directory_spec im k :
  hgeo (a_hdr im) (a_bytes im) -> 0 <= k <= num_slots (geom_of (a_hdr im)) ->
  (forall i, 0 <= i < k -> e_flag (slot (geom_of (a_hdr im)) (a_bytes im) i) <> 0) ->
  (k < num_slots (geom_of (a_hdr im)) -> e_flag (slot (geom_of (a_hdr im)) (a_bytes im) k) = 0) ->
  get_directory im =
  (mkA (a_bytes im) (a_hdr im) (a_total im) (a_free im)
       (filter d_inuse (entries (a_hdr im) (a_bytes im) k))
       (a_sane im && forallb (fun d => negb (d_inuse d) || d_sane d)
                             (entries (a_hdr im) (a_bytes im) k))
       (a_fvtoc im) (a_nvtoc im) (a_vtoc2 im),
   Ok (entries (a_hdr im) (a_bytes im) k)).
Proof.
  intros G Hk Hu He. unfold get_directory.
  rewrite get_sectors_in by (try exact G; destruct G; lia).
  fold (dir_bytes (a_hdr im) (a_bytes im)).
  set (h := a_hdr im) in *. set (b := a_bytes im) in *.
  assert (Hn : 8 * h_ssize h = 16 * num_slots (geom_of h)).
  { unfold num_slots. change (g_ss (geom_of h)) with (h_ssize h). destruct G.
    Z.to_euclidean_division_equations; lia. }
  assert (Hs0 : 0 <= num_slots (geom_of h)) by lia.
  rewrite (parse_dirents_spec h (Z.to_nat (num_slots (geom_of h))) _ 0 (dir_bytes h b) k).
  - replace (map _ (zrange 0 k)) with (entries h b k); [reflexivity|].
    unfold entries. apply map_ext_in. intros i Hi. apply In_zrange in Hi.
    rewrite Z.add_0_l, slot_dir; [reflexivity|assumption|lia].
  - rewrite zlen_dir by assumption. lia.
  - pose proof (zlen_dir h b G) as Hzd. unfold zlen in Hzd.
    change (slice b _ _) with (dir_bytes h b). lia.
  - lia.
  - intros i Hi. rewrite <- slot_dir by (try assumption; lia). apply Hu; assumption.
  - intros Hk'. rewrite <- slot_dir by (try assumption; lia). apply He. lia.
Qed.

(** * Writing the directory *)
Lemma slice_concat16 (es : list (list Z)) i : Forall (fun e => zlen e = 16) es -> 0 <= i < zlen es ->
  slice (concat es) (16 * i) (16 * i + 16) = nth (Z.to_nat i) es [].
Proof.
  intros H; revert i; induction H as [|e es He Hes IH]; intros i Hi; [rewrite zlen_nil in Hi; lia|].
  cbn [concat]. rewrite zlen_cons in Hi. destruct (Z.eq_dec i 0) as [->|Hi0].
  - change (16 * 0) with 0. rewrite Z.add_0_l. rewrite <- He. apply slice_app_full_l.
  - rewrite slice_app_r by lia. rewrite He.
    replace (16 * i - 16) with (16 * (i - 1)) by lia.
    replace (16 * i + 16 - 16) with (16 * (i - 1) + 16) by lia.
    rewrite IH by lia. replace (Z.to_nat i) with (S (Z.to_nat (i - 1))) by lia. reflexivity.
Qed.
Lemma zlen_concat16 es : Forall (fun e : list Z => zlen e = 16) es -> zlen (concat es) = 16 * zlen es.
Proof.
  induction 1 as [|e es He Hes IH]; [reflexivity|].
  cbn [concat]. rewrite zlen_app, zlen_cons. lia.
Qed.

Lemma number_dir_map n l :
  map (fun s => (s_num s, s_data s)) (number_dir n l) = combine (zseq_nat n (length l)) (map s_data l).
Proof.
  revert n; induction l as [|s l IH]; intros n; [reflexivity|].
  cbn [number_dir map length zseq_nat combine]. rewrite IH. reflexivity.
Qed.
Lemma number_dir_Forall (P : Z -> list Z -> Prop) n l :
  (forall s k, In s l -> n <= k < n + zlen l -> P k (s_data s)) ->
  Forall (fun s => P (s_num s) (s_data s)) (number_dir n l).
Proof.
  revert n; induction l as [|s l IH]; intros n H; [constructor|].
  cbn [number_dir]. constructor.
  - cbn [set_num s_num s_data]. apply H; [left; reflexivity|].
    rewrite zlen_cons. pose proof (zlen_nonneg l). lia.
  - apply IH. intros s' k Hin Hk. apply H; [right; assumption|]. rewrite zlen_cons. lia.
Qed.

Lemma map_fst_combine {A B} (a : list A) (b : list B) : length a = length b -> map fst (combine a b) = a.
Proof.
  revert b; induction a as [|x a IH]; intros [|y b] H; try discriminate; [reflexivity|].
  cbn. f_equal. apply IH. cbn in H; lia.
Qed.

Lemma flat_map_last_put g b x (ds : list (list Z)) :
  flat_map (fun n => last_put n (combine (zseq_nat x (length ds)) ds) (sector g b n))
           (zseq_nat x (length ds)) = concat ds.
Proof.
  assert (Hnd : NoDup (map fst (combine (zseq_nat x (length ds)) ds))).
  { rewrite map_fst_combine by apply length_zseq_nat. apply NoDup_zseq_nat. }
  assert (K : forall (pre : list (Z * list Z)) ds' y,
     combine (zseq_nat x (length ds)) ds = pre ++ combine (zseq_nat y (length ds')) ds' ->
     flat_map (fun n => last_put n (combine (zseq_nat x (length ds)) ds) (sector g b n))
           (zseq_nat y (length ds')) = concat ds').
  { intros pre ds'; revert pre; induction ds' as [|d ds' IH]; intros pre y E; [reflexivity|].
    cbn [length zseq_nat flat_map concat]. f_equal.
    - apply last_put_in; [assumption|]. rewrite E. apply in_or_app. right. left. reflexivity.
    - apply (IH (pre ++ [(y, d)])). rewrite E, <- app_assoc. reflexivity. }
  apply (K []). reflexivity.
Qed.

Lemma flat_map_s_data q ss l : q = 0 ->
  Forall (fun s => zlen (s_data s) = ss) l ->
  flat_map (payload_of q ss) l = concat (map s_data l).
Proof.
  intros -> H; induction H as [|s l Hs Hl IH]; [reflexivity|].
  cbn [flat_map map concat]. rewrite IH. unfold payload_of. rewrite <- Hs, slice_full. reflexivity.
Qed.
Lemma zlen_concat_const n (l : list (list Z)) : Forall (fun s => zlen s = n) l ->
  zlen (concat l) = n * zlen l.
Proof.
  induction 1 as [|e es He Hes IH]; [cbn; unfold zlen; cbn; lia|].
  cbn [concat]. rewrite zlen_app, zlen_cons. lia.
Qed.

Lemma new_sector_fill ss num : new_sector ss num = fill_sec ss num 0 [] [].
Proof.
  unfold new_sector, fill_sec. rewrite zlen_nil. cbn [app]. rewrite !Z.sub_0_r. reflexivity.
Qed.

Lemma write_dir h b es : hgeo h b -> es <> [] -> Forall (fun e => zlen e = 16) es ->
  zlen es <= 64 -> Forall bytes_ok es ->
  exists l, calc_dir_sectors (new_sector (h_ssize h) (-1)) es = Ok l /\
    Forall (fun s => 361 <= s_num s <= 368 /\ zlen (s_data s) = h_ssize h /\ bytes_ok (s_data s))
           (number_dir 361 l) /\
    let b' := put_secs (geom_of h) (map (fun s => (s_num s, s_data s)) (number_dir 361 l)) b in
    (forall i, 0 <= i < zlen es -> slot (geom_of h) b' i = nth (Z.to_nat i) es []) /\
    (forall i, zlen es <= i < num_slots (geom_of h) ->
       slot (geom_of h) b' i = zrepeat 0 16 \/ slot (geom_of h) b' i = slot (geom_of h) b i).
Proof.
  intros G Hne H16 H64 Hok.
  pose proof (hg_ss _ _ G) as Hss. pose proof (hg_16 _ _ G) as Hs16. pose proof (hg_max _ _ G) as Hmax.
  rewrite new_sector_fill.
  destruct (calc_dir_sectors_spec (h_ssize h) (-1) 0 [] ltac:(rewrite zlen_nil; lia) es Hne)
    as (l & pad & El & Hpad & Hfm & Hl).
  { revert H16; apply Forall_impl. intros e He ->. rewrite zlen_nil in He. lia. }
  rewrite zlen_nil, Z.sub_0_r in Hpad. exists l. split; [exact El|].
  assert (Hdl : Forall (fun s => zlen (s_data s) = h_ssize h) l).
  { revert Hl; apply Forall_impl. intros s (p & -> & Hp & _). cbn [fill_sec s_data app].
    rewrite zlen_nil, Z.sub_0_r in *. rewrite zlen_app, zlen_zrepeat by lia. lia. }
  rewrite zlen_nil in Hfm. rewrite flat_map_s_data in Hfm by (try reflexivity; assumption).
  assert (Hlen : h_ssize h * zlen l = 16 * zlen es + pad).
  { pose proof (zlen_concat_const (h_ssize h) (map s_data l)) as Z1.
    rewrite zlen_map in Z1. rewrite <- Z1, Hfm, zlen_app, zlen_concat16, zlen_zrepeat; [lia|lia|assumption|].
    apply Forall_map. assumption. }
  pose proof (zlen_nonneg l) as Hl0. pose proof (zlen_nonneg es) as Hes0.
  assert (Hl8 : zlen l <= 8) by nia.
  assert (Hdok : bytes_ok (concat (map s_data l))).
  { rewrite Hfm. apply bytes_ok_app. split; [|apply bytes_ok_zrepeat; unfold is_byte; lia].
    clear -Hok. induction Hok; [constructor|]. cbn [concat]. apply bytes_ok_app; auto. }
  assert (Hdokl : forall s, In s l -> bytes_ok (s_data s)).
  { intros s Hs. apply (in_map s_data) in Hs. unfold bytes_ok in *.
    rewrite Forall_forall in *. intros x Hx. apply Hdok. apply in_concat. eauto. }
  split.
  { apply (number_dir_Forall (fun n d => 361 <= n <= 368 /\ zlen d = h_ssize h /\ bytes_ok d)).
    intros s k Hin Hk. split; [lia|]. split; [|auto]. rewrite Forall_forall in Hdl. auto. }
  cbv zeta. rewrite number_dir_map.
  set (w := combine (zseq_nat 361 (length l)) (map s_data l)).
  assert (Hw : in_secs h w).
  { apply Forall_forall. intros [n d] Hin. cbn [fst snd]. unfold w in Hin.
    pose proof (in_combine_l _ _ _ _ Hin) as I1. pose proof (in_combine_r _ _ _ _ Hin) as I2.
    apply In_zseq_nat in I1. apply in_map_iff in I2. destruct I2 as (s & <- & Hs).
    rewrite Forall_forall in Hdl. split; [unfold zlen in *; lia|auto]. }
  destruct (put_secs_props h w b G Hw) as (P1 & P2 & _ & _).
  set (b' := put_secs (geom_of h) w b) in *.
  assert (G' : hgeo h b') by (eapply hgeo_zlen; eassumption).
  (* the directory area as sectors *)
  assert (Hd : forall x, hgeo h x ->
    dir_bytes h x = flat_map (sector (geom_of h) x) (zseq_nat 361 (length l)) ++
       flat_map (sector (geom_of h) x) (zseq_nat (361 + zlen l) (8 - length l))).
  { intros x Gx. unfold dir_bytes. change 369 with (361 + Z.of_nat 8).
    rewrite sectors_concat by (try assumption; lia).
    replace 8%nat with (length l + (8 - length l))%nat at 1 by (unfold zlen in *; lia).
    rewrite zseq_nat_app, flat_map_app. reflexivity. }
  assert (Hd1 : flat_map (sector (geom_of h) b') (zseq_nat 361 (length l)) = concat (map s_data l)).
  { rewrite <- (flat_map_last_put (geom_of h) b 361 (map s_data l)).
    rewrite map_length. fold w. apply flat_map_ext_in. intros n Hn. apply In_zseq_nat in Hn.
    apply P2. unfold zlen in *; lia. }
  assert (Hd2 : flat_map (sector (geom_of h) b') (zseq_nat (361 + zlen l) (8 - length l))
              = flat_map (sector (geom_of h) b) (zseq_nat (361 + zlen l) (8 - length l))).
  { apply flat_map_ext_in. intros n Hn. apply In_zseq_nat in Hn.
    rewrite P2 by (unfold zlen in *; lia). apply last_put_notin.
    unfold w. rewrite map_fst_combine by (rewrite length_zseq_nat, map_length; reflexivity).
    rewrite In_zseq_nat. unfold zlen in *; lia. }
  pose proof (Hd b' G') as D'. pose proof (Hd b G) as D. rewrite Hd1, Hd2, Hfm in D'.
  set (tail := flat_map (sector (geom_of h) b) (zseq_nat (361 + zlen l) (8 - length l))) in *.
  assert (Hc16 : zlen (concat es) = 16 * zlen es) by (apply zlen_concat16; assumption).
  assert (Hhead : zlen (flat_map (sector (geom_of h) b) (zseq_nat 361 (length l))) = 16 * zlen es + pad).
  { rewrite <- Hlen. clear -G Hmax Hl8. 
    assert (K : forall m x, 4 <= x -> x + Z.of_nat m <= h_max h + 1 ->
      zlen (flat_map (sector (geom_of h) b) (zseq_nat x m)) = h_ssize h * Z.of_nat m).
    { induction m as [|m IH]; intros x Hx Hm; [rewrite zlen_nil; lia|].
      cbn [zseq_nat flat_map]. rewrite zlen_app, IH, (zlen_sector h b G) by lia. lia. }
    rewrite K by (unfold zlen in *; lia). reflexivity. }
  assert (Hns : 16 * num_slots (geom_of h) = 8 * h_ssize h).
  { unfold num_slots. change (g_ss (geom_of h)) with (h_ssize h).
    Z.to_euclidean_division_equations; lia. }
  assert (Hmod : h_ssize h * zlen l = 16 * ((h_ssize h / 16) * zlen l)).
  { Z.to_euclidean_division_equations; nia. }
  split.
  - intros i Hi. rewrite (slot_dir h b' i G') by lia. rewrite D', <- app_assoc.
    rewrite slice_app_l by lia. apply slice_concat16; assumption.
  - intros i Hi. rewrite (slot_dir h b' i G'), (slot_dir h b i G), D', D by lia.
    destruct (Z_lt_ge_dec (16 * i) (16 * zlen es + pad)) as [Hin|Hout].
    + left. rewrite slice_app_l by (rewrite ?zlen_app, ?zlen_zrepeat, ?Hc16; lia).
      rewrite slice_app_r by lia. rewrite Hc16.
      apply list_ext_getb.
      * rewrite zlen_slice; rewrite ?zlen_zrepeat; lia.
      * intros j Hj. rewrite zlen_slice in Hj by (rewrite ?zlen_zrepeat; lia).
        rewrite getb_slice, !getb_zrepeat by lia. reflexivity.
    + right. rewrite slice_app_r by (rewrite zlen_app, zlen_zrepeat; lia).
      rewrite slice_app_r by lia. rewrite Hhead, zlen_app, zlen_zrepeat, Hc16 by lia. reflexivity.
Qed.
