(** The effect of writing a file, proved against [dos2_disk]. *)
From Verif Require Import Base BaseLemmas DiskModel DirLemmas AtariModel AtariSpec AtariGeom AtariDir AtariVtoc AtariChain AtariSectors.

(** * Small facts *)
Lemma nth_map_zrange {A} (f : Z -> A) k j d : 0 <= j < k ->
  nth (Z.to_nat j) (map f (zrange 0 k)) d = f j.
Proof.
  intros H. rewrite nth_indep with (d' := f 0).
  - rewrite map_nth. f_equal. change (nth (Z.to_nat j) (zrange 0 k) 0) with (getb (zrange 0 k) j).
    unfold zrange. rewrite getb_zseq_nat; lia.
  - rewrite map_length. pose proof (zlen_zrange 0 k ltac:(lia)). unfold zlen in *. lia.
Qed.

Lemma free_index_spec l : forall i0,
  let i := free_index l i0 in
  i0 <= i <= i0 + zlen l /\
  (forall j, i0 <= j < i -> nth (Z.to_nat (j - i0)) l false = true) /\
  (i < i0 + zlen l -> nth (Z.to_nat (i - i0)) l false = false).
Proof.
  induction l as [|x l IH]; intros i0; cbv zeta; cbn [free_index].
  - rewrite zlen_nil. repeat split; lia.
  - rewrite zlen_cons. pose proof (zlen_nonneg l). destruct x.
    + destruct (IH (i0 + 1)) as (I1 & I2 & I3). repeat split; try lia.
      * intros j Hj. destruct (Z.eq_dec j i0) as [->|Hne]; [rewrite Z.sub_diag; reflexivity|].
        specialize (I2 j ltac:(lia)).
        replace (Z.to_nat (j - i0)) with (S (Z.to_nat (j - (i0 + 1)))) by lia. exact I2.
      * intros Hi. specialize (I3 ltac:(lia)).
        replace (Z.to_nat (free_index l (i0 + 1) - i0))
          with (S (Z.to_nat (free_index l (i0 + 1) - (i0 + 1)))) by lia. exact I3.
    + repeat split; try lia. intros _. rewrite Z.sub_diag. reflexivity.
Qed.

Lemma zlen_set_dirent ds i d : 0 <= i <= zlen ds ->
  zlen (set_dirent ds i d) = Z.max (zlen ds) (i + 1).
Proof.
  intros Hi. unfold set_dirent. destruct (i <? zlen ds) eqn:E.
  - rewrite zlen_upd. lia.
  - rewrite zlen_app, zlen_cons, zlen_nil. lia.
Qed.
Lemma nth_set_dirent ds i d j x : 0 <= i <= zlen ds -> 0 <= j < Z.max (zlen ds) (i + 1) ->
  nth (Z.to_nat j) (set_dirent ds i d) x = if j =? i then d else nth (Z.to_nat j) ds x.
Proof.
  intros Hi Hj. unfold set_dirent. destruct (i <? zlen ds) eqn:E.
  - unfold upd. rewrite nth_upd_nat. destruct (Z.eqb_spec j i) as [->|Hne].
    + rewrite Nat.eqb_refl. replace (Nat.ltb _ _) with true; [reflexivity|].
      symmetry. apply Nat.ltb_lt. unfold zlen in *; lia.
    + replace (Nat.eqb _ _) with false; [reflexivity|]. symmetry. apply Nat.eqb_neq. lia.
  - assert (i = zlen ds) by lia. subst i. destruct (Z.eqb_spec j (zlen ds)) as [->|Hne].
    + unfold zlen. rewrite Nat2Z.id, app_nth2, Nat.sub_diag by lia. reflexivity.
    + rewrite app_nth1; [reflexivity|]. unfold zlen in *; lia.
Qed.

Lemma last_put_app n l1 l2 d : last_put n (l1 ++ l2) d = last_put n l2 (last_put n l1 d).
Proof. unfold last_put. apply fold_left_app. Qed.

(** Slots depend on the eight directory sectors only. *)
Lemma slot_sectors h x y i : hgeo h x -> hgeo h y ->
  (forall n, 361 <= n <= 368 -> sector (geom_of h) x n = sector (geom_of h) y n) ->
  0 <= i < num_slots (geom_of h) -> slot (geom_of h) x i = slot (geom_of h) y i.
Proof.
  intros Gx Gy E Hi. rewrite (slot_dir h x i Gx Hi), (slot_dir h y i Gy Hi). f_equal.
  unfold dir_bytes. change 369 with (361 + Z.of_nat 8). pose proof (hg_max _ _ Gx).
  rewrite !sectors_concat by (try assumption; lia).
  apply flat_map_ext_in. intros n Hn. apply In_zseq_nat in Hn. apply E. lia.
Qed.

Lemma hdr_of_same b b' : zlen b' = zlen b -> slice b' 0 16 = slice b 0 16 -> hdr_of b' = hdr_of b.
Proof. intros H1 H2. unfold hdr_of, read_header. rewrite H1, H2. reflexivity. Qed.

(** * Names *)
Lemma split_at_none c s : ~ In c s -> split_at c s = (s, None).
Proof.
  induction s as [|x s IH]; intros H; [reflexivity|]. cbn [split_at].
  destruct (Z.eqb_spec x c) as [->|Hne]; [exfalso; apply H; left; reflexivity|].
  rewrite IH; [reflexivity|]. intros Hin; apply H; right; assumption.
Qed.
Lemma split_at_some c s t : ~ In c s -> split_at c (s ++ c :: t) = (s, Some t).
Proof.
  induction s as [|x s IH]; intros H; cbn [split_at app].
  - rewrite Z.eqb_refl. reflexivity.
  - destruct (Z.eqb_spec x c) as [->|Hne]; [exfalso; apply H; left; reflexivity|].
    rewrite IH; [reflexivity|]. intros Hin; apply H; right; assumption.
Qed.

Lemma bytes_ok_join base ext : bytes_ok base -> bytes_ok ext -> bytes_ok (join_name base ext).
Proof.
  intros Hb He. unfold join_name. apply bytes_ok_app. split; [assumption|].
  destruct ext; [constructor|]. constructor; [unfold is_byte; lia|assumption].
Qed.

Lemma put_s_slice n s : 0 <= n -> put_s n s = slice s 0 n ++ zrepeat 0 (n - zlen s).
Proof. intros H. unfold put_s, slice. cbn [Z.to_nat skipn]. rewrite Z.sub_0_r. reflexivity. Qed.
Lemma trim_put_s_slice n s : 0 <= n -> trim (put_s n s) = trim (slice s 0 n).
Proof.
  intros H. rewrite put_s_slice by assumption. unfold trim, rstrip0. rewrite rstripf_app_all; [reflexivity|].
  apply forallb_forall. intros x Hx. apply repeat_spec in Hx. subst; reflexivity.
Qed.
Lemma bytes_ok_split name a e : bytes_ok name -> split_at 46 name = (a, e) ->
  bytes_ok a /\ (forall x, e = Some x -> bytes_ok x).
Proof.
  revert a e. induction name as [|c name IH]; intros a e H E; cbn [split_at] in E.
  - injection E as <- <-. split; [constructor|discriminate].
  - inversion H; subst. destruct (c =? 46).
    + injection E as <- <-. split; [constructor|]. intros x Ex. injection Ex as <-. assumption.
    + destruct (split_at 46 name) as [a' e'] eqn:E'. injection E as <- <-.
      destruct (IH a' e' H3 eq_refl). split; [constructor; assumption|assumption].
Qed.
Lemma new_dirent_stored name i : storable name ->
  exists bf ef, new_dirent name i
    = Ok (mkD i 0 false true false false false true false 0 0 bf ef true false) /\
    trim (put_s 8 bf) = stored_base name /\ trim (put_s 3 ef) = stored_ext name /\
    bytes_ok bf /\ bytes_ok ef.
Proof.
  intros (Bn & Nb & Ne). unfold new_dirent, stored_base, stored_ext.
  assert (Hx : existsb (fun c => 255 <? c) name = false).
  { destruct (existsb _ _) eqn:E; [|reflexivity]. apply existsb_exists in E.
    destruct E as (c & Hc & E). unfold bytes_ok in Bn. rewrite Forall_forall in Bn. specialize (Bn c Hc).
    unfold is_byte in Bn. lia. }
  rewrite Hx. destruct (split_at 46 name) as [a e] eqn:Es. cbn [fst snd].
  destruct (bytes_ok_split _ _ _ Bn Es) as [Ba Bx].
  assert (Bl : bytes_ok (ljust 8 (slice a 0 8))).
  { unfold ljust. apply bytes_ok_app. split; [apply bytes_ok_slice; assumption|].
    apply bytes_ok_zrepeat; unfold is_byte; lia. }
  assert (E8 : trim (put_s 8 (ljust 8 (slice a 0 8))) = trim (ljust 8 (slice a 0 8))).
  { rewrite trim_put_s_slice by lia. rewrite slice_all; [reflexivity|].
    unfold ljust. rewrite zlen_app. pose proof (zlen_slice_le a 0 8 ltac:(lia) ltac:(lia)).
    rewrite zlen_zrepeat by lia. lia. }
  destruct e as [e|].
  - exists (ljust 8 (slice a 0 8)), e. split; [reflexivity|]. split; [assumption|].
    split; [apply trim_put_s_slice; lia|]. split; [assumption|]. apply Bx; reflexivity.
  - exists (ljust 8 (slice a 0 8)), [32; 32; 32]. split; [reflexivity|]. split; [assumption|].
    split; [apply trim_blank3|]. split; [assumption|]. repeat constructor; unfold is_byte; lia.
Qed.

(** Names of the form BASE or BASE.EXT without trailing blanks are stored as
    they are. *)
Lemma valid_stored name : valid_name name -> storable name /\ stored_name name = name.
Proof.
  intros (base & ext & -> & Hb & He & Hdot & Bb & Be & Cb & Ce).
  assert (E8 : trim (ljust 8 (slice base 0 8)) = base).
  { rewrite slice_all by lia. rewrite <- (trim_put_ljust 8 base) at 2 by (try lia; assumption).
    rewrite trim_put_s_slice by lia. rewrite slice_all; [reflexivity|].
    unfold ljust. rewrite zlen_app. rewrite zlen_zrepeat by lia. lia. }
  assert (Eb : stored_base (join_name base ext) = base /\ stored_ext (join_name base ext) = ext).
  { unfold stored_base, stored_ext, join_name. destruct ext as [|x ext'] eqn:Ee.
    - rewrite app_nil_r. rewrite split_at_none by assumption. cbn [fst snd]. auto.
    - rewrite split_at_some by assumption. cbn [fst snd]. rewrite <- Ee in *. split; [assumption|].
      rewrite <- trim_put_s_slice by lia. apply trim_put_clean; try lia; assumption. }
  destruct Eb as [E1 E2]. unfold storable, stored_name. rewrite E1, E2.
  split; [|reflexivity]. split; [apply bytes_ok_join; assumption|]. split; apply clean_no_nul; assumption.
Qed.

(** * Counting *)
Definition live_slots (g : geom) (b : list Z) (k : Z) : list Z :=
  filter (fun i => flag_bit (e_flag (slot g b i)) 64) (zrange 0 k).

Lemma zlen_filter_map {A B} (f : A -> B) (p : B -> bool) l :
  zlen (filter p (map f l)) = zlen (filter (fun x => p (f x)) l).
Proof.
  induction l as [|x l IH]; [reflexivity|]. cbn [map filter].
  destruct (p (f x)); rewrite ?zlen_cons, IH; reflexivity.
Qed.
Lemma files_live h b k : zlen (a_files (view h b k)) = zlen (live_slots (geom_of h) b k).
Proof. unfold view, entries, live_slots. cbn [a_files]. rewrite zlen_filter_map. reflexivity. Qed.

Lemma filter_all {A} (f : A -> bool) l : (forall x, In x l -> f x = true) -> filter f l = l.
Proof.
  induction l as [|x l IH]; intros H; [reflexivity|]. cbn [filter].
  rewrite H by (left; reflexivity). f_equal. apply IH. intros; apply H; right; assumption.
Qed.

(** [free_count] counts the cells the allocator sees. *)
Lemma sum_bits (f : Z -> Z) l : (forall x, In x l -> is_bit (f x)) ->
  fold_right Z.add 0 (map f l) = zlen (filter (fun x => negb (f x =? 0)) l).
Proof.
  induction l as [|x l IH]; intros H; [reflexivity|]. cbn [map fold_right filter].
  rewrite IH by (intros; apply H; right; assumption).
  destruct (H x ltac:(left; reflexivity)) as [E|E]; rewrite E; cbn [Z.eqb negb]; [lia|].
  rewrite zlen_cons. reflexivity.
Qed.
Lemma free_count_nz h b : hgeo h b -> free_count (geom_of h) b = zlen (nz (smap_of h b)).
Proof.
  intros G. unfold free_count. rewrite sum_bits by (intros; apply free_bit_bit).
  unfold nz. rewrite (zlen_smap h b G). rewrite (zrange_app 0 720 1280) by lia.
  rewrite filter_app. rewrite (filter_none _ (zrange 720 1280)).
  - rewrite app_nil_r. f_equal. apply filter_ext_in. intros x Hx. apply In_zrange in Hx.
    rewrite (getb_smap h b G) by lia. replace (x <? 720) with true by lia. reflexivity.
  - intros x Hx. apply In_zrange in Hx. rewrite (getb_smap h b G) by lia.
    replace (x <? 720) with false by lia. reflexivity.
Qed.
Lemma In_nz_smap h b n : hgeo h b -> In n (nz (smap_of h b)) -> 0 <= n < 720 /\ free_bit (geom_of h) b n = 1.
Proof.
  intros G Hn. apply In_nz in Hn. rewrite (zlen_smap h b G) in Hn. destruct Hn as [Hr Hn].
  rewrite (getb_smap h b G) in Hn by lia. destruct (n <? 720) eqn:E; [|lia].
  split; [lia|]. destruct (free_bit_bit h b n); lia.
Qed.

(** * The effect of a successful write *)
Record write_effect (h : hdr) (b : list Z) (k : Z) (b' : list Z) (k' : Z)
    (name data : list Z) (i : Z) (c : list Z) : Prop := mkWE {
  we_len : zlen b' = zlen b;
  we_hdr : hdr_of b' = hdr_of b;
  we_disk : dos2_disk (geom_of h) b' k';
  we_new : file_in (geom_of h) b' k' name i c;
  we_data : contents (geom_of h) b' c = data;
  we_old : forall n j cj, file_in (geom_of h) b k n j cj ->
     file_in (geom_of h) b' k' n j cj /\ contents (geom_of h) b' cj = contents (geom_of h) b cj;
  we_only : forall n, listed (geom_of h) b' k' n -> n = name \/ listed (geom_of h) b k n;
  we_count : zlen c = sectors_needed (h_payload h) (zlen data);
  we_alloc : forall n, In n c -> 0 <= n < 720 /\ free_bit (geom_of h) b n = 1;
  we_lowest : exists m, c = firstn m (filter (fun n => free_bit (geom_of h) b n =? 1) (zrange 0 720));
  we_free : forall n, 0 <= n < 720 ->
     free_bit (geom_of h) b' n = if zmem n c then 0 else free_bit (geom_of h) b n;
  we_frame : forall n, 4 <= n <= h_max h -> ~ In n c -> ~ (360 <= n <= 368) ->
     sector (geom_of h) b' n = sector (geom_of h) b n;
  we_prefix : forall x y, 0 <= x -> y <= spos (geom_of h) 4 -> slice b' x y = slice b x y;
  we_suffix : forall x y, spos (geom_of h) (h_max h + 1) <= x -> slice b' x y = slice b x y;
  we_vtoc : forall j, 0 <= j < 10 \/ 100 <= j < h_ssize h ->
     getb (sector (geom_of h) b' 360) j = getb (sector (geom_of h) b 360) j;
  we_slots : forall j, 0 <= j < k -> j <> i -> same_entry (slot (geom_of h) b j) (slot (geom_of h) b' j);
  we_slot : 0 <= i <= k /\ k' = Z.max k (i + 1) /\ (i < k -> ~ e_live (slot (geom_of h) b i));
  we_dos2 : ~ flag_has (slot (geom_of h) b' i) 4
}.

Lemma get_directory_view h b k : hgeo h b -> dos2_disk (geom_of h) b k ->
  get_directory (view h b k) = (view h b k, Ok (entries h b k)).
Proof.
  intros G D. pose proof (disk_meta h b k G D) as (_ & _ & Hk & Hu & He & Hs).
  rewrite (get_directory_spec _ k); try assumption.
  cbn [view a_hdr a_bytes a_sane a_total a_free a_fvtoc a_nvtoc a_vtoc2].
  rewrite sane_forallb by assumption. reflexivity.
Qed.

Lemma get_vtoc_object_view h b k : hgeo h b ->
  get_vtoc_object (view h b k) = Ok (spos (geom_of h) 360, h_ssize h, smap_of h b).
Proof.
  intros G. apply (get_vtoc_object_spec (view h b k)); try reflexivity; [exact G|].
  cbn [view a_vtoc2 a_hdr]. destruct (Z.eqb_spec (h_image_size h) 133120) as [E|E]; [right|left; zl].
  pose proof (hg_ed _ _ G E). zl.
Qed.

Lemma get_metadata_with_bytes h b k b' k' : meta_ok h b' k' -> bytes_ok b ->
  get_metadata (with_bytes (view h b k) b') = (view h b' k', Ok tt).
Proof.
  intros M Hb. rewrite (get_metadata_view _ k'); cbn [with_bytes view a_hdr a_bytes a_sane a_total a_vtoc2];
    try reflexivity; try assumption.
  - unfold vtoc_word. assert (B : bytes_ok (sector (geom_of h) b 360)) by (apply bytes_ok_slice; assumption).
    pose proof (le2_range _ _ (bytes_ok_getb _ 1 B) (bytes_ok_getb _ 2 B)). change (1 + 1) with 2. zl.
  - destruct (Z.eqb_spec (h_image_size h) 133120); intros; [congruence|reflexivity].
Qed.
Lemma get_metadata_self h b k : meta_ok h b k -> bytes_ok b ->
  get_metadata (view h b k) = (view h b k, Ok tt).
Proof. intros M Hb. apply (get_metadata_with_bytes h b k b k M Hb). Qed.

Lemma Forall2_In_l {A B} (P : A -> B -> Prop) l m x : Forall2 P l m -> In x l -> exists y, In y m /\ P x y.
Proof. induction 1; intros []; [subst; eauto with datatypes|]. destruct IHForall2 as (z & ? & ?); eauto with datatypes. Qed.

Lemma write_body_ok h b k name data :
  hgeo h b -> dos2_disk (geom_of h) b k -> storable name -> data <> [] -> bytes_ok data ->
  ~ listed (geom_of h) b k (stored_name name) -> zlen (live_slots (geom_of h) b k) < 64 ->
  sectors_needed (h_payload h) (zlen data) <= free_count (geom_of h) b ->
  exists b' k' i c,
    write_body (view h b k) name data = (with_bytes (view h b k) b', Ok tt) /\
    write_effect h b k b' k' (stored_name name) data i c.
Proof.
  intros G D Hname Hdata Hdok Hnew H64 Hspace.
  pose proof (hg_ss _ _ G) as Hss. pose proof (hg_max _ _ G) as Hmax. pose proof (hg_pay _ _ G) as Hpay.
  pose proof (dk_k _ _ _ D) as Hk. pose proof (dk_bytes _ _ _ D) as Hbok.
  pose proof (num_slots_64 (geom_of h) ltac:(change (g_ss (geom_of h)) with (h_ssize h); zl)) as Hns.
  set (g := geom_of h) in *.
  (* the slot *)
  set (idx := free_index (map d_inuse (entries h b k)) 0).
  pose proof (free_index_spec (map d_inuse (entries h b k)) 0) as FI. cbv zeta in FI. fold idx in FI.
  rewrite zlen_map, zlen_entries, Z.add_0_l in FI by zl. destruct FI as (Hidx & Hlow & Hdead).
  assert (Hnthlive : forall j, 0 <= j < k ->
     nth (Z.to_nat (j - 0)) (map d_inuse (entries h b k)) false = flag_bit (e_flag (slot g b j)) 64).
  { intros j Hj. rewrite Z.sub_0_r. unfold entries. rewrite map_map. rewrite nth_map_zrange by assumption. reflexivity. }
  assert (Hlive : forall j, 0 <= j < idx -> e_live (slot g b j)).
  { intros j Hj. apply flag_bit_has. rewrite <- Hnthlive by zl. apply Hlow. zl. }
  assert (Hfree : idx < k -> ~ e_live (slot g b idx)).
  { intros Hi. apply flag_bit_has_false. rewrite <- Hnthlive by zl. apply Hdead. zl. }
  assert (Hidx64 : idx < 64).
  { assert (idx <= zlen (live_slots g b k)); [|zl]. unfold live_slots.
    rewrite (zrange_app 0 idx k) by zl. rewrite filter_app, zlen_app.
    rewrite (filter_all _ (zrange 0 idx)).
    - rewrite zlen_zrange by zl. pose proof (zlen_nonneg (filter (fun i => flag_bit (e_flag (slot g b i)) 64) (zrange idx k))). zl.
    - intros x Hx. apply In_zrange in Hx. apply flag_bit_has. apply Hlive. zl. }
  (* the name *)
  destruct (new_dirent_stored name idx Hname) as (bf & ef & End & Tb & Te & Bbf & Bef).
  pose proof Hname as (_ & Nb & Ne).
  (* the data *)
  destruct (build_sectors_spec (h_ssize h) (h_payload h) ltac:(zl) (length data) data (le_n _))
    as (cs & Ebs & Ecs & Hcs & Hcnt & _).
  set (secs := map (fun c => make_sector (h_ssize h) c (-1)) cs) in *.
  assert (Hlsecs : length secs = length cs) by (unfold secs; apply map_length).
  assert (Hcs0 : cs <> []) by (intros ->; cbn in Ecs; congruence).
  (* the reservation *)
  set (order := firstn (length secs) (nz (smap_of h b))).
  set (smap' := clear_all order (smap_of h b)).
  assert (Hfc : free_count g b = zlen (nz (smap_of h b))) by (apply free_count_nz; assumption).
  assert (Hres : reserve (length secs) (smap_of h b) = Some (order, smap')).
  { rewrite reserve_spec. rewrite Hfc in Hspace.
    replace (length secs <=? length (nz (smap_of h b)))%nat with true; [reflexivity|].
    symmetry. apply Nat.leb_le. rewrite Hlsecs. unfold zlen in *. zl. }
  assert (Hordlen : length order = length cs).
  { unfold order. rewrite firstn_length. rewrite Hlsecs. rewrite Hfc in Hspace.
    unfold zlen in *. zl. }
  assert (Hord : forall n, In n order -> 0 <= n < 720 /\ free_bit g b n = 1).
  { intros n Hn. apply (In_nz_smap h b n G). unfold order in Hn.
    rewrite <- (firstn_skipn (length secs)). apply in_or_app. left; assumption. }
  assert (Hordnd : NoDup order).
  { unfold order. pose proof (NoDup_nz (smap_of h b)) as N.
    rewrite <- (firstn_skipn (length secs)) in N.
    clear -N. induction (firstn (length secs) (nz (smap_of h b))) as [|x l IH]; [constructor|].
    cbn [app] in N. apply NoDup_cons_iff in N. destruct N as [N1 N2]. constructor; [|auto].
    intros Hx. apply N1. apply in_or_app. left; assumption. }
  assert (Horddata : forall n, In n order -> data_sector g n).
  { intros n Hn. destruct (Hord n Hn). apply (dk_free _ _ _ D); assumption. }
  assert (Hsm' : zlen smap' = 1280) by (unfold smap'; rewrite zlen_clear_all; apply zlen_smap; assumption).
  assert (Hgsm : forall n, 0 <= n < 1280 -> getb smap' n = if zmem n order then 0 else getb (smap_of h b) n).
  { intros n Hn. unfold smap'. apply getb_clear_all; [|zl].
    intros i Hi. destruct (Hord i Hi). rewrite (zlen_smap h b G). zl. }
  assert (Hbits : Forall is_bit (slice smap' 0 720)).
  { apply Forall_forall. intros x Hx. apply (In_nth _ _ 0) in Hx. destruct Hx as (m & Hm & <-).
    rewrite (length_slice720 smap' Hsm') in Hm.
    replace (nth m (slice smap' 0 720) 0) with (getb (slice smap' 0 720) (Z.of_nat m))
      by (unfold getb; rewrite Nat2Z.id; reflexivity).
    rewrite getb_slice by zl. rewrite Z.add_0_l, Hgsm by zl.
    destruct (zmem _ _); [left; reflexivity|]. rewrite (getb_smap h b G) by zl.
    replace (Z.of_nat m <? 720) with true by zl. apply free_bit_bit. }
  destruct (calc_bitmap_spec h b smap' G Hsm') as [Hnvl Ecb].
  destruct (new_vtoc_fields h b smap' G Hsm' Hbits) as [Nv1 Nv2].
  set (nv := new_vtoc h b smap') in *.
  (* the links *)
  set (secs' := link_loop atari_setnext idx None (combine secs order)).
  destruct (link_loop_spec (h_ssize h) idx ltac:(zl) ltac:(zl) order cs) as [Hsn Hsl].
  { assumption. } { assumption. }
  { revert Hcs. apply Forall_impl. intros c Hc. zl. }
  { apply Forall_forall. intros n Hn. destruct (Hord n Hn). zl. }
  fold secs secs' in Hsn, Hsl.
  assert (Hsl' : forall s, In s secs' -> 4 <= s_num s <= h_max h /\ zlen (s_data s) = h_ssize h /\ bytes_ok (s_data s)).
  { intros s Hs. assert (In (s_num s) order) by (rewrite <- Hsn; apply in_map; assumption).
    destruct (Forall2_In_l _ _ _ _ Hsl Hs) as ([cc nx] & Hp & (L1 & _ & _ & _ & _ & L6)). cbn [fst snd] in *.
    split; [apply (Horddata (s_num s)); assumption|]. split; [assumption|]. apply L6.
    apply in_combine_l in Hp. rewrite <- Ecs in Hdok. clear -Hp Hdok.
    unfold bytes_ok in *. rewrite Forall_forall in *. intros x Hx. apply Hdok. apply in_concat. eauto. }
  (* the directory *)
  set (d0 := mkD idx 0 false true false false false true false 0 0 bf ef true false) in *.
  set (d1 := update_sector_info d0 secs').
  set (es := map encode_dirent (set_dirent (entries h b k) idx d1)).
  assert (Hdsl : zlen (set_dirent (entries h b k) idx d1) = Z.max k (idx + 1))
    by (rewrite zlen_set_dirent; rewrite zlen_entries; zl).
  assert (Hk' : exists k', k' = Z.max k (idx + 1) /\ k <= k' <= 64 /\ idx < k' /\ forall j, j < k' -> j = idx \/ j < k)
    by (exists (Z.max k (idx + 1)); split; [reflexivity|]; split; [zl|]; split; [zl|]; intros; zl).
  destruct Hk' as (k' & Ek' & Rk' & Ik' & Jk'). rewrite <- Ek' in Hdsl.
  assert (Hzes : zlen es = k') by (unfold es; rewrite zlen_map; assumption).
  assert (Hslotok : forall j, 0 <= j < k -> slot_ok (slot g b j)).
  { intros j Hj. destruct (dk_used _ _ _ D j Hj) as (U1 & U2 & U3 & U4).
    split; [|split; [apply bytes_ok_slice; assumption|auto]].
    unfold g. rewrite (slot_dir h b j G) by (change (geom_of h) with g; zl). unfold num_slots in Hns.
    change (g_ss g) with (h_ssize h) in Hns.
    rewrite zlen_slice; [zl|zl|zl|]. rewrite (zlen_dir h b G). zl. }
  assert (Hnthes : forall j, 0 <= j < k' -> nth (Z.to_nat j) es [] =
     if j =? idx then encode_dirent d1 else encode_dirent (parse_dirent h j (slot g b j))).
  { intros j Hj. unfold es.
    rewrite nth_indep with (d' := encode_dirent d1) by
      (rewrite map_length; unfold zlen in *; zl).
    rewrite map_nth. rewrite nth_set_dirent by (rewrite zlen_entries; zl).
    destruct (Z.eqb_spec j idx); [reflexivity|]. f_equal. unfold entries.
    rewrite (nth_map_zrange (fun i => parse_dirent h i (slot (geom_of h) b i))) by zl. reflexivity. }
  assert (Hes16 : Forall (fun e => zlen e = 16) es).
  { apply Forall_forall. intros e He. unfold es in He. apply in_map_iff in He.
    destruct He as (d & <- & _). apply encode_fields. }
  assert (Hd1b : bytes_ok (d_base d1) /\ bytes_ok (d_ext d1)) by (split; assumption).
  assert (Hesok : Forall bytes_ok es).
  { apply Forall_forall. intros e He. apply (In_nth _ _ []) in He. destruct He as (m & Hm & <-).
    replace m with (Z.to_nat (Z.of_nat m)) by zl.
    assert (Hm' : 0 <= Z.of_nat m < k') by (unfold zlen in Hzes; zl).
    rewrite Hnthes by assumption. destruct (Z.eqb_spec (Z.of_nat m) idx).
    - apply bytes_ok_encode; apply Hd1b.
    - destruct (Hslotok (Z.of_nat m) ltac:(zl)) as (_ & B & _).
      apply bytes_ok_encode; cbn [parse_dirent d_base d_ext]; apply bytes_ok_trim, bytes_ok_slice; assumption. }
  assert (Hesne : es <> []) by (intros E; rewrite E, zlen_nil in Hzes; zl).
  (* the writes *)
  set (L1 := map (fun s => (s_num s, s_data s)) secs').
  set (b1 := setsec g b 360 nv).
  set (b2 := put_secs g L1 b1).
  set (b3 := put_secs g [(360, nv)] b2).
  assert (G1 : hgeo h b1) by (apply hgeo_setsec; [assumption|zl|assumption]).
  assert (HL1 : in_secs h L1).
  { apply Forall_forall. intros p Hp. apply in_map_iff in Hp. destruct Hp as (s & <- & Hs).
    cbn [fst snd]. destruct (Hsl' s Hs) as (A & B & _). auto. }
  destruct (put_secs_props h L1 b1 G1 HL1) as (P1l & P1s & P1p & P1t). fold g b2 in P1l, P1s, P1p, P1t.
  assert (G2 : hgeo h b2) by (eapply hgeo_zlen; eassumption).
  assert (HL2 : in_secs h [(360, nv)]) by (repeat constructor; cbn [fst snd]; try zl; assumption).
  destruct (put_secs_props h _ b2 G2 HL2) as (P2l & P2s & P2p & P2t). fold g b3 in P2l, P2s, P2p, P2t.
  assert (G3 : hgeo h b3) by (eapply hgeo_zlen; eassumption).
  destruct (write_dir h b3 es G3 Hesne Hes16 ltac:(zl) Hesok) as (dl & Edl & Hdl & Hslots). cbv zeta in Hslots.
  fold g in Hslots.
  set (L3 := map (fun s => (s_num s, s_data s)) (number_dir 361 dl)) in *.
  set (b4 := put_secs g L3 b3) in *.
  assert (HL3 : in_secs h L3).
  { apply Forall_forall. intros p Hp. apply in_map_iff in Hp. destruct Hp as (s & <- & Hs).
    cbn [fst snd]. rewrite Forall_forall in Hdl. destruct (Hdl s Hs) as (A & B & _). split; [zl|assumption]. }
  destruct (put_secs_props h L3 b3 G3 HL3) as (P3l & P3s & P3p & P3t). fold g b4 in P3l, P3s, P3p, P3t.
  assert (Hz1 : zlen b1 = zlen b) by (apply zlen_setsec; [assumption|zl|assumption]).
  assert (Hz : zlen b4 = zlen b) by congruence.
  assert (G4 : hgeo h b4) by (eapply hgeo_zlen; eassumption).
  (* sectors of the result *)
  assert (Hdirnums : forall n, In n (map fst L3) -> 361 <= n <= 368).
  { intros n Hn. apply in_map_iff in Hn. destruct Hn as (p & <- & Hp). apply in_map_iff in Hp.
    destruct Hp as (s & <- & Hs). cbn [fst]. rewrite Forall_forall in Hdl. apply (Hdl s Hs). }
  assert (HL1n : map fst L1 = order) by (unfold L1; rewrite map_map; exact Hsn).
  assert (Hord360 : forall n, In n order -> ~ (360 <= n <= 368)).
  { intros n Hn. destruct (Horddata n Hn) as (_ & _ & X). exact X. }
  assert (S360 : sector g b4 360 = nv).
  { rewrite P3s, last_put_notin by (try zl; intros C; apply Hdirnums in C; zl).
    rewrite P2s by zl. reflexivity. }
  assert (Sdata : forall s, In s secs' -> sector g b4 (s_num s) = s_data s).
  { intros s Hs. destruct (Hsl' s Hs) as (Hr & _). assert (Ho : In (s_num s) order) by (rewrite <- Hsn; apply in_map; assumption).
    specialize (Hord360 _ Ho).
    rewrite P3s, last_put_notin by (try assumption; intros C; apply Hdirnums in C; zl).
    rewrite P2s, last_put_notin by (try assumption; cbn; zl).
    rewrite P1s by assumption. apply last_put_in; [rewrite HL1n; assumption|].
    apply in_map_iff. exists s. auto. }
  assert (Sother : forall n, 4 <= n <= h_max h -> ~ In n order -> ~ (360 <= n <= 368) -> sector g b4 n = sector g b n).
  { intros n Hn Ho H3. rewrite P3s, last_put_notin by (try assumption; intros C; apply Hdirnums in C; zl).
    rewrite P2s, last_put_notin by (try assumption; cbn; zl).
    rewrite P1s, last_put_notin by (try assumption; rewrite HL1n; assumption).
    unfold b1. rewrite (sector_setsec h b G) by (try zl; assumption).
    replace (n =? 360) with false by zl. reflexivity. }
  assert (Sdir3 : forall n, 361 <= n <= 368 -> sector g b3 n = sector g b n).
  { intros n Hn. rewrite P2s, last_put_notin by (try zl; cbn; zl).
    rewrite P1s, last_put_notin by (try zl; rewrite HL1n; intros C; apply Hord360 in C; zl).
    unfold b1. rewrite (sector_setsec h b G) by (try zl; assumption).
    replace (n =? 360) with false by zl. reflexivity. }
  assert (Hslot3 : forall i, 0 <= i < num_slots g -> slot g b3 i = slot g b i)
    by (intros i Hi; apply (slot_sectors h b3 b i G3 G Sdir3 Hi)).
  assert (Pfx : forall x y, 0 <= x -> y <= spos g 4 -> slice b4 x y = slice b x y).
  { intros x y Hx Hy. rewrite P3p, P2p, P1p by assumption.
    apply slice_setsec_prefix; try assumption; zl. }
  assert (Sfx : forall x y, spos g (h_max h + 1) <= x -> slice b4 x y = slice b x y).
  { intros x y Hx. rewrite spos_succ in Hx. change (g_ss g) with (h_ssize h) in Hx.
    rewrite P3t, P2t, P1t by assumption.
    apply slice_setsec_suffix; try assumption; zl. }
  destruct Hslots as [Hsl1 Hsl2]. rewrite Hzes in Hsl1, Hsl2.
  (* entries of the result *)
  assert (Eold : forall j, 0 <= j < k -> j <> idx -> same_entry (slot g b j) (slot g b4 j)).
  { intros j Hj Hji. rewrite Hsl1 by zl. rewrite Hnthes by zl. replace (j =? idx) with false by zl.
    apply encode_parse_same. apply Hslotok. assumption. }
  pose proof (encode_fields d1) as (F1 & F2 & F3 & F4 & F5 & F6).
  assert (Enew : slot g b4 idx = encode_dirent d1).
  { rewrite Hsl1 by zl. rewrite Hnthes by zl. rewrite Z.eqb_refl. reflexivity. }
  assert (Eflag : e_flag (slot g b4 idx) = 66) by (rewrite Enew, F2; reflexivity).
  assert (Ebase : e_base (slot g b4 idx) = stored_base name) by (rewrite Enew; unfold e_base; rewrite F5; exact Tb).
  assert (Eext : e_ext (slot g b4 idx) = stored_ext name) by (rewrite Enew; unfold e_ext; rewrite F6; exact Te).
  assert (Enm : e_name (slot g b4 idx) = stored_name name) by (unfold e_name; rewrite Ebase, Eext; reflexivity).
  assert (Elive : e_live (slot g b4 idx)) by (unfold e_live, flag_has; rewrite Eflag; reflexivity).
  assert (Hsecs'ne : secs' <> []).
  { intros E. rewrite E in Hsn. cbn in Hsn. rewrite <- Hsn in Hordlen. destruct cs; [congruence|discriminate]. }
  assert (Hordne : order <> []) by (intros E; rewrite E in Hordlen; destruct cs; [congruence|discriminate]).
  assert (Efirst : first_sector secs' = hd 0 order).
  { rewrite <- Hsn. destruct secs'; [congruence|reflexivity]. }
  assert (Estart : e_start (slot g b4 idx) = hd 0 order).
  { rewrite Enew, F4. cbn [d1 update_sector_info d_start]. rewrite Efirst. apply u16_id.
    destruct order as [|o order'] eqn:Eo; [congruence|]. cbn [hd]. destruct (Hord o ltac:(left; reflexivity)). zl. }
  assert (Hcountle : zlen order <= h_max h).
  { assert (Hi : incl order (zrange 1 (h_max h + 1))).
    { intros x Hx. apply In_zrange. destruct (Horddata x Hx) as (R & _). change (g_max g) with (h_max h) in R. zl. }
    pose proof (NoDup_incl_length Hordnd Hi) as Lx. pose proof (zlen_zrange 1 (h_max h + 1) ltac:(zl)).
    unfold zlen in *. zl. }
  assert (Hls' : zlen secs' = zlen order) by (rewrite <- Hsn; symmetry; apply zlen_map).
  assert (Ecount : e_count (slot g b4 idx) = zlen order).
  { rewrite Enew, F3. cbn [d1 update_sector_info d_count]. rewrite Hls'. apply u16_id.
    assert (zlen order <= 720).
    { assert (Hi : incl order (zrange 0 720)) by (intros x Hx; apply In_zrange; destruct (Hord x Hx); zl).
      pose proof (NoDup_incl_length Hordnd Hi) as Lx. pose proof (zlen_zrange 0 720 ltac:(zl)). unfold zlen in *. zl. }
    pose proof (zlen_nonneg order). zl. }
  assert (Hfree' : forall n, 0 <= n < 720 -> free_bit g b4 n = if zmem n order then 0 else free_bit g b n).
  { intros n Hn. unfold free_bit at 1. rewrite S360, Nv2 by assumption. rewrite Hgsm by zl.
    rewrite (getb_smap h b G) by zl. replace (n <? 720) with true by zl. reflexivity. }
  destruct (linked_chain g b4 idx (h_ssize h) ltac:(zl) eq_refl secs' cs order Hsl Hsn (eq_sym Hordlen) Hordne Hordnd) as [Chn Cnt].
  { apply Forall_forall. assumption. }
  { revert Hcs. apply Forall_impl. intros c Hc. zl. }
  { exact Sdata. }
  rewrite Ecs in Cnt.
  (* old files keep their sectors *)
  assert (Hkeep : forall i c, slot_chain g b i c ->
     (forall n, In n c -> n < 720 -> free_bit g b n = 0) ->
     forall m, In m c -> ~ In m order /\ sector g b4 m = sector g b m).
  { intros i c Hc Hfr m Hm.
    assert (Hmo : ~ In m order) by (intros Ho; destruct (Hord m Ho) as [R1 R2]; specialize (Hfr m Hm ltac:(zl)); congruence).
    split; [assumption|].
    pose proof (chain_data _ _ _ _ _ Hc) as Dc. rewrite Forall_forall in Dc. destruct (Dc m Hm) as (R & _ & X).
    apply Sother; assumption. }
  assert (Hstay : forall i c, 0 <= i < k -> i <> idx -> slot_chain g b i c ->
     (forall n, In n c -> n < 720 -> free_bit g b n = 0) -> slot_chain g b4 i c).
  { intros i c Hi Hne Hc Hfr. destruct (Eold i Hi Hne) as (E1 & E2 & E3 & E4 & E5).
    unfold slot_chain, owner. rewrite E1, E3. apply (chain_frame g b); [exact Hc|]. intros m Hm. apply (Hkeep i c Hc Hfr m Hm). }
  assert (Chn4 : slot_chain g b4 idx order).
  { unfold slot_chain, owner. rewrite Eflag, Estart. exact Chn. }
  assert (Hwas : forall i, 0 <= i < k' -> i <> idx -> e_live (slot g b4 i) ->
     exists c, 0 <= i < k /\ e_live (slot g b i) /\ slot_chain g b i c /\ slot_chain g b4 i c /\
       (forall m, In m c -> ~ In m order)).
  { intros i Hi Hne Li. destruct (Eold i ltac:(zl) Hne) as (E1 & _).
    assert (Li' : e_live (slot g b i)) by (unfold e_live, flag_has in *; rewrite <- E1; assumption).
    destruct (dk_files _ _ _ D i ltac:(zl) Li') as (_ & _ & c & Hc & _ & Hfr). exists c.
    split; [zl|]. split; [exact Li'|]. split; [exact Hc|]. split; [apply (Hstay i c); try assumption; zl|].
    intros m Hm. apply (Hkeep i c Hc Hfr m Hm). }
  assert (Dk : dos2_disk g b4 k').
  { constructor.
    - apply bytes_ok_put_secs.
      + apply bytes_ok_put_secs.
        * apply bytes_ok_put_secs.
          -- apply bytes_ok_setsec; [assumption|]. apply bytes_ok_new_vtoc; assumption.
          -- apply Forall_forall. intros p Hp. apply in_map_iff in Hp. destruct Hp as (s & <- & Hs).
             apply (Hsl' s Hs).
        * repeat constructor. apply bytes_ok_new_vtoc; assumption.
      + apply Forall_forall. intros p Hp. apply in_map_iff in Hp. destruct Hp as (s & <- & Hs).
        cbn [snd]. rewrite Forall_forall in Hdl. apply (Hdl s Hs).
    - exact (dk_ss _ _ _ D).
    - exact (dk_max _ _ _ D).
    - exact (dk_first _ _ _ D).
    - rewrite Hz. exact (dk_fit _ _ _ D).
    - rewrite S360. rewrite Nv1 by zl. exact (dk_vtoc _ _ _ D).
    - intros n Hn H1. rewrite Hfree' in H1 by assumption. destruct (zmem n order); [zl|].
      apply (dk_free _ _ _ D); assumption.
    - zl.
    - intros i Hi. destruct (Z.eq_dec i idx) as [->|Hne].
      + rewrite Ebase, Eext. split; [zl|]. split; [unfold flag_has; rewrite Eflag; cbn; zl|]. auto.
      + destruct (Eold i ltac:(zl) Hne) as (E1 & E2 & E3 & E4 & E5).
        destruct (dk_used _ _ _ D i ltac:(zl)) as (U1 & U2 & U3 & U4).
        unfold flag_has in *. rewrite E1, E4, E5. auto.
    - intros i Hi. destruct (Hsl2 i ltac:(zl)) as [E|E]; rewrite E; [reflexivity|].
      rewrite Hslot3 by zl. apply (dk_unused _ _ _ D). zl.
    - intros i j Hij Hj Lj.
      assert (Nsame : forall m, 0 <= m < k' -> m <> idx -> e_name (slot g b4 m) = e_name (slot g b m)).
      { intros m Hm Hne. destruct (Eold m ltac:(zl) Hne) as (_ & _ & _ & E4 & E5).
        unfold e_name. rewrite E4, E5. reflexivity. }
      assert (Lsame : forall m, 0 <= m < k' -> m <> idx -> e_live (slot g b4 m) -> e_live (slot g b m)).
      { intros m Hm Hne. destruct (Eold m ltac:(zl) Hne) as (E1 & _). unfold e_live, flag_has. rewrite E1. auto. }
      destruct (Z.eq_dec j idx) as [->|Hjne].
      + rewrite Enm, Nsame by zl. intros E. apply Hnew. exists i. split; [zl|]. split; [apply Hlive; zl|exact E].
      + rewrite (Nsame j) by zl. apply Lsame in Lj; [|zl|assumption].
        destruct (Z.eq_dec i idx) as [->|Hine].
        * rewrite Enm. intros E. apply Hnew. exists j. split; [zl|]. auto.
        * rewrite (Nsame i) by zl. apply (dk_names _ _ _ D); try zl. assumption.
    - intros i Hi Li. destruct (Z.eq_dec i idx) as [->|Hne].
      + split; [|split; [rewrite Ecount; assumption|]].
        { intros j c c' n Hj Hji Lj Hc Hc' Hin Hin'. destruct (Hwas j Hj Hji Lj) as (c0 & _ & _ & _ & C4 & Ap).
          rewrite (slot_chain_det _ _ _ _ _ Hc' C4) in Hin'. rewrite (slot_chain_det _ _ _ _ _ Hc Chn4) in Hin. exact (Ap n Hin' Hin). }
        exists order. rewrite Cnt. split; [exact Chn4|]. split; [assumption|].
        intros n Hn Hn7. destruct (Hord n Hn). rewrite Hfree' by zl.
        replace (zmem n order) with true by (symmetry; apply zmem_In; assumption). reflexivity.
      + destruct (Eold i ltac:(zl) Hne) as (E1 & E2 & E3 & E4 & E5).
        assert (Li' : e_live (slot g b i)) by (unfold e_live, flag_has in *; rewrite <- E1; assumption).
        destruct (dk_files _ _ _ D i ltac:(zl) Li') as (M1 & M2 & c & Hc & Hcne & Hfr).
        split; [|split; [rewrite E2; assumption|]].
        { intros j ci cj n Hj Hji Lj Hci Hcj Hin Hin'.
          destruct (Hwas i Hi Hne Li) as (c0 & _ & _ & C0 & C4 & Ap). rewrite (slot_chain_det _ _ _ _ _ Hci C4) in Hin.
          destruct (Z.eq_dec j idx) as [->|Hjne].
          - rewrite (slot_chain_det _ _ _ _ _ Hcj Chn4) in Hin'. exact (Ap n Hin Hin').
          - destruct (Hwas j Hj Hjne Lj) as (c1 & Hjk & Ljk & C1 & C5 & _). rewrite (slot_chain_det _ _ _ _ _ Hcj C5) in Hin'.
            exact (M1 j c0 c1 n Hjk Hji Ljk C0 C1 Hin Hin'). }
        exists c. pose proof (Hkeep i c Hc Hfr) as Kp.
        split; [apply (Hstay i c); try assumption; zl|].
        split; [rewrite (contents_frame g b); [assumption|intros m Hm; apply Kp; assumption]|].
        intros n Hn Hn7. pose proof (chain_data _ _ _ _ _ Hc) as Dc. rewrite Forall_forall in Dc.
        destruct (Dc n Hn) as (R & _). rewrite Hfree' by zl.
        destruct (zmem n order); [reflexivity|]. apply Hfr; assumption. }
  exists b4, k', idx, order. split.
  - unfold write_body. rewrite get_directory_view by assumption. cbv zeta.
    change (a_hdr (view h b k)) with h. fold idx. rewrite End. cbn [lift_st].
    rewrite Ebs. cbn [lift_st]. rewrite get_vtoc_object_view by assumption. cbn [lift_st].
    rewrite Hres. change (a_bytes (view h b k)) with b. rewrite Ecb.
    fold g b1 secs' d1 nv. unfold atari_dir_sectors. fold es. rewrite Edl. cbn [rbind lift_st].
    rewrite (write_sectors_put h secs' b1 G1).
    2:{ apply Forall_forall. intros s Hs. destruct (Hsl' s Hs) as (A & B & _). auto. }
    fold g L1 b2. cbn [lift_st].
    rewrite (write_sectors_put h [fill_sec (h_ssize h) 360 0 [] nv] b2 G2).
    2:{ constructor; [|constructor]. rewrite s_data_fill_full by assumption. cbn [fill_sec s_num]. split; [zl|assumption]. }
    cbn [map]. rewrite s_data_fill_full by assumption. cbn [fill_sec s_num].
    fold g b3. cbn [lift_st].
    rewrite (write_sectors_put h (number_dir 361 dl) b3 G3).
    2:{ revert Hdl. apply Forall_impl. intros s (A & B & _). split; [zl|assumption]. }
    fold g L3 b4. reflexivity.
  - constructor; try assumption.
    + apply hdr_of_same; [assumption|]. apply Pfx; [zl|]. exact (hg_first _ _ G).
    + split; [zl|]. split; [exact Elive|]. split; [exact Enm|]. exact Chn4.
    + intros n j cj (Hj & Lj & Nj & Cj).
      assert (Hne : j <> idx) by (intros ->; apply (Hfree ltac:(zl)); assumption).
      destruct (Eold j Hj Hne) as (E1 & E2 & E3 & E4 & E5).
      destruct (dk_files _ _ _ D j Hj Lj) as (_ & _ & c & Hc & _ & Hfr).
      assert (c = cj) by (eapply chain_det; eassumption). subst cj.
      pose proof (Hkeep j c Hc Hfr) as Kp. split.
      * split; [zl|]. unfold e_live, flag_has, e_name in *. fold g. rewrite E1, E4, E5.
        split; [assumption|]. split; [assumption|]. apply (Hstay j c); assumption.
      * apply contents_frame. intros m Hm; apply Kp; assumption.
    + intros n (j & Hj & Lj & Nj). fold g in Lj, Nj. destruct (Z.eq_dec j idx) as [->|Hne].
      * left. congruence.
      * right. destruct (Eold j ltac:(zl) Hne) as (E1 & E2 & E3 & E4 & E5). exists j.
        split; [zl|]. unfold e_live, flag_has, e_name in *. fold g. rewrite E1 in Lj. rewrite E4, E5 in Nj. auto.
    + unfold zlen in *. zl.
    + exists (length secs). unfold order, nz. rewrite (zlen_smap h b G). rewrite (zrange_app 0 720 1280) by zl.
      rewrite filter_app. rewrite (filter_none _ (zrange 720 1280)).
      * rewrite app_nil_r. f_equal. apply filter_ext_in. intros x Hx. apply In_zrange in Hx.
        rewrite (getb_smap h b G) by zl. replace (x <? 720) with true by zl.
        destruct (free_bit_bit h b x) as [E|E]; rewrite E; reflexivity.
      * intros x Hx. apply In_zrange in Hx. rewrite (getb_smap h b G) by zl.
        replace (x <? 720) with false by zl. reflexivity.
    + intros j Hj. fold g. rewrite S360. destruct Hj as [Hj|Hj]; [apply Nv1; assumption|].
      unfold nv, new_vtoc. pose proof (zlen_sector h b G 360 ltac:(zl)).
      rewrite getb_setslice; rewrite ?(zlen_pack720 smap' Hsm'); try zl.
      replace ((10 <=? j) && (j <? 10 + 90)) with false by zl. reflexivity.
    + split; [zl|]. split; [exact Ek'|exact Hfree].
    + fold g. unfold flag_has. rewrite Eflag. cbn. zl.
Qed.
