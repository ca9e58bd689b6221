(** The free-sector bitmap, space reservation, and the metadata an opened image
    carries. *)
From Verif Require Import Base BaseLemmas DiskModel DirLemmas AtariModel AtariSpec AtariGeom AtariDir.

(** * Reserving sectors (shared by all formats) *)
Definition nz (m : list Z) : list Z :=
  filter (fun i => negb (getb m i =? 0)) (zrange 0 (zlen m)).
Definition clear_all (l : list Z) (m : list Z) : list Z :=
  fold_left (fun m i => upd m i 0) l m.

Lemma In_nz m i : In i (nz m) <-> 0 <= i < zlen m /\ getb m i <> 0.
Proof. unfold nz. rewrite filter_In, In_zrange. lia. Qed.
Lemma NoDup_nz m : NoDup (nz m).
Proof. unfold nz. apply NoDup_filter, NoDup_zseq_nat. Qed.

Lemma filter_ext_in' {A} (f g : A -> bool) l :
  (forall x, In x l -> f x = g x) -> filter f l = filter g l.
Proof. apply filter_ext_in. Qed.
Lemma filter_none {A} (f : A -> bool) l : (forall x, In x l -> f x = false) -> filter f l = [].
Proof.
  induction l as [|x l IH]; intros H; [reflexivity|]. cbn [filter].
  rewrite H by (left; reflexivity). apply IH. intros; apply H; right; assumption.
Qed.

Lemma nz_first m :
  match first_nonzero m with
  | Some i => 0 <= i < zlen m /\ nz m = i :: nz (upd m i 0)
  | None => nz m = []
  end.
Proof.
  pose proof (first_nonzero_spec m) as F. destruct (first_nonzero m) as [i|].
  - destruct F as (Hi & Hnz & Hz). split; [assumption|].
    unfold nz. rewrite zlen_upd.
    rewrite (zrange_app 0 i (zlen m)) by lia. rewrite (zrange_cons i) by lia.
    rewrite !filter_app. cbn [filter].
    rewrite getb_upd by lia. rewrite Z.eqb_refl. cbn [Z.eqb negb].
    replace (getb m i =? 0) with false by lia. cbn [negb].
    assert (H1 : filter (fun j => negb (getb m j =? 0)) (zrange 0 i) = []).
    { apply filter_none. intros x Hx. apply In_zrange in Hx. rewrite Hz by lia. reflexivity. }
    assert (H2 : filter (fun j => negb (getb (upd m i 0) j =? 0)) (zrange 0 i) = []).
    { apply filter_none. intros x Hx. apply In_zrange in Hx. rewrite getb_upd by lia.
      destruct (i =? x); [reflexivity|]. rewrite Hz by lia. reflexivity. }
    rewrite H1, H2. cbn [app]. f_equal.
    apply filter_ext_in. intros x Hx. apply In_zrange in Hx. rewrite getb_upd by lia.
    replace (i =? x) with false by lia. reflexivity.
  - apply filter_none. intros x _. rewrite F. reflexivity.
Qed.

Lemma reserve_spec n : forall m,
  reserve n m = if (n <=? length (nz m))%nat
                then Some (firstn n (nz m), clear_all (firstn n (nz m)) m) else None.
Proof.
  induction n as [|n IH]; intros m; [reflexivity|].
  cbn [reserve]. unfold get_next_free. pose proof (nz_first m) as F.
  destruct (first_nonzero m) as [i|].
  - destruct F as [Hi F]. rewrite F, IH. cbn [length].
    cbn [Nat.leb firstn]. destruct (Nat.leb n _); reflexivity.
  - rewrite F. reflexivity.
Qed.

Lemma zlen_clear_all l m : zlen (clear_all l m) = zlen m.
Proof. revert m; induction l as [|i l IH]; intros m; [reflexivity|]. cbn. rewrite IH. apply zlen_upd. Qed.
Lemma getb_clear_all l m j : (forall i, In i l -> 0 <= i < zlen m) -> 0 <= j ->
  getb (clear_all l m) j = if zmem j l then 0 else getb m j.
Proof.
  revert m; induction l as [|i l IH]; intros m H Hj; [reflexivity|].
  cbn [clear_all fold_left]. fold (clear_all l (upd m i 0)).
  rewrite IH; [|intros x Hx; rewrite zlen_upd; apply H; right; assumption|assumption].
  pose proof (H i ltac:(left; reflexivity)) as Hi. rewrite getb_upd by lia.
  cbn [zmem existsb]. fold (zmem j l).
  destruct (Z.eqb_spec j i) as [->|Hne]; cbn [orb].
  - rewrite Z.eqb_refl. destruct (zmem i l); reflexivity.
  - replace (i =? j) with false by lia. reflexivity.
Qed.

(** Marking sectors free. *)
Lemma free_sectors_spec l : forall m,
  (forall i, In i l -> 0 <= i < zlen m) ->
  exists m', free_sectors l m = Ok m' /\ zlen m' = zlen m /\
    forall j, 0 <= j -> getb m' j = if zmem j l then 1 else getb m j.
Proof.
  induction l as [|i l IH]; intros m H.
  - exists m. repeat split; reflexivity.
  - cbn [free_sectors]. pose proof (H i ltac:(left; reflexivity)) as Hi.
    replace ((i <? 0) || (zlen m <=? i)) with false by lia.
    destruct (IH (upd m i 1)) as (m' & E & L & V).
    { intros x Hx. rewrite zlen_upd. apply H; right; assumption. }
    exists m'. split; [exact E|]. split; [rewrite L; apply zlen_upd|].
    intros j Hj. rewrite V by assumption. rewrite getb_upd by lia.
    cbn [zmem existsb]. fold (zmem j l).
    destruct (Z.eqb_spec j i) as [->|Hne]; cbn [orb].
    + rewrite Z.eqb_refl. destruct (zmem i l); reflexivity.
    + replace (i =? j) with false by lia. reflexivity.
Qed.

(** * The bitmap in the image *)
Definition vbits (h : hdr) (b : list Z) : list Z :=
  unpackbits (slice (sector (geom_of h) b 360) 10 100).
Definition smap_of (h : hdr) (b : list Z) : list Z := vbits h b ++ zrepeat 0 560.

Section V.
  Variables (h : hdr) (b : list Z).
  Hypothesis G : hgeo h b.
  Let g := geom_of h.

  Let Hin360 : 4 <= 360 <= h_max h.
  Proof. destruct G; lia. Qed.

  Lemma zlen_vbits : zlen (vbits h b) = 720.
  Proof.
    unfold vbits. rewrite zlen_unpackbits, zlen_slice; try lia.
    rewrite (zlen_sector h b G) by assumption. destruct G; lia.
  Qed.
  Lemma zlen_smap : zlen (smap_of h b) = 1280.
  Proof. unfold smap_of. rewrite zlen_app, zlen_vbits, zlen_zrepeat; lia. Qed.

  Lemma getb_vbits n : 0 <= n < 720 -> getb (vbits h b) n = free_bit g b n.
  Proof.
    intros Hn. unfold vbits. pose proof (zlen_sector h b G 360 Hin360) as Hz. fold g in Hz |- *.
    destruct G.
    rewrite getb_unpackbits by (rewrite zlen_slice; lia).
    rewrite getb_slice by (Z.to_euclidean_division_equations; lia). reflexivity.
  Qed.
  Lemma getb_smap n : 0 <= n < 1280 ->
    getb (smap_of h b) n = if n <? 720 then free_bit g b n else 0.
  Proof.
    intros Hn. unfold smap_of. destruct (n <? 720) eqn:E.
    - rewrite getb_app_l by (rewrite zlen_vbits; lia). apply getb_vbits; lia.
    - rewrite getb_app_r by (rewrite zlen_vbits; lia). rewrite zlen_vbits. apply getb_zrepeat. lia.
  Qed.
  Lemma free_bit_bit n : is_bit (free_bit g b n).
  Proof. unfold is_bit, free_bit. pose proof (Z.mod_pos_bound (getb (sector g b 360) (10 + n / 8) / 2 ^ (7 - n mod 8)) 2). lia. Qed.

  Lemma get_contiguous_1 n : 4 <= n <= h_max h ->
    get_contiguous h n 1 = Ok (spos g n, h_ssize h).
  Proof.
    intros Hn. unfold get_contiguous. rewrite zrange_cons, zrange_nil by lia.
    cbn [contig_loop]. rewrite (get_pos_in h b G) by assumption. reflexivity.
  Qed.
End V.

Lemma get_vtoc_object_spec im :
  hgeo (a_hdr im) (a_bytes im) -> a_fvtoc im = 360 -> a_nvtoc im = 1 ->
  (a_vtoc2 im <= 0 \/ 4 <= a_vtoc2 im <= h_max (a_hdr im)) ->
  get_vtoc_object im
  = Ok (spos (geom_of (a_hdr im)) 360, h_ssize (a_hdr im), smap_of (a_hdr im) (a_bytes im)).
Proof.
  intros G Hf Hn H2. unfold get_vtoc_object, vtoc_bounds. rewrite Hf, Hn.
  rewrite (get_contiguous_1 _ _ G) by (destruct G; lia). cbn [rbind].
  assert (E : (if 0 <? a_vtoc2 im
     then let! _ := get_contiguous (a_hdr im) (a_vtoc2 im) 1 in
          Ok (spos (geom_of (a_hdr im)) 360, h_ssize (a_hdr im))
     else Ok (spos (geom_of (a_hdr im)) 360, h_ssize (a_hdr im)))
     = Ok (spos (geom_of (a_hdr im)) 360, h_ssize (a_hdr im))).
  { destruct H2 as [H2|H2].
    - replace (0 <? a_vtoc2 im) with false by lia. reflexivity.
    - replace (0 <? a_vtoc2 im) with true by lia. rewrite (get_contiguous_1 _ _ G) by assumption.
      reflexivity. }
  rewrite E. cbn [rbind]. unfold parse_vtoc.
  change (slice (a_bytes im) (spos (geom_of (a_hdr im)) 360) _)
    with (sector (geom_of (a_hdr im)) (a_bytes im) 360).
  pose proof (zlen_vbits _ _ G) as Hz. unfold vbits in Hz. rewrite Hz. reflexivity.
Qed.

(** [make_sector] on a full sector of data. *)
Lemma make_sector_full ss d n : zlen d = ss -> make_sector ss d n = fill_sec ss n 0 [] d.
Proof.
  intros H. unfold make_sector. rewrite new_sector_fill.
  rewrite add_data_fill by (rewrite !zlen_nil; rewrite <- H; pose proof (zlen_nonneg d); lia).
  rewrite !zlen_nil, H. cbn [fst app]. rewrite !Z.sub_0_r.
  rewrite slice_all by lia. reflexivity.
Qed.
Lemma make_sector_spec ss d n : zlen d <= ss ->
  make_sector ss d n = fill_sec ss n 0 [] d.
Proof.
  intros H. unfold make_sector. rewrite new_sector_fill. pose proof (zlen_nonneg d).
  rewrite add_data_fill by (rewrite !zlen_nil; lia).
  rewrite !zlen_nil. cbn [fst app]. rewrite !Z.sub_0_r.
  rewrite slice_all by lia. reflexivity.
Qed.
Lemma s_data_fill_full ss n u d : zlen d = ss -> s_data (fill_sec ss n u [] d) = d.
Proof.
  intros. cbn [fill_sec s_data app]. rewrite zlen_nil. replace (ss - 0 - zlen d) with 0 by lia.
  apply app_nil_r.
Qed.

(** The VTOC sector with a new bitmap. *)
Definition new_vtoc (h : hdr) (b : list Z) (smap' : list Z) : list Z :=
  setslice (sector (geom_of h) b 360) 10 (packbits (slice smap' 0 720)).

Lemma length_slice720 (smap' : list Z) : zlen smap' = 1280 -> length (slice smap' 0 720) = (8 * 90)%nat.
Proof. intros H. assert (zlen (slice smap' 0 720) = 720) by (rewrite zlen_slice; lia). unfold zlen in *; lia. Qed.

Lemma zlen_pack720 (smap' : list Z) : zlen smap' = 1280 -> zlen (packbits (slice smap' 0 720)) = 90.
Proof. intros H. unfold zlen. rewrite (length_packbits _ 90); [reflexivity|]. apply length_slice720; assumption. Qed.

Lemma calc_bitmap_spec h b smap' : hgeo h b -> zlen smap' = 1280 ->
  zlen (new_vtoc h b smap') = h_ssize h /\
  calc_bitmap (h_ssize h) b (spos (geom_of h) 360) (h_ssize h) smap'
  = (setsec (geom_of h) b 360 (new_vtoc h b smap'),
     fill_sec (h_ssize h) 360 0 [] (new_vtoc h b smap')).
Proof.
  intros G Hm. assert (Hin : 4 <= 360 <= h_max h) by (destruct G; lia).
  pose proof (zlen_pack720 smap' Hm) as Hp. pose proof (zlen_sector h b G 360 Hin) as Hz.
  pose proof (spos_bounds h b G 360 Hin) as B.
  assert (Hnv : zlen (new_vtoc h b smap') = h_ssize h).
  { unfold new_vtoc. rewrite zlen_setslice; [assumption|lia|]. rewrite Hp, Hz. destruct G; lia. }
  split; [exact Hnv|].
  assert (E : setslice b (spos (geom_of h) 360 + 10) (packbits (slice smap' 0 720))
              = setsec (geom_of h) b 360 (new_vtoc h b smap')).
  { unfold setsec. destruct G. apply list_ext_getb.
    - rewrite !zlen_setslice; lia.
    - intros i Hi. rewrite zlen_setslice in Hi by lia.
      rewrite !getb_setslice by lia. rewrite Hp, Hnv.
      unfold new_vtoc.
      destruct ((spos (geom_of h) 360 <=? i) && (i <? spos (geom_of h) 360 + h_ssize h)) eqn:E1.
      + rewrite getb_setslice by lia. rewrite Hp.
        replace (spos (geom_of h) 360 + 10 <=? i) with (10 <=? i - spos (geom_of h) 360) by lia.
        replace (i <? spos (geom_of h) 360 + 10 + 90) with (i - spos (geom_of h) 360 <? 10 + 90) by lia.
        match goal with |- (if ?c then _ else _) = _ => destruct c end.
        * f_equal. lia.
        * unfold sector. rewrite getb_slice by (change (g_ss (geom_of h)) with (h_ssize h); lia).
          f_equal. lia.
      + replace ((spos (geom_of h) 360 + 10 <=? i) && (i <? spos (geom_of h) 360 + 10 + 90)) with false by lia.
        reflexivity. }
  unfold calc_bitmap. change 0x0a with 10. rewrite E. f_equal.
  change (slice _ (spos (geom_of h) 360) _) with
    (sector (geom_of h) (setsec (geom_of h) b 360 (new_vtoc h b smap')) 360).
  rewrite (sector_setsec h b G) by assumption. rewrite Z.eqb_refl.
  apply make_sector_full. assumption.
Qed.

Lemma new_vtoc_fields h b smap' : hgeo h b -> zlen smap' = 1280 ->
  Forall is_bit (slice smap' 0 720) ->
  (forall i, 0 <= i < 10 -> getb (new_vtoc h b smap') i = getb (sector (geom_of h) b 360) i) /\
  (forall n, 0 <= n < 720 ->
     (getb (new_vtoc h b smap') (10 + n / 8) / 2 ^ (7 - n mod 8)) mod 2 = getb smap' n).
Proof.
  intros G Hm Hb. assert (Hin : 4 <= 360 <= h_max h) by (destruct G; lia).
  pose proof (zlen_pack720 smap' Hm) as Hp. pose proof (zlen_sector h b G 360 Hin) as Hz.
  assert (Hss := hg_ss _ _ G). split.
  - intros i Hi. unfold new_vtoc. rewrite getb_setslice by lia.
    replace (10 <=? i) with false by lia. reflexivity.
  - intros n Hn. unfold new_vtoc.
    assert (0 <= n / 8 < 90) by (Z.to_euclidean_division_equations; lia).
    rewrite getb_setslice by lia.
    rewrite Hp. replace ((10 <=? 10 + n / 8) && (10 + n / 8 <? 10 + 90)) with true by lia.
    replace (10 + n / 8 - 10) with (n / 8) by lia.
    rewrite <- getb_unpackbits by lia.
    rewrite (unpackbits_packbits _ 90) by (try apply length_slice720; assumption).
    rewrite getb_slice by lia. f_equal.
Qed.

Lemma bytes_ok_new_vtoc h b smap' : bytes_ok b -> zlen smap' = 1280 -> bytes_ok (new_vtoc h b smap').
Proof.
  intros Hb Hm. unfold new_vtoc. apply bytes_ok_setslice; [apply bytes_ok_slice; assumption|].
  eapply bytes_ok_packbits. apply length_slice720. assumption.
Qed.

(** * Metadata *)
Definition vtoc_word (h : hdr) (b : list Z) (i : Z) : Z :=
  le2 (getb (sector (geom_of h) b 360) i) (getb (sector (geom_of h) b 360) (i + 1)).
Definition view (h : hdr) (b : list Z) (k : Z) : aimg :=
  mkA b h (vtoc_word h b 1)
    (if h_image_size h =? 133120
     then u16 (vtoc_word h b 3 + le2 (getb (sector (geom_of h) b 1024) 122)
                                     (getb (sector (geom_of h) b 1024) 123))
     else vtoc_word h b 3)
    (filter d_inuse (entries h b k)) true 360 1
    (if h_image_size h =? 133120 then 1024 else 0).

Lemma calc_vtoc_code_pos im : 0 <= a_total im -> 128 <= h_ssize (a_hdr im) -> 2 <= calc_vtoc_code im.
Proof.
  intros Ht Hs. unfold calc_vtoc_code.
  assert (0 <= (a_total im + 80) / (h_ssize (a_hdr im) * 8)) by (apply Z.div_pos; lia).
  set (num := 1 + (a_total im + 80) / (h_ssize (a_hdr im) * 8)) in *.
  destruct (h_ssize (a_hdr im) =? 128); [|destruct (_ <? _); lia].
  destruct (num =? 1); [lia|].
  assert (0 <= (if Z.odd num then num + 1 else num)) by (destruct (Z.odd num); lia).
  Z.to_euclidean_division_equations; lia.
Qed.

Lemma get_vtoc_spec im :
  hgeo (a_hdr im) (a_bytes im) -> 0 <= a_total im ->
  (getb (sector (geom_of (a_hdr im)) (a_bytes im) 360) 0 = 0 \/
   getb (sector (geom_of (a_hdr im)) (a_bytes im) 360) 0 = 2) ->
  get_vtoc im =
  (mkA (a_bytes im) (a_hdr im) (vtoc_word (a_hdr im) (a_bytes im) 1)
       (if h_image_size (a_hdr im) =? 133120
        then u16 (vtoc_word (a_hdr im) (a_bytes im) 3
                  + le2 (getb (sector (geom_of (a_hdr im)) (a_bytes im) 1024) 122)
                        (getb (sector (geom_of (a_hdr im)) (a_bytes im) 1024) 123))
        else vtoc_word (a_hdr im) (a_bytes im) 3)
       (a_files im) (a_sane im) 360 1
       (if h_image_size (a_hdr im) =? 133120 then 1024 else a_vtoc2 im), Ok tt).
Proof.
  intros G Ht Hc. unfold get_vtoc.
  set (h := a_hdr im) in *. set (b := a_bytes im) in *.
  assert (Hin : 4 <= 360 <= h_max h) by (destruct G; lia).
  rewrite get_sectors_in by (try exact G; lia).
  change (360 + 1) with 361.
  assert (E361 : spos (geom_of h) 361 = spos (geom_of h) 360 + g_ss (geom_of h))
    by (apply (spos_succ (geom_of h) 360)).
  rewrite E361. change (slice b (spos (geom_of h) 360) _) with (sector (geom_of h) b 360).
  rewrite (zlen_sector h b G) by assumption.
  pose proof (hg_ss _ _ G) as Hss. replace (h_ssize h <? 5) with false by lia.
  replace ((getb (sector (geom_of h) b 360) 0 =? 0) || (getb (sector (geom_of h) b 360) 0 =? 2))
    with true by lia.
  change (360 - 1 + 1) with 360. cbv zeta.
  rewrite (sector_valid_in h) by assumption. cbn [negb].
  match goal with |- context [calc_vtoc_code ?x] =>
    pose proof (calc_vtoc_code_pos x) as Hcv end.
  cbn [a_total a_hdr] in Hcv. specialize (Hcv Ht ltac:(fold h; lia)).
  match goal with |- context [(1 <? 0) || (?x <? 1)] =>
    replace ((1 <? 0) || (x <? 1)) with false by lia end.
  destruct (Z.eqb_spec (h_image_size h) 133120) as [Ei|Ei].
  - pose proof (hg_ed _ _ G Ei) as Hed.
    rewrite get_sectors_in by (try exact G; lia).
    change (1024 + 1) with 1025.
    assert (E1025 : spos (geom_of h) 1025 = spos (geom_of h) 1024 + g_ss (geom_of h))
      by (apply (spos_succ (geom_of h) 1024)).
    rewrite E1025. change (slice b (spos (geom_of h) 1024) _) with (sector (geom_of h) b 1024).
    rewrite (zlen_sector h b G) by lia.
    replace (h_ssize h <? 124) with false by lia. reflexivity.
  - reflexivity.
Qed.

Definition sane_entries (h : hdr) (b : list Z) (k : Z) : Prop :=
  forall i, 0 <= i < k -> e_live (slot (geom_of h) b i) ->
    sector_valid h (e_start (slot (geom_of h) b i)) = true /\
    0 <= e_count (slot (geom_of h) b i) <= h_max h.

Lemma sane_forallb h b k : sane_entries h b k ->
  forallb (fun d => negb (d_inuse d) || d_sane d) (entries h b k) = true.
Proof.
  intros H. apply forallb_forall. intros d Hd. unfold entries in Hd. apply in_map_iff in Hd.
  destruct Hd as (i & <- & Hi). apply In_zrange in Hi.
  destruct (d_inuse (parse_dirent h i (slot (geom_of h) b i))) eqn:E; [|reflexivity].
  apply d_inuse_live in E as E'. destruct (H i Hi E') as [H1 H2]. cbn [negb orb].
  unfold parse_dirent in *. cbn [d_sane d_inuse] in *. unfold sanity. rewrite E.
  fold (e_start (slot (geom_of h) b i)). fold (e_count (slot (geom_of h) b i)). rewrite H1. cbn [negb].
  lia.
Qed.

(** What [dos2_disk] gives for the metadata. *)
Definition meta_ok (h : hdr) (b : list Z) (k : Z) : Prop :=
  hgeo h b /\
  (getb (sector (geom_of h) b 360) 0 = 0 \/ getb (sector (geom_of h) b 360) 0 = 2) /\
  0 <= k <= num_slots (geom_of h) /\
  (forall i, 0 <= i < k -> e_flag (slot (geom_of h) b i) <> 0) /\
  (k < num_slots (geom_of h) -> e_flag (slot (geom_of h) b k) = 0) /\
  sane_entries h b k.

Lemma get_metadata_view im k :
  meta_ok (a_hdr im) (a_bytes im) k -> 0 <= a_total im -> a_sane im = true ->
  (h_image_size (a_hdr im) <> 133120 -> a_vtoc2 im = 0) ->
  get_metadata im = (view (a_hdr im) (a_bytes im) k, Ok tt).
Proof.
  intros (G & Hc & Hk & Hu & He & Hs) Ht Hsane H2. unfold get_metadata.
  rewrite get_vtoc_spec by assumption.
  rewrite (get_directory_spec _ k); cbn [a_hdr a_bytes a_sane]; try assumption.
  cbn [a_total a_free a_fvtoc a_nvtoc a_vtoc2].
  rewrite Hsane, sane_forallb by assumption. cbn [andb a_sane].
  unfold view. destruct (Z.eqb_spec (h_image_size (a_hdr im)) 133120); [reflexivity|].
  rewrite H2 by assumption. reflexivity.
Qed.

Lemma open_image_view b h k : hdr_of b = Ok h -> meta_ok h b k -> open_image b = Ok (view h b k).
Proof.
  intros Eh M. unfold open_image. unfold hdr_of in Eh. cbv zeta in Eh. rewrite Eh. cbn [rbind].
  rewrite (get_metadata_view _ k); cbn [a_hdr a_bytes a_total a_sane a_vtoc2];
    try reflexivity; try assumption; try lia.
Qed.

Lemma open_image_hdr b im : open_image b = Ok im ->
  hdr_of b = Ok (a_hdr im) /\ a_bytes im = b.
Proof.
  unfold open_image, hdr_of. destruct (check_size _ _) as [h|e] eqn:E; cbn [rbind]; [|discriminate].
  destruct (get_metadata _) as [im' [[]|e]] eqn:M; [|discriminate]. intros [= <-].
  assert (K : a_hdr im' = h /\ a_bytes im' = b).
  { unfold get_metadata in M.
    destruct (get_vtoc _) as [im1 r1] eqn:V.
    assert (K1 : a_hdr im1 = h /\ a_bytes im1 = b).
    { clear M. revert V. unfold get_vtoc. cbn [a_hdr a_bytes].
      destruct (get_sectors h b 360 360) as [data|]; [|intros [= <- <-]; auto].
      destruct (zlen data <? 5); [intros [= <- <-]; auto|].
      cbv zeta. destruct (negb _); [intros [= <- <-]; auto|].
      destruct (_ || _); [intros [= <- <-]; auto|].
      destruct (h_image_size h =? 133120); [|intros [= <- <-]; auto].
      destruct (get_sectors h b 1024 1024) as [d2|]; [|intros [= <- <-]; auto].
      destruct (zlen d2 <? 124); intros [= <- <-]; auto. }
    destruct r1 as [[]|]; [|discriminate].
    destruct (get_directory im1) as [im2 r2] eqn:D.
    assert (K2 : a_hdr im2 = h /\ a_bytes im2 = b).
    { clear M. revert D. unfold get_directory.
      destruct (get_sectors _ _ 361 368) as [db|]; [|intros [= <- <-]; auto].
      destruct (parse_dirents _ _ _ _) as [ds [e|]]; intros [= <- <-]; auto. }
    destruct r2 as [ds|]; [|discriminate].
    destruct (a_sane im2); [|discriminate]. injection M as <-. exact K2. }
  destruct K as [-> ->]. auto.
Qed.

Lemma open_image_ed b im : open_image b = Ok im ->
  h_image_size (a_hdr im) = 133120 -> 0 <= h_max (a_hdr im) -> 1024 <= h_max (a_hdr im).
Proof.
  intros O Ei Hmx. pose proof (open_image_hdr b im O) as [Eh Eb].
  unfold open_image in O. unfold hdr_of in Eh. cbv zeta in Eh. rewrite Eh in O. cbn [rbind] in O.
  set (h := a_hdr im) in *.
  destruct (Z_le_gt_dec 1024 (h_max h)) as [|Hgt]; [assumption|exfalso].
  unfold get_metadata, get_vtoc in O. cbn [a_hdr a_bytes] in O.
  destruct (get_sectors h b 360 360) as [data|]; [|discriminate].
  destruct (zlen data <? 5); [discriminate|]. cbv zeta in O.
  destruct (negb _); [discriminate|]. destruct (_ || _); [discriminate|].
  rewrite Ei in O. cbn [Z.eqb Pos.eqb] in O.
  unfold get_sectors, get_sector_slice, get_pos in O.
  replace (sector_valid h 1024) with false in O by (unfold sector_valid; lia).
  cbn [negb rbind] in O. discriminate.
Qed.
