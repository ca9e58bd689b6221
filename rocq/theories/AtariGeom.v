(** Sector addressing: the model's [get_pos] agrees with the geometry of
    [AtariSpec] and writing a sector changes that sector only. *)
From Verif Require Import Base BaseLemmas DiskModel AtariModel AtariSpec.

Definition geom_of (h : hdr) : geom :=
  mkG (h_offset h) (h_ssize h) (h_ninit h * (h_ssize h - h_isize h)) (h_max h).

(** What opening a usable image establishes about its header. *)
Record hgeo (h : hdr) (b : list Z) : Prop := mkHG {
  hg_ss : 128 <= h_ssize h <= 256;
  hg_16 : h_ssize h mod 16 = 0;
  hg_pay : h_payload h = h_ssize h - 3;
  hg_max : 368 <= h_max h;
  hg_ninit : 0 <= h_ninit h <= 3;
  hg_first : 16 <= spos (geom_of h) 4;
  hg_fit : spos (geom_of h) (h_max h) + h_ssize h <= zlen b;
  hg_ed : h_image_size h = 133120 -> 1024 <= h_max h
}.

(** The header under which [open_image] reads an image. *)
Definition hdr_of (b : list Z) : res hdr :=
  let h0 := read_header b in check_size h0 (zlen b - h_offset h0).

Lemma hgeo_zlen h b b' : hgeo h b -> zlen b' = zlen b -> hgeo h b'.
Proof. intros [] E; constructor; try rewrite E; assumption. Qed.

Lemma spos_succ g n : spos g (n + 1) = spos g n + g_ss g.
Proof. unfold spos; lia. Qed.
Lemma spos_diff g n m : spos g m = spos g n + (m - n) * g_ss g.
Proof. unfold spos; lia. Qed.

Section Geo.
  Variables (h : hdr) (b : list Z).
  Hypothesis G : hgeo h b.
  Let g := geom_of h.

  Lemma gss : g_ss g = h_ssize h. Proof. reflexivity. Qed.
  Lemma gmax : g_max g = h_max h. Proof. reflexivity. Qed.

  Lemma spos_bounds n : 4 <= n <= h_max h ->
    16 <= spos g n /\ spos g n + h_ssize h <= zlen b.
  Proof.
    intros Hn. destruct G. fold g in hg_first0, hg_fit0.
    rewrite (spos_diff g 4 n). rewrite (spos_diff g n (h_max h)) in hg_fit0.
    rewrite (spos_diff g 4 n) in hg_fit0. rewrite gss in *. nia.
  Qed.

  Lemma sector_valid_in n : 4 <= n <= h_max h -> sector_valid h n = true.
  Proof. intros; unfold sector_valid; lia. Qed.

  Lemma get_pos_in n : 4 <= n <= h_max h -> get_pos h n = Ok (spos g n, h_ssize h).
  Proof.
    intros Hn. unfold get_pos. rewrite sector_valid_in by assumption. cbn [negb].
    destruct G. replace (n <=? h_ninit h) with false by lia.
    f_equal. f_equal. unfold spos, g, geom_of. cbn [g_off g_ss g_skew]. ring.
  Qed.

  Lemma zlen_sector n : 4 <= n <= h_max h -> zlen (sector g b n) = h_ssize h.
  Proof.
    intros Hn. pose proof (spos_bounds n Hn). destruct G. unfold sector. rewrite gss.
    rewrite zlen_slice; lia.
  Qed.

  Lemma spos_apart n m : n <> m ->
    spos g n + h_ssize h <= spos g m \/ spos g m + h_ssize h <= spos g n.
  Proof.
    intros Hn. destruct G. rewrite (spos_diff g n m), gss. nia.
  Qed.
End Geo.

(** Overwriting sector [n]. *)
Definition setsec (g : geom) (b : list Z) (n : Z) (d : list Z) : list Z :=
  setslice b (spos g n) d.

Section SetSec.
  Variables (h : hdr) (b : list Z).
  Hypothesis G : hgeo h b.
  Let g := geom_of h.

  Lemma zlen_setsec n d : 4 <= n <= h_max h -> zlen d = h_ssize h ->
    zlen (setsec g b n d) = zlen b.
  Proof.
    intros Hn Hd. pose proof (spos_bounds h b G n Hn). unfold setsec.
    apply zlen_setslice; fold g in H; lia.
  Qed.
  Lemma hgeo_setsec n d : 4 <= n <= h_max h -> zlen d = h_ssize h -> hgeo h (setsec g b n d).
  Proof. intros; eapply hgeo_zlen; [exact G|apply zlen_setsec; assumption]. Qed.

  Lemma sector_setsec n d m : 4 <= n <= h_max h -> zlen d = h_ssize h -> 4 <= m <= h_max h ->
    sector g (setsec g b n d) m = if m =? n then d else sector g b m.
  Proof.
    intros Hn Hd Hm. pose proof (spos_bounds h b G n Hn) as B1.
    pose proof (spos_bounds h b G m Hm) as B2. fold g in B1, B2.
    unfold sector, setsec. change (g_ss g) with (h_ssize h).
    destruct (Z.eqb_spec m n) as [->|Hne].
    - apply slice_setslice_same; lia.
    - pose proof (spos_apart h b G n m ltac:(lia)) as A. fold g in A.
      destruct G. apply slice_setslice_disjoint; lia.
  Qed.

  (** Bytes outside sectors 4.. are untouched. *)
  Lemma slice_setsec_prefix n d x y : 4 <= n <= h_max h -> zlen d = h_ssize h ->
    0 <= x -> y <= spos g 4 -> slice (setsec g b n d) x y = slice b x y.
  Proof.
    intros Hn Hd Hx Hy. pose proof (spos_bounds h b G n Hn) as B1. fold g in B1.
    unfold setsec. apply slice_setslice_disjoint; try lia. left.
    rewrite (spos_diff g 4 n). change (g_ss g) with (h_ssize h). destruct G. nia.
  Qed.
  Lemma slice_setsec_suffix n d x y : 4 <= n <= h_max h -> zlen d = h_ssize h ->
    spos g (h_max h) + h_ssize h <= x -> slice (setsec g b n d) x y = slice b x y.
  Proof.
    intros Hn Hd Hx. pose proof (spos_bounds h b G n Hn) as B1. fold g in B1.
    unfold setsec. destruct G. fold g in hg_first0, hg_fit0.
    assert (spos g n + h_ssize h <= spos g (h_max h) + h_ssize h).
    { rewrite (spos_diff g n (h_max h)). change (g_ss g) with (h_ssize h). nia. }
    apply slice_setslice_disjoint; lia.
  Qed.

  Lemma bytes_ok_setsec n d : bytes_ok b -> bytes_ok d -> bytes_ok (setsec g b n d).
  Proof. apply bytes_ok_setslice. Qed.
End SetSec.

(** A batch of sector writes. *)
Definition put_secs (g : geom) (l : list (Z * list Z)) (b : list Z) : list Z :=
  fold_left (fun b p => setsec g b (fst p) (snd p)) l b.
Definition in_secs (h : hdr) (l : list (Z * list Z)) : Prop :=
  Forall (fun p => 4 <= fst p <= h_max h /\ zlen (snd p) = h_ssize h) l.
Definition last_put (n : Z) (l : list (Z * list Z)) (d : list Z) : list Z :=
  fold_left (fun acc p => if n =? fst p then snd p else acc) l d.

Lemma put_secs_props h l : forall b, hgeo h b -> in_secs h l ->
  zlen (put_secs (geom_of h) l b) = zlen b /\
  (forall m, 4 <= m <= h_max h ->
     sector (geom_of h) (put_secs (geom_of h) l b) m
     = last_put m l (sector (geom_of h) b m)) /\
  (forall x y, 0 <= x -> y <= spos (geom_of h) 4 ->
     slice (put_secs (geom_of h) l b) x y = slice b x y) /\
  (forall x y, spos (geom_of h) (h_max h) + h_ssize h <= x ->
     slice (put_secs (geom_of h) l b) x y = slice b x y).
Proof.
  induction l as [|[n d] l IH]; intros b G Hl; [repeat split; reflexivity|].
  inversion Hl as [|? ? [Hn Hd] Hl']; subst. cbn [fst snd] in *.
  cbn [put_secs fold_left last_put fst snd].
  change (fold_left _ l (setsec (geom_of h) b n d)) with
    (put_secs (geom_of h) l (setsec (geom_of h) b n d)).
  destruct (IH (setsec (geom_of h) b n d)) as (I1 & I2 & I3 & I4);
    [apply hgeo_setsec; assumption|assumption|].
  split; [|split; [|split]].
  - rewrite I1. apply zlen_setsec; assumption.
  - intros m Hm. rewrite I2 by assumption. rewrite sector_setsec by assumption. reflexivity.
  - intros x y Hx Hy. rewrite I3 by assumption. apply slice_setsec_prefix; assumption.
  - intros x y Hx. rewrite I4 by assumption. apply slice_setsec_suffix; assumption.
Qed.

Lemma bytes_ok_put_secs g l : forall b, bytes_ok b ->
  Forall (fun p => bytes_ok (snd p)) l -> bytes_ok (put_secs g l b).
Proof.
  induction l as [|[n d] l IH]; intros b Hb Hl; [assumption|].
  inversion Hl; subst. cbn [put_secs fold_left]. apply IH; [|assumption].
  apply bytes_ok_setslice; assumption.
Qed.

Lemma last_put_notin n l d : ~ In n (map fst l) -> last_put n l d = d.
Proof.
  revert d; induction l as [|[m x] l IH]; intros d H; [reflexivity|].
  cbn [map In fst] in H. cbn [last_put fold_left fst snd].
  destruct (Z.eqb_spec n m); [exfalso; apply H; auto|].
  apply IH. tauto.
Qed.
Lemma last_put_in n x l d : NoDup (map fst l) -> In (n, x) l -> last_put n l d = x.
Proof.
  revert d; induction l as [|[m y] l IH]; intros d Hnd Hin; [destruct Hin|].
  cbn [map fst] in Hnd. apply NoDup_cons_iff in Hnd. destruct Hnd as [Hm Hnd].
  cbn [last_put fold_left fst snd]. destruct Hin as [E|Hin].
  - injection E as -> ->. rewrite Z.eqb_refl. apply last_put_notin; assumption.
  - apply IH; assumption.
Qed.
Lemma put_secs_app g l1 l2 b : put_secs g (l1 ++ l2) b = put_secs g l2 (put_secs g l1 b).
Proof. unfold put_secs; apply fold_left_app. Qed.

(** [write_sectors] succeeds exactly as a batch of sector writes. *)
Lemma write_sectors_put h l : forall b, hgeo h b ->
  Forall (fun s => 4 <= s_num s <= h_max h /\ zlen (s_data s) = h_ssize h) l ->
  write_sectors (get_pos h) l b
  = (put_secs (geom_of h) (map (fun s => (s_num s, s_data s)) l) b, Ok tt).
Proof.
  induction l as [|s l IH]; intros b G Hl; [reflexivity|].
  inversion Hl as [|? ? [Hn Hd] Hl']; subst.
  cbn [write_sectors map]. rewrite (get_pos_in h b G) by assumption.
  unfold np_assign.
  pose proof (zlen_sector h b G (s_num s) Hn) as Hz. unfold sector in Hz.
  change (g_ss (geom_of h)) with (h_ssize h) in Hz. rewrite Hz, Hd, Z.eqb_refl.
  rewrite IH; [reflexivity| |assumption].
  apply (hgeo_setsec h b G); assumption.
Qed.

(** The first two fields of the sector area: equality of images by parts. *)
Lemma bytes_eq_by_sectors h b b' : hgeo h b -> zlen b' = zlen b ->
  slice b' 0 (spos (geom_of h) 4) = slice b 0 (spos (geom_of h) 4) ->
  (forall n, 4 <= n <= h_max h -> sector (geom_of h) b' n = sector (geom_of h) b n) ->
  slice b' (spos (geom_of h) (h_max h + 1)) (zlen b)
  = slice b (spos (geom_of h) (h_max h + 1)) (zlen b) ->
  b' = b.
Proof.
  intros G Hl Hp Hs Ht.
  assert (Hmid : forall k, (forall n, 4 <= n < 4 + Z.of_nat k -> n <= h_max h) ->
     slice b' 0 (spos (geom_of h) (4 + Z.of_nat k)) = slice b 0 (spos (geom_of h) (4 + Z.of_nat k))).
  { induction k as [|k IH]; intros Hk; [rewrite Z.add_0_r; exact Hp|].
    replace (4 + Z.of_nat (S k)) with (4 + Z.of_nat k + 1) by lia.
    rewrite spos_succ.
    assert (4 <= 4 + Z.of_nat k <= h_max h) as Hin by (split; [lia|apply Hk; lia]).
    pose proof (spos_bounds h b G _ Hin) as B. destruct G.
    assert (g_ss (geom_of h) = h_ssize h) as Eg by reflexivity.
    rewrite (slice_split b' 0 (spos (geom_of h) (4 + Z.of_nat k))) by lia.
    rewrite (slice_split b 0 (spos (geom_of h) (4 + Z.of_nat k))) by lia.
    rewrite IH by (intros; apply Hk; lia). f_equal.
    apply (Hs (4 + Z.of_nat k)); assumption. }
  specialize (Hmid (Z.to_nat (h_max h - 3))).
  pose proof (hg_max _ _ G).
  replace (4 + Z.of_nat (Z.to_nat (h_max h - 3))) with (h_max h + 1) in Hmid by lia.
  specialize (Hmid ltac:(intros; lia)).
  pose proof (hg_fit _ _ G) as F. pose proof (hg_first _ _ G) as F4.
  assert (Hle : spos (geom_of h) (h_max h + 1) <= zlen b).
  { rewrite spos_succ. exact F. }
  assert (H0 : 0 <= spos (geom_of h) (h_max h + 1)).
  { pose proof (spos_bounds h b G (h_max h) ltac:(lia)). rewrite spos_succ.
    destruct G. change (g_ss (geom_of h)) with (h_ssize h). lia. }
  rewrite <- (slice_full b'), <- (slice_full b). rewrite Hl.
  rewrite (slice_split b' 0 (spos (geom_of h) (h_max h + 1))) by lia.
  rewrite (slice_split b 0 (spos (geom_of h) (h_max h + 1))) by lia.
  rewrite Hmid, Ht. reflexivity.
Qed.

(** Contiguous runs of sectors. *)
Lemma more_sectors_in h b : hgeo h b -> forall m n, 4 <= n + 1 -> n + Z.of_nat m <= h_max h ->
  more_sectors h m n = Ok (Z.of_nat m * h_ssize h).
Proof.
  intros G m; induction m as [|m IH]; intros n H1 H2; [reflexivity|].
  cbn [more_sectors]. rewrite (get_pos_in h b G) by lia. cbn [rbind].
  rewrite IH by lia. cbn [rbind]. f_equal. lia.
Qed.
Lemma get_sectors_in h b x y : hgeo h b -> 4 <= x -> x <= y -> y <= h_max h ->
  get_sectors h b x y = Ok (slice b (spos (geom_of h) x) (spos (geom_of h) (y + 1))).
Proof.
  intros G Hx Hxy Hy. unfold get_sectors, get_sector_slice.
  rewrite (get_pos_in h b G) by lia. cbn [rbind].
  rewrite (more_sectors_in h b G) by lia. cbn [rbind].
  f_equal. f_equal. rewrite (spos_diff _ x (y + 1)). change (g_ss (geom_of h)) with (h_ssize h).
  replace (Z.of_nat (Z.to_nat (y - x))) with (y - x) by lia. ring.
Qed.

(** From the opened header to [hgeo]. *)
Lemma hdr_of_hgeo b h : hdr_of b = Ok h -> 128 <= h_ssize h <= 256 -> h_ssize h mod 16 = 0 ->
  368 <= h_max h -> (h_image_size h = 133120 -> 1024 <= h_max h) -> hgeo h b.
Proof.
  unfold hdr_of. intros E Hss H16 Hmax Hed.
  assert (Hoff : (h_offset (read_header b) = 0 \/ (h_offset (read_header b) = 16 /\ 16 <= zlen b))
                 /\ h_isize (read_header b) = 0 /\ h_ninit (read_header b) = 0).
  { unfold read_header, atr_header.
    destruct (zlen (slice b 0 16) =? 16) eqn:E16; [|cbn; auto].
    rewrite zlen_slice_min in E16 by lia.
    destruct (negb _); cbn [h_offset h_isize h_ninit xfd_header]; repeat split; auto.
    right; split; [reflexivity|lia]. }
  destruct Hoff as (Hoff & Hi0 & Hn0).
  unfold check_size in E. set (sz := zlen b - h_offset (read_header b)) in *.
  set (h0 := read_header b) in *.
  rewrite Hi0, Hn0 in E.
  assert (Hsz : sz + h_offset h0 = zlen b) by (unfold sz; lia).
  assert (Ho : 0 <= h_offset h0 <= 16) by (destruct Hoff as [->|[-> _]]; lia).
  destruct ((sz =? 92160) || (sz =? 92176)) eqn:E1;
  [|destruct ((sz =? 184320) || (sz =? 184336)) eqn:E2;
  [|destruct ((sz =? 183936) || (sz =? 183952)) eqn:E3]].
  - cbn in E. injection E as <-. cbn [h_ssize h_max h_ninit h_isize h_image_size h_payload h_offset] in *.
    constructor; cbn [h_ssize h_max h_ninit h_isize h_image_size h_payload h_offset geom_of]; try lia;
    unfold spos; cbn [g_off g_ss g_skew geom_of h_ssize h_max h_ninit h_isize h_offset]; lia.
  - cbn in E. injection E as <-. cbn [h_ssize h_max h_ninit h_isize h_image_size h_payload h_offset] in *.
    constructor; cbn [h_ssize h_max h_ninit h_isize h_image_size h_payload h_offset geom_of]; try lia;
    unfold spos; cbn [g_off g_ss g_skew geom_of h_ssize h_max h_ninit h_isize h_offset]; lia.
  - cbn in E. injection E as <-. cbn [h_ssize h_max h_ninit h_isize h_image_size h_payload h_offset] in *.
    constructor; cbn [h_ssize h_max h_ninit h_isize h_image_size h_payload h_offset geom_of]; try lia;
    unfold spos; cbn [g_off g_ss g_skew geom_of h_ssize h_max h_ninit h_isize h_offset]; lia.
  - destruct (h_ssize h0 =? 0) eqn:Ez; [discriminate|]. injection E as <-.
    cbn [h_ssize h_max h_ninit h_isize h_image_size h_payload h_offset] in *.
    rewrite ?Z.mul_0_l, ?Z.sub_0_r, ?Z.add_0_r in *.
    assert (Hmx : h_ssize h0 * (sz / h_ssize h0) <= sz) by (apply Z.mul_div_le; lia).
    constructor; cbn [h_ssize h_max h_ninit h_isize h_image_size h_payload h_offset geom_of];
      unfold spos; cbn [g_off g_ss g_skew geom_of h_ssize h_max h_ninit h_isize h_offset]; try lia.
    all: rewrite ?Z.mul_0_l, ?Z.sub_0_r, ?Z.add_0_r; try nia.
Qed.
