(** Consequences of the effect records that the property files state: the order
    of the listing, the number of free sectors, single bytes of the image. *)
From Verif Require Import Base BaseLemmas DiskModel DirLemmas AtariModel AtariSpec AtariGeom AtariDir AtariVtoc AtariChain AtariSectors AtariWrite AtariDelete AtariShred AtariOps AtariSession.
Require Import Permutation.

(** * The listing *)
Lemma live_flag g b b' j : same_entry (slot g b j) (slot g b' j) ->
  flag_bit (e_flag (slot g b' j)) 64 = flag_bit (e_flag (slot g b j)) 64.
Proof. intros (E & _). rewrite E. reflexivity. Qed.
Lemma map_filter_ext {A B} (f f' : A -> B) (p p' : A -> bool) l :
  (forall x, In x l -> p' x = p x /\ f' x = f x) -> map f' (filter p' l) = map f (filter p l).
Proof.
  induction l as [|x l IH]; intros H; [reflexivity|]. cbn [filter].
  destruct (H x ltac:(left; reflexivity)) as [E1 E2]. rewrite E1.
  destruct (p x); cbn [map]; rewrite ?E2, IH by (intros; apply H; right; assumption); reflexivity.
Qed.

Lemma write_listing h b k b' k' name data i c : write_effect h b k b' k' name data i c ->
  exists l1 l2, listing (view h b k) = l1 ++ l2 /\ listing (view h b' k') = l1 ++ name :: l2.
Proof.
  intros W. destruct (we_new _ _ _ _ _ _ _ _ _ W) as (Hi & Li & Ni & _).
  destruct (we_slot _ _ _ _ _ _ _ _ _ W) as (Ri & Ek & Hdead).
  set (g := geom_of h) in *.
  set (nm := fun j => e_name (slot g b j)). set (lv := fun j => flag_bit (e_flag (slot g b j)) 64).
  assert (S : forall x y, 0 <= x -> y <= k -> (forall j, x <= j < y -> j <> i) ->
    map (fun j => e_name (slot g b' j)) (filter (fun j => flag_bit (e_flag (slot g b' j)) 64) (zrange x y))
    = map nm (filter lv (zrange x y))).
  { intros x y Hx Hy Hne. apply map_filter_ext. intros j Hj. apply In_zrange in Hj.
    pose proof (we_slots _ _ _ _ _ _ _ _ _ W j ltac:(lia) ltac:(apply Hne; lia)) as Se.
    split; [apply live_flag; exact Se|]. apply (same_entry_live _ _ _ _ Se). }
  exists (map nm (filter lv (zrange 0 i))), (map nm (filter lv (zrange (i + 1) k))).
  rewrite !listing_view. unfold live_slots. fold g.
  rewrite (zrange_app 0 i k') by lia. rewrite (zrange_cons i k') by lia.
  rewrite filter_app, map_app. cbn [filter].
  apply flag_bit_has in Li. fold g in Li. rewrite Li. cbn [map].
  split.
  - destruct (Z.eq_dec i k) as [->|Hne].
    + rewrite (zrange_nil (k + 1)) by lia. cbn [filter map]. rewrite app_nil_r. reflexivity.
    + rewrite (zrange_app 0 i k) by lia. rewrite (zrange_cons i k) by lia.
      rewrite filter_app, map_app. cbn [filter].
      assert (Ld : flag_bit (e_flag (slot g b i)) 64 = false) by (apply flag_bit_has_false, Hdead; lia).
      rewrite Ld. reflexivity.
  - rewrite S by lia. f_equal. rewrite Ni. f_equal.
    destruct (Z.eq_dec i k) as [->|Hne].
    + rewrite !(zrange_nil (k + 1)) by lia. reflexivity.
    + replace k' with k by lia. apply S; lia.
Qed.

Lemma delete_listing h b k b' i nums : dos2_disk (geom_of h) b k ->
  delete_effect h b k b' i nums -> e_live (slot (geom_of h) b i) ->
  exists l1 l2, listing (view h b k) = l1 ++ e_name (slot (geom_of h) b i) :: l2 /\
    listing (view h b' k) = l1 ++ l2.
Proof.
  intros D W Li. destruct (de_slot _ _ _ _ _ _ W) as (Hi & Dd & _).
  set (g := geom_of h) in *.
  set (nm := fun j => e_name (slot g b j)). set (lv := fun j => flag_bit (e_flag (slot g b j)) 64).
  assert (S : forall x y, 0 <= x -> y <= k -> (forall j, x <= j < y -> j <> i) ->
    map (fun j => e_name (slot g b' j)) (filter (fun j => flag_bit (e_flag (slot g b' j)) 64) (zrange x y))
    = map nm (filter lv (zrange x y))).
  { intros x y Hx Hy Hne. apply map_filter_ext. intros j Hj. apply In_zrange in Hj.
    pose proof (de_slots _ _ _ _ _ _ W j ltac:(lia) ltac:(apply Hne; lia)) as Se.
    split; [apply live_flag; exact Se|]. apply (same_entry_live _ _ _ _ Se). }
  exists (map nm (filter lv (zrange 0 i))), (map nm (filter lv (zrange (i + 1) k))).
  rewrite !listing_view. unfold live_slots. fold g.
  rewrite (zrange_app 0 i k) by lia. rewrite (zrange_cons i k) by lia.
  rewrite !filter_app, !map_app. cbn [filter].
  apply flag_bit_has in Li. fold g in Li. rewrite Li. apply flag_bit_has_false in Dd. fold g in Dd. rewrite Dd.
  cbn [map]. split; [reflexivity|]. rewrite !S by lia. reflexivity.
Qed.

Lemma delete_listing_dead h b k b' i nums : 
  delete_effect h b k b' i nums -> ~ e_live (slot (geom_of h) b i) ->
  listing (view h b' k) = listing (view h b k).
Proof.
  intros W Li. destruct (de_slot _ _ _ _ _ _ W) as (Hi & Dd & _).
  rewrite !listing_view. unfold live_slots. apply map_filter_ext. intros j Hj. apply In_zrange in Hj.
  destruct (Z.eq_dec j i) as [->|Hne].
  - destruct (de_slot _ _ _ _ _ _ W) as (_ & _ & _ & _ & Nm & _). split; [|exact Nm].
    apply flag_bit_has_false in Li, Dd. congruence.
  - pose proof (de_slots _ _ _ _ _ _ W j ltac:(lia) Hne) as Se.
    split; [apply live_flag; exact Se|]. apply (same_entry_live _ _ _ _ Se).
Qed.

Lemma shred_listing h b k b' fill : hgeo h b -> dos2_disk (geom_of h) b k -> shred_effect h b k b' fill ->
  listing (view h b' k) = listing (view h b k).
Proof.
  intros G D W. pose proof (dk_k _ _ _ D) as Hk. pose proof (hg_ss _ _ G) as Hss.
  pose proof (num_slots_64 (geom_of h) ltac:(exact (proj1 Hss))) as Hns.
  rewrite !listing_view. unfold live_slots. apply map_filter_ext. intros j Hj. apply In_zrange in Hj.
  rewrite (se_slots _ _ _ _ _ W) by lia. auto.
Qed.

(** * Number of free sectors *)
Definition zsum (l : list Z) : Z := fold_right Z.add 0 l.
Lemma zsum_diff (f f' : Z -> Z) l :
  zsum (map f' l) = zsum (map f l) + zsum (map (fun n => f' n - f n) l).
Proof. induction l as [|x l IH]; [reflexivity|]. cbn [map zsum fold_right] in *. unfold zsum in *. lia. Qed.
Lemma zsum_ind c l : zsum (map (fun n => if zmem n c then 1 else 0) l) = zlen (filter (fun n => zmem n c) l).
Proof.
  induction l as [|x l IH]; [reflexivity|]. cbn [map filter]. unfold zsum in *. cbn [fold_right].
  rewrite IH. destruct (zmem x c); rewrite ?zlen_cons; lia.
Qed.
Lemma zsum_opp (f : Z -> Z) l : zsum (map (fun n => - f n) l) = - zsum (map f l).
Proof. induction l as [|x l IH]; [reflexivity|]. cbn [map]. unfold zsum in *. cbn [fold_right]. lia. Qed.
Lemma count_mem c x y : NoDup c ->
  zlen (filter (fun n => zmem n c) (zrange x y)) = zlen (filter (fun n => (x <=? n) && (n <? y)) c).
Proof.
  intros Hc. unfold zlen. f_equal. apply Permutation_length. apply NoDup_Permutation.
  - apply NoDup_filter, NoDup_zseq_nat.
  - apply NoDup_filter. assumption.
  - intros n. rewrite !filter_In, In_zrange, zmem_In. split; intros [A B]; (split; [|]); auto; lia.
Qed.

Lemma write_free_count h b k b' k' name data i c : write_effect h b k b' k' name data i c ->
  free_count (geom_of h) b' = free_count (geom_of h) b - sectors_needed (h_payload h) (zlen data).
Proof.
  intros W. pose proof (we_new _ _ _ _ _ _ _ _ _ W) as (_ & _ & _ & C).
  unfold free_count. change (fold_right Z.add 0) with zsum.
  rewrite (zsum_diff (free_bit (geom_of h) b)). rewrite <- (we_count _ _ _ _ _ _ _ _ _ W).
  erewrite (map_ext_in (fun n => free_bit (geom_of h) b' n - free_bit (geom_of h) b n)).
  2:{ intros n Hn. apply In_zrange in Hn. rewrite (we_free _ _ _ _ _ _ _ _ _ W n Hn).
      instantiate (1 := fun n => - (if zmem n c then 1 else 0)). cbv beta.
      destruct (zmem n c) eqn:E; [|lia]. apply zmem_In in E.
      destruct (we_alloc _ _ _ _ _ _ _ _ _ W n E) as [_ ->]. reflexivity. }
  rewrite zsum_opp, zsum_ind, count_mem by (eapply chain_NoDup; exact C).
  rewrite filter_all; [lia|]. intros n Hn. apply (we_alloc _ _ _ _ _ _ _ _ _ W) in Hn. lia.
Qed.

Lemma delete_free_count h b k b' i nums : delete_effect h b k b' i nums -> NoDup nums ->
  (forall n, In n nums -> 0 <= n) ->
  (forall n, In n nums -> n < 720 -> free_bit (geom_of h) b n = 0) ->
  free_count (geom_of h) b' = free_count (geom_of h) b + zlen (filter (fun n => n <? 720) nums).
Proof.
  intros W Nd Hpos H0. unfold free_count. change (fold_right Z.add 0) with zsum.
  rewrite (zsum_diff (free_bit (geom_of h) b)).
  erewrite (map_ext_in (fun n => free_bit (geom_of h) b' n - free_bit (geom_of h) b n)).
  2:{ intros n Hn. apply In_zrange in Hn. rewrite (de_free _ _ _ _ _ _ W n Hn).
      instantiate (1 := fun n => (if zmem n nums then 1 else 0)). cbv beta.
      destruct (zmem n nums) eqn:E; [|lia]. apply zmem_In in E. rewrite (H0 n E) by lia. reflexivity. }
  rewrite zsum_ind, count_mem by assumption. f_equal. f_equal. apply filter_ext_in.
  intros n Hn. specialize (Hpos n Hn). lia.
Qed.

(** * Single bytes *)
Lemma locate h b p : hgeo h b -> 
  p < spos (geom_of h) 4 \/ spos (geom_of h) (h_max h + 1) <= p \/
  exists n, 4 <= n <= h_max h /\ in_sector (geom_of h) n p.
Proof.
  intros G. pose proof (hg_ss _ _ G) as Hss. pose proof (hg_max _ _ G) as Hmax.
  destruct (Z_lt_dec p (spos (geom_of h) 4)) as [|H1]; [left; assumption|].
  destruct (Z_le_dec (spos (geom_of h) (h_max h + 1)) p) as [|H2]; [right; left; assumption|].
  right; right. exists (4 + (p - spos (geom_of h) 4) / h_ssize h).
  set (q := (p - spos (geom_of h) 4) / h_ssize h).
  assert (Hq : h_ssize h * q <= p - spos (geom_of h) 4 < h_ssize h * q + h_ssize h).
  { unfold q. pose proof (Z.div_mod (p - spos (geom_of h) 4) (h_ssize h) ltac:(lia)).
    pose proof (Z.mod_pos_bound (p - spos (geom_of h) 4) (h_ssize h) ltac:(lia)). lia. }
  rewrite (spos_diff (geom_of h) 4 (h_max h + 1)) in H2. change (g_ss (geom_of h)) with (h_ssize h) in H2.
  assert (0 <= q) by (unfold q; apply Z.div_pos; lia).
  assert (q < h_max h - 3) by nia.
  split; [lia|]. unfold in_sector. rewrite (spos_diff (geom_of h) 4 (4 + q)).
  change (g_ss (geom_of h)) with (h_ssize h). lia.
Qed.
Lemma getb_sector g b n p : 0 <= spos g n -> in_sector g n p -> getb b p = getb (sector g b n) (p - spos g n).
Proof.
  intros H1 H2. unfold in_sector in H2. unfold sector. rewrite getb_slice by lia. f_equal. lia.
Qed.
Lemma getb_of_slice b p : 0 <= p -> getb b p = getb (slice b p (p + 1)) 0.
Proof. intros H. rewrite getb_slice by lia. f_equal. lia. Qed.

(** Bytes outside a set of sectors are the same if the sectors are. *)
Lemma byte_frame h b b' (P : Z -> Prop) : hgeo h b ->
  (forall x y, 0 <= x -> y <= spos (geom_of h) 4 -> slice b' x y = slice b x y) ->
  (forall x y, spos (geom_of h) (h_max h + 1) <= x -> slice b' x y = slice b x y) ->
  (forall n, 4 <= n <= h_max h -> ~ P n -> sector (geom_of h) b' n = sector (geom_of h) b n) ->
  forall p, 0 <= p -> (forall n, 4 <= n <= h_max h -> P n -> ~ in_sector (geom_of h) n p) -> getb b' p = getb b p.
Proof.
  intros G H1 H2 H3 p Hp Hn. destruct (locate h b p G) as [L|[L|(n & Hr & Hin)]].
  - rewrite !(getb_of_slice _ p) by lia. rewrite H1 by lia. reflexivity.
  - rewrite !(getb_of_slice _ p) by lia. rewrite H2 by lia. reflexivity.
  - pose proof (spos_bounds h b G n Hr) as B.
    rewrite !(getb_sector (geom_of h) _ n p) by (try assumption; lia).
    rewrite H3; [reflexivity|assumption|]. intros X. exact (Hn n Hr X Hin).
Qed.

Lemma shred_bytes h b k b' fill : hgeo h b -> dos2_disk (geom_of h) b k -> shred_effect h b k b' fill ->
  forall p, 0 <= p -> 
  (forall n, 0 <= n < 720 -> free_bit (geom_of h) b n = 1 -> in_sector (geom_of h) n p -> getb b' p = u8 fill) /\
  ((forall n, 0 <= n < 720 -> free_bit (geom_of h) b n = 1 -> ~ in_sector (geom_of h) n p) -> getb b' p = getb b p).
Proof.
  intros G D W p Hp. pose proof (hg_ss _ _ G) as Hss. split.
  - intros n Hn Hf Hin. pose proof (dk_free _ _ _ D n Hn Hf) as (Hr & _). change (g_max (geom_of h)) with (h_max h) in Hr.
    pose proof (spos_bounds h b G n Hr) as B.
    rewrite (getb_sector (geom_of h) _ n p) by (try assumption; lia). rewrite (se_sector _ _ _ _ _ W) by assumption.
    unfold is_free. replace (n <? 720) with true by lia. rewrite Hf. cbn [andb Z.eqb Pos.eqb].
    apply getb_zrepeat. unfold in_sector in Hin. change (g_ss (geom_of h)) with (h_ssize h) in Hin. lia.
  - intros Hn. apply (byte_frame h b b' (fun n => 0 <= n < 720 /\ free_bit (geom_of h) b n = 1) G); try assumption.
    + apply (se_prefix _ _ _ _ _ W).
    + apply (se_suffix _ _ _ _ _ W).
    + intros n Hr HP. rewrite (se_sector _ _ _ _ _ W) by assumption. unfold is_free.
      destruct (Z.ltb_spec n 720); [|reflexivity].
      destruct (Z.eqb_spec (free_bit (geom_of h) b n) 1); [|reflexivity]. exfalso. apply HP. split; [lia|assumption].
    + intros n _ [A B]. apply Hn; assumption.
Qed.
Lemma write_bytes h b k b' k' name data i c : hgeo h b -> write_effect h b k b' k' name data i c ->
  forall p, 0 <= p -> (forall n, In n c \/ 360 <= n <= 368 -> ~ in_sector (geom_of h) n p) -> getb b' p = getb b p.
Proof.
  intros G W p Hp Hn. apply (byte_frame h b b' (fun n => In n c \/ 360 <= n <= 368) G); try assumption.
  - apply (we_prefix _ _ _ _ _ _ _ _ _ W).
  - apply (we_suffix _ _ _ _ _ _ _ _ _ W).
  - intros n Hr HP. apply (we_frame _ _ _ _ _ _ _ _ _ W); try assumption; intros X; apply HP; auto.
  - intros n _. apply Hn.
Qed.
Lemma delete_bytes h b k b' i nums : hgeo h b -> delete_effect h b k b' i nums ->
  forall p, 0 <= p -> (forall n, 360 <= n <= 368 -> ~ in_sector (geom_of h) n p) -> getb b' p = getb b p.
Proof.
  intros G W p Hp Hn. apply (byte_frame h b b' (fun n => 360 <= n <= 368) G); try assumption.
  - apply (de_prefix _ _ _ _ _ _ W).
  - apply (de_suffix _ _ _ _ _ _ W).
  - intros n Hr HP. apply (de_frame _ _ _ _ _ _ W); assumption.
  - intros n _. apply Hn.
Qed.

(** * The reported number of free sectors does not change *)
Lemma view_free_same h b k b' k' : hgeo h b ->
  (forall j, 0 <= j < 10 -> getb (sector (geom_of h) b' 360) j = getb (sector (geom_of h) b 360) j) ->
  (h_image_size h = 133120 -> sector (geom_of h) b' 1024 = sector (geom_of h) b 1024) ->
  a_free (view h b' k') = a_free (view h b k).
Proof.
  intros G H1 H2. unfold view. cbn [a_free]. unfold vtoc_word. 
  destruct (Z.eqb_spec (h_image_size h) 133120) as [E|E].
  - rewrite H2 by assumption. rewrite !H1 by lia. reflexivity.
  - rewrite !H1 by lia. reflexivity.
Qed.
