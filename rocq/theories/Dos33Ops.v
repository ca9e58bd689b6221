(** Whole DOS 3.3 operations, in terms of image objects. *)
From Verif Require Import Base BaseLemmas DiskModel DirLemmas AtariSpec AtariMore Dos33Model Dos33Spec Dos33Geom Dos33Vtoc Dos33Dir Dos33Files Dos33Update Dos33Alloc Dos33Write Dos33Delete Dos33Shred.

(** The image object is what opening its bytes gives, and the bytes form a
    consistent disk. *)
Definition consistent3 (im : img33) : Prop :=
  open33 (i_bytes im) = Ok im /\ exists cat k, dos33_disk (i_bytes im) cat k.
Definition listing3 (im : img33) : list (list Z) := map d3_name (i_files im).
(** The file type shown for a listed name. *)
Definition type_of3 (im : img33) (n : list Z) : option Z :=
  option_map d3_type (find_name3 n (i_files im)).
(** Is the listed file shown as locked? *)
Definition locked_of3 (im : img33) (n : list Z) : option bool :=
  option_map (fun d => negb (d3_lock d =? 0)) (find_name3 n (i_files im)).
Definition is_free3 (im : img33) (s : Z) : Prop := 0 <= s < 560 /\ free_bit3 (i_bytes im) s = 1.
Definition free_sectors3 (im : img33) : Z := free_count3 (i_bytes im).
(** List sectors and data sectors of a listed file. *)
Definition sectors_of3 (im : img33) (n tl dl : list Z) : Prop :=
  exists cat k i, dos33_disk (i_bytes im) cat k /\ file_in3 (i_bytes im) cat k n i tl dl.
Definition catalog_sector (im : img33) (s : Z) : Prop :=
  exists cat k, dos33_disk (i_bytes im) cat k /\ In s cat.
Definition has_room3 (im : img33) : Prop :=
  exists cat k, dos33_disk (i_bytes im) cat k /\ room3 (i_bytes im) cat k.
(** Some catalog entry, deleted or not, carries the name. *)
Definition named3 (im : img33) (n : list Z) : Prop :=
  exists cat k i, dos33_disk (i_bytes im) cat k /\ 0 <= i < k /\ x_name (slot3 (i_bytes im) cat i) = n.

(** The first catalog entry called [n] is a deleted one; the sectors a second
    deletion finds through it are [tl] and [dl]. *)
Definition stale_entry3 (im : img33) (n tl dl : list Z) : Prop :=
  exists cat k i, dos33_disk (i_bytes im) cat k /\ 0 <= i < k /\ x_dead (slot3 (i_bytes im) cat i) /\
    x_name (slot3 (i_bytes im) cat i) = n /\
    (forall j, 0 <= j < i -> x_name (slot3 (i_bytes im) cat j) <> n) /\
    stale_at (i_bytes im) (slot3 (i_bytes im) cat i) tl dl.
(** ... and these sectors are data sectors that no file uses. *)
Definition stale_safe3 (im : img33) (n tl dl : list Z) : Prop :=
  stale_entry3 im n tl dl /\
  forall s, In s (tl ++ dl) ->
    16 <= s < 560 /\ s <> 272 /\ ~ catalog_sector im s /\
    forall m tl' dl', sectors_of3 im m tl' dl' -> ~ In s (tl' ++ dl').
(** No catalog entry is a deleted one. *)
Definition no_deleted3 (im : img33) : Prop :=
  exists cat k, dos33_disk (i_bytes im) cat k /\ forall i, 0 <= i < k -> ~ x_dead (slot3 (i_bytes im) cat i).

Definition legal_write3 (im : img33) (n ft d : list Z) : Prop :=
  ascii n /\ type_code ft <> 0 /\ d <> [] /\ bytes_ok d /\ ~ In (stored_name3 n) (listing3 im).

(** * Views *)
Lemma disk_det b cat k cat' k' : dos33_disk b cat k -> dos33_disk b cat' k' -> cat = cat' /\ k = k'.
Proof.
  intros D D'. pose proof (links_det _ _ _ (k3_cat _ _ _ D) _ (k3_cat _ _ _ D')) as <-. split; [reflexivity|].
  pose proof (k3_k _ _ _ D). pose proof (k3_k _ _ _ D').
  destruct (Z.lt_trichotomy k k') as [H1|[H1|H1]]; [exfalso|assumption|exfalso].
  - apply (k3_unused _ _ _ D k ltac:(lia)). apply (k3_used _ _ _ D' k ltac:(lia)).
  - apply (k3_unused _ _ _ D' k' ltac:(lia)). apply (k3_used _ _ _ D k' ltac:(lia)).
Qed.
Lemma view3_consistent b cat k : dos33_disk b cat k -> consistent3 (view3 b cat k).
Proof.
  intros D. split; [|exists cat, k; exact D]. change (i_bytes (view3 b cat k)) with b.
  apply open33_view. exact D.
Qed.
Lemma consistent3_view im : consistent3 im -> exists cat k,
  im = view3 (i_bytes im) cat k /\ dos33_disk (i_bytes im) cat k.
Proof.
  intros (Ho & cat & k & D). exists cat, k. split; [|assumption].
  pose proof (open33_view _ _ _ D). congruence.
Qed.
Lemma open33_consistent b cat k im : dos33_disk b cat k -> open33 b = Ok im -> consistent3 im /\ i_bytes im = b.
Proof.
  intros D E. rewrite (open33_view _ _ _ D) in E. injection E as <-. split; [apply view3_consistent; exact D|reflexivity].
Qed.

Lemma transact3_view b cat k b' k' body r : dos33_disk b' cat k' ->
  body (view3 b cat k) = (with_bytes3 (view3 b cat k) b', r) ->
  transact3 (view3 b cat k) body = (view3 b' cat k', r).
Proof.
  intros D' E. unfold transact3. rewrite E.
  assert (X : forall r' : res unit, (match r' with Err e => if is_atr e then rollback3 (with_bytes3 (view3 b cat k) b') else with_bytes3 (view3 b cat k) b'
       | Ok _ => with_bytes3 (view3 b cat k) b' end : img33) = mkI b' (H3 (fdir3 b)) (files3 b cat k) true).
  { intros [u|e]; [reflexivity|]. destruct (is_atr e); reflexivity. }
  rewrite (X r). rewrite (get_metadata3_view b' cat k' D' (H3 (fdir3 b)) (files3 b cat k) eq_refl). reflexivity.
Qed.

Definition live_b (e : list Z) : bool := negb (getb e 0 =? 255).
Definition live_slots3 (b cat : list Z) (k : Z) : list Z := filter (fun i => live_b (slot3 b cat i)) (zrange 0 k).
Lemma live_b_spec b cat k i : dos33_disk b cat k -> 0 <= i < k -> (live_b (slot3 b cat i) = true <-> x_live (slot3 b cat i)).
Proof.
  intros D Hi. unfold live_b. destruct (k3_used _ _ _ D i Hi) as [[H|H] _].
  - rewrite H. split; [discriminate|]. intros [X _]. contradiction.
  - split; [intros _; exact H|]. intros [X _]. lia.
Qed.
Lemma filter_map_filter {A B} (f : A -> B) (p : B -> bool) (q : A -> bool) l :
  (forall x, In x l -> p (f x) = q x) -> filter p (map f l) = map f (filter q l).
Proof.
  induction l as [|x l IH]; intros H; [reflexivity|]. cbn [map filter].
  rewrite (H x (or_introl eq_refl)), IH by (intros; apply H; right; assumption).
  destruct (q x); reflexivity.
Qed.
Lemma files3_eq b cat k : dos33_disk b cat k ->
  files3 b cat k = map (fun i => parse_ent (H3 (fdir3 b)) (slot3 b cat i)) (live_slots3 b cat k).
Proof.
  intros D. unfold files3, entries3, live_slots3. apply filter_map_filter.
  intros i Hi. apply In_zrange in Hi. rewrite (sane_entry b cat k D) by assumption. reflexivity.
Qed.
Lemma listing3_view b cat k : dos33_disk b cat k ->
  listing3 (view3 b cat k) = map (fun i => x_name (slot3 b cat i)) (live_slots3 b cat k).
Proof.
  intros D. unfold listing3. cbn [view3 i_files]. rewrite files3_eq by assumption. rewrite map_map. reflexivity.
Qed.
Lemma In_listing3 b cat k n : dos33_disk b cat k -> (In n (listing3 (view3 b cat k)) <-> listed3 b cat k n).
Proof.
  intros D. rewrite listing3_view by assumption. rewrite in_map_iff. unfold live_slots3, listed3. split.
  - intros (i & E & Hi). apply filter_In in Hi. rewrite In_zrange in Hi. destruct Hi as [Hi L].
    apply (live_b_spec b cat k i D Hi) in L. exists i. auto.
  - intros (i & Hi & L & E). exists i. split; [assumption|]. apply filter_In. rewrite In_zrange.
    split; [assumption|]. apply (live_b_spec b cat k i D Hi). assumption.
Qed.
Lemma find_name3_view b cat k i : dos33_disk b cat k -> 0 <= i < k -> x_live (slot3 b cat i) ->
  find_name3 (x_name (slot3 b cat i)) (files3 b cat k) = Some (parse_ent (H3 (fdir3 b)) (slot3 b cat i)).
Proof.
  intros D Hi L. apply find_name3_some.
  - apply (in_files3 b cat k D). exists i. auto.
  - apply d3_name_parse.
  - intros d' Hd' Hn. apply (in_files3 b cat k D) in Hd'. destruct Hd' as (j & Hj & Lj & ->).
    rewrite d3_name_parse in Hn. rewrite (live_names b cat k D j i); auto.
Qed.

(** A name is the name of a file, or not listed. *)
Lemma find_view3 b cat k n : dos33_disk b cat k ->
  (exists i tl dl, file_in3 b cat k n i tl dl /\ find_file3 (view3 b cat k) n = Ok (contents3 b dl) /\
     type_of3 (view3 b cat k) n = Some (x_type (slot3 b cat i))) \/
  (~ listed3 b cat k n /\ find_file3 (view3 b cat k) n = Err (EAtr FileNotFound) /\
     type_of3 (view3 b cat k) n = None).
Proof.
  intros D. destruct (live_or_not b cat k n D) as [(i & Hi & L & E)|H].
  - left. destruct (k3_files _ _ _ D i Hi L) as (_ & _ & tl & dl & F & _). exists i, tl, dl.
    split; [split; [assumption|]; auto|]. rewrite <- E. split.
    + apply (find_file3_some b cat k i tl dl); assumption.
    + unfold type_of3. cbn [view3 i_files]. rewrite find_name3_view by assumption. reflexivity.
  - right. split; [intros (i & Hi & L & E); apply (H i); assumption|]. split; [apply find_file3_none; assumption|].
    unfold type_of3. cbn [view3 i_files]. rewrite find_name3_none; [reflexivity|].
    intros d Hd. apply (in_files3 b cat k D) in Hd. destruct Hd as (i & Hi & L & ->). rewrite d3_name_parse. auto.
Qed.
Lemma find_of_file_in3 b cat k n i tl dl : dos33_disk b cat k -> file_in3 b cat k n i tl dl ->
  find_file3 (view3 b cat k) n = Ok (contents3 b dl) /\ type_of3 (view3 b cat k) n = Some (x_type (slot3 b cat i)).
Proof.
  intros D (Hi & L & E & F). rewrite <- E. split; [apply (find_file3_some b cat k i tl dl); assumption|].
  unfold type_of3. cbn [view3 i_files]. rewrite find_name3_view by assumption. reflexivity.
Qed.
Lemma listed_file3 b cat k n : dos33_disk b cat k -> listed3 b cat k n -> exists i tl dl, file_in3 b cat k n i tl dl.
Proof.
  intros D (i & Hi & L & E). destruct (k3_files _ _ _ D i Hi L) as (_ & _ & tl & dl & F & _). exists i, tl, dl.
  split; [assumption|]; auto.
Qed.

Lemma locked_view3 b cat k i : dos33_disk b cat k -> 0 <= i < k -> x_live (slot3 b cat i) ->
  locked_of3 (view3 b cat k) (x_name (slot3 b cat i)) = Some (128 <=? getb (slot3 b cat i) 2).
Proof.
  intros D Hi L. unfold locked_of3. cbn [view3 i_files]. rewrite find_name3_view by assumption.
  cbn [option_map]. f_equal. unfold parse_ent. cbn [d3_lock].
  pose proof (bytes_ok_getb _ 2 (bytes_ok_slot3 b cat i (k3_bytes _ _ _ D))) as B. unfold is_byte in B.
  destruct (Z.leb_spec 128 (getb (slot3 b cat i) 2)), (Z.eqb_spec (128 * (getb (slot3 b cat i) 2 / 128)) 0);
    try reflexivity; exfalso; Z.to_euclidean_division_equations; lia.
Qed.
Lemma all_unlocked b cat k : dos33_disk b cat k ->
  (forall j, 0 <= j < k -> x_live (slot3 b cat j) -> ~ x_locked (slot3 b cat j)) ->
  forall m, In m (listing3 (view3 b cat k)) -> locked_of3 (view3 b cat k) m = Some false.
Proof.
  intros D H m Hm. apply In_listing3 in Hm; [|assumption]. destruct Hm as (i & Hi & L & <-).
  rewrite locked_view3 by assumption. f_equal. specialize (H i Hi L). unfold x_locked in H. lia.
Qed.
Lemma files3_ext b b' cat k : (forall n, In n cat -> sec b' n = sec b n) -> fdir3 b' = fdir3 b ->
  files3 b' cat k = files3 b cat k.
Proof.
  intros H Hf. unfold files3, entries3. rewrite Hf. f_equal. apply map_ext. intros i. f_equal.
  unfold slot3, catalog. f_equal. apply flat_map_ext_in. intros n Hn. rewrite H by assumption. reflexivity.
Qed.

(** * What an update leaves alone *)
Section U.
  Variables (b cat : list Z) (k : Z) (b' : list Z) (k' j : Z).
  Hypothesis U : update3 b cat k b' k' j.
  Let D := u_disk _ _ _ _ _ _ U.
  Let D' := update_ok _ _ _ _ _ _ U.

  Lemma upd_same n : (0 <= j < k -> x_live (slot3 b cat j) -> x_name (slot3 b cat j) <> n) ->
    (0 <= j < k' -> x_live (slot3 b' cat j) -> x_name (slot3 b' cat j) <> n) ->
    find_file3 (view3 b' cat k') n = find_file3 (view3 b cat k) n /\
    type_of3 (view3 b' cat k') n = type_of3 (view3 b cat k) n.
  Proof.
    intros Hold Hnew. pose proof (u_k _ _ _ _ _ _ U) as Hk. pose proof (k3_k _ _ _ D) as Hk0.
    destruct (find_view3 b cat k n D) as [(i & tl & dl & (Hi & L & E & F) & -> & ->)|(Hno & -> & ->)].
    - assert (Hj : i <> j) by (intros ->; apply (Hold Hi L E)).
      destruct (u_kept _ _ _ _ _ _ U i ltac:(lia) Hj) as [_ (Hn & _ & Hl)].
      destruct (Hl L) as (L' & Ht & _).
      destruct (kept_file _ _ _ _ _ _ U i tl dl Hi Hj L F) as [F' C'].
      destruct (find_of_file_in3 b' cat k' n i tl dl D') as [R1 R2].
      { split; [lia|]. split; [assumption|]. split; [congruence|assumption]. }
      rewrite R1, R2. split; congruence.
    - destruct (find_view3 b' cat k' n D') as [(i & tl & dl & (Hi & L & E & F) & _)|(_ & -> & ->)]; [exfalso|auto].
      assert (Hj : i <> j) by (intros ->; apply (Hnew Hi L E)).
      destruct (u_kept _ _ _ _ _ _ U i Hi Hj) as [Hik (Hn & _)]. apply Hno. exists i. split; [lia|].
      split; [apply (kept_live _ _ _ _ _ _ U i Hi Hj); assumption|congruence].
  Qed.

  Lemma upd_live i : 0 <= i < k' -> i <> j ->
    live_b (slot3 b' cat i) = live_b (slot3 b cat i) /\ x_name (slot3 b' cat i) = x_name (slot3 b cat i).
  Proof.
    intros Hi Hj. destruct (u_kept _ _ _ _ _ _ U i Hi Hj) as [Hik (Hn & Hd & _)]. split; [|assumption].
    unfold live_b. unfold x_dead in Hd. destruct (Z.eqb_spec (getb (slot3 b cat i) 0) 255) as [E|E].
    - apply Hd in E. rewrite E. reflexivity.
    - destruct (Z.eqb_spec (getb (slot3 b' cat i) 0) 255) as [E'|E']; [|reflexivity]. apply Hd in E'. contradiction.
  Qed.
  Lemma upd_part x y : 0 <= x -> y <= k' -> (forall i, x <= i < y -> i <> j) ->
    map (fun i => x_name (slot3 b' cat i)) (filter (fun i => live_b (slot3 b' cat i)) (zrange x y))
    = map (fun i => x_name (slot3 b cat i)) (filter (fun i => live_b (slot3 b cat i)) (zrange x y)).
  Proof.
    intros Hx Hy Hne. apply map_filter_ext. intros i Hi. apply In_zrange in Hi.
    apply upd_live; [lia|apply Hne; lia].
  Qed.
  Lemma upd_listing_same : j = -1 -> k' = k -> listing3 (view3 b' cat k') = listing3 (view3 b cat k).
  Proof.
    intros Ej Ek. rewrite !listing3_view by assumption. unfold live_slots3.
    replace (zrange 0 k) with (zrange 0 k') by (rewrite Ek; reflexivity). apply upd_part; lia.
  Qed.
End U.

Lemma in_sec_getb b n p : 0 <= n -> 256 * n <= p < 256 * n + 256 -> getb b p = getb (sec b n) (p - 256 * n).
Proof. intros Hn Hp. unfold sec. rewrite getb_slice by lia. f_equal. lia. Qed.
Lemma sec_bytes_same b b' p : zlen b = 143360 -> zlen b' = 143360 -> 0 <= p ->
  (p < 143360 -> sec b' (p / 256) = sec b (p / 256)) -> getb b' p = getb b p.
Proof.
  intros Hb Hb' Hp H. destruct (Z_lt_dec p 143360) as [L|L].
  - assert (R : 0 <= p / 256 < 560) by (Z.to_euclidean_division_equations; lia).
    assert (R2 : 256 * (p / 256) <= p < 256 * (p / 256) + 256) by (Z.to_euclidean_division_equations; lia).
    rewrite (in_sec_getb b' (p / 256)), (in_sec_getb b (p / 256)) by lia. rewrite H by assumption. reflexivity.
  - rewrite !getb_oob by lia. reflexivity.
Qed.

(** * Writing *)
Record write_result3 (im im' : img33) (n ft d tl dl : list Z) : Prop := mkWR3 {
  wr3_consistent : consistent3 im';
  wr3_read : find_file3 im' (stored_name3 n) = Ok (padded d);
  wr3_type : type_of3 im' (stored_name3 n) = Some (type_code ft);
  wr3_others : forall m, m <> stored_name3 n ->
    find_file3 im' m = find_file3 im m /\ type_of3 im' m = type_of3 im m;
  wr3_listing : exists l1 l2, listing3 im = l1 ++ l2 /\ listing3 im' = l1 ++ stored_name3 n :: l2;
  wr3_unlocked : forall m, In m (listing3 im') -> locked_of3 im' m = Some false;
  wr3_hdr : i_hdr im' = i_hdr im;
  wr3_len : zlen (i_bytes im') = zlen (i_bytes im);
  wr3_nodup : NoDup (dl ++ tl);
  wr3_count : zlen dl = sectors3 (zlen d) /\ zlen tl = lists3 (zlen dl);
  wr3_sectors : sectors_of3 im' (stored_name3 n) tl dl;
  wr3_were_free : forall s, In s (dl ++ tl) -> is_free3 im s;
  wr3_lowest : forall s r, In s (dl ++ tl) -> is_free3 im r -> r < s -> In r (dl ++ tl);
  wr3_free : forall s, is_free3 im' s <-> is_free3 im s /\ ~ In s (dl ++ tl);
  wr3_free_count : free_sectors3 im' = free_sectors3 im - need3 (zlen d);
  wr3_bytes : forall p, 0 <= p -> p / 256 <> 272 -> ~ catalog_sector im (p / 256) -> ~ In (p / 256) (dl ++ tl) ->
    getb (i_bytes im') p = getb (i_bytes im) p
}.
(** A refused write that still marks the sectors [l] as used. *)
Record leak_result3 (im im' : img33) (l : list Z) : Prop := mkLR3 {
  lk3_consistent : consistent3 im';
  lk3_files : forall m, find_file3 im' m = find_file3 im m /\ type_of3 im' m = type_of3 im m;
  lk3_dir : i_files im' = i_files im;
  lk3_listing : listing3 im' = listing3 im;
  lk3_were_free : forall s, In s l -> is_free3 im s;
  lk3_free : forall s, is_free3 im' s <-> is_free3 im s /\ ~ In s l;
  lk3_free_count : free_sectors3 im' = free_sectors3 im - zlen l;
  lk3_bytes : forall p, 0 <= p -> p / 256 <> 272 -> getb (i_bytes im') p = getb (i_bytes im) p
}.

Lemma is_free_in im cat k s : dos33_disk (i_bytes im) cat k -> (is_free3 im s <-> In s (free_list3 (i_bytes im))).
Proof.
  intros D. unfold is_free3. rewrite In_free_list3. split; [intros []; split; [lia|assumption]|].
  intros [H1 H2]. split; [|assumption]. destruct (k3_free _ _ _ D s H1 H2) as ((R & _) & _). 
  destruct (k3_free _ _ _ D s H1 H2) as (R2 & _). lia.
Qed.
Lemma free_count_sub b cat k b' cat' k' l : dos33_disk b cat k -> dos33_disk b' cat' k' -> NoDup l ->
  (forall s, In s l -> In s (free_list3 b)) ->
  (forall n, 0 <= n < 800 -> free_bit3 b' n = if zmem n l then 0 else free_bit3 b n) ->
  free_count3 b' = free_count3 b - zlen l.
Proof.
  intros D D' Hnd Hl H. rewrite !free_count3_list.
  assert (P : Permutation.Permutation (free_list3 b) (l ++ free_list3 b')).
  { apply Permutation.NoDup_Permutation.
    - apply NoDup_free_list3.
    - pose proof (NoDup_free_list3 b') as N'. assert (Hd : forall x, In x l -> ~ In x (free_list3 b')).
      { intros x Hx Hx'. apply In_free_list3 in Hx'. destruct Hx' as [R F]. rewrite H in F by assumption.
        apply zmem_In in Hx. rewrite Hx in F. discriminate. }
      clear -Hnd N' Hd. induction Hnd as [|x l Hx Hnd IH]; [assumption|]. cbn [app]. constructor.
      + rewrite in_app_iff. intros [C|C]; [contradiction|]. apply (Hd x); [left; reflexivity|assumption].
      + apply IH. intros y Hy. apply Hd. right; assumption.
    - intros x. rewrite in_app_iff. split.
      + intros Hx. destruct (zmem x l) eqn:E; [left; apply zmem_In; assumption|right].
        apply In_free_list3 in Hx. destruct Hx as [R F]. apply In_free_list3. split; [assumption|].
        rewrite H, E by assumption. assumption.
      + intros [Hx|Hx]; [apply Hl; assumption|]. apply In_free_list3 in Hx. destruct Hx as [R F].
        apply In_free_list3. split; [assumption|]. rewrite H in F by assumption. destruct (zmem x l); [discriminate|assumption]. }
  apply Permutation.Permutation_length in P. rewrite app_length in P. unfold zlen. lia.
Qed.

Lemma leak_view b cat k b' l : marked3 b cat k b' l -> NoDup l -> (forall s, In s l -> In s (free_list3 b)) ->
  leak_result3 (view3 b cat k) (view3 b' cat k) l.
Proof.
  intros M Hnd Hl. pose proof (m3_upd _ _ _ _ _ M) as U. pose proof (u_disk _ _ _ _ _ _ U) as D.
  pose proof (update_ok _ _ _ _ _ _ U) as D'. constructor.
  - apply view3_consistent. assumption.
  - intros m. apply (upd_same _ _ _ _ _ _ U); lia.
  - cbn [view3 i_files]. apply files3_ext; [|apply (lnk_vtoc_same _ _ _ _ _ _ U)].
    intros x Hx. pose proof (cat_range b cat k D) as R. rewrite Forall_forall in R.
    apply (m3_frame _ _ _ _ _ M); [apply R; assumption|].
    intros ->. apply (k3_cat_vtoc _ _ _ D). assumption.
  - apply (upd_listing_same _ _ _ _ _ _ U); reflexivity.
  - intros s Hs. apply (is_free_in (view3 b cat k) cat k); [exact D|]. apply Hl. assumption.
  - intros s. rewrite (is_free_in (view3 b' cat k) cat k s D'), (is_free_in (view3 b cat k) cat k s D).
    cbn [view3 i_bytes]. rewrite !In_free_list3. split.
    + intros [R F]. rewrite (m3_free _ _ _ _ _ M) in F by assumption. destruct (zmem s l) eqn:E; [discriminate|].
      apply zmem_false in E. auto.
    + intros [[R F] Hn]. split; [assumption|]. rewrite (m3_free _ _ _ _ _ M) by assumption.
      apply zmem_false in Hn. rewrite Hn. assumption.
  - apply (free_count_sub b cat k b' cat k l); try assumption. apply (m3_free _ _ _ _ _ M).
  - intros p Hp Hn. cbn [view3 i_bytes]. apply sec_bytes_same; [apply (k3_size _ _ _ D)|apply (k3_size _ _ _ D')|assumption|].
    intros Hlt. apply (m3_frame _ _ _ _ _ M); [|assumption]. Z.to_euclidean_division_equations; lia.
Qed.

Lemma write_result3_view b cat k b' k' n ft d i tl dl :
  write_effect3 b cat k b' k' (stored_name3 n) (type_code ft) d i tl dl ->
  ~ listed3 b cat k (stored_name3 n) ->
  write_result3 (view3 b cat k) (view3 b' cat k') n ft d tl dl.
Proof.
  intros W Hnl. pose proof (w3_upd _ _ _ _ _ _ _ _ _ _ _ W) as U. pose proof (u_disk _ _ _ _ _ _ U) as D.
  pose proof (update_ok _ _ _ _ _ _ U) as D'. pose proof (w3_new _ _ _ _ _ _ _ _ _ _ _ W) as N.
  destruct (find_of_file_in3 _ _ _ _ _ _ _ D' N) as [R1 R2].
  destruct (w3_count _ _ _ _ _ _ _ _ _ _ _ W) as [C1 C2].
  destruct (w3_slot _ _ _ _ _ _ _ _ _ _ _ W) as (Hi & Ek & Hdead & Hlow).
  pose proof (w3_lowest _ _ _ _ _ _ _ _ _ _ _ W) as Hlo.
  assert (HF : forall s, In s (dl ++ tl) -> In s (free_list3 b)).
  { intros s Hs. rewrite Hlo in Hs. apply In_firstn in Hs. assumption. }
  assert (Hnd : NoDup (dl ++ tl)).
  { rewrite Hlo. pose proof (NoDup_free_list3 b) as Nd. rewrite <- (firstn_skipn (length (dl ++ tl)) (free_list3 b)) in Nd.
    apply NoDup_app_left in Nd. assumption. }
  constructor.
  - apply view3_consistent. assumption.
  - rewrite R1, (w3_data _ _ _ _ _ _ _ _ _ _ _ W). reflexivity.
  - rewrite R2, (w3_type _ _ _ _ _ _ _ _ _ _ _ W). reflexivity.
  - intros m Hm. apply (upd_same _ _ _ _ _ _ U).
    + intros Hik L. pose proof (Hdead ltac:(lia)) as X. destruct L as [L _]. contradiction.
    + intros Hik L. destruct N as (_ & _ & E & _). congruence.
  - exists (map (fun i => x_name (slot3 b cat i)) (filter (fun i => live_b (slot3 b cat i)) (zrange 0 i))),
           (map (fun i => x_name (slot3 b cat i)) (filter (fun i => live_b (slot3 b cat i)) (zrange (i + 1) k))).
    rewrite !listing3_view by assumption. unfold live_slots3. destruct N as (Hik & Li & Ni & _).
    rewrite (zrange_app 0 i k') by lia. rewrite (zrange_cons i k') by lia.
    rewrite filter_app, map_app. cbn [filter].
    replace (live_b (slot3 b' cat i)) with true by (symmetry; apply (live_b_spec b' cat k' i D' Hik); assumption).
    cbn [map]. split.
    + destruct (Z.eq_dec i k) as [->|Hne].
      * rewrite (zrange_nil (k + 1)) by lia. cbn [filter map]. rewrite app_nil_r. reflexivity.
      * rewrite (zrange_app 0 i k) by lia. rewrite (zrange_cons i k) by lia. rewrite filter_app, map_app. cbn [filter].
        assert (Ld : live_b (slot3 b cat i) = false) by (unfold live_b; rewrite (Hdead ltac:(lia)); reflexivity).
        rewrite Ld. reflexivity.
    + rewrite (upd_part _ _ _ _ _ _ U) by lia. f_equal. rewrite Ni. f_equal.
      destruct (Z.eq_dec i k) as [->|Hne].
      * rewrite !(zrange_nil (k + 1)) by lia. reflexivity.
      * replace k' with k by lia. apply (upd_part _ _ _ _ _ _ U); lia.
  - apply all_unlocked; [assumption|]. apply (w3_unlocked _ _ _ _ _ _ _ _ _ _ _ W).
  - cbn [view3 i_hdr]. unfold fdir3. rewrite (lnk_vtoc_same _ _ _ _ _ _ U). reflexivity.
  - cbn [view3 i_bytes]. rewrite (k3_size _ _ _ D), (k3_size _ _ _ D'). reflexivity.
  - assumption.
  - split; assumption.
  - exists cat, k', i. split; assumption.
  - intros s Hs. apply (is_free_in (view3 b cat k) cat k s D). apply HF. assumption.
  - intros s r Hs Hr Hlt. apply (is_free_in (view3 b cat k) cat k r D) in Hr. cbn [view3 i_bytes] in Hr.
    apply In_free_list3 in Hr. destruct Hr as [Rr Fr]. rewrite Hlo in Hs |- *.
    apply (lowest_first b _ s r Hs); try assumption. lia.
  - intros s. rewrite (is_free_in (view3 b' cat k') cat k' s D'), (is_free_in (view3 b cat k) cat k s D).
    cbn [view3 i_bytes]. rewrite !In_free_list3. split.
    + intros [R F]. rewrite (w3_free _ _ _ _ _ _ _ _ _ _ _ W) in F by assumption.
      destruct (zmem s (dl ++ tl)) eqn:E; [discriminate|]. apply zmem_false in E. auto.
    + intros [[R F] Hn]. split; [assumption|]. rewrite (w3_free _ _ _ _ _ _ _ _ _ _ _ W) by assumption.
      apply zmem_false in Hn. rewrite Hn. assumption.
  - unfold free_sectors3. cbn [view3 i_bytes].
    rewrite (free_count_sub b cat k b' cat k' (dl ++ tl)); try assumption; [|apply (w3_free _ _ _ _ _ _ _ _ _ _ _ W)].
    unfold need3. rewrite zlen_app, C2, C1. reflexivity.
  - intros p Hp H2 Hc Hn. cbn [view3 i_bytes]. apply sec_bytes_same; [apply (k3_size _ _ _ D)|apply (k3_size _ _ _ D')|assumption|].
    intros Hlt. apply (w3_frame _ _ _ _ _ _ _ _ _ _ _ W); try assumption.
    + Z.to_euclidean_division_equations; lia.
    + intros C. apply Hc. exists cat, k. split; assumption.
Qed.

Lemma room3_dec b cat k : dos33_disk b cat k -> room3 b cat k \/ ~ room3 b cat k.
Proof.
  intros D. destruct (Z_lt_dec k (7 * (zlen cat - 1))) as [H|H]; [left; right; assumption|].
  destruct (existsb (fun i => getb (slot3 b cat i) 0 =? 255) (zrange 0 k)) eqn:E.
  - left. left. apply existsb_exists in E. destruct E as (i & Hi & E). apply In_zrange in Hi.
    exists i. split; [assumption|]. unfold x_dead. lia.
  - right. intros [(i & Hi & X)|X]; [|lia]. unfold x_dead in X.
    assert (T : existsb (fun i => getb (slot3 b cat i) 0 =? 255) (zrange 0 k) = true).
    { apply existsb_exists. exists i. split; [apply In_zrange; assumption|lia]. } congruence.
Qed.
Lemma has_room3_iff im cat k : dos33_disk (i_bytes im) cat k -> (has_room3 im <-> room3 (i_bytes im) cat k).
Proof.
  intros D. split; [|intros R; exists cat, k; auto]. intros (cat' & k' & D' & R).
  destruct (disk_det _ _ _ _ _ D D') as [-> ->]. assumption.
Qed.

Lemma NoDup_firstn {A} n (l : list A) : NoDup l -> NoDup (firstn n l).
Proof. intros H. rewrite <- (firstn_skipn n l) in H. apply NoDup_app_left in H. assumption. Qed.
Lemma zlen_firstn {A} n (l : list A) : 0 <= n <= zlen l -> zlen (firstn (Z.to_nat n) l) = n.
Proof. unfold zlen. intros H. rewrite firstn_length. lia. Qed.

(** The four outcomes of a write. *)
Lemma write_master3 im n ft d : consistent3 im -> legal_write3 im n ft d ->
  (need3 (zlen d) <= free_sectors3 im /\ has_room3 im /\
   exists im' tl dl, write_file3 im n ft d = (im', Ok tt) /\ write_result3 im im' n ft d tl dl) \/
  (free_sectors3 im < sectors3 (zlen d) /\
   write_file3 im n ft d = (im, Err (EAtr NotEnoughSpaceOnDisk))) \/
  (sectors3 (zlen d) <= free_sectors3 im < need3 (zlen d) /\
   exists im' l, write_file3 im n ft d = (im', Err (EAtr NotEnoughSpaceOnDisk)) /\
     leak_result3 im im' l /\ zlen l = sectors3 (zlen d)) \/
  (need3 (zlen d) <= free_sectors3 im /\ ~ has_room3 im /\
   exists im' l, write_file3 im n ft d = (im', Err (EAtr NoSpaceInDirectory)) /\
     leak_result3 im im' l /\ zlen l = need3 (zlen d)).
Proof.
  intros C (Ha & Ht & Hd & Hdo & Hnl). destruct (consistent3_view im C) as (cat & k & E & D).
  set (b := i_bytes im) in *. rewrite E in Hnl. rewrite In_listing3 in Hnl by assumption.
  unfold free_sectors3. fold b. rewrite free_count3_list.
  pose proof (write_body3_spec b cat k n ft d D Ha Hd Hdo Ht Hnl) as (O1 & O2 & O3 & O4).
  pose proof (marked_b1 b cat k d D) as M1. pose proof (marked_b2 b cat k d D Hd Hdo) as M2.
  pose proof (o12 b cat k d Hd Hdo) as Ho12. cbv zeta in Ho12.
  pose proof (nd_pos b cat k d Hd Hdo) as (Pnd & Pnt & _). cbv zeta in Pnd, Pnt.
  set (nd := sectors3 (zlen d)) in *. set (nt := lists3 nd) in *. set (F := free_list3 b) in *.
  assert (En : need3 (zlen d) = nd + nt) by reflexivity. rewrite En.
  set (o1 := firstn (Z.to_nat nd) F) in *. set (o2 := firstn (Z.to_nat nt) (skipn (Z.to_nat nd) F)) in *.
  assert (Upd : forall b' k' r, dos33_disk b' cat k' ->
     write_body3 (view3 b cat k) n ft d = (with_bytes3 (view3 b cat k) b', r) ->
     write_file3 im n ft d = (view3 b' cat k', r)).
  { intros b' k' r D' Eb. rewrite E. unfold write_file3. apply transact3_view; assumption. }
  destruct (Z_lt_dec (zlen F) nd) as [L1|L1].
  { right; left. split; [assumption|]. rewrite E at 2. apply Upd; [assumption|]. apply O1. assumption. }
  destruct (Z_lt_dec (zlen F) (nd + nt)) as [L2|L2].
  { right; right; left. split; [lia|]. eexists (view3 _ cat k), o1. split; [|split].
    - apply Upd; [|apply O2; lia]. apply (update_ok _ _ _ _ _ _ (m3_upd _ _ _ _ _ M1)).
    - rewrite E. apply leak_view; [exact M1| |].
      + apply NoDup_firstn, NoDup_free_list3.
      + intros s Hs. apply In_firstn in Hs. exact Hs.
    - apply zlen_firstn. lia. }
  destruct (room3_dec b cat k D) as [R|R].
  - left. split; [lia|]. split; [apply (has_room3_iff im cat k D); assumption|].
    destruct (O4 ltac:(lia) R) as (b' & Eb & W). eexists _, o2, o1. split.
    + eapply Upd; [|exact Eb]. apply (update_ok _ _ _ _ _ _ (w3_upd _ _ _ _ _ _ _ _ _ _ _ W)).
    + rewrite E at 1. eapply write_result3_view; [exact W|exact Hnl].
  - right; right; right. split; [lia|].
    split; [intros X; apply R; apply (has_room3_iff im cat k D); assumption|].
    eexists (view3 _ cat k), (o1 ++ o2). split; [|split].
    + apply Upd; [|apply O3; [lia|assumption]]. apply (update_ok _ _ _ _ _ _ (m3_upd _ _ _ _ _ M2)).
    + rewrite E. apply leak_view; [exact M2| |].
      * rewrite Ho12. apply NoDup_firstn, NoDup_free_list3.
      * intros s Hs. rewrite Ho12 in Hs. apply In_firstn in Hs. exact Hs.
    + rewrite Ho12. apply zlen_firstn. lia.
Qed.

(** * Deleting *)
(** Entries of deleted files whose sectors belong to nobody, when another entry is deleted *)
Lemma view_safe b cat k n tl dl : dos33_disk b cat k ->
  (stale_safe3 (view3 b cat k) n tl dl <-> exists i, 0 <= i < k /\ x_dead (slot3 b cat i) /\ x_name (slot3 b cat i) = n /\
     (forall j, 0 <= j < i -> x_name (slot3 b cat j) <> n) /\ stale_at b (slot3 b cat i) tl dl /\
     forall s, In s (tl ++ dl) -> data_sector3 cat s /\
       forall j tl' dl', 0 <= j < k -> x_live (slot3 b cat j) -> file_at b (slot3 b cat j) tl' dl' -> ~ In s (tl' ++ dl')).
Proof.
  intros D. split.
  - intros ((cat0 & k0 & i & D0 & Hi & Xd & Xn & Hlow & HS) & Hs). cbn [view3 i_bytes] in *. destruct (disk_det _ _ _ _ _ D0 D) as [-> ->].
    exists i. do 5 (split; [assumption|]). intros s Hin. destruct (Hs s Hin) as (A1 & A2 & A3 & A4). split.
    + split; [exact A1|]. split; [exact A2|]. intros X. apply A3. exists cat, k. split; assumption.
    + intros j tl' dl' Hj L F. apply (A4 (x_name (slot3 b cat j))). exists cat, k, j. split; [exact D|]. split; [exact Hj|]. auto.
  - intros (i & Hi & Xd & Xn & Hlow & HS & Hs). split.
    + exists cat, k, i. split; [exact D|]. split; [exact Hi|]. split; [exact Xd|]. split; [exact Xn|]. split; assumption.
    + intros s Hin. destruct (Hs s Hin) as ((A1 & A2 & A3) & A4). split; [exact A1|]. split; [exact A2|]. split.
      * intros (cat0 & k0 & D0 & X). cbn [view3 i_bytes] in D0. destruct (disk_det _ _ _ _ _ D0 D) as [-> ->]. contradiction.
      * intros m tl' dl' (cat0 & k0 & j & D0 & Hj & L & _ & F). cbn [view3 i_bytes] in *. destruct (disk_det _ _ _ _ _ D0 D) as [-> ->].
        exact (A4 j tl' dl' Hj L F).
Qed.
Lemma stale_at_det b e tl dl tl' dl' : stale_at b e tl dl -> stale_at b e tl' dl' -> tl = tl' /\ dl = dl'.
Proof.
  intros (L & Hc & r & Hp) (L' & Hc' & r' & Hp').
  pose proof (links_det _ _ _ L _ L') as <-. split; [reflexivity|].
  assert (Hl : length dl = length dl') by (unfold zlen in *; lia).
  rewrite Hp in Hp'. clear -Hl Hp'. revert dl' Hl Hp'.
  induction dl as [|x dl IH]; intros [|y dl'] Hl Hp; try discriminate; [reflexivity|].
  injection Hp as -> Hp. f_equal. apply IH; [injection Hl; auto|assumption].
Qed.
Lemma stale_at_keep b b' e e' tl dl : x_stale e' = x_stale e -> x_count e' = x_count e ->
  (forall n, In n tl -> sec b' n = sec b n) -> stale_at b e tl dl -> stale_at b' e' tl dl.
Proof.
  intros Hs Hc Hsec (L & Hn & rest & Hr). unfold stale_at. rewrite Hs, Hc. split; [|split; [assumption|]].
  - apply (links_ext b); [|assumption]. intros m Hm. rewrite Hsec by assumption. reflexivity.
  - exists rest. rewrite <- Hr. apply flat_map_sec_ext. assumption.
Qed.
Section Effect.
Variables (b cat : list Z) (k : Z) (b' : list Z) (i : Z) (tl dl : list Z).
Hypothesis D : dos33_disk b cat k.
Hypothesis Hi : 0 <= i < k.
Hypothesis W : delete_effect3 b cat k b' i tl dl.
Lemma effect_live j : 0 <= j < k -> x_live (slot3 b' cat j) -> j <> i.
Proof. intros Hj L ->. destruct L as [X _]. apply X. apply (x3_dead _ _ _ _ _ _ _ W). Qed.
Lemma effect_name j : 0 <= j < k -> x_name (slot3 b' cat j) = x_name (slot3 b cat j).
Proof.
  intros Hj. destruct (Z.eq_dec j i) as [->|Hne]; [apply (x3_name _ _ _ _ _ _ _ W)|]. apply (r3_kept _ _ _ _ _ _ (x3_raw _ _ _ _ _ _ _ W)); assumption.
Qed.
Lemma effect_named m : named3 (view3 b' cat k) m <-> named3 (view3 b cat k) m.
Proof.
  pose proof (update_ok _ _ _ _ _ _ (x3_upd _ _ _ _ _ _ _ W)) as D'.
  split; intros (cat0 & k0 & j & D0 & Hj & N); cbn [view3 i_bytes] in *.
  - destruct (disk_det _ _ _ _ _ D0 D') as [-> ->]. exists cat, k, j. split; [exact D|]. split; [exact Hj|]. cbn [view3 i_bytes]. rewrite <- N. symmetry. apply effect_name. exact Hj.
  - destruct (disk_det _ _ _ _ _ D0 D) as [-> ->]. exists cat, k, j. split; [exact D'|]. split; [exact Hj|]. cbn [view3 i_bytes]. rewrite <- N. apply effect_name. exact Hj.
Qed.
Lemma effect_safe m tl' dl' : m <> x_name (slot3 b cat i) -> stale_safe3 (view3 b cat k) m tl' dl' -> stale_safe3 (view3 b' cat k) m tl' dl'.
Proof.
  intros Hm H. pose proof (x3_upd _ _ _ _ _ _ _ W) as U. pose proof (update_ok _ _ _ _ _ _ U) as D'. pose proof (x3_raw _ _ _ _ _ _ _ W) as R.
  apply (view_safe b cat k m tl' dl' D) in H. destruct H as (j & Hj & Xd & Xn & Hlow & HS & Hs).
  assert (Hne : j <> i) by (intros ->; congruence). apply (view_safe b' cat k m tl' dl' D'). exists j. split; [exact Hj|].
  split; [apply (r3_kept _ _ _ _ _ _ R j Hj Hne); exact Xd|]. split; [rewrite effect_name by exact Hj; exact Xn|].
  split; [intros x Hx; rewrite effect_name by lia; apply Hlow; exact Hx|].
  destruct (r3_kept_dead _ _ _ _ _ _ R j Hj Hne Xd) as [E1 E2]. split.
  - apply (stale_at_keep b b' (slot3 b cat j)); try assumption. intros s Hin. destruct (Hs s (in_or_app _ _ _ (or_introl Hin))) as ((A1 & A2 & A3) & _).
    apply (r3_frame _ _ _ _ _ _ R); [lia|assumption|assumption].
  - intros s Hin. destruct (Hs s Hin) as (A & A4). split; [exact A|]. intros x tx dx Hx L F.
    destruct (kept_file_inv _ _ _ _ _ _ U x tx dx Hx (effect_live x Hx L) L F) as (_ & L0 & F0). exact (A4 x tx dx Hx L0 F0).
Qed.
(** The entry itself *)
Lemma effect_self : (x_live (slot3 b cat i) /\ file_at b (slot3 b cat i) tl dl \/ x_dead (slot3 b cat i) /\ stale_at b (slot3 b cat i) tl dl) ->
  (forall j, 0 <= j < i -> x_name (slot3 b cat j) <> x_name (slot3 b cat i)) ->
  (forall s, In s (tl ++ dl) -> data_sector3 cat s) ->
  (forall j tl' dl' s, 0 <= j < k -> j <> i -> x_live (slot3 b cat j) -> file_at b (slot3 b cat j) tl' dl' -> In s (tl' ++ dl') -> ~ In s (tl ++ dl)) ->
  stale_safe3 (view3 b' cat k) (x_name (slot3 b cat i)) tl dl.
Proof.
  intros K Hlow Hdat Hoth. pose proof (x3_upd _ _ _ _ _ _ _ W) as U. pose proof (update_ok _ _ _ _ _ _ U) as D'. pose proof (x3_raw _ _ _ _ _ _ _ W) as R.
  apply (view_safe b' cat k _ tl dl D'). exists i. split; [exact Hi|]. split; [apply (r3_dead _ _ _ _ _ _ R)|]. split; [apply (r3_name _ _ _ _ _ _ R)|].
  split; [intros x Hx; rewrite effect_name by lia; apply Hlow; exact Hx|].
  assert (Hsec : forall n, In n tl -> sec b' n = sec b n).
  { intros s Hin. destruct (Hdat s (in_or_app _ _ _ (or_introl Hin))) as (A1 & A2 & A3). apply (r3_frame _ _ _ _ _ _ R); [lia|assumption|assumption]. }
  destruct (r3_stale _ _ _ _ _ _ R) as (Ec & El & Ed). split.
  - destruct K as [[L F]|[L F]].
    + destruct F as (Lk & Hn & rest & Hr). split; [|split; [congruence|]].
      * rewrite (El L). apply (links_ext b); [|assumption]. intros m Hm. rewrite Hsec by assumption. reflexivity.
      * exists rest. rewrite <- Hr. apply flat_map_sec_ext. assumption.
    + apply (stale_at_keep b b' (slot3 b cat i)); try assumption. apply (Ed L).
  - intros s Hin. split; [exact (Hdat s Hin)|]. intros x tx dx Hx L F Hc. pose proof (effect_live x Hx L) as Hne.
    destruct (kept_file_inv _ _ _ _ _ _ U x tx dx Hx Hne L F) as (_ & L0 & F0). exact (Hoth x tx dx s Hx Hne L0 F0 Hc Hin).
Qed.
End Effect.

Record delete_result3 (im im' : img33) (n tl dl : list Z) : Prop := mkDR3 {
  dr3_consistent : consistent3 im';
  dr3_gone : find_file3 im' n = Err (EAtr FileNotFound);
  dr3_others : forall m, m <> n -> find_file3 im' m = find_file3 im m /\ type_of3 im' m = type_of3 im m;
  dr3_listing : exists l1 l2, listing3 im = l1 ++ n :: l2 /\ listing3 im' = l1 ++ l2;
  dr3_unlocked : forall m, In m (listing3 im') -> locked_of3 im' m = Some false;
  dr3_hdr : i_hdr im' = i_hdr im;
  dr3_len : zlen (i_bytes im') = zlen (i_bytes im);
  dr3_sectors : sectors_of3 im n tl dl;
  dr3_nodup : NoDup (tl ++ dl);
  dr3_free : forall s, is_free3 im' s <-> is_free3 im s \/ In s (tl ++ dl);
  dr3_free_count : free_sectors3 im' = free_sectors3 im + zlen (tl ++ dl);
  dr3_bytes : forall p, 0 <= p -> p / 256 <> 272 -> ~ catalog_sector im (p / 256) ->
    getb (i_bytes im') p = getb (i_bytes im) p;
  dr3_named : forall m, named3 im' m <-> named3 im m;
  dr3_again : stale_safe3 im' n tl dl;
  dr3_stale : forall m tl' dl', m <> n -> stale_safe3 im m tl' dl' -> stale_safe3 im' m tl' dl'
}.

Lemma delete_master3 im n : consistent3 im -> In n (listing3 im) ->
  exists im' tl dl, delete_file3 im n = (im', Ok tt) /\ delete_result3 im im' n tl dl.
Proof.
  intros C Hin. destruct (consistent3_view im C) as (cat & k & E & D).
  set (b := i_bytes im) in *.
  assert (L : listed3 b cat k n) by (rewrite E in Hin; apply In_listing3 in Hin; assumption).
  destruct (listed_file3 b cat k n D L) as (i & tl & dl & F). pose proof F as (Hi & Li & Ni & Fi).
  destruct (delete_body3_spec b cat k n i tl dl D F) as (b' & Eb & W).
  pose proof (x3_upd _ _ _ _ _ _ _ W) as U. pose proof (update_ok _ _ _ _ _ _ U) as D'.
  assert (Hall : forall s, In s (tl ++ dl) -> data_sector3 cat s /\ free_bit3 b s = 0).
  { intros s Hs. apply (live_sector b cat k i tl dl s D Hi Li Fi Hs). }
  assert (Hnd : NoDup (tl ++ dl)).
  { destruct (k3_files _ _ _ D i Hi Li) as (_ & _ & tl' & dl' & F' & _ & Nd & _).
    destruct (file_at_det _ _ _ _ _ _ Fi F') as [<- <-]. assumption. }
  assert (Hdead : ~ x_live (slot3 b' cat i)).
  { intros [X _]. apply X. apply (x3_dead _ _ _ _ _ _ _ W). }
  exists (view3 b' cat k), tl, dl. split.
  { rewrite E. unfold delete_file3. apply transact3_view; assumption. }
  rewrite E. constructor.
  - apply view3_consistent. assumption.
  - destruct (find_view3 b' cat k n D') as [(j & tl' & dl' & (Hj & Lj & Nj & _) & _)|(_ & R & _)]; [exfalso|exact R].
    destruct (Z.eq_dec j i) as [->|Hne]; [contradiction|].
    destruct (u_kept _ _ _ _ _ _ U j Hj Hne) as [_ (Hn & _)].
    apply (kept_live _ _ _ _ _ _ U j Hj Hne) in Lj.
    apply Hne. apply (live_names b cat k D j i); try assumption. congruence.
  - intros m Hm. apply (upd_same _ _ _ _ _ _ U).
    + intros _ _. congruence.
    + intros _ X. contradiction.
  - exists (map (fun i => x_name (slot3 b cat i)) (filter (fun i => live_b (slot3 b cat i)) (zrange 0 i))),
           (map (fun i => x_name (slot3 b cat i)) (filter (fun i => live_b (slot3 b cat i)) (zrange (i + 1) k))).
    rewrite !listing3_view by assumption. unfold live_slots3.
    rewrite (zrange_app 0 i k) by lia. rewrite (zrange_cons i k) by lia.
    rewrite !filter_app, !map_app. cbn [filter].
    replace (live_b (slot3 b cat i)) with true by (symmetry; apply (live_b_spec b cat k i D Hi); assumption).
    replace (live_b (slot3 b' cat i)) with false by (unfold live_b; rewrite (x3_dead _ _ _ _ _ _ _ W); reflexivity).
    cbn [map]. rewrite Ni. split; [reflexivity|]. rewrite !(upd_part _ _ _ _ _ _ U) by lia. reflexivity.
  - apply all_unlocked; [assumption|]. intros j Hj Lj.
    assert (Hne : j <> i) by (intros ->; contradiction).
    apply (r3_unlocked _ _ _ _ _ _ (x3_raw _ _ _ _ _ _ _ W)); try assumption.
    apply (kept_live _ _ _ _ _ _ U j Hj Hne). assumption.
  - cbn [view3 i_hdr]. unfold fdir3. rewrite (lnk_vtoc_same _ _ _ _ _ _ U). reflexivity.
  - cbn [view3 i_bytes]. rewrite (k3_size _ _ _ D), (k3_size _ _ _ D'). reflexivity.
  - exists cat, k, i. split; assumption.
  - assumption.
  - intros s. rewrite (is_free_in (view3 b' cat k) cat k s D'), (is_free_in (view3 b cat k) cat k s D).
    cbn [view3 i_bytes]. rewrite !In_free_list3. split.
    + intros [R Fs]. rewrite (x3_free _ _ _ _ _ _ _ W) in Fs by assumption.
      destruct (zmem s (tl ++ dl)) eqn:Ez; [right; apply zmem_In; assumption|auto].
    + intros [[R Fs]|Hs].
      * split; [assumption|]. rewrite (x3_free _ _ _ _ _ _ _ W) by assumption. rewrite Fs. destruct (zmem s _); reflexivity.
      * destruct (Hall s Hs) as [(R & _) _]. split; [lia|]. rewrite (x3_free _ _ _ _ _ _ _ W) by lia.
        apply zmem_In in Hs. rewrite Hs. reflexivity.
  - unfold free_sectors3. cbn [view3 i_bytes].
    rewrite (free_count_sub b' cat k b cat k (tl ++ dl)); try assumption; [lia| |].
    + intros s Hs. destruct (Hall s Hs) as [(R & _) _]. apply In_free_list3. split; [lia|].
      rewrite (x3_free _ _ _ _ _ _ _ W) by lia. apply zmem_In in Hs. rewrite Hs. reflexivity.
    + intros s Hs. rewrite (x3_free _ _ _ _ _ _ _ W) by lia. destruct (zmem s (tl ++ dl)) eqn:Ez; [|reflexivity].
      apply Hall. apply zmem_In. assumption.
  - intros p Hp H2 Hc. cbn [view3 i_bytes]. apply sec_bytes_same; [apply (k3_size _ _ _ D)|apply (k3_size _ _ _ D')|assumption|].
    intros Hlt. apply (x3_frame _ _ _ _ _ _ _ W); try assumption.
    + Z.to_euclidean_division_equations; lia.
    + intros X. apply Hc. exists cat, k. split; assumption.
  - apply (effect_named b cat k b' i tl dl D W).
  - rewrite <- Ni. apply (effect_self b cat k b' i tl dl Hi W); [left; auto| | |].
    + intros j Hj. apply (k3_names _ _ _ D); [lia|lia|assumption].
    + intros s Hs. apply Hall. exact Hs.
    + intros j tl' dl' s Hj Hne L' F' Hs Hs'. apply Hne. exact (k3_own _ _ _ D j i tl' dl' tl dl s Hj L' F' Hs Hi Li Fi Hs').
  - intros m tl' dl' Hm. apply (effect_safe b cat k b' i tl dl D Hi W). congruence.
Qed.

(** A name that no catalog entry carries. *)
Lemma delete_unknown3 im n : consistent3 im -> ~ named3 im n ->
  delete_file3 im n = (im, Err (EAtr FileNotFound)).
Proof.
  intros C Hn. destruct (consistent3_view im C) as (cat & k & E & D).
  set (b := i_bytes im) in *. rewrite E. unfold delete_file3.
  apply transact3_view; [assumption|]. apply delete_body3_none; [assumption|].
  intros j Hj Ej. apply Hn. exists cat, k, j. auto.
Qed.
Lemma listed_named3 im n : consistent3 im -> In n (listing3 im) -> named3 im n.
Proof.
  intros C Hin. destruct (consistent3_view im C) as (cat & k & E & D). rewrite E in Hin.
  apply In_listing3 in Hin; [|assumption]. destruct Hin as (i & Hi & _ & Hn). exists cat, k, i. auto.
Qed.

(** * Shredding *)
Record shred_result3 (im im' : img33) (fill : Z) : Prop := mkSR3 {
  sr3_consistent : consistent3 im';
  sr3_dir : i_files im' = i_files im;
  sr3_listing : listing3 im' = listing3 im;
  sr3_files : forall m, find_file3 im' m = find_file3 im m /\ type_of3 im' m = type_of3 im m;
  sr3_len : zlen (i_bytes im') = zlen (i_bytes im);
  sr3_wiped : forall s p, is_free3 im s -> 256 * s <= p < 256 * s + 256 -> getb (i_bytes im') p = u8 fill;
  sr3_kept : forall p, 0 <= p -> ~ is_free3 im (p / 256) -> getb (i_bytes im') p = getb (i_bytes im) p
}.
Lemma shred_master3 im fill : consistent3 im ->
  exists im', shred3 im fill = (im', Ok tt) /\ shred_result3 im im' fill.
Proof.
  intros C. destruct (consistent3_view im C) as (cat & k & E & D). set (b := i_bytes im) in *.
  destruct (shred_body3_spec b cat k fill D) as (b' & Eb & W).
  pose proof (s3_upd _ _ _ _ _ W) as U. pose proof (update_ok _ _ _ _ _ _ U) as D'.
  exists (view3 b' cat k). split; [rewrite E; apply transact3_view; assumption|]. rewrite E. constructor.
  - apply view3_consistent. assumption.
  - cbn [view3 i_files]. apply files3_ext; [|apply (lnk_vtoc_same _ _ _ _ _ _ U)].
    intros x Hx. pose proof (cat_range b cat k D) as R. rewrite Forall_forall in R. specialize (R x Hx). cbv beta in R.
    rewrite (s3_sec _ _ _ _ _ W) by assumption. destruct (Z.eqb_spec (free_bit3 b x) 1) as [X|X]; [|reflexivity].
    exfalso. apply (k3_free _ _ _ D x ltac:(lia)) in X. destruct X as (_ & _ & X). contradiction.
  - apply (upd_listing_same _ _ _ _ _ _ U); reflexivity.
  - intros m. apply (upd_same _ _ _ _ _ _ U); lia.
  - cbn [view3 i_bytes]. rewrite (k3_size _ _ _ D), (k3_size _ _ _ D'). reflexivity.
  - intros s p [R F] Hp. cbn [view3 i_bytes] in *. rewrite (in_sec_getb b' s) by lia.
    rewrite (s3_sec _ _ _ _ _ W) by assumption. rewrite F. cbn [Z.eqb Pos.eqb]. apply getb_zrepeat. lia.
  - intros p Hp Hn. cbn [view3 i_bytes]. apply sec_bytes_same; [apply (k3_size _ _ _ D)|apply (k3_size _ _ _ D')|assumption|].
    intros Hlt. assert (R : 0 <= p / 256 < 560) by (Z.to_euclidean_division_equations; lia).
    rewrite (s3_sec _ _ _ _ _ W) by assumption. destruct (Z.eqb_spec (free_bit3 b (p / 256)) 1) as [X|X]; [|reflexivity].
    exfalso. apply Hn. split; assumption.
Qed.

(** * Deleting a name that only a deleted entry has *)
Lemma sectors_of3_view b cat k i tl dl : dos33_disk b cat k -> 0 <= i < k -> x_live (slot3 b cat i) ->
  file_at b (slot3 b cat i) tl dl -> sectors_of3 (view3 b cat k) (x_name (slot3 b cat i)) tl dl.
Proof. intros D Hi L F. exists cat, k, i. split; [exact D|]. split; [assumption|]. auto. Qed.

Record stale_result3 (im im' : img33) (l : list Z) : Prop := mkST3 {
  st3_consistent : consistent3 im';
  st3_files : forall m, find_file3 im' m = find_file3 im m /\ type_of3 im' m = type_of3 im m;
  st3_listing : listing3 im' = listing3 im;
  st3_free : forall s, is_free3 im' s <-> is_free3 im s \/ In s l;
  st3_bytes : forall p, 0 <= p -> p / 256 <> 272 -> ~ catalog_sector im (p / 256) ->
    getb (i_bytes im') p = getb (i_bytes im) p;
  st3_named : forall m, named3 im' m <-> named3 im m;
  st3_stale : forall m tl dl, stale_safe3 im m tl dl -> stale_safe3 im' m tl dl
}.
Lemma stale_master3 im n tl dl : consistent3 im -> ~ In n (listing3 im) -> stale_safe3 im n tl dl ->
  exists im', delete_file3 im n = (im', Ok tt) /\ stale_result3 im im' (tl ++ dl).
Proof.
  intros C Hnl ((cat & k & i & D & Hi & Xd & Xn & Hlow & HS) & Hsafe).
  destruct (consistent3_view im C) as (cat0 & k0 & E & D0).
  destruct (disk_det _ _ _ _ _ D0 D) as [-> ->]. clear D0. set (b := i_bytes im) in *.
  assert (Hdat : forall s, In s (tl ++ dl) -> data_sector3 cat s).
  { intros s Hs. destruct (Hsafe s Hs) as (A1 & A2 & A3 & _). split; [assumption|]. split; [assumption|].
    intros X. apply A3. exists cat, k. split; assumption. }
  destruct (delete_stale3_raw b cat k n i tl dl D Hi Xd Xn Hlow HS) as (b' & Eb & R).
  { intros s Hs. assert (Hs' : In s (tl ++ dl)) by (apply in_or_app; right; assumption).
    destruct (Hdat s Hs') as [? _]. lia. }
  assert (W : delete_effect3 b cat k b' i tl dl).
  { apply (raw_effect3 b cat k n i tl dl D Hi Xn Hdat); [| |exact R].
    - intros j tl' dl' s Hj Hne L F Hs C'. destruct (Hsafe s C') as (_ & _ & _ & A4).
      apply (A4 (x_name (slot3 b cat j)) tl' dl'); [|assumption]. exists cat, k, j.
      split; [assumption|]. split; [assumption|]. auto.
    - intros j Hj Hne L Ej. apply Hnl. rewrite E. apply In_listing3; [assumption|]. exists j. auto. }
  pose proof (x3_upd _ _ _ _ _ _ _ W) as U. pose proof (update_ok _ _ _ _ _ _ U) as D'.
  assert (Hdead : ~ x_live (slot3 b' cat i)).
  { intros [X _]. apply X. apply (x3_dead _ _ _ _ _ _ _ W). }
  assert (Hdead0 : ~ x_live (slot3 b cat i)) by (intros [X _]; contradiction).
  exists (view3 b' cat k). split.
  { rewrite E. unfold delete_file3. apply transact3_view; assumption. }
  rewrite E. constructor.
  - apply view3_consistent. assumption.
  - intros m. apply (upd_same _ _ _ _ _ _ U); intros; contradiction.
  - rewrite !listing3_view by assumption. unfold live_slots3.
    rewrite (zrange_app 0 i k) by lia. rewrite (zrange_cons i k) by lia.
    rewrite !filter_app, !map_app. cbn [filter].
    replace (live_b (slot3 b cat i)) with false by (unfold live_b; rewrite Xd; reflexivity).
    replace (live_b (slot3 b' cat i)) with false by (unfold live_b; rewrite (x3_dead _ _ _ _ _ _ _ W); reflexivity).
    rewrite !(upd_part _ _ _ _ _ _ U) by lia. reflexivity.
  - intros s. rewrite (is_free_in (view3 b' cat k) cat k s D'), (is_free_in (view3 b cat k) cat k s D).
    cbn [view3 i_bytes]. rewrite !In_free_list3. split.
    + intros [Rs Fs]. rewrite (x3_free _ _ _ _ _ _ _ W) in Fs by assumption.
      destruct (zmem s (tl ++ dl)) eqn:Ez; [right; apply zmem_In; assumption|auto].
    + intros [[Rs Fs]|Hs].
      * split; [assumption|]. rewrite (x3_free _ _ _ _ _ _ _ W) by assumption. rewrite Fs. destruct (zmem s _); reflexivity.
      * destruct (Hdat s Hs) as (Rs & _). split; [lia|]. rewrite (x3_free _ _ _ _ _ _ _ W) by lia.
        apply zmem_In in Hs. rewrite Hs. reflexivity.
  - intros p Hp H2 Hc. cbn [view3 i_bytes]. apply sec_bytes_same; [apply (k3_size _ _ _ D)|apply (k3_size _ _ _ D')|assumption|].
    intros Hlt. apply (x3_frame _ _ _ _ _ _ _ W); try assumption.
    + Z.to_euclidean_division_equations; lia.
    + intros X. apply Hc. exists cat, k. split; assumption.
  - apply (effect_named b cat k b' i tl dl D W).
  - intros m tl' dl' Hm. destruct (list_eq_dec Z.eq_dec m n) as [->|Hne]; [|apply (effect_safe b cat k b' i tl dl D Hi W); [congruence|exact Hm]].
    pose proof Hm as Hm'. apply (view_safe b cat k n tl' dl' D) in Hm'. destruct Hm' as (j & Hj & Xd' & Xn' & Hlow' & HS' & Hs').
    assert (j = i). { destruct (Z.lt_trichotomy j i) as [Hl|[Hl|Hl]]; [|exact Hl|]; exfalso; [apply (Hlow j); [lia|exact Xn']|apply (Hlow' i); [lia|exact Xn]]. } subst j.
    assert (Q : tl' = tl /\ dl' = dl).
    { apply (stale_at_det b (slot3 b cat i)); assumption. }
    destruct Q as [-> ->]. rewrite <- Xn. apply (effect_self b cat k b' i tl dl Hi W); [right; auto| | |].
    + rewrite Xn. exact Hlow.
    + exact Hdat.
    + intros x tx dx s Hx Hne L' F' Hs Hc. destruct (Hs' s Hc) as (_ & A4). exact (A4 x tx dx Hx L' F' Hs).
Qed.

(** Whatever the sectors belong to, they end up free. *)
Lemma get_metadata3_bytes im : i_bytes (fst (get_metadata3 im)) = i_bytes im.
Proof.
  unfold get_metadata3. destruct (boot_info im); [|reflexivity].
  assert (V : i_bytes (fst (get_vtoc3 im)) = i_bytes im).
  { unfold get_vtoc3. repeat (match goal with |- context [match ?x with _ => _ end] => destruct x end; try reflexivity). }
  destruct (get_vtoc3 im) as [im1 [u|e]]; cbn [fst] in V; [|exact V].
  assert (G : i_bytes (fst (get_directory3 im1)) = i_bytes im1).
  { unfold get_directory3, get_directory_fuel.
    repeat (match goal with |- context [match ?x with _ => _ end] => destruct x end; try reflexivity). }
  destruct (get_directory3 im1) as [im2 [u'|e]]; cbn [fst] in G; [|cbn [fst]; congruence].
  destruct (i_sane im2); cbn [fst]; congruence.
Qed.
Lemma transact3_bytes im body b' r : body im = (with_bytes3 im b', r) ->
  i_bytes (fst (transact3 im body)) = b'.
Proof.
  intros E. unfold transact3. rewrite E.
  set (im2 := match r with Ok _ => _ | Err e => _ end).
  assert (B : i_bytes im2 = b').
  { unfold im2. destruct r as [u|e]; [reflexivity|]. destruct (is_atr e); reflexivity. }
  pose proof (get_metadata3_bytes im2) as G. destruct (get_metadata3 im2) as [im3 [u|e]]; cbn [fst] in *; congruence.
Qed.
Lemma stale_frees3 im n tl dl s : consistent3 im -> stale_entry3 im n tl dl ->
  (forall s, In s dl -> 0 <= s < 1280) -> In s (tl ++ dl) -> 0 <= s < 560 ->
  is_free3 (fst (delete_file3 im n)) s.
Proof.
  intros C (cat & k & i & D & Hi & Xd & Xn & Hlow & HS) Hr Hs Hs'.
  destruct (consistent3_view im C) as (cat0 & k0 & E & D0).
  destruct (disk_det _ _ _ _ _ D0 D) as [-> ->]. clear D0. set (b := i_bytes im) in *.
  destruct (delete_stale3_raw b cat k n i tl dl D Hi Xd Xn Hlow HS Hr) as (b' & Eb & R).
  split; [assumption|]. unfold delete_file3. rewrite E. rewrite (transact3_bytes _ _ b' (Ok tt)) by exact Eb.
  rewrite (r3_free _ _ _ _ _ _ R) by lia. apply zmem_In in Hs. rewrite Hs. reflexivity.
Qed.

(** * Writing a file of type T *)
Record hidden_result3 (im im' : img33) (l : list Z) : Prop := mkHR3 {
  hd3_consistent : consistent3 im';
  hd3_files : forall m, find_file3 im' m = find_file3 im m /\ type_of3 im' m = type_of3 im m;
  hd3_listing : listing3 im' = listing3 im;
  hd3_free : forall s, is_free3 im' s <-> is_free3 im s /\ ~ In s l;
  hd3_free_count : free_sectors3 im' = free_sectors3 im - zlen l
}.
Lemma hidden_master3 im n ft d : consistent3 im -> ascii n -> type_code ft = 0 -> d <> [] -> bytes_ok d ->
  need3 (zlen d) <= free_sectors3 im -> has_room3 im -> no_deleted3 im ->
  exists im' l, write_file3 im n ft d = (im', Ok tt) /\ hidden_result3 im im' l /\ zlen l = need3 (zlen d).
Proof.
  intros C Ha Ht Hd Hdo Hfree HR (cat & k & D & Hno).
  destruct (consistent3_view im C) as (cat0 & k0 & E & D0).
  destruct (disk_det _ _ _ _ _ D0 D) as [-> ->]. clear D0. set (b := i_bytes im) in *.
  apply (has_room3_iff im cat k D) in HR. fold b in HR.
  unfold free_sectors3 in *. fold b in Hfree |- *. rewrite free_count3_list in Hfree.
  pose proof (write_body3_raw b cat k n ft d D Ha Hd Hdo) as (_ & _ & _ & O4). cbv zeta in O4.
  destruct (O4 Hfree HR) as (b' & Eb & R).
  set (i := free_index (map (fun d => negb (d3_del d)) (entries3 (fdir3 b) b cat k)) 0) in *.
  set (nd := sectors3 (zlen d)) in *.
  set (dl := firstn (Z.to_nat nd) (free_list3 b)) in *.
  set (tl := firstn (Z.to_nat (lists3 nd)) (skipn (Z.to_nat nd) (free_list3 b))) in *.
  destruct (q3_slot _ _ _ _ _ _ _ _ _ _ R) as (Hi & Hdead & Hlow).
  assert (Ei : i = k). { destruct (Z.eq_dec i k) as [|Hne]; [assumption|]. exfalso. apply (Hno i); [lia|]. apply Hdead. lia. }
  pose proof (q3_k _ _ _ _ _ _ _ _ _ _ R) as Hk'. pose proof (q3_free _ _ _ _ _ _ _ _ _ _ R) as FB.
  pose proof (q3_secs _ _ _ _ _ _ _ _ _ _ R) as Hsecs. pose proof (q3_nodup _ _ _ _ _ _ _ _ _ _ R) as Hnd.
  assert (U : update3 b cat k b' k (-1)).
  { constructor.
    - assumption.
    - apply (q3_len _ _ _ _ _ _ _ _ _ _ R).
    - apply (q3_bytes _ _ _ _ _ _ _ _ _ _ R).
    - apply (q3_boot _ _ _ _ _ _ _ _ _ _ R).
    - apply (q3_head _ _ _ _ _ _ _ _ _ _ R).
    - apply (q3_links _ _ _ _ _ _ _ _ _ _ R).
    - intros s Hs F. rewrite FB in F by assumption. destruct (zmem s (dl ++ tl)); [discriminate|].
      apply (k3_free _ _ _ D); assumption.
    - lia.
    - intros j Hj _. split; [lia|]. apply (q3_kept _ _ _ _ _ _ _ _ _ _ R); lia.
    - intros j Hj. destruct (Z.eq_dec j k) as [->|Hne].
      + pose proof (q3_flag _ _ _ _ _ _ _ _ _ _ R) as G. pose proof (q3_track _ _ _ _ _ _ _ _ _ _ R) as T.
        rewrite Ei in G, T. rewrite Ht in G. intros [X|[_ X]]; [unfold x_dead in X; lia|contradiction].
      + apply (q3_unused _ _ _ _ _ _ _ _ _ _ R). lia.
    - intros j tl' dl' s Hj _ L F Hs. destruct (live_sector b cat k j tl' dl' s D Hj L F Hs) as [(Rg & N & Cc) Z0].
      assert (Hn : ~ In s (dl ++ tl)) by (intros X; apply Hsecs in X; lia).
      split; [apply (q3_frame _ _ _ _ _ _ _ _ _ _ R); [lia|assumption..]|].
      rewrite FB by lia. destruct (zmem s (dl ++ tl)); [reflexivity|assumption].
    - lia. }
  pose proof (update_ok _ _ _ _ _ _ U) as D'.
  exists (view3 b' cat k), (dl ++ tl). split; [|split].
  - rewrite E. unfold write_file3. apply transact3_view; assumption.
  - rewrite E. constructor.
    + apply view3_consistent. assumption.
    + intros m. apply (upd_same _ _ _ _ _ _ U); lia.
    + apply (upd_listing_same _ _ _ _ _ _ U); reflexivity.
    + intros s. rewrite (is_free_in (view3 b' cat k) cat k s D'), (is_free_in (view3 b cat k) cat k s D).
      cbn [view3 i_bytes]. rewrite !In_free_list3. split.
      * intros [Rs Fs]. rewrite FB in Fs by assumption.
        destruct (zmem s (dl ++ tl)) eqn:Ez; [discriminate|]. apply zmem_false in Ez. auto.
      * intros [[Rs Fs] Hn]. split; [assumption|]. rewrite FB by assumption.
        apply zmem_false in Hn. rewrite Hn. assumption.
    + unfold free_sectors3. cbn [view3 i_bytes].
      apply (free_count_sub b cat k b' cat k (dl ++ tl)); try assumption.
      intros s Hs. apply In_free_list3. destruct (Hsecs s Hs) as [(Rg & _) F]. split; [lia|assumption].
  - destruct (q3_count _ _ _ _ _ _ _ _ _ _ R) as [C1 C2]. rewrite zlen_app, C2, C1. reflexivity.
Qed.
