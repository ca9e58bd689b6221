(** Opening a consistent DOS 3.3 disk and reading its files. *)
From Verif Require Import Base BaseLemmas DiskModel DirLemmas AtariVtoc Dos33Model Dos33Spec Dos33Geom Dos33Vtoc Dos33Dir.

Lemma get_raw3_560 h b n : h_max3 h = 560 -> 0 <= n < 560 -> get_raw3 h b n = Ok (sec b n, n * 256).
Proof.
  intros Hh Hn. unfold get_raw3, get_pos3, valid3. rewrite Hh.
  replace (negb _) with false by lia. cbn [rbind]. unfold sec. do 3 f_equal; lia.
Qed.

Definition fdir3 (b : list Z) : Z := lnk (vtoc b).
Definition files3 (b cat : list Z) (k : Z) : list ent :=
  filter (fun d => d3_sane d && negb (d3_del d)) (entries3 (fdir3 b) b cat k).
(** The image object of a consistent disk. *)
Definition view3 (b cat : list Z) (k : Z) : img33 := mkI b (H3 (fdir3 b)) (files3 b cat k) true.

Section D.
  Variables (b cat : list Z) (k : Z).
  Hypothesis D : dos33_disk b cat k.
  Let Hb := k3_size _ _ _ D.
  Let Ho := k3_bytes _ _ _ D.
  Let f := fdir3 b.

  Lemma cat_pos : Forall (fun m => 0 < m < 560) cat.
  Proof. apply (links_in b (lnk (vtoc b))), (k3_cat _ _ _ D). Qed.
  Lemma cat_range : Forall (fun m => 0 <= m < 560) cat.
  Proof. pose proof cat_pos as H. revert H. apply Forall_impl. intros; lia. Qed.
  Lemma cat_nonempty : cat <> [].
  Proof. intros E. pose proof (k3_k _ _ _ D) as H. rewrite E in H. unfold zlen in H. cbn in H. lia. Qed.
  Lemma k_le : 0 <= k <= 7 * zlen cat.
  Proof. pose proof (k3_k _ _ _ D). lia. Qed.
  Lemma slot_len i : 0 <= i < k -> zlen (slot3 b cat i) = 35.
  Proof. intros. pose proof k_le. apply zlen_slot3; [assumption|apply cat_range|lia]. Qed.
  Lemma slot_bytes i : bytes_ok (slot3 b cat i).
  Proof. apply bytes_ok_slot3. assumption. Qed.

  Lemma read_catalog :
    cat_loop (fuel33 (H3 f)) (H3 f) b f = (entries3 f b cat k, None).
  Proof.
    rewrite (cat_loop_spec f b f cat Hb (k3_cat _ _ _ D))
      by (pose proof (links_len _ _ _ (k3_cat _ _ _ D)); rewrite fuel33_H3; lia).
    rewrite (flat_map_sector_ents f b cat Hb Ho cat_range k k_le);
      [reflexivity| |exact (k3_unused _ _ _ D)].
    intros i Hi. apply (k3_used _ _ _ D i Hi).
  Qed.

  Lemma file_count_le i : 0 <= i < k -> x_live (slot3 b cat i) ->
    0 <= x_start (slot3 b cat i) < 560 /\ 0 <= x_count (slot3 b cat i) <= 560.
  Proof.
    intros Hi Hl. destruct (k3_files _ _ _ D i Hi Hl) as (Ht & Hty & tl & dl & (L & Hc & _) & Hne & Hnd & Hds).
    pose proof (bytes_ok_getb _ 0 (slot_bytes i)) as B0. pose proof (bytes_ok_getb _ 1 (slot_bytes i)) as B1.
    unfold is_byte in *. split.
    - pose proof (links_start _ _ _ L) as Hst. destruct tl as [|m tl]; [unfold x_start in *; lia|].
      apply links_in in L. inversion L; subst. lia.
    - assert (zlen (tl ++ dl) <= 560).
      { apply NoDup_bound; [assumption| |lia]. apply Forall_forall. intros n Hn.
        destruct (Hds n Hn) as [[? _] _]. lia. }
      rewrite zlen_app in *. pose proof (zlen_nonneg tl). pose proof (zlen_nonneg dl). lia.
  Qed.

  Lemma sane_entry f' i : 0 <= i < k -> d3_sane (parse_ent (H3 f') (slot3 b cat i)) = true.
  Proof.
    intros Hi. unfold parse_ent. cbn [d3_sane]. unfold sanity3.
    destruct (Z.eqb_spec (getb (slot3 b cat i) 0) 255) as [E|E]; [reflexivity|].
    destruct (k3_used _ _ _ D i Hi) as [[Hu|Hu] _]; [contradiction|].
    destruct (k3_files _ _ _ D i Hi Hu) as (Ht & _).
    destruct (file_count_le i Hi Hu) as [Hs Hc].
    replace (getb (slot3 b cat i) 0 =? 0) with false by lia.
    unfold from_ts. replace (getb (slot3 b cat i) 0 * 16 + getb (slot3 b cat i) 1) with (x_start (slot3 b cat i))
      by (unfold x_start; lia).
    rewrite valid3_in by lia. cbn [negb]. fold (x_count (slot3 b cat i)).
    cbn [H3 h_max3]. lia.
  Qed.
  Lemma sane_all f' : forallb d3_sane (entries3 f' b cat k) = true.
  Proof.
    apply forallb_forall. intros d Hd. unfold entries3 in Hd. apply in_map_iff in Hd.
    destruct Hd as (i & <- & Hi). apply In_zrange in Hi. apply sane_entry. assumption.
  Qed.

  Lemma get_directory3_view fs : 
    get_directory3 (mkI b (H3 f) fs true) = (view3 b cat k, Ok (entries3 f b cat k)).
  Proof.
    unfold get_directory3, get_directory_fuel. cbn [i_hdr i_bytes i_sane i_files].
    change (h_fdir (H3 f)) with f. rewrite read_catalog. rewrite sane_all. reflexivity.
  Qed.

  Lemma get_metadata3_view h fs : h_max3 h = 560 ->
    get_metadata3 (mkI b h fs true) = (view3 b cat k, Ok tt).
  Proof.
    intros Hh. unfold get_metadata3, boot_info, get_vtoc3. cbn [i_hdr i_bytes i_files i_sane].
    rewrite !get_raw3_560 by (assumption || lia). cbn [rbind].
    replace (slice (sec b 0) 0 4) with (slice b 0 4) by (unfold sec; rewrite slice_slice by lia; reflexivity).
    destruct (zlist_eqb (slice b 0 4) [1; 56; 176; 3]) eqn:Eb.
    { apply zlist_eqb_eq in Eb. destruct (k3_boot _ _ _ D Eb). }
    change (sec b 272) with (vtoc b).
    match goal with |- (match ?x with Ok _ => _ | Err _ => _ end) = _ => assert (Ex : x = Ok tt) end.
    { destruct (Z.eqb_spec (getb (vtoc b) 3) 3) as [E3|]; [|reflexivity].
      destruct (k3_release _ _ _ D E3). replace (_ && _) with true by lia. reflexivity. }
    rewrite Ex. change 0x34 with 52. change 0x35 with 53. change 0x27 with 39.
    rewrite (k3_geom _ _ _ D), (k3_pairs _ _ _ D).
    replace (from_ts (getb (vtoc b) 1) (getb (vtoc b) 2)) with f by (unfold f, fdir3, lnk, from_ts; lia).
    fold (H3 f). change (h_fdir (H3 f)) with f.
    rewrite assert_valid3_in.
    2: { pose proof (k3_cat _ _ _ D) as L. change (lnk (vtoc b)) with f in L.
         pose proof (links_start _ _ _ L) as Hs. pose proof (links_in _ _ _ L) as Hin.
         destruct cat as [|c ?]; [lia|]. inversion Hin; subst. lia. }
    rewrite get_directory3_view. reflexivity.
  Qed.

  Lemma open33_view : open33 b = Ok (view3 b cat k).
  Proof.
    unfold open33. rewrite Hb. cbn [Z.eqb Pos.eqb negb].
    rewrite get_metadata3_view by reflexivity. reflexivity.
  Qed.

  (** * Listed files *)
  Lemma in_files3 d : In d (files3 b cat k) <->
    exists i, 0 <= i < k /\ x_live (slot3 b cat i) /\ d = parse_ent (H3 f) (slot3 b cat i).
  Proof.
    unfold files3. rewrite filter_In. unfold entries3. rewrite in_map_iff. split.
    - intros ((i & <- & Hi) & Hf). apply In_zrange in Hi. exists i. split; [assumption|].
      split; [|reflexivity]. destruct (k3_used _ _ _ D i Hi) as [[Hu|Hu] _]; [|assumption].
      apply d3_del_parse with (h := H3 (fdir3 b)) in Hu. rewrite Hu in Hf. rewrite andb_false_r in Hf. discriminate.
    - intros (i & Hi & Hl & ->). split; [exists i; split; [reflexivity|apply In_zrange; assumption]|].
      fold f. rewrite sane_entry by assumption. cbn [andb].
      destruct (d3_del _) eqn:E; [|reflexivity]. apply d3_del_parse in E. destruct Hl. contradiction.
  Qed.

  Lemma live_names i j : 0 <= i < k -> 0 <= j < k -> x_live (slot3 b cat i) -> x_live (slot3 b cat j) ->
    x_name (slot3 b cat i) = x_name (slot3 b cat j) -> i = j.
  Proof.
    intros Hi Hj Li Lj E. destruct (Z.lt_trichotomy i j) as [H|[H|H]]; [|assumption|].
    - destruct (k3_names _ _ _ D i j ltac:(lia) ltac:(lia) Lj E).
    - destruct (k3_names _ _ _ D j i ltac:(lia) ltac:(lia) Li (eq_sym E)).
  Qed.
End D.

Lemma find_name3_some name l d : In d l -> d3_name d = name ->
  (forall d', In d' l -> d3_name d' = name -> d' = d) -> find_name3 name l = Some d.
Proof.
  induction l as [|x l IH]; intros Hin Hn Hu; [destruct Hin|]. cbn [find_name3].
  destruct (zlist_eqb name (d3_name x)) eqn:E.
  - apply zlist_eqb_eq in E. f_equal. apply Hu; [left; reflexivity|auto].
  - apply IH; [|assumption|intros; apply Hu; [right; assumption|assumption]].
    destruct Hin as [->|Hin]; [|assumption]. rewrite Hn, zlist_eqb_refl in E. discriminate.
Qed.
Lemma find_name3_none name l : (forall d, In d l -> d3_name d <> name) -> find_name3 name l = None.
Proof.
  induction l as [|x l IH]; intros H; [reflexivity|]. cbn [find_name3].
  destruct (zlist_eqb name (d3_name x)) eqn:E.
  - apply zlist_eqb_eq in E. destruct (H x); [left; reflexivity|auto].
  - apply IH. intros; apply H; right; assumption.
Qed.

Lemma read_map_spec fd b m : zlen b = 143360 -> Forall (fun n => 0 <= n < 560) m ->
  read_map (H3 fd) b m = Ok (map (fun n => (n * 256, 256)) m).
Proof.
  intros Hb; induction 1 as [|n m Hn H IH]; [reflexivity|]. cbn [read_map].
  rewrite get_raw3_in by assumption. cbn [rbind]. rewrite IH. cbn [rbind map].
  rewrite zlen_sec by assumption. reflexivity.
Qed.

Lemma get_file3_spec b cat k fs i tl dl : dos33_disk b cat k ->
  0 <= i < k -> x_live (slot3 b cat i) -> file_at b (slot3 b cat i) tl dl ->
  get_file3 (mkI b (H3 (fdir3 b)) fs true) (parse_ent (H3 (fdir3 b)) (slot3 b cat i)) = Ok (contents3 b dl).
Proof.
  intros D Hi Hl Hf. unfold get_file3, get_file_fuel3. cbn [i_hdr i_bytes].
  rewrite (sane_entry b cat k D) by assumption. cbn [negb].
  pose proof (k3_size _ _ _ D) as Hb.
  rewrite (get_tslist_spec (fdir3 b) b (slot3 b cat i) _ tl dl Hb Hf);
    [|apply d3_start_parse; intros C; destruct Hl; contradiction|reflexivity].
  cbn [rbind].
  destruct (k3_files _ _ _ D i Hi Hl) as (_ & _ & tl' & dl' & Hf' & Hne & _ & Hds).
  destruct (file_at_det _ _ _ _ _ _ Hf Hf') as [<- <-].
  assert (Hr : Forall (fun n => 0 <= n < 560) dl).
  { apply Forall_forall. intros n Hn. destruct (Hds n) as [[? _] _]; [apply in_or_app; right; assumption|lia]. }
  destruct dl as [|n0 dl]; [congruence|].
  rewrite read_map_spec by assumption. cbn [rbind].
  assert (E : forallb (fun r : Z * Z => snd r =? 0) (map (fun n => (n * 256, 256)) (n0 :: dl)) = false) by reflexivity.
  rewrite E. clear E. inversion Hr; subst.
  assert (E : (if d3_type (parse_ent (H3 (fdir3 b)) (slot3 b cat i)) =? 4
               then let! (raw, _) := get_raw3 (H3 (fdir3 b)) b n0 in if zlen raw <? 2 then Err EIndex else Ok tt
               else Ok tt) = Ok tt).
  { destruct (_ =? 4); [|reflexivity]. rewrite get_raw3_in by assumption. cbn [rbind].
    rewrite zlen_sec by assumption. reflexivity. }
  rewrite E. cbn [rbind]. f_equal. unfold contents3. rewrite flat_map_concat_map, map_map.
  rewrite <- flat_map_concat_map. apply flat_map_ext_in. intros n _. unfold sec. cbn [fst snd].
  f_equal; lia.
Qed.

Lemma find_file3_some b cat k i tl dl : dos33_disk b cat k ->
  0 <= i < k -> x_live (slot3 b cat i) -> file_at b (slot3 b cat i) tl dl ->
  find_file3 (view3 b cat k) (x_name (slot3 b cat i)) = Ok (contents3 b dl).
Proof.
  intros D Hi Hl Hf. unfold find_file3, view3 at 1. cbn [i_files].
  rewrite (find_name3_some _ _ (parse_ent (H3 (fdir3 b)) (slot3 b cat i))).
  - apply (get_file3_spec b cat k _ i tl); assumption.
  - apply in_files3; [assumption|]. exists i. auto.
  - reflexivity.
  - intros d' Hd' Hn. apply in_files3 in Hd'; [|assumption]. destruct Hd' as (j & Hj & Hlj & ->).
    rewrite d3_name_parse in Hn. rewrite (live_names b cat k D j i); auto.
Qed.
Lemma find_file3_none b cat k name : dos33_disk b cat k ->
  (forall i, 0 <= i < k -> x_live (slot3 b cat i) -> x_name (slot3 b cat i) <> name) ->
  find_file3 (view3 b cat k) name = Err (EAtr FileNotFound).
Proof.
  intros D H. unfold find_file3, view3. cbn [i_files]. rewrite find_name3_none; [reflexivity|].
  intros d Hd. apply in_files3 in Hd; [|assumption]. destruct Hd as (i & Hi & Hl & ->).
  rewrite d3_name_parse. apply H; assumption.
Qed.

(** Every live file has an entry and sectors; by name. *)
Lemma live_or_not b cat k name : dos33_disk b cat k ->
  (exists i, 0 <= i < k /\ x_live (slot3 b cat i) /\ x_name (slot3 b cat i) = name) \/
  (forall i, 0 <= i < k -> x_live (slot3 b cat i) -> x_name (slot3 b cat i) <> name).
Proof.
  intros D. destruct (find_name3 name (files3 b cat k)) as [d|] eqn:E.
  - left. assert (H : forall l, find_name3 name l = Some d -> In d l /\ d3_name d = name).
    { induction l as [|x l IH]; cbn [find_name3]; [discriminate|].
      destruct (zlist_eqb name (d3_name x)) eqn:Ex.
      - apply zlist_eqb_eq in Ex. intros [= <-]. split; [left; reflexivity|auto].
      - intros Hx. destruct (IH Hx). split; [right; assumption|assumption]. }
    destruct (H _ E) as [Hin Hn]. apply in_files3 in Hin; [|assumption].
    destruct Hin as (i & Hi & Hl & ->). exists i. auto.
  - right. intros i Hi Hl Hn.
    rewrite (find_name3_some name _ (parse_ent (H3 (fdir3 b)) (slot3 b cat i))) in E; [discriminate| |assumption|].
    + apply in_files3; [assumption|]. exists i. auto.
    + intros d' Hd' Hn'. apply in_files3 in Hd'; [|assumption]. destruct Hd' as (j & Hj & Hlj & ->).
      rewrite d3_name_parse in Hn'. rewrite (live_names b cat k D j i); auto. congruence.
Qed.
