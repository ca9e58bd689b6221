(** Whole operations on an opened image: write_file, delete_file, shred. *)
From Verif Require Import Base BaseLemmas DiskModel DirLemmas AtariModel AtariSpec AtariGeom AtariDir AtariVtoc AtariChain AtariSectors AtariWrite AtariDelete AtariShred.

(** An image in memory is consistent when it is what opening its bytes gives
    and the bytes are a consistent DOS 2 disk. *)
Definition consistent (im : aimg) : Prop :=
  open_image (a_bytes im) = Ok im /\
  exists k, dos2_disk (geom_of (a_hdr im)) (a_bytes im) k.
(** The same for a disk without stray links. *)
Definition consistent_tidy (im : aimg) : Prop :=
  open_image (a_bytes im) = Ok im /\
  exists k, dos2_disk (geom_of (a_hdr im)) (a_bytes im) k /\ tidy (geom_of (a_hdr im)) (a_bytes im) k.

(** The names shown for an image, in order. *)
Definition listing (im : aimg) : list (list Z) := map filename (a_files im).

Lemma with_bytes_view h b k : with_bytes (view h b k) b = view h b k.
Proof. reflexivity. Qed.

Lemma consistent_view im : consistent im ->
  exists k, im = view (a_hdr im) (a_bytes im) k /\ hgeo (a_hdr im) (a_bytes im) /\
            dos2_disk (geom_of (a_hdr im)) (a_bytes im) k /\ hdr_of (a_bytes im) = Ok (a_hdr im).
Proof.
  intros (Ho & k & D). destruct (open_image_hdr _ _ Ho) as [Hh _].
  assert (Hss := dk_ss _ _ _ D). assert (Hmx := dk_max _ _ _ D).
  change (g_ss (geom_of (a_hdr im))) with (h_ssize (a_hdr im)) in Hss.
  change (g_max (geom_of (a_hdr im))) with (h_max (a_hdr im)) in Hmx.
  assert (G : hgeo (a_hdr im) (a_bytes im)).
  { apply hdr_of_hgeo; try assumption; try apply Hss. intros E. apply (open_image_ed _ _ Ho E). lia. }
  exists k. split; [|auto]. pose proof (open_image_view _ _ k Hh (disk_meta _ _ _ G D)) as Ho'. congruence.
Qed.
Lemma view_open h b k : hgeo h b -> dos2_disk (geom_of h) b k -> hdr_of b = Ok h ->
  open_image b = Ok (view h b k).
Proof. intros G D Hh. apply open_image_view; [assumption|]. apply disk_meta; assumption. Qed.
Lemma view_consistent h b k : hgeo h b -> dos2_disk (geom_of h) b k -> hdr_of b = Ok h ->
  consistent (view h b k).
Proof. intros G D Hh. split; [apply view_open; assumption|]. exists k. exact D. Qed.

Lemma listing_view h b k : listing (view h b k) = map (fun i => e_name (slot (geom_of h) b i)) (live_slots (geom_of h) b k).
Proof.
  unfold listing, view, entries, live_slots. cbn [a_files].
  induction (zrange 0 k) as [|i l IH]; [reflexivity|]. cbn [map filter].
  change (d_inuse (parse_dirent h i (slot (geom_of h) b i))) with (flag_bit (e_flag (slot (geom_of h) b i)) 64).
  destruct (flag_bit _ 64); [|assumption]. cbn [map]. rewrite e_name_filename, IH. reflexivity.
Qed.
Lemma In_listing h b k n : In n (listing (view h b k)) <-> listed (geom_of h) b k n.
Proof.
  rewrite listing_view. rewrite in_map_iff. unfold live_slots. split.
  - intros (i & E & Hi). apply filter_In in Hi. rewrite In_zrange in Hi. destruct Hi as [Hi L].
    apply flag_bit_has in L. exists i. auto.
  - intros (i & Hi & L & E). exists i. split; [assumption|]. apply filter_In. rewrite In_zrange.
    split; [assumption|]. apply flag_bit_has. assumption.
Qed.

Lemma hgeo_open h b b' : hgeo h b -> zlen b' = zlen b -> hgeo h b'.
Proof. apply hgeo_zlen. Qed.

(** The find result as an option. *)
Lemma find_view h b k n : hgeo h b -> dos2_disk (geom_of h) b k ->
  (exists i c, file_in (geom_of h) b k n i c /\ find_file (view h b k) n = Ok (contents (geom_of h) b c)) \/
  (~ listed (geom_of h) b k n /\ find_file (view h b k) n = Err (EAtr FileNotFound)).
Proof.
  intros G D. destruct (listed_dec h b k n) as [L|L].
  - left. destruct (listed_file h b k D n L) as (i & c & F & Hne & _). exists i, c.
    split; [exact F|]. apply (find_file_in h b k G D n i c F Hne).
  - right. split; [exact L|]. apply find_file_missing. exact L.
Qed.
Lemma find_of_file_in h b k n i c : hgeo h b -> dos2_disk (geom_of h) b k ->
  file_in (geom_of h) b k n i c -> find_file (view h b k) n = Ok (contents (geom_of h) b c).
Proof.
  intros G D F. apply (find_file_in h b k G D n i c F).
  destruct F as (Hi & L & _ & C). destruct (dk_files _ _ _ D i Hi L) as (_ & _ & c' & C' & Hne & _).
  rewrite (chain_det _ _ _ _ _ C _ C'). assumption.
Qed.

(** ** write_file *)
Lemma write_file_view h b k name data :
  hgeo h b -> dos2_disk (geom_of h) b k -> storable name -> data <> [] -> bytes_ok data ->
  ~ listed (geom_of h) b k (stored_name name) -> zlen (a_files (view h b k)) < 64 ->
  sectors_needed (h_payload h) (zlen data) <= free_count (geom_of h) b ->
  exists b' k' i c,
    write_file (view h b k) name data = (view h b' k', Ok tt) /\
    write_effect h b k b' k' (stored_name name) data i c.
Proof.
  intros G D Hn Hd Hdok Hl H64 Hs. rewrite files_live in H64.
  destruct (write_body_ok h b k name data G D Hn Hd Hdok Hl H64 Hs) as (b' & k' & i & c & E & W).
  exists b', k', i, c. split; [|assumption].
  unfold write_file, transact. rewrite E.
  rewrite (get_metadata_with_bytes h b k b' k'); [reflexivity| |exact (dk_bytes _ _ _ D)].
  apply disk_meta; [|apply (we_disk _ _ _ _ _ _ _ _ _ W)].
  eapply hgeo_zlen; [exact G|]. apply (we_len _ _ _ _ _ _ _ _ _ W).
Qed.

Lemma new_dirent_some name i : Forall (fun c => c <= 255) name -> exists d, new_dirent name i = Ok d.
Proof.
  intros H. unfold new_dirent. replace (existsb _ _) with false.
  - destruct (split_at 46 name) as [p [q|]]; eauto.
  - symmetry. destruct (existsb _ _) eqn:E; [|reflexivity]. apply existsb_exists in E.
    destruct E as (x & Hx & E). rewrite Forall_forall in H. specialize (H x Hx). lia.
Qed.

Lemma write_file_refused_view h b k name data :
  hgeo h b -> dos2_disk (geom_of h) b k -> Forall (fun c => c <= 255) name ->
  free_count (geom_of h) b < sectors_needed (h_payload h) (zlen data) ->
  write_file (view h b k) name data = (view h b k, Err (EAtr NotEnoughSpaceOnDisk)).
Proof.
  intros G D Hn Hs. pose proof (hg_pay _ _ G). pose proof (hg_ss _ _ G).
  assert (E : write_body (view h b k) name data = (view h b k, Err (EAtr NotEnoughSpaceOnDisk))).
  { unfold write_body. rewrite get_directory_view by assumption. cbv zeta.
    change (a_hdr (view h b k)) with h.
    destruct (new_dirent_some name (free_index (map d_inuse (entries h b k)) 0) Hn) as (d & ->). cbn [lift_st].
    destruct (build_sectors_spec (h_ssize h) (h_payload h) ltac:(lia) (length data) data (le_n _))
      as (cs & Ebs & Ecs & Hcs & Hcnt & _).
    rewrite Ebs. cbn [lift_st]. rewrite get_vtoc_object_view by assumption. cbn [lift_st].
    rewrite reserve_spec. rewrite map_length.
    replace (length cs <=? length (nz (smap_of h b)))%nat with false; [reflexivity|].
    symmetry. apply Nat.leb_gt. rewrite (free_count_nz h b G) in Hs. unfold zlen in *. lia. }
  unfold write_file, transact. rewrite E. cbn [is_atr rollback begin_transaction].
  rewrite with_bytes_view.
  rewrite get_metadata_self; [reflexivity| |exact (dk_bytes _ _ _ D)]. apply disk_meta; assumption.
Qed.

(** ** delete_file *)
Lemma delete_transact h b k b' i nums name : hgeo h b -> dos2_disk (geom_of h) b k ->
  delete_body (view h b k) name = (with_bytes (view h b k) b', Ok tt) ->
  delete_effect h b k b' i nums ->
  delete_file (view h b k) name = (view h b' k, Ok tt).
Proof.
  intros G D E W. unfold delete_file, transact. rewrite E.
  rewrite (get_metadata_with_bytes h b k b' k); [reflexivity| |exact (dk_bytes _ _ _ D)].
  apply disk_meta; [|apply (de_disk _ _ _ _ _ _ W)].
  eapply hgeo_zlen; [exact G|]. apply (de_len _ _ _ _ _ _ W).
Qed.

Lemma delete_file_view h b k name i c :
  hgeo h b -> dos2_disk (geom_of h) b k -> file_in (geom_of h) b k name i c ->
  exists b', delete_file (view h b k) name = (view h b' k, Ok tt) /\
             delete_effect h b k b' i c.
Proof.
  intros G D (Hi & L & N & C).
  destruct (delete_body_gen h b k name i c G D Hi N) as (b' & E & W).
  - intros j Hj Nj. apply (dk_names _ _ _ D j i); try lia; [assumption|congruence].
  - destruct (disk_meta h b k G D) as (_ & _ & _ & _ & _ & Sane).
    pose proof (sane_forallb h b k Sane) as S. rewrite forallb_forall in S.
    specialize (S (parse_dirent h i (slot (geom_of h) b i))).
    assert (Lv : d_inuse (parse_dirent h i (slot (geom_of h) b i)) = true) by (apply d_inuse_live; assumption).
    rewrite Lv in S. apply S. unfold entries. apply in_map_iff. exists i. split; [reflexivity|].
    apply In_zrange; lia.
  - apply (chain_reads h b G _ _ _ _ _ (asks_owner (slot (geom_of h) b i) i ltac:(lia)) C).
    + eapply chain_length; eassumption.
    + intros [].
    + intros m _ [].
  - intros n Hn. pose proof (chain_data _ _ _ _ _ C) as Dc. rewrite Forall_forall in Dc.
    destruct (Dc n Hn) as (A1 & A2 & A3).
    change (g_max (geom_of h)) with (h_max h) in A1. unfold system_sector.
    split; [lia|]. split; [assumption|]. split; [lia|].
    intros j c' Hj Hji Lj Cj. destruct (dk_files _ _ _ D i Hi L) as (Ap & _). exact (Ap j c c' n Hj Hji Lj C Cj Hn).
  - exists b'. split; [|assumption]. eapply delete_transact; eassumption.
Qed.

(** No entry, live or deleted, has the name: refused, nothing changed. *)
Lemma delete_missing_view h b k name : hgeo h b -> dos2_disk (geom_of h) b k ->
  (forall i, 0 <= i < k -> e_name (slot (geom_of h) b i) <> name) ->
  delete_file (view h b k) name = (view h b k, Err (EAtr FileNotFound)).
Proof.
  intros G D Hn.
  assert (E : delete_body (view h b k) name = (view h b k, Err (EAtr FileNotFound))).
  { unfold delete_body. rewrite get_directory_view by assumption. cbv zeta. unfold entries, zrange.
    rewrite (find_index_none name (fun i => parse_dirent h i (slot (geom_of h) b i))); [reflexivity|].
    intros j Hj. rewrite e_name_filename. apply Hn. lia. }
  unfold delete_file, transact. rewrite E. cbn [is_atr rollback begin_transaction].
  rewrite with_bytes_view.
  rewrite get_metadata_self; [reflexivity| |exact (dk_bytes _ _ _ D)]. apply disk_meta; assumption.
Qed.

Lemma delete_refused_body h b k name e : hgeo h b -> dos2_disk (geom_of h) b k ->
  delete_body (view h b k) name = (view h b k, Err e) ->
  delete_file (view h b k) name = (view h b k, Err e).
Proof.
  intros G D E. unfold delete_file, transact. rewrite E.
  assert (M : get_metadata (view h b k) = (view h b k, Ok tt)).
  { apply get_metadata_self; [apply disk_meta; assumption|exact (dk_bytes _ _ _ D)]. }
  destruct (is_atr e); cbn [rollback begin_transaction]; change (a_bytes (view h b k)) with b; rewrite ?with_bytes_view, M; reflexivity.
Qed.

(** On a tidy disk deleting a name that is not listed either is refused or
    releases sectors of a deleted file again; no listed file is affected. *)
Lemma first_match (P : Z -> bool) k : 
  (exists i, 0 <= i < k /\ P i = true /\ forall j, 0 <= j < i -> P j = false) \/
  (forall i, 0 <= i < k -> P i = false).
Proof.
  destruct (find P (zrange 0 k)) as [i|] eqn:E.
  - left. revert E. unfold zrange. rewrite Z.sub_0_r.
    assert (K : forall n x, find P (zseq_nat x n) = Some i -> x <= i < x + Z.of_nat n /\ P i = true /\
       forall j, x <= j < i -> P j = false).
    { induction n as [|n IH]; intros x Ex; [discriminate|]. cbn [zseq_nat find] in Ex.
      destruct (P x) eqn:Px.
      - injection Ex as <-. split; [lia|]. split; [assumption|]. intros; lia.
      - destruct (IH _ Ex) as (A & B & C). split; [lia|]. split; [assumption|].
        intros j Hj. destruct (Z.eq_dec j x) as [->|]; [assumption|]. apply C; lia. }
    intros Ex. destruct (K _ _ Ex) as (A & B & C). exists i. split; [lia|]. split; [assumption|]. intros; apply C; lia.
  - right. intros i Hi. apply (find_none _ _ E). apply In_zrange. lia.
Qed.

Lemma delete_unlisted_view h b k name : hgeo h b -> dos2_disk (geom_of h) b k -> tidy (geom_of h) b k ->
  ~ listed (geom_of h) b k name ->
  (exists e, delete_file (view h b k) name = (view h b k, Err e) /\ e <> EFuel) \/
  (exists b' i nums, delete_file (view h b k) name = (view h b' k, Ok tt) /\
     0 <= i < k /\ ~ e_live (slot (geom_of h) b i) /\ e_name (slot (geom_of h) b i) = name /\
     delete_effect h b k b' i nums).
Proof.
  intros G D T Hl. pose proof (hg_max _ _ G) as Hmax.
  destruct (first_match (fun i => zlist_eqb (e_name (slot (geom_of h) b i)) name) k) as [(i & Hi & Ni & Hj)|Hnone].
  - apply zlist_eqb_eq in Ni.
    assert (Hd : ~ e_live (slot (geom_of h) b i)) by (intros L; apply Hl; exists i; auto).
    pose proof (td_dead _ _ _ T i Hi Hd) as Hst. pose proof (td_dos2 _ _ _ T i Hi) as My.
    assert (Hfi : find_index name (entries h b k) 0 = Some (i, parse_dirent h i (slot (geom_of h) b i))).
    { unfold entries, zrange.
      rewrite (find_index_spec name (fun i => parse_dirent h i (slot (geom_of h) b i)) i); [reflexivity|lia| |].
      - rewrite e_name_filename. assumption.
      - intros j Hji. rewrite e_name_filename. specialize (Hj j ltac:(lia)). cbv beta in Hj.
        apply zlist_eqb_neq in Hj. assumption. }
    assert (Hsane : d_sane (parse_dirent h i (slot (geom_of h) b i)) = true).
    { apply d_inuse_dead with (h := h) (num := i) in Hd. unfold parse_dirent in *. cbn [d_inuse d_sane] in *.
      rewrite Hd. reflexivity. }
    apply flag_bit_has_false in My.
    pose proof (walk_reads h b G i (td_links _ _ _ T) (chain_fuel h) (e_start (slot (geom_of h) b i)) [] Hst) as W.
    destruct (read_nums (chain_fuel h) h b false i (e_start (slot (geom_of h) b i)) []) as [nums|e] eqn:Er.
    + destruct (forallb (fun n => n <? 1280) nums) eqn:E1280.
      * right. rewrite forallb_forall in E1280.
        destruct (delete_body_gen h b k name i nums G D Hi Ni) as (b' & E & DE).
        -- intros j Hji. specialize (Hj j ltac:(lia)). cbv beta in Hj.
           apply zlist_eqb_neq in Hj. assumption.
        -- assumption.
        -- rewrite My. assumption.
        -- intros n Hn. specialize (W n Hn). specialize (E1280 n Hn). destruct W as (W1 & W2 & W3).
           split; [lia|]. split; [assumption|]. split; [assumption|]. intros j c Hj0 Hji Lj Cj Hin.
           unfold slot_chain in Cj. rewrite owner_dos2 in Cj by exact (td_dos2 _ _ _ T j Hj0). apply chain_used in Cj.
           rewrite Forall_forall in Cj. destruct (Cj n Hin) as [[X|X] _]; lia.
        -- exists b', i, nums. split; [eapply delete_transact; eassumption|]. auto.
      * left. exists EIndex. split; [|discriminate]. apply delete_refused_body; try assumption.
        unfold delete_body. rewrite get_directory_view by assumption. cbv zeta. rewrite Hfi.
        unfold start_read. rewrite Hsane. cbn [rbind].
        change (d_my (parse_dirent h i (slot (geom_of h) b i))) with (flag_bit (e_flag (slot (geom_of h) b i)) 4).
        change (d_start (parse_dirent h i (slot (geom_of h) b i))) with (e_start (slot (geom_of h) b i)).
        change (d_num (parse_dirent h i (slot (geom_of h) b i))) with i.
        change (a_hdr (view h b k)) with h. change (a_bytes (view h b k)) with b.
        rewrite My, Er. cbn [lift_st]. rewrite get_vtoc_object_view by assumption. cbn [lift_st].
        assert (Ef : free_sectors nums (smap_of h b) = Err EIndex).
        { pose proof (zlen_smap h b G) as Hz. revert Hz E1280. clear -W. generalize (smap_of h b).
          assert (W' : forall n, In n nums -> 4 <= n) by (intros n Hn; apply W in Hn; lia). clear W.
          induction nums as [|n nums IH]; intros m Hz E; [discriminate|]. cbn [forallb free_sectors] in *.
          destruct (n <? 1280) eqn:En; cbn [andb] in E.
          - specialize (W' n ltac:(left; reflexivity)) as W0.
            replace ((n <? 0) || (zlen m <=? n)) with false by lia.
            apply IH; [intros x Hx; apply W'; right; assumption| |assumption]. rewrite zlen_upd. assumption.
          - replace ((n <? 0) || (zlen m <=? n)) with true by lia. reflexivity. }
        rewrite Ef. reflexivity.
    + left. exists e. destruct W as [->|We].
      * exfalso. destruct (read_fuel h b i (chain_fuel h) ltac:(lia) (e_start (slot (geom_of h) b i)) []) as [F _].
        -- constructor; [intros []|constructor].
        -- intros m [].
        -- unfold chain_fuel. cbn [length]. lia.
        -- contradiction.
      * split; [|destruct e; discriminate]. apply delete_refused_body; try assumption.
        unfold delete_body. rewrite get_directory_view by assumption. cbv zeta. rewrite Hfi.
        unfold start_read. rewrite Hsane. cbn [rbind].
        change (d_my (parse_dirent h i (slot (geom_of h) b i))) with (flag_bit (e_flag (slot (geom_of h) b i)) 4).
        change (d_start (parse_dirent h i (slot (geom_of h) b i))) with (e_start (slot (geom_of h) b i)).
        change (d_num (parse_dirent h i (slot (geom_of h) b i))) with i.
        change (a_hdr (view h b k)) with h. change (a_bytes (view h b k)) with b.
        rewrite My, Er. reflexivity.
  - left. exists (EAtr FileNotFound). split; [|discriminate]. apply delete_missing_view; try assumption.
    intros i Hi. specialize (Hnone i Hi). cbv beta in Hnone. apply zlist_eqb_neq in Hnone. assumption.
Qed.

(** ** shred *)
Lemma shred_view h b k fill : hgeo h b -> dos2_disk (geom_of h) b k ->
  exists b', shred (view h b k) fill = (view h b' k, if h_max h <? 1280 then Ok tt else Err EIndex) /\
             shred_effect h b k b' fill.
Proof.
  intros G D. destruct (shred_body_ok h b k fill G D) as (b' & E & S). exists b'. split; [|assumption].
  unfold shred, transact. rewrite E.
  assert (M : get_metadata (with_bytes (view h b k) b') = (view h b' k, Ok tt)).
  { apply get_metadata_with_bytes; [|exact (dk_bytes _ _ _ D)].
    apply disk_meta; [|apply (se_disk _ _ _ _ _ S)].
    eapply hgeo_zlen; [exact G|]. apply (se_len _ _ _ _ _ S). }
  destruct (h_max h <? 1280); cbn [is_atr]; rewrite M; reflexivity.
Qed.
