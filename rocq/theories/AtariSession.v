(** Sessions: any sequence of operations acts like a map from names to contents. *)
From Verif Require Import Base BaseLemmas DiskModel DirLemmas AtariModel AtariSpec AtariGeom AtariDir AtariVtoc AtariChain AtariSectors AtariWrite AtariDelete AtariShred AtariOps.

(** * Vocabulary of the session theorems *)
Inductive op := OWrite (name data : list Z) | ODelete (name : list Z) | OShred (fill : Z).
Definition do_op (im : aimg) (o : op) : aimg * res unit :=
  match o with
  | OWrite n d => write_file im n d
  | ODelete n => delete_file im n
  | OShred f => shred im f
  end.
(** What an operation means for a map from names to contents. *)
Definition map_step (m : fsmap) (o : op) (r : res unit) : fsmap :=
  match o, r with
  | OWrite n d, Ok _ => fs_put m (stored_name n) d
  | ODelete n, Ok _ => fs_del m n
  | _, _ => m
  end.
Fixpoint run (im : aimg) (m : fsmap) (ops : list op) : aimg * fsmap :=
  match ops with
  | [] => (im, m)
  | o :: r => let (im', res) := do_op im o in run im' (map_step m o res) r
  end.
(** What the image currently holds. *)
Definition fs_of (im : aimg) : fsmap :=
  fun n => match find_file im n with Ok d => Some d | Err _ => None end.
(** [find_file] answers exactly as the map does. *)
Definition answers (im : aimg) (m : fsmap) : Prop :=
  forall n, find_file im n = match m n with Some d => Ok d | None => Err (EAtr FileNotFound) end.

(** Writes the API supports: storable name, some data, name not yet present,
    fewer than 64 files. *)
Definition legal_write (im : aimg) (n d : list Z) : Prop :=
  storable n /\ d <> [] /\ bytes_ok d /\ ~ In (stored_name n) (listing im) /\ zlen (a_files im) < 64.
(** Any delete; any shred except with the two fill bytes that, read as a sector
    link, point into the directory. *)
Definition legal_op (im : aimg) (o : op) : Prop :=
  match o with
  | OWrite n d => legal_write im n d
  | ODelete _ => True
  | OShred f => u8 f <> 105 /\ u8 f <> 109
  end.
(** Any shred; deletes of listed files only. *)
Definition strict_op (im : aimg) (o : op) : Prop :=
  match o with
  | OWrite n d => legal_write im n d
  | ODelete n => In n (listing im)
  | OShred _ => True
  end.
Fixpoint all_ops (P : aimg -> op -> Prop) (im : aimg) (ops : list op) : Prop :=
  match ops with [] => True | o :: r => P im o /\ all_ops P (fst (do_op im o)) r end.

(** * Lookups after each operation *)
Lemma same_find h b b' k k' n : hgeo h b -> dos2_disk (geom_of h) b k -> hgeo h b' -> dos2_disk (geom_of h) b' k' ->
  (forall i c, file_in (geom_of h) b k n i c -> exists i' c', file_in (geom_of h) b' k' n i' c' /\
     contents (geom_of h) b' c' = contents (geom_of h) b c) ->
  (listed (geom_of h) b' k' n -> listed (geom_of h) b k n) ->
  find_file (view h b' k') n = find_file (view h b k) n.
Proof.
  intros G D G' D' F L. destruct (find_view h b k n G D) as [(i & c & Fi & ->)|[Hn ->]].
  - destruct (F i c Fi) as (i' & c' & F' & E). rewrite (find_of_file_in h b' k' n i' c' G' D' F'). congruence.
  - apply find_file_missing. intros X. apply Hn, L, X.
Qed.

Lemma same_entry_live g b b' j : same_entry (slot g b j) (slot g b' j) ->
  (e_live (slot g b' j) <-> e_live (slot g b j)) /\ e_name (slot g b' j) = e_name (slot g b j).
Proof.
  intros (E1 & _ & _ & E4 & E5). unfold e_live, flag_has, e_name. rewrite E1, E4, E5. split; reflexivity.
Qed.

Lemma write_find h b k b' k' name data i c : hgeo h b -> dos2_disk (geom_of h) b k ->
  write_effect h b k b' k' name data i c ->
  find_file (view h b' k') name = Ok data /\
  (forall n, n <> name -> find_file (view h b' k') n = find_file (view h b k) n).
Proof.
  intros G D W. assert (G' : hgeo h b') by (eapply hgeo_zlen; [exact G|apply (we_len _ _ _ _ _ _ _ _ _ W)]).
  pose proof (we_disk _ _ _ _ _ _ _ _ _ W) as D'. split.
  - rewrite (find_of_file_in h b' k' name i c G' D' (we_new _ _ _ _ _ _ _ _ _ W)).
    rewrite (we_data _ _ _ _ _ _ _ _ _ W). reflexivity.
  - intros n Hne. apply same_find; try assumption.
    + intros j cj Fj. exists j, cj. apply (we_old _ _ _ _ _ _ _ _ _ W); assumption.
    + intros L. destruct (we_only _ _ _ _ _ _ _ _ _ W n L); [contradiction|assumption].
Qed.

Lemma delete_find h b k b' i nums : hgeo h b -> dos2_disk (geom_of h) b k ->
  delete_effect h b k b' i nums ->
  (forall n, ~ (e_live (slot (geom_of h) b i) /\ e_name (slot (geom_of h) b i) = n) ->
     find_file (view h b' k) n = find_file (view h b k) n) /\
  (e_live (slot (geom_of h) b i) ->
     find_file (view h b' k) (e_name (slot (geom_of h) b i)) = Err (EAtr FileNotFound)).
Proof.
  intros G D W. assert (G' : hgeo h b') by (eapply hgeo_zlen; [exact G|apply (de_len _ _ _ _ _ _ W)]).
  pose proof (de_disk _ _ _ _ _ _ W) as D'.
  destruct (de_slot _ _ _ _ _ _ W) as (Hi & Dd & _ & _ & Nm & _).
  assert (Back : forall j, 0 <= j < k -> e_live (slot (geom_of h) b' j) ->
     j <> i /\ e_live (slot (geom_of h) b j) /\ e_name (slot (geom_of h) b' j) = e_name (slot (geom_of h) b j)).
  { intros j Hj Lj. assert (Hne : j <> i) by congruence. split; [assumption|].
    destruct (same_entry_live _ _ _ _ (de_slots _ _ _ _ _ _ W j Hj Hne)) as [E1 E2].
    split; [apply E1; assumption|assumption]. }
  split.
  - intros n Hn. apply same_find; try assumption.
    + intros j cj Fj. assert (Hne : j <> i).
      { intros ->. destruct Fj as (_ & L & N & _). apply Hn. auto. }
      exists j, cj. apply (de_old _ _ _ _ _ _ W); assumption.
    + intros (j & Hj & Lj & Nj). destruct (Back j Hj Lj) as (_ & L & E). exists j. split; [assumption|].
      split; [assumption|congruence].
  - intros L. apply find_file_missing. intros (j & Hj & Lj & Nj).
    destruct (Back j Hj Lj) as (Hne & L' & E). apply Hne.
    apply (live_unique (geom_of h) b k); auto; congruence.
Qed.

Lemma shred_find h b k b' fill : hgeo h b -> dos2_disk (geom_of h) b k ->
  shred_effect h b k b' fill ->
  forall n, find_file (view h b' k) n = find_file (view h b k) n.
Proof.
  intros G D W n. assert (G' : hgeo h b') by (eapply hgeo_zlen; [exact G|apply (se_len _ _ _ _ _ W)]).
  pose proof (se_disk _ _ _ _ _ W) as D'. pose proof (dk_k _ _ _ D) as Hk.
  pose proof (num_slots_64 (geom_of h) ltac:(destruct G; exact (proj1 hg_ss))) as Hns.
  apply same_find; try assumption.
  - intros j cj Fj. exists j, cj. apply (se_files _ _ _ _ _ W n j cj Fj).
  - intros (j & Hj & Lj & Nj). rewrite (se_slots _ _ _ _ _ W) in * by lia. exists j. auto.
Qed.

(** * Tidiness is kept *)
Lemma chain_links g b f n c : chain g b f n c ->
  forall m, In m c -> next_link f (sector g b m) = 0 \/ In (next_link f (sector g b m)) c.
Proof.
  induction 1 as [n Hd Hf Hu H0|n c Hd Hf Hu Hni Hc IH]; intros m [<-|Hm].
  - left; assumption.
  - destruct Hm.
  - right. right. destruct (chain_head _ _ _ _ _ Hc) as (c' & ->). left; reflexivity.
  - destruct (IH m Hm); [left; assumption|right; right; assumption].
Qed.
Lemma data_not_system g n : data_sector g n -> ~ system_sector n.
Proof. unfold data_sector, system_sector. lia. Qed.

Lemma tidy_write h b k b' k' name data i c : tidy (geom_of h) b k ->
  write_effect h b k b' k' name data i c -> tidy (geom_of h) b' k'.
Proof.
  intros T W. pose proof (we_new _ _ _ _ _ _ _ _ _ W) as (Hi & Li & _ & Ci).
  pose proof (chain_data _ _ _ _ _ Ci) as Dc. rewrite Forall_forall in Dc. constructor.
  - intros n Hn Hs. destruct (in_dec Z.eq_dec n c) as [Hin|Hin].
    + unfold slot_chain in Ci. rewrite owner_dos2 in Ci by exact (we_dos2 _ _ _ _ _ _ _ _ _ W).
      pose proof (chain_links _ _ _ _ _ Ci n Hin) as E. unfold next_link in E. replace (i =? -1) with false in E by lia. destruct E as [E|E].
      * rewrite E. unfold system_sector. lia.
      * apply data_not_system with (g := geom_of h). apply Dc; assumption.
    + rewrite (we_frame _ _ _ _ _ _ _ _ _ W); [|exact Hn|assumption|unfold system_sector in Hs; lia].
      apply (td_links _ _ _ T); assumption.
  - intros j Hj. destruct (we_slot _ _ _ _ _ _ _ _ _ W) as (Ri & Ek & _).
    destruct (Z.eq_dec j i) as [->|Hne]; [apply (we_dos2 _ _ _ _ _ _ _ _ _ W)|].
    pose proof (we_slots _ _ _ _ _ _ _ _ _ W j ltac:(lia) Hne) as (F1 & _). unfold flag_has. rewrite F1. apply (td_dos2 _ _ _ T). lia.
  - intros j Hj Dj. destruct (we_slot _ _ _ _ _ _ _ _ _ W) as (Ri & Ek & _).
    assert (Hne : j <> i) by congruence.
    pose proof (we_slots _ _ _ _ _ _ _ _ _ W j ltac:(lia) Hne) as Se.
    destruct (same_entry_live _ _ _ _ Se) as [E1 _]. destruct Se as (F1 & _ & F3 & _).
    rewrite F3. apply (td_dead _ _ _ T); [lia|]. intros L; apply Dj, E1, L.
Qed.

Lemma tidy_delete h b k b' i nums : dos2_disk (geom_of h) b k -> tidy (geom_of h) b k ->
  delete_effect h b k b' i nums -> tidy (geom_of h) b' k.
Proof.
  intros D T W. destruct (de_slot _ _ _ _ _ _ W) as (Hi & Dd & _ & F4 & Nm & Est & _). constructor.
  - intros n Hn Hs. rewrite (de_frame _ _ _ _ _ _ W); [|exact Hn|unfold system_sector in Hs; lia].
    apply (td_links _ _ _ T); assumption.
  - intros j Hj. destruct (Z.eq_dec j i) as [->|Hne]; [intros X; apply (td_dos2 _ _ _ T i Hj), F4, X|].
    pose proof (de_slots _ _ _ _ _ _ W j Hj Hne) as (F1 & _). unfold flag_has. rewrite F1. apply (td_dos2 _ _ _ T). exact Hj.
  - intros j Hj Dj. destruct (Z.eq_dec j i) as [->|Hne].
    + rewrite Est. destruct (flag_bit (e_flag (slot (geom_of h) b i)) 64) eqn:E.
      * apply flag_bit_has in E. destruct (dk_files _ _ _ D i Hi E) as (_ & _ & c & C & _).
        apply data_not_system with (g := geom_of h). eapply chain_start; eassumption.
      * apply flag_bit_has_false in E. apply (td_dead _ _ _ T); assumption.
    + pose proof (de_slots _ _ _ _ _ _ W j Hj Hne) as Se.
      destruct (same_entry_live _ _ _ _ Se) as [E1 _]. destruct Se as (F1 & _ & F3 & _).
      rewrite F3. apply (td_dead _ _ _ T); [lia|]. intros L; apply Dj, E1, L.
Qed.

Lemma fill_link_sweep : forallb (fun f => (f =? 105) || (f =? 109) ||
   negb ((1 <=? (f mod 4) * 256 + f) && ((f mod 4) * 256 + f <=? 3)
      || (360 <=? (f mod 4) * 256 + f) && ((f mod 4) * 256 + f <=? 368))) (zrange 0 256) = true.
Proof. reflexivity. Qed.
Lemma tidy_shred h b k b' fill : hgeo h b -> dos2_disk (geom_of h) b k -> tidy (geom_of h) b k ->
  u8 fill <> 105 -> u8 fill <> 109 -> shred_effect h b k b' fill -> tidy (geom_of h) b' k.
Proof.
  intros G D T H1 H2 W. pose proof (hg_ss _ _ G) as Hss. pose proof (dk_k _ _ _ D) as Hk.
  pose proof (num_slots_64 (geom_of h) ltac:(exact (proj1 Hss))) as Hns. constructor.
  - intros n Hn Hs. rewrite (se_sector _ _ _ _ _ W) by exact Hn. destruct (is_free _ _ _).
    + unfold link_next. rewrite zlen_zrepeat by lia. rewrite !getb_zrepeat by lia.
      pose proof fill_link_sweep as S. rewrite forallb_forall in S. specialize (S (u8 fill)).
      rewrite In_zrange in S. assert (0 <= u8 fill < 256) by (unfold u8; apply Z.mod_pos_bound; lia).
      specialize (S ltac:(lia)). unfold system_sector. lia.
    + apply (td_links _ _ _ T); assumption.
  - intros j Hj. rewrite (se_slots _ _ _ _ _ W) by lia. apply (td_dos2 _ _ _ T); assumption.
  - intros j Hj Dj. rewrite (se_slots _ _ _ _ _ W) in * by lia.
    apply (td_dead _ _ _ T); assumption.
Qed.

(** * One operation *)
Definition good (im : aimg) (withtidy : bool) : Prop :=
  exists k, im = view (a_hdr im) (a_bytes im) k /\ hgeo (a_hdr im) (a_bytes im) /\
    dos2_disk (geom_of (a_hdr im)) (a_bytes im) k /\ hdr_of (a_bytes im) = Ok (a_hdr im) /\
    (withtidy = true -> tidy (geom_of (a_hdr im)) (a_bytes im) k).

Lemma good_view h b k t : hgeo h b -> dos2_disk (geom_of h) b k -> hdr_of b = Ok h ->
  (t = true -> tidy (geom_of h) b k) -> good (view h b k) t.
Proof. intros G D Hh T. exists k. cbn [view a_hdr a_bytes]. auto. Qed.
Lemma good_consistent im t : good im t -> consistent im.
Proof. intros (k & E & G & D & Hh & _). rewrite E. apply view_consistent; assumption. Qed.
Lemma consistent_good im : consistent im -> good im false.
Proof. intros C. destruct (consistent_view im C) as (k & E & G & D & Hh). exists k. split; [assumption|]. split; [assumption|]. split; [assumption|]. split; [assumption|discriminate]. Qed.
Lemma good_tidy im : good im true -> consistent_tidy im.
Proof.
  intros Hg. pose proof (good_consistent _ _ Hg) as [Ho _]. split; [assumption|].
  destruct Hg as (k & E & G & D & Hh & T). exists k. auto.
Qed.
Lemma tidy_good im : consistent_tidy im -> good im true.
Proof.
  intros (Ho & k & D & T). destruct (consistent_view im) as (k' & E & G & D' & Hh).
  { split; [assumption|]. exists k. assumption. }
  exists k. split; [|auto]. pose proof (view_open _ _ _ G D Hh). congruence.
Qed.

Definition op_ok (t : bool) (im : aimg) (o : op) : Prop :=
  match o with
  | OWrite n d => legal_write im n d
  | ODelete n => In n (listing im) \/ t = true
  | OShred f => t = true -> u8 f <> 105 /\ u8 f <> 109
  end.

(** The documented refusals of each operation. *)
Definition refusal (im : aimg) (o : op) (r : res unit) : Prop :=
  match o with
  | OWrite n d => r = Ok tt \/ r = Err (EAtr NotEnoughSpaceOnDisk)
  | ODelete n => In n (listing im) -> r = Ok tt
  | OShred _ => r = Ok tt \/ (1280 <= h_max (a_hdr im) /\ r = Err EIndex)
  end.

Lemma answers_answers im m : (forall n, find_file im n = Err (EAtr FileNotFound) \/ exists d, find_file im n = Ok d) ->
  (forall n, fs_of im n = m n) -> answers im m.
Proof.
  intros H E n. rewrite <- E. unfold fs_of. destruct (H n) as [->|(d & ->)]; reflexivity.
Qed.
Lemma find_total im t n : good im t -> find_file im n = Err (EAtr FileNotFound) \/ exists d, find_file im n = Ok d.
Proof.
  intros (k & E & G & D & _). rewrite E. destruct (find_view _ _ k n G D) as [(i & c & _ & ->)|[_ ->]]; eauto.
Qed.
Lemma good_answers im t : good im t -> answers im (fs_of im).
Proof. intros Hg. apply answers_answers; [|reflexivity]. intros n. eapply find_total; eassumption. Qed.

Lemma op_step t im o m : good im t -> op_ok t im o -> answers im m ->
  let (im', r) := do_op im o in
  good im' t /\ answers im' (map_step m o r) /\ refusal im o r.
Proof.
  intros Hg Hop Ha. destruct Hg as (k & E & G & D & Hh & T).
  set (h := a_hdr im) in *. set (b := a_bytes im) in *.
  destruct o as [n d|n|f]; cbn [do_op op_ok refusal] in *.
  - destruct Hop as (Hv & Hd & Hdok & Hnl & H64).
    rewrite E in Hnl, H64. rewrite In_listing in Hnl.
    destruct (Z_le_dec (sectors_needed (h_payload h) (zlen d)) (free_count (geom_of h) b)) as [Hs|Hs].
    + destruct (write_file_view h b k n d G D Hv Hd Hdok Hnl H64 Hs) as (b' & k' & i & c & Ew & W).
      rewrite E, Ew. split; [|split; [|left; reflexivity]].
      * apply good_view.
        -- eapply hgeo_zlen; [exact G|apply (we_len _ _ _ _ _ _ _ _ _ W)].
        -- apply (we_disk _ _ _ _ _ _ _ _ _ W).
        -- rewrite (we_hdr _ _ _ _ _ _ _ _ _ W). assumption.
        -- intros Ht. eapply tidy_write; [apply T; assumption|exact W].
      * destruct (write_find h b k b' k' (stored_name n) d i c G D W) as [F1 F2]. intros x. cbn [map_step]. unfold fs_put.
        destruct (zlist_eqb x (stored_name n)) eqn:Ex.
        -- apply zlist_eqb_eq in Ex. subst x. assumption.
        -- apply zlist_eqb_neq in Ex. rewrite F2 by assumption. rewrite <- E. apply Ha.
    + rewrite E. rewrite write_file_refused_view; try assumption; [| |lia].
      * split; [apply good_view; assumption|]. split; [|right; reflexivity].
        rewrite <- E. exact Ha.
      * destruct Hv as (B & _). revert B. apply Forall_impl. unfold is_byte. intros; lia.
  - destruct (listed_dec h b k n) as [L|L].
    + destruct (listed_file h b k D n L) as (i & c & F & _ & _).
      destruct (delete_file_view h b k n i c G D F) as (b' & Ed & W).
      rewrite E, Ed. split; [|split; [|reflexivity]].
      * apply good_view.
        -- eapply hgeo_zlen; [exact G|apply (de_len _ _ _ _ _ _ W)].
        -- apply (de_disk _ _ _ _ _ _ W).
        -- rewrite (de_hdr _ _ _ _ _ _ W). assumption.
        -- intros Ht. eapply tidy_delete; [exact D|apply T; assumption|exact W].
      * destruct (delete_find h b k b' i c G D W) as [F1 F2]. destruct F as (_ & Li & Ni & _).
        intros x. cbn [map_step]. unfold fs_del. destruct (zlist_eqb x n) eqn:Ex.
        -- apply zlist_eqb_eq in Ex. subst x. rewrite <- Ni. apply F2. assumption.
        -- apply zlist_eqb_neq in Ex. rewrite F1 by (intros [_ X]; congruence). rewrite <- E. apply Ha.
    + assert (Ht : t = true).
      { destruct Hop as [Hin|Ht]; [|assumption]. exfalso. apply L. rewrite E in Hin. apply In_listing in Hin. exact Hin. }
      assert (Hm : m n = None).
      { specialize (Ha n). rewrite E in Ha. rewrite (find_file_missing h b k n L) in Ha.
        destruct (m n); [discriminate|reflexivity]. }
      destruct (delete_unlisted_view h b k n G D (T Ht) L) as [(e & Ed & _)|(b' & i & nums & Ed & Hi & Hdead & Ni & W)].
      * rewrite E, Ed. split; [apply good_view; assumption|]. split; [rewrite <- E; exact Ha|].
        intros Hin. rewrite In_listing in Hin. contradiction.
      * rewrite E, Ed. split; [|split; [|reflexivity]].
        -- apply good_view.
           ++ eapply hgeo_zlen; [exact G|apply (de_len _ _ _ _ _ _ W)].
           ++ apply (de_disk _ _ _ _ _ _ W).
           ++ rewrite (de_hdr _ _ _ _ _ _ W). assumption.
           ++ intros _. eapply tidy_delete; [exact D|apply T; assumption|exact W].
        -- destruct (delete_find h b k b' i nums G D W) as [F1 _].
           intros x. cbn [map_step]. unfold fs_del. rewrite F1 by (intros [X _]; contradiction).
           rewrite <- E. rewrite Ha. destruct (zlist_eqb x n) eqn:Ex; [|reflexivity].
           apply zlist_eqb_eq in Ex. subst x. rewrite Hm. reflexivity.
  - destruct (shred_view h b k f G D) as (b' & Es & W). rewrite E, Es. split; [|split].
    + apply good_view.
      * eapply hgeo_zlen; [exact G|apply (se_len _ _ _ _ _ W)].
      * apply (se_disk _ _ _ _ _ W).
      * rewrite (se_hdr _ _ _ _ _ W). assumption.
      * intros Ht. destruct (Hop Ht). eapply tidy_shred; try eassumption. apply T; assumption.
    + cbn [map_step]. intros x. rewrite (shred_find h b k b' f G D W). rewrite <- E.
      destruct (h_max h <? 1280); apply Ha.
    + cbn [view a_hdr]. destruct (Z.ltb_spec (h_max h) 1280); [left; reflexivity|right; auto].
Qed.

(** * Sessions *)
Lemma session t ops : forall im m, good im t -> answers im m -> all_ops (op_ok t) im ops ->
  let (im', m') := run im m ops in good im' t /\ answers im' m'.
Proof.
  induction ops as [|o ops IH]; intros im m Hg Ha Hl; [cbn; auto|].
  cbn [run all_ops] in *. destruct Hl as [Ho Hl].
  pose proof (op_step t im o m Hg Ho Ha) as S. destruct (do_op im o) as [im' r].
  destruct S as (S1 & S2 & _). apply IH; assumption.
Qed.

Lemma all_ops_impl (P Q : aimg -> op -> Prop) ops : (forall im o, P im o -> Q im o) ->
  forall im, all_ops P im ops -> all_ops Q im ops.
Proof.
  intros H. induction ops as [|o ops IH]; intros im; cbn [all_ops]; [auto|]. intros [A B]. split; auto.
Qed.

Lemma session_tidy im ops : consistent_tidy im -> all_ops legal_op im ops ->
  let (im', m') := run im (fs_of im) ops in consistent_tidy im' /\ answers im' m'.
Proof.
  intros C L. apply tidy_good in C. pose proof (session true ops im (fs_of im) C (good_answers _ _ C)) as S.
  destruct (run im (fs_of im) ops) as [im' m']. destruct S as [S1 S2].
  - revert L. apply all_ops_impl. intros i [n d|n|f]; cbn [legal_op op_ok]; auto.
  - split; [apply good_tidy; assumption|assumption].
Qed.
Lemma session_strict im ops : consistent im -> all_ops strict_op im ops ->
  let (im', m') := run im (fs_of im) ops in consistent im' /\ answers im' m'.
Proof.
  intros C L. apply consistent_good in C. pose proof (session false ops im (fs_of im) C (good_answers _ _ C)) as S.
  destruct (run im (fs_of im) ops) as [im' m']. destruct S as [S1 S2].
  - revert L. apply all_ops_impl. intros i [n d|n|f]; cbn [strict_op op_ok]; auto. discriminate.
  - split; [eapply good_consistent; eassumption|assumption].
Qed.
