(** Reading files: sector chains and lookup by name. *)
From Verif Require Import Base BaseLemmas DiskModel DirLemmas AtariModel AtariSpec AtariGeom AtariDir AtariVtoc.

Lemma chain_data g b f n c : chain g b f n c -> Forall (data_sector g) c.
Proof. induction 1; repeat constructor; try apply H; assumption. Qed.
Lemma chain_NoDup g b f n c : chain g b f n c -> NoDup c.
Proof. induction 1; constructor; auto; constructor. Qed.
Lemma chain_head g b f n c : chain g b f n c -> exists c', c = n :: c'.
Proof. destruct 1; eauto. Qed.
Lemma chain_start g b f n c : chain g b f n c -> data_sector g n.
Proof. destruct 1; assumption. Qed.
Lemma chain_used g b f n c : chain g b f n c ->
  Forall (fun m => carries f (sector g b m) /\ link_used (sector g b m) <= g_ss g - 3) c.
Proof. induction 1; (constructor; [split; assumption|]); [constructor|assumption]. Qed.
Lemma chain_det g b f n c : chain g b f n c -> forall c', chain g b f n c' -> c = c'.
Proof.
  induction 1 as [n Hd Hf Hu H0|n c Hd Hf Hu Hni Hc IH]; intros c' H'; inversion H'; subst.
  - reflexivity.
  - match goal with H : chain _ _ _ (next_link _ _) _ |- _ => apply chain_start in H; rewrite H0 in H;
      unfold data_sector in H; lia end.
  - match goal with H : next_link _ _ = 0 |- _ => rewrite H in Hc end. apply chain_start in Hc.
    unfold data_sector in Hc; lia.
  - f_equal. apply IH. assumption.
Qed.

(** A chain depends only on its own sectors. *)
Lemma chain_frame g b b' f n c : chain g b f n c ->
  (forall m, In m c -> sector g b' m = sector g b m) -> chain g b' f n c.
Proof.
  induction 1 as [n Hd Hf Hu H0|n c Hd Hf Hu Hni Hc IH]; intros E.
  - rewrite <- (E n) in * by (left; reflexivity). constructor; assumption.
  - pose proof (E n ltac:(left; reflexivity)) as En. rewrite <- En in Hf, Hu.
    apply chain_more; try assumption. rewrite En. apply IH. intros; apply E; right; assumption.
Qed.
Lemma contents_frame g b b' c :
  (forall m, In m c -> sector g b' m = sector g b m) -> contents g b' c = contents g b c.
Proof. intros E. apply flat_map_ext_in. intros m Hm. rewrite E by assumption. reflexivity. Qed.

Section Read.
  Variables (h : hdr) (b : list Z).
  Hypothesis G : hgeo h b.
  Hypothesis Hb : bytes_ok b.
  Let g := geom_of h.

  Lemma data_in n : data_sector g n -> 4 <= n <= h_max h.
  Proof. intros (H & _). exact H. Qed.

  Lemma get_raw_in n : 4 <= n <= h_max h ->
    get_raw_bytes h b n = Ok (sector g b n, spos g n, h_ssize h).
  Proof. intros Hn. unfold get_raw_bytes. rewrite (get_pos_in h b G) by assumption. reflexivity. Qed.

  (** [my], [i]: how the code asks for the sectors that carry [f]. *)
  Definition asks (my : bool) (i f : Z) : Prop := 0 <= i /\ f = if my then -1 else i.
  Lemma asks_owner e i : 0 <= i -> asks (flag_bit (e_flag e) 4) i (owner e i).
  Proof. intros Hi. split; [exact Hi|]. unfold owner, flag_bit. pose proof (Z.mod_pos_bound (e_flag e / 4) 2 ltac:(lia)). destruct (_ =? 1) eqn:E1, (0 <? _) eqn:E2; lia. Qed.

  Lemma read_sector_in my i f n seen : asks my i f -> 4 <= n <= h_max h -> carries f (sector g b n) ->
    zmem (next_link f (sector g b n)) (n :: seen) = false ->
    read_sector h b my i n seen
    = Ok (next_link f (sector g b n), if my then seen else n :: seen, spos g n, link_used (sector g b n)).
  Proof.
    intros [Hi Ef] Hn Hf Hz. unfold read_sector. rewrite get_raw_in by assumption. cbn [rbind].
    pose proof (zlen_sector h b G n Hn) as Hl. fold g in Hl.
    unfold carries, next_link, link_file, link_next, link_used in *.
    replace (zlen (sector g b n) <? 3) with false by (destruct G; lia).
    destruct my; subst f.
    - reflexivity.
    - destruct Hf as [Hf|Hf]; [lia|]. replace (i =? -1) with false in * by lia.
      rewrite Hf, Z.eqb_refl. cbn [negb]. rewrite Hz. reflexivity.
  Qed.

  Lemma chain_reads my i f n c : asks my i f -> chain g b f n c -> forall fuel seen,
    (length c <= fuel)%nat -> ~ In 0 seen -> (forall m, In m c -> ~ In m seen) ->
    read_runs fuel h b my i n seen
      = Ok (map (fun m => (spos g m, link_used (sector g b m))) c) /\
    read_nums fuel h b my i n seen = Ok c.
  Proof.
    intros A. induction 1 as [n Hd Hf Hu H0|n c Hd Hf Hu Hni Hc IH]; intros fuel seen Hl Hz Hs.
    - destruct fuel as [|fuel]; [cbn in Hl; lia|].
      cbn [read_runs read_nums]. rewrite (read_sector_in my i f); [|exact A|apply data_in; assumption|assumption|].
      + cbn [rbind]. rewrite H0. split; reflexivity.
      + rewrite H0. apply zmem_false. cbn [In]. destruct Hd as (Hd & _). intros [E|E]; [lia|auto].
    - destruct fuel as [|fuel]; [cbn in Hl; lia|].
      pose proof (chain_start _ _ _ _ _ Hc) as Hnx. destruct Hnx as (Hnx & _).
      destruct (chain_head _ _ _ _ _ Hc) as (c' & Ec).
      cbn [read_runs read_nums]. rewrite (read_sector_in my i f); [|exact A|apply data_in; assumption|assumption|].
      + cbn [rbind]. replace (next_link f (sector g b n) =? 0) with false by lia.
        destruct (IH fuel (if my then seen else n :: seen)) as [I1 I2].
        * cbn in Hl; lia.
        * destruct my; [exact Hz|]. cbn [In]. destruct Hd as (Hd & _). intros [E|E]; [lia|auto].
        * destruct my; [intros m Hm; apply Hs; right; exact Hm|]. intros m Hm [E|E]; [subst; auto|]. apply (Hs m); [right; assumption|assumption].
        * rewrite I1, I2. cbn [rbind map]. split; reflexivity.
      + apply zmem_false. intros [E|E].
        * apply Hni. rewrite Ec. left. congruence.
        * apply (Hs (next_link f (sector g b n))); [right; rewrite Ec; left; reflexivity|assumption].
  Qed.

  Lemma chain_length f n c : chain g b f n c -> (length c <= chain_fuel h)%nat.
  Proof.
    intros Hc. pose proof (chain_NoDup _ _ _ _ _ Hc) as Hn. pose proof (chain_data _ _ _ _ _ Hc) as Hd.
    assert (Hi : incl c (zrange 0 (h_max h + 1))).
    { intros x Hx. apply In_zrange. rewrite Forall_forall in Hd. specialize (Hd x Hx).
      apply data_in in Hd. lia. }
    pose proof (NoDup_incl_length Hn Hi) as L. unfold chain_fuel.
    unfold zrange in L. rewrite length_zseq_nat in L. destruct G. lia.
  Qed.

  Lemma link_used_nonneg n : 0 <= link_used (sector g b n) < 256.
  Proof. apply bytes_ok_getb. apply bytes_ok_slice. assumption. Qed.

  Lemma runs_bytes f n c : chain g b f n c ->
    flat_map (fun r => slice b (fst r) (fst r + snd r))
      (map (fun m => (spos g m, link_used (sector g b m))) c) = contents g b c.
  Proof.
    intros Hc. unfold contents. rewrite flat_map_concat_map, map_map, <- flat_map_concat_map.
    apply flat_map_ext_in. intros m Hm. cbn [fst snd].
    pose proof (chain_used _ _ _ _ _ Hc) as U. pose proof (chain_data _ _ _ _ _ Hc) as D.
    rewrite Forall_forall in U, D. destruct (U m Hm) as [_ Hu]. pose proof (data_in m (D m Hm)) as Hin.
    pose proof (spos_bounds h b G m Hin) as B. fold g in B.
    pose proof (link_used_nonneg m).
    rewrite (slice_slice b (spos g m) (spos g m + g_ss g) 0) by lia.
    f_equal; lia.
  Qed.

  Lemma runs_fit f n c : chain g b f n c ->
    forallb (fun r => (snd r =? 0) || (fst r + snd r <=? zlen b))
      (map (fun m => (spos g m, link_used (sector g b m))) c) = true.
  Proof.
    intros Hc. apply forallb_forall. intros r Hr. apply in_map_iff in Hr. destruct Hr as (m & <- & Hm).
    cbn [fst snd]. pose proof (chain_used _ _ _ _ _ Hc) as U. pose proof (chain_data _ _ _ _ _ Hc) as D.
    rewrite Forall_forall in U, D. destruct (U m Hm) as [_ Hu]. pose proof (data_in m (D m Hm)) as Hin.
    pose proof (spos_bounds h b G m Hin) as B. fold g in B. change (g_ss g) with (h_ssize h) in Hu. lia.
  Qed.

  Lemma runs_zero f n c : chain g b f n c -> contents g b c <> [] ->
    forallb (fun r => snd r =? 0) (map (fun m => (spos g m, link_used (sector g b m))) c) = false.
  Proof.
    intros Hc Hne. destruct (forallb _ _) eqn:E; [|reflexivity]. exfalso. apply Hne.
    rewrite forallb_forall in E. unfold contents.
    assert (K : forall l, (forall m, In m l -> In m c) ->
       flat_map (fun m => slice (sector g b m) 0 (link_used (sector g b m))) l = []).
    { induction l as [|m l IH]; intros Hl; [reflexivity|]. cbn [flat_map].
      rewrite IH by (intros; apply Hl; right; assumption). rewrite app_nil_r.
      specialize (E (spos g m, link_used (sector g b m))). cbn [snd] in E.
      rewrite slice_empty; [reflexivity|]. enough (link_used (sector g b m) =? 0 = true) by lia.
      apply E. apply in_map_iff. exists m. split; [reflexivity|]. apply Hl; left; reflexivity. }
    apply K. auto.
  Qed.

  Lemma get_file_chain im d f c : a_hdr im = h -> a_bytes im = b -> d_sane d = true -> asks (d_my d) (d_num d) f ->
    chain g b f (d_start d) c -> contents g b c <> [] ->
    get_file im d = Ok (contents g b c).
  Proof.
    intros Eh Eb Hs Hm Hc Hne. unfold get_file, get_file_fuel, start_read. rewrite Hs. cbn [rbind].
    rewrite Eh, Eb.
    destruct (chain_reads _ _ _ _ _ Hm Hc (chain_fuel h) []) as [R _].
    - eapply chain_length; eassumption.
    - intros [].
    - intros m _ [].
    - rewrite R. cbn [rbind]. rewrite (runs_zero _ _ _ Hc Hne).
      unfold indexed_bytes. rewrite (runs_fit _ _ _ Hc), (runs_bytes _ _ _ Hc). reflexivity.
  Qed.
End Read.

(** * Lookup *)
(** File [name] of the disk is in slot [i] and occupies the sectors [c]. *)
Definition file_in (g : geom) (b : list Z) (k : Z) (name : list Z) (i : Z) (c : list Z) : Prop :=
  0 <= i < k /\ e_live (slot g b i) /\ e_name (slot g b i) = name /\
  slot_chain g b i c.
Definition listed (g : geom) (b : list Z) (k : Z) (name : list Z) : Prop :=
  exists i, 0 <= i < k /\ e_live (slot g b i) /\ e_name (slot g b i) = name.

(** Files without MyDOS flag share no sector, their sectors carrying their number. *)
Lemma owner_dos2 e i : ~ flag_has e 4 -> owner e i = i.
Proof. unfold flag_has, owner. intros H. destruct (_ =? 1) eqn:E; [lia|reflexivity]. Qed.
Lemma apart_dos2 g b i j c c' n : 0 <= i -> 0 <= j -> j <> i -> ~ flag_has (slot g b i) 4 -> ~ flag_has (slot g b j) 4 ->
  slot_chain g b i c -> slot_chain g b j c' -> In n c -> ~ In n c'.
Proof.
  intros Hi Hj Hne Mi Mj Ci Cj I1 I2. unfold slot_chain in *. rewrite owner_dos2 in Ci, Cj by assumption.
  apply chain_used in Ci. apply chain_used in Cj. rewrite Forall_forall in Ci, Cj.
  destruct (Ci n I1) as [[A|A] _], (Cj n I2) as [[B|B] _]; lia.
Qed.
Lemma slot_chain_det g b i c c' : slot_chain g b i c -> slot_chain g b i c' -> c = c'.
Proof. intros C C'. exact (chain_det _ _ _ _ _ C _ C'). Qed.

(** The facts about the header that, with [dos2_disk], make an opened image. *)
Definition hdr_good (h : hdr) (b : list Z) : Prop :=
  hdr_of b = Ok h /\ hgeo h b.

Lemma num_slots_64 g : 128 <= g_ss g -> 64 <= num_slots g.
Proof. intros. unfold num_slots. apply Z.div_le_lower_bound; lia. Qed.

Lemma disk_meta h b k : hgeo h b -> dos2_disk (geom_of h) b k -> meta_ok h b k.
Proof.
  intros G D. destruct D. pose proof (num_slots_64 (geom_of h) ltac:(lia)).
  split; [assumption|]. split; [assumption|]. split; [lia|].
  split; [intros i Hi; apply dk_used; assumption|].
  split; [intros Hk; apply dk_unused; lia|].
  intros i Hi Hl. destruct (dk_files i Hi Hl) as (_ & Hcnt & c & Hc & _).
  pose proof (chain_start _ _ _ _ _ Hc) as (S1 & _).
  split; [apply sector_valid_in; assumption|]. split; [|assumption].
  assert (B : bytes_ok (slot (geom_of h) b i)) by (apply bytes_ok_slice; assumption).
  pose proof (le2_range _ _ (bytes_ok_getb _ 1 B) (bytes_ok_getb _ 2 B)). unfold e_count. lia.
Qed.

Lemma find_name_map {X} (f : X -> dirent) (name : list Z) l x :
  In x l -> d_inuse (f x) = true -> filename (f x) = name ->
  (forall y, In y l -> d_inuse (f y) = true -> filename (f y) = name -> f y = f x) ->
  find_name name (filter d_inuse (map f l)) = Some (f x).
Proof.
  intros Hin Hl Hn Hu. induction l as [|y l IH]; [destruct Hin|].
  cbn [map filter]. destruct (d_inuse (f y)) eqn:E.
  - cbn [find_name]. destruct (zlist_eqb name (filename (f y))) eqn:En.
    + f_equal. apply Hu; [left; reflexivity|assumption|]. apply zlist_eqb_eq in En. congruence.
    + destruct Hin as [->|Hin].
      * apply zlist_eqb_neq in En. congruence.
      * apply IH; [assumption|]. intros z Hz. apply Hu. right; assumption.
  - destruct Hin as [->|Hin]; [congruence|]. apply IH; [assumption|].
    intros z Hz. apply Hu. right; assumption.
Qed.
Lemma find_name_none {X} (f : X -> dirent) (name : list Z) l :
  (forall y, In y l -> d_inuse (f y) = true -> filename (f y) <> name) ->
  find_name name (filter d_inuse (map f l)) = None.
Proof.
  intros Hu. induction l as [|y l IH]; [reflexivity|].
  cbn [map filter]. destruct (d_inuse (f y)) eqn:E.
  - cbn [find_name]. destruct (zlist_eqb name (filename (f y))) eqn:En.
    + apply zlist_eqb_eq in En. exfalso. apply (Hu y); [left; reflexivity|assumption|congruence].
    + apply IH. intros z Hz. apply Hu. right; assumption.
  - apply IH. intros z Hz. apply Hu. right; assumption.
Qed.

Lemma live_unique g b k i j : dos2_disk g b k -> 0 <= i < k -> 0 <= j < k ->
  e_live (slot g b i) -> e_live (slot g b j) -> e_name (slot g b i) = e_name (slot g b j) -> i = j.
Proof.
  intros D Hi Hj Li Lj E. destruct (Z.lt_total i j) as [H|[H|H]]; [|assumption|]; exfalso.
  - apply (dk_names _ _ _ D i j); try lia; assumption.
  - apply (dk_names _ _ _ D j i); try lia; auto.
Qed.

Section Find.
  Variables (h : hdr) (b : list Z) (k : Z).
  Hypothesis G : hgeo h b.
  Hypothesis D : dos2_disk (geom_of h) b k.
  Let g := geom_of h.

  Lemma find_name_view name i : 0 <= i < k -> e_live (slot g b i) -> e_name (slot g b i) = name ->
    find_name name (a_files (view h b k)) = Some (parse_dirent h i (slot g b i)).
  Proof.
    intros Hi Hl Hn. unfold view, entries. cbn [a_files].
    apply (find_name_map (fun i => parse_dirent h i (slot (geom_of h) b i))).
    - apply In_zrange; lia.
    - apply d_inuse_live; assumption.
    - rewrite e_name_filename. assumption.
    - intros j Hj Lj Nj. apply In_zrange in Hj. apply d_inuse_live in Lj. rewrite e_name_filename in Nj.
      fold g in Lj, Nj.
      assert (i = j) by (apply (live_unique g b k); auto; congruence). subst; reflexivity.
  Qed.

  Lemma find_file_in name i c : file_in g b k name i c ->
    contents g b c <> [] -> find_file (view h b k) name = Ok (contents g b c).
  Proof.
    intros (Hi & Hl & Hn & Hc) Hne. unfold find_file.
    rewrite (find_name_view name i Hi Hl Hn).
    destruct (disk_meta h b k G D) as (_ & _ & _ & _ & _ & Sane).
    apply (get_file_chain h b G (dk_bytes _ _ _ D) _ _ (owner (slot g b i) i)); try reflexivity; try assumption.
    - pose proof (sane_forallb h b k Sane) as S. rewrite forallb_forall in S.
      specialize (S (parse_dirent h i (slot g b i))).
      assert (L : d_inuse (parse_dirent h i (slot g b i)) = true) by (apply d_inuse_live; assumption).
      rewrite L in S. apply S. unfold entries. apply in_map_iff. exists i. split; [reflexivity|].
      apply In_zrange; lia.
    - apply asks_owner. lia.
  Qed.

  Lemma find_file_missing name : ~ listed g b k name ->
    find_file (view h b k) name = Err (EAtr FileNotFound).
  Proof.
    intros Hn. unfold find_file. replace (find_name name (a_files (view h b k))) with (@None dirent); [reflexivity|].
    symmetry. unfold view, entries. cbn [a_files].
    apply (find_name_none (fun i => parse_dirent h i (slot (geom_of h) b i))).
    intros j Hj Lj Nj. apply In_zrange in Hj. apply d_inuse_live in Lj. rewrite e_name_filename in Nj.
    apply Hn. exists j. auto.
  Qed.

  Lemma listed_dec name : listed g b k name \/ ~ listed g b k name.
  Proof.
    destruct (existsb (fun i => flag_bit (e_flag (slot g b i)) 64 && zlist_eqb (e_name (slot g b i)) name)
                      (zrange 0 k)) eqn:E.
    - left. apply existsb_exists in E. destruct E as (i & Hi & E). apply In_zrange in Hi.
      apply andb_true_iff in E. destruct E as [E1 E2]. apply flag_bit_has in E1.
      apply zlist_eqb_eq in E2. exists i. auto.
    - right. intros (i & Hi & Hl & Hn).
      assert (existsb (fun i => flag_bit (e_flag (slot g b i)) 64 && zlist_eqb (e_name (slot g b i)) name)
                      (zrange 0 k) = true); [|congruence].
      apply existsb_exists. exists i. split; [apply In_zrange; lia|].
      apply andb_true_iff. split; [apply flag_bit_has; assumption|apply zlist_eqb_eq; assumption].
  Qed.
  Lemma listed_file name : listed g b k name ->
    exists i c, file_in g b k name i c /\ contents g b c <> [] /\
      (forall n, In n c -> n < 720 -> free_bit g b n = 0).
  Proof.
    intros (i & Hi & Hl & Hn). destruct (dk_files _ _ _ D i Hi Hl) as (_ & _ & c & Hc & Hne & Hfr).
    exists i, c. split; [|auto]. unfold file_in. auto.
  Qed.
End Find.
