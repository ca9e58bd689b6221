(** Editing a file of an Atari DOS disk in place: the links, the directory and the other
    files are not among the bytes of its segment. *)
From Verif Require Import Base BaseLemmas DiskModel DirLemmas AtariModel AtariSpec AtariGeom AtariDir AtariVtoc AtariChain AtariSectors AtariWrite AtariOps AtariMore AtariProps
  SegModel SegSpec SegProofs EditModel EditSpec EditProofs.

(** The places of a file's bytes in the image. *)
Definition order_of (g : geom) (b c : list Z) : list Z :=
  flat_map (fun n => zrange (spos g n) (spos g n + link_used (sector g b n))) c.

Lemma run_positions_chain g b c : run_positions (map (fun m => (spos g m, link_used (sector g b m))) c) = order_of g b c.
Proof. unfold run_positions, order_of. rewrite !flat_map_concat_map, map_map. reflexivity. Qed.

Section O.
  Variables (h : hdr) (b : list Z).
  Hypothesis G : hgeo h b.
  Hypothesis Hb : bytes_ok b.
  Let g := geom_of h.

  Definition fit (c : list Z) : Prop := Forall (fun n => 4 <= n <= h_max h /\ link_used (sector g b n) <= h_ssize h - 3) c.
  Lemma chain_fit f n c : chain g b f n c -> fit c.
  Proof.
    intros H. apply Forall_forall. intros m Hm. pose proof (chain_used _ _ _ _ _ H) as U. pose proof (chain_data _ _ _ _ _ H) as Dt.
    rewrite Forall_forall in U, Dt. split; [exact (data_in h m (Dt m Hm))|]. apply (U m Hm).
  Qed.
  Lemma In_order c p : In p (order_of g b c) <-> exists n, In n c /\ spos g n <= p < spos g n + link_used (sector g b n).
  Proof.
    unfold order_of. rewrite in_flat_map. split; intros (n & Hn & Hp); exists n; (split; [exact Hn|]); apply In_zrange; exact Hp.
  Qed.
  Lemma order_in_sector c p : fit c -> In p (order_of g b c) -> exists n, In n c /\ 4 <= n <= h_max h /\ spos g n <= p /\ p < spos g n + h_ssize h - 3.
  Proof.
    intros F H. apply In_order in H. destruct H as (n & Hn & Hp). unfold fit in F. rewrite Forall_forall in F. destruct (F n Hn) as (F1 & F2).
    exists n. split; [exact Hn|]. split; [exact F1|]. lia.
  Qed.
  Lemma order_chain_ok c : fit c -> NoDup c -> order_ok (zlen b) (order_of g b c).
  Proof.
    intros F N. split.
    - induction N as [|n c Hn N IH]; [constructor|]. inversion F as [|? ? F1 F2]; subst. specialize (IH F2). cbn [order_of flat_map].
      apply NoDup_join; [apply NoDup_zseq_nat|exact IH|]. intros p Hp Hq. apply In_zrange in Hp. fold (order_of g b c) in Hq.
      apply order_in_sector in Hq; [|exact F2]. destruct Hq as (m & Hm & M1 & M2 & M3). assert (Ne : n <> m) by congruence.
      pose proof (spos_apart h b G n m Ne) as A. fold g in A. lia.
    - apply Forall_forall. intros p Hp. apply order_in_sector in Hp; [|exact F]. destruct Hp as (n & _ & M1 & M2 & M3).
      pose proof (spos_bounds h b G n M1) as B. fold g in B. lia.
  Qed.
  Lemma contents_order c : fit c -> contents g b c = map (getb b) (order_of g b c).
  Proof.
    induction c as [|n c IH]; intros F; [reflexivity|]. inversion F as [|? ? (F1 & F2) F3]; subst. cbn [contents order_of flat_map].
    rewrite map_app. fold (contents g b c) (order_of g b c). rewrite (IH F3). f_equal.
    pose proof (spos_bounds h b G n F1) as B. fold g in B. pose proof (link_used_nonneg h b Hb n) as U. fold g in U.
    unfold sector at 1. rewrite (slice_slice b (spos g n) (spos g n + g_ss g) 0) by (change (g_ss g) with (h_ssize h); lia).
    rewrite slice_map_range by lia. f_equal. f_equal; lia.
  Qed.
End O.

Lemma disk_slots h b k : hgeo h b -> dos2_disk (geom_of h) b k -> k <= num_slots (geom_of h).
Proof. intros G D. pose proof (dk_k _ _ _ D). pose proof (num_slots_64 (geom_of h) ltac:(exact (proj1 (hg_ss _ _ G)))). lia. Qed.

(** The effect of changing bytes of one file only. *)
Section Frame.
  Variables (h : hdr) (b : list Z) (k : Z) (name : list Z) (i : Z) (c b' : list Z).
  Hypothesis G : hgeo h b.
  Hypothesis D : dos2_disk (geom_of h) b k.
  Let g := geom_of h.
  Hypothesis F : file_in g b k name i c.
  Hypothesis Hl : zlen b' = zlen b.
  Hypothesis Ho : bytes_ok b'.
  Hypothesis Hsame : forall p, 0 <= p < zlen b -> ~ In p (order_of g b c) -> getb b' p = getb b p.

  Lemma ef_fit : fit h b c.
  Proof. destruct F as (_ & _ & _ & C). exact (chain_fit h b _ _ _ C). Qed.
  Lemma ef_geo : hgeo h b'.
  Proof. exact (hgeo_zlen h b b' G Hl). Qed.
  Lemma ef_slice x y : 0 <= x -> x <= y -> y <= zlen b -> (forall p, x <= p < y -> ~ In p (order_of g b c)) -> slice b' x y = slice b x y.
  Proof.
    intros H1 H2 H3 H4. apply list_ext_getb; [rewrite !zlen_slice by lia; reflexivity|]. intros j Hj. rewrite zlen_slice in Hj by lia.
    rewrite !getb_slice by lia. apply Hsame; [lia|]. apply H4. lia.
  Qed.
  Lemma ef_other n : 4 <= n <= h_max h -> ~ In n c -> sector g b' n = sector g b n.
  Proof.
    intros Hn Hc. pose proof (spos_bounds h b G n Hn) as B. fold g in B. pose proof (hg_ss _ _ G). unfold sector. change (g_ss g) with (h_ssize h).
    apply ef_slice; try lia. intros p Hp Hin. apply (order_in_sector h b) in Hin; [|exact ef_fit]. destruct Hin as (m & Hm & M1 & M2 & M3). fold g in M2, M3.
    assert (Ne : n <> m) by congruence. pose proof (spos_apart h b G n m Ne) as A. fold g in A. lia.
  Qed.
  Lemma ef_tail n j : 4 <= n <= h_max h -> h_ssize h - 3 <= j < h_ssize h -> getb (sector g b' n) j = getb (sector g b n) j.
  Proof.
    intros Hn Hj. pose proof (spos_bounds h b G n Hn) as B. fold g in B. pose proof (hg_ss _ _ G). unfold sector. change (g_ss g) with (h_ssize h).
    rewrite !getb_slice by lia. apply Hsame; [lia|]. intros Hin. apply (order_in_sector h b) in Hin; [|exact ef_fit]. destruct Hin as (m & Hm & M1 & M2 & M3). fold g in M2, M3.
    destruct (Z.eq_dec n m) as [-> |Ne]; [lia|]. pose proof (spos_apart h b G n m Ne) as A. fold g in A. lia.
  Qed.
  Lemma ef_links n : 4 <= n <= h_max h -> link_file (sector g b' n) = link_file (sector g b n) /\
    (forall f, next_link f (sector g b' n) = next_link f (sector g b n)) /\ link_used (sector g b' n) = link_used (sector g b n).
  Proof.
    intros Hn. pose proof (hg_ss _ _ G). unfold link_file, next_link, link_next, link_used. rewrite (zlen_sector h b' ef_geo n Hn : zlen (sector g b' n) = _), (zlen_sector h b G n Hn : zlen (sector g b n) = _).
    rewrite !ef_tail by lia. split; [reflexivity|]. split; [|reflexivity]. intros f. reflexivity.
  Qed.
  Lemma ef_chain f n l : chain g b f n l -> chain g b' f n l.
  Proof.
    induction 1 as [n Hd Hf Hu H0|n l Hd Hf Hu Hni Hc IH]; destruct (ef_links n (data_in h n Hd)) as (L1 & L2 & L3).
    - apply chain_end; unfold carries in *; rewrite ?L1, ?L2, ?L3; assumption.
    - apply chain_more; unfold carries in *; rewrite ?L1, ?L2, ?L3; assumption.
  Qed.
  Lemma ef_chain_back f n l : chain g b' f n l -> chain g b f n l.
  Proof.
    induction 1 as [n Hd Hf Hu H0|n l Hd Hf Hu Hni Hc IH]; destruct (ef_links n (data_in h n Hd)) as (L1 & L2 & L3).
    - apply chain_end; unfold carries in *; rewrite ?L1, ?L2, ?L3 in *; assumption.
    - apply chain_more; unfold carries in *; rewrite ?L1, ?L2, ?L3 in *; assumption.
  Qed.
  Lemma ef_system n : 360 <= n <= 368 -> sector g b' n = sector g b n.
  Proof.
    intros Hn. pose proof (hg_max _ _ G). apply ef_other; [lia|]. destruct F as (_ & _ & _ & C). pose proof (chain_data _ _ _ _ _ C) as Dt.
    rewrite Forall_forall in Dt. intros Hin. destruct (Dt n Hin) as (_ & _ & X). lia.
  Qed.
  Lemma ef_slot j : 0 <= j < num_slots g -> slot g b' j = slot g b j.
  Proof. intros Hj. apply (slot_sectors h b' b j ef_geo G); [|exact Hj]. intros n Hn. apply ef_system. lia. Qed.
  Lemma ef_free n : free_bit g b' n = free_bit g b n.
  Proof. unfold free_bit. rewrite ef_system by lia. reflexivity. Qed.
  Lemma ef_order l : Forall (fun n => 4 <= n <= h_max h) l -> order_of g b' l = order_of g b l.
  Proof.
    intros H. unfold order_of. apply flat_map_ext_in. intros n Hn. rewrite Forall_forall in H. destruct (ef_links n (H n Hn)) as (_ & _ & ->). reflexivity.
  Qed.
  Lemma fit_range l : fit h b l -> Forall (fun n => 4 <= n <= h_max h) l.
  Proof. intros H. eapply Forall_impl; [|exact H]. cbn. tauto. Qed.
  Lemma ef_contents : contents g b' c = map (getb b') (order_of g b c).
  Proof.
    rewrite <- (ef_order c) by (apply fit_range, ef_fit). apply (contents_order h b' ef_geo Ho).
    destruct F as (_ & _ & _ & C). exact (chain_fit h b' _ _ _ (ef_chain _ _ _ C)).
  Qed.
  Lemma ef_slot_chain j l : 0 <= j < k -> slot_chain g b' j l <-> slot_chain g b j l.
  Proof.
    intros Hj. pose proof (disk_slots h b k G D : k <= num_slots g) as Hns. unfold slot_chain. rewrite ef_slot by lia. split; [|apply ef_chain].
    apply ef_chain_back.
  Qed.
  Lemma ef_contents_other j l : 0 <= j < k -> e_live (slot g b j) -> j <> i -> slot_chain g b j l -> contents g b' l = contents g b l.
  Proof.
    intros Hr Lj Hj C'. apply contents_frame. intros m Hm. pose proof (chain_data _ _ _ _ _ C') as Dt. rewrite Forall_forall in Dt.
    apply ef_other; [exact (data_in h m (Dt m Hm))|]. intros Hin. destruct F as (Hi & Li & _ & C). destruct (dk_files _ _ _ D j Hr Lj) as (Ap & _). exact (Ap i l c m Hi (fun Q => Hj (eq_sym Q)) Li C' C Hm Hin).
  Qed.
  Lemma ef_nonempty j n l : chain g b j n l -> contents g b l <> [] -> contents g b' l <> [].
  Proof.
    intros C' Ne. pose proof (chain_fit h b _ _ _ C') as Fl. pose proof (chain_fit h b' _ _ _ (ef_chain _ _ _ C')) as Fl'.
    pose proof (contents_order h b' ef_geo Ho l Fl') as E1. pose proof (contents_order h b G (dk_bytes _ _ _ D) l Fl) as E2. fold g in E1, E2.
    rewrite E1. rewrite E2 in Ne. rewrite ef_order by (apply fit_range; exact Fl). intros E. apply map_eq_nil in E. rewrite E in Ne. apply Ne. reflexivity.
  Qed.
  Lemma ef_disk : dos2_disk g b' k.
  Proof.
    pose proof (disk_slots h b k G D : k <= num_slots g) as Hns. pose proof (dk_k _ _ _ D) as Hk. constructor.
    - exact Ho.
    - exact (dk_ss _ _ _ D).
    - exact (dk_max _ _ _ D).
    - exact (dk_first _ _ _ D).
    - rewrite Hl. exact (dk_fit _ _ _ D).
    - rewrite ef_system by lia. exact (dk_vtoc _ _ _ D).
    - intros n Hn. rewrite ef_free. apply (dk_free _ _ _ D). exact Hn.
    - exact Hk.
    - intros j Hj. rewrite ef_slot by lia. apply (dk_used _ _ _ D). exact Hj.
    - intros j Hj. rewrite ef_slot by lia. apply (dk_unused _ _ _ D). exact Hj.
    - intros x y Hxy Hy L. rewrite (ef_slot y) in * by lia. rewrite ef_slot by lia. apply (dk_names _ _ _ D); assumption.
    - intros j Hj L. rewrite ef_slot in * by lia. destruct (dk_files _ _ _ D j Hj L) as (M1 & M2 & l & C & Ne & Fr).
      split; [|split; [exact M2|]].
      { intros j' c1 c2 n Hj' Hne Lj' C1 C2. rewrite ef_slot in Lj' by lia. apply (M1 j' c1 c2 n Hj' Hne Lj'); apply ef_slot_chain; assumption. }
      exists l. split; [apply ef_slot_chain; [lia|exact C]|]. split; [exact (ef_nonempty _ _ _ C Ne)|].
      intros n Hn H7. rewrite ef_free. apply Fr; assumption.
  Qed.
  Lemma ef_hdr : hdr_of b' = hdr_of b.
  Proof.
    apply hdr_of_same; [exact Hl|]. pose proof (hg_first _ _ G) as H1. fold g in H1. pose proof (spos_bounds h b G 4 ltac:(pose proof (hg_max _ _ G); lia)) as B. fold g in B.
    pose proof (hg_ss _ _ G). apply ef_slice; try lia. intros p Hp Hin. apply (order_in_sector h b) in Hin; [|exact ef_fit]. destruct Hin as (m & _ & M1 & M2 & _). fold g in M2.
    pose proof (spos_bounds h b G m M1) as B'. fold g in B'. lia.
  Qed.
  Lemma ef_view : view h b' k = with_bytes (view h b k) b'.
  Proof.
    pose proof (disk_slots h b k G D : k <= num_slots g) as Hns. pose proof (hg_max _ _ G).
    assert (Ee : entries h b' k = entries h b k).
    { unfold entries. apply map_ext_in. intros j Hj. apply In_zrange in Hj. pose proof (ef_slot j ltac:(lia)) as E. fold g. rewrite E. reflexivity. }
    unfold view, with_bytes. cbn [a_bytes a_hdr a_total a_free a_files a_sane a_fvtoc a_nvtoc a_vtoc2]. rewrite Ee.
    unfold vtoc_word. fold g. rewrite (ef_system 360) by lia.
    destruct (Z.eqb_spec (h_image_size h) 133120) as [E|E]; [|reflexivity].
    pose proof (hg_ed _ _ G E). rewrite (ef_other 1024); [reflexivity|lia|].
    destruct F as (_ & _ & _ & C). pose proof (chain_data _ _ _ _ _ C) as Dt. rewrite Forall_forall in Dt. intros Hin. destruct (Dt 1024 Hin) as (_ & X & _). lia.
  Qed.
  Lemma ef_file_in n j l : file_in g b k n j l <-> file_in g b' k n j l.
  Proof.
    pose proof (disk_slots h b k G D : k <= num_slots g) as Hns. unfold file_in. split; intros (Hj & L & N & C); rewrite ?ef_slot in * by lia; (split; [exact Hj|]); (split; [exact L|]); (split; [exact N|]).
    - apply ef_slot_chain; assumption.
    - apply ef_slot_chain; assumption.
  Qed.
End Frame.

(** * The file's segment *)
Lemma slots_unique h b k k' : hgeo h b -> dos2_disk (geom_of h) b k -> dos2_disk (geom_of h) b k' -> k = k'.
Proof.
  intros G D D'. pose proof (disk_slots h b k G D) as Q. pose proof (disk_slots h b k' G D') as Q'. pose proof (dk_k _ _ _ D). pose proof (dk_k _ _ _ D').
  destruct (Z.lt_total k k') as [Lt|[Eq|Gt]]; [exfalso|exact Eq|exfalso].
  - destruct (dk_used _ _ _ D' k ltac:(lia)) as (X & _). apply X, (dk_unused _ _ _ D). lia.
  - destruct (dk_used _ _ _ D k' ltac:(lia)) as (X & _). apply X, (dk_unused _ _ _ D'). lia.
Qed.
Lemma file_segment_chain h r hd b k im i c : hgeo hd b -> dos2_disk (geom_of hd) b k -> a_hdr im = hd -> a_bytes im = b ->
  0 <= i < k -> e_live (slot (geom_of hd) b i) -> slot_chain (geom_of hd) b i c ->
  file_segment h r im (parse_dirent hd i (slot (geom_of hd) b i)) = raw_indexed h r (to_numpy_list (order_of (geom_of hd) b c)).
Proof.
  intros G D Eh Eb Hi L C. set (g := geom_of hd) in *. set (d := parse_dirent hd i (slot g b i)).
  destruct (disk_meta hd b k G D) as (_ & _ & _ & _ & _ & Sane).
  destruct (dk_files _ _ _ D i Hi L) as (Hmy & _ & c' & C' & Ne & _). rewrite <- (chain_det _ _ _ _ _ C _ C') in Ne. clear c' C'.
  assert (Hs : d_sane d = true).
  { pose proof (sane_forallb hd b k Sane) as S. rewrite forallb_forall in S. specialize (S d).
    assert (Li : d_inuse d = true) by (apply d_inuse_live; exact L). rewrite Li in S. apply S. unfold entries. apply in_map_iff. exists i. split; [reflexivity|].
    apply In_zrange; lia. }
  assert (Hm : asks (d_my d) (d_num d) (owner (slot g b i) i)) by (apply asks_owner; lia).
  unfold file_segment, start_read. rewrite Hs. cbn [rbind]. rewrite Eh, Eb.
  destruct (chain_reads hd b G _ _ _ _ _ Hm C (chain_fuel hd) []) as [R _].
  - exact (chain_length hd b G _ _ _ C).
  - intros [].
  - intros m _ [].
  - change (d_start d) with (e_start (slot g b i)). rewrite R. cbn [rbind].
    pose proof (run_positions_chain g b c) as E. fold g in E |- *. rewrite E.
    destruct (order_of g b c) as [|p o] eqn:E0; [|reflexivity]. exfalso. apply Ne.
    pose proof (contents_order hd b G (dk_bytes _ _ _ D) c (chain_fit hd b _ _ _ C)) as E1. fold g in E1. rewrite E1, E0. reflexivity.
Qed.

(** The image object [im] with its raw data [r]. *)
Definition image_raw (h : heap) (r : raw) (b : list Z) : Prop :=
  raw_ok h r /\ NoDup (shows h r) /\ raw_len h r <= 2147483648 /\ read_data h r = b.
Lemma image_raw_len h r b : image_raw h r b -> zlen b = raw_len h r.
Proof. intros (R & _ & _ & <-). rewrite read_data_shows, zlen_map by exact R. apply zlen_shows, R. Qed.

Record file_edit (h : heap) (r : raw) (im : aimg) (n data : list Z) (seg : raw) (q vals : list Z) (h' : heap) (im' : aimg) : Prop := mkFE {
  fe_raw : image_raw h' r (a_bytes im');
  fe_consistent : consistent im';
  fe_listing : listing im' = listing im;
  fe_read : find_file im' n = Ok (patch data q vals);
  fe_others : forall m, m <> n -> find_file im' m = find_file im m;
  fe_sectors : forall m s, sectors_of im' m s <-> sectors_of im m s;
  fe_free : forall s, is_free_sector im' s <-> is_free_sector im s;
  fe_reported : a_free im' = a_free im;
  fe_segment : read_data h' seg = patch data q vals;
  fe_held : forall m d, find_name m (a_files im) = Some d -> find_name m (a_files im') = Some d /\ file_segment h' r im' d = file_segment h r im d;
  fe_bytes : forall c p, sectors_of im n c -> 0 <= p -> (forall s, In s c -> ~ in_sector (geom_of (a_hdr im)) s p) ->
    getb (a_bytes im') p = getb (a_bytes im) p;
  fe_styles : forall a, a <> r_data r -> arr h' a = arr h a
}.

Lemma find_name_listed hd b k m d : hgeo hd b -> dos2_disk (geom_of hd) b k -> find_name m (a_files (view hd b k)) = Some d ->
  exists i, 0 <= i < k /\ e_live (slot (geom_of hd) b i) /\ e_name (slot (geom_of hd) b i) = m /\ d = parse_dirent hd i (slot (geom_of hd) b i).
Proof.
  intros G D E. destruct (listed_dec hd b k m) as [(i & Hi & L & N)|Nl].
  - exists i. rewrite (find_name_view hd b k D m i Hi L N) in E. injection E as <-. auto.
  - exfalso. pose proof (find_file_missing hd b k m Nl) as X. unfold find_file in X. rewrite E in X.
    apply Nl. unfold view, entries in E. cbn [a_files] in E.
    assert (K : forall l, find_name m (filter d_inuse (map (fun i => parse_dirent hd i (slot (geom_of hd) b i)) l)) = Some d ->
      exists i, In i l /\ e_live (slot (geom_of hd) b i) /\ e_name (slot (geom_of hd) b i) = m).
    { induction l as [|x l IH]; cbn [map filter find_name]; [discriminate|]. destruct (d_inuse (parse_dirent hd x _)) eqn:Ei.
      - cbn [find_name]. destruct (zlist_eqb m _) eqn:En.
        + intros _. apply zlist_eqb_eq in En. rewrite e_name_filename in En. apply d_inuse_live in Ei. exists x. split; [left; reflexivity|]. auto.
        + intros Hf. destruct (IH Hf) as (i & Hi & Q). exists i. split; [right; exact Hi|exact Q].
      - intros Hf. destruct (IH Hf) as (i & Hi & Q). exists i. split; [right; exact Hi|exact Q]. }
    destruct (K _ E) as (i & Hi & Q). apply In_zrange in Hi. exists i. auto.
Qed.

Lemma file_edit_ok h r im n d data : consistent im -> image_raw h r (a_bytes im) ->
  find_name n (a_files im) = Some d -> find_file im n = Ok data ->
  exists seg, file_segment h r im d = Ok seg /\ raw_ok h seg /\ read_data h seg = data /\
    forall c ps e, Forall sel_ok c -> choose_all (zrange 0 (zlen data)) c = Some ps -> how_ok ps e ->
    exists h', assign_in h seg c e = (h', Ok tt) /\
      file_edit h r im n data seg (targets ps e) (values e) h' (with_bytes im (read_data h' r)).
Proof.
  intros Co Ir Ed Ef. destruct (consistent_view im Co) as (k & Ei & G & D & Hh). pose proof (image_raw_len _ _ _ Ir) as Hlen. destruct Ir as (R & Nd & Hl & Rb).
  set (hd := a_hdr im) in *. set (b := a_bytes im) in *. set (g := geom_of hd) in *.
  rewrite Ei in Ed, Ef. destruct (find_name_listed hd b k n d G D Ed) as (i & Hi & L & N & Ed').
  destruct (dk_files _ _ _ D i Hi L) as (_ & _ & c & C & Ne & Fr).
  assert (F : file_in g b k n i c) by (split; [exact Hi|]; auto).
  pose proof (find_of_file_in hd b k n i c G D F) as Ef'. rewrite Ef in Ef'. injection Ef' as Edata. fold g in Edata.
  pose proof (chain_fit hd b _ _ _ C) as Fc. pose proof (order_chain_ok hd b G c Fc (chain_NoDup _ _ _ _ _ C)) as Oc.
  pose proof (contents_order hd b G (dk_bytes _ _ _ D) c Fc) as Ec. fold g in Oc, Ec. set (o := order_of g b c) in *.
  rewrite Hlen in Oc. destruct (order_segment h r o R Hl Oc) as (seg & Es & Rs & Ss & D1 & D2 & D3 & Rd).
  assert (Zd : zlen data = zlen o) by (rewrite Edata, Ec, zlen_map; reflexivity).
  exists seg. split; [rewrite Ed'; rewrite (file_segment_chain h r hd b k im i c) by (try assumption; reflexivity); exact Es|]. split; [exact Rs|].
  split; [rewrite Rd, Rb, Edata, Ec; reflexivity|].
  intros w ps e Hw Hps He. rewrite Zd in Hps. destruct (edit_window h r o seg w ps e R Nd Hl Oc Es Hw Hps He) as (h' & Ea & W).
  exists h'. split; [exact Ea|]. set (q := targets ps e) in *. set (b' := read_data h' r).
  assert (Hq : Forall (fun x => 0 <= x < zlen o) q).
  { apply Forall_forall. intros x Hx. apply (targets_in ps e He) in Hx. apply (choose_all_in _ _ _ Hps) in Hx. apply In_zrange in Hx. exact Hx. }
  assert (Hl' : zlen b' = zlen b) by (unfold b'; rewrite (ed_len _ _ _ _ _ _ W), Rb; reflexivity).
  assert (Hb' : bytes_ok b').
  { apply (edited_bytes_ok h r o q (values e) h' R W); [rewrite Rb; exact (dk_bytes _ _ _ D)|apply He]. }
  assert (Hsame : forall p, 0 <= p < zlen b -> ~ In p o -> getb b' p = getb b p).
  { intros p Hp Hn. unfold b'. rewrite (edited_other h r o q _ h' p W Hq) by (try assumption; lia). rewrite Rb. reflexivity. }
  assert (Hpatch : map (getb b') o = patch data q (values e)).
  { unfold b'. rewrite (edited_bytes h r o q _ h' R Oc W Hq). rewrite Rb, <- Ec, <- Edata. reflexivity. }
  pose proof (ef_disk hd b k n i c b' G D F Hl' Hb' Hsame) as D'. pose proof (ef_geo hd b b' G Hl') as G'.
  pose proof (ef_hdr hd b k n i c b' G F Hl' Hsame) as Hh'. rewrite Hh in Hh'.
  pose proof (ef_view hd b k n i c b' G D F Hl' Hsame) as Ev. rewrite <- Ei in Ev.
  pose proof (ef_contents hd b k n i c b' G F Hl' Hb' Hsame) as Ec'. fold g o in Ec'.
  pose proof (fun m j l => ef_file_in hd b k n i c b' G D F Hl' Hsame m j l) as Fin. fold g in Fin.
  assert (Sl : forall j, 0 <= j < k -> slot g b' j = slot g b j).
  { intros j Hj. apply (ef_slot hd b k n i c b' G F Hl' Hsame). pose proof (disk_slots hd b k G D). zl. }
  assert (Hsec : forall m s, sectors_of (with_bytes im b') m s <-> sectors_of im m s).
  { intros m s. unfold sectors_of. cbn [with_bytes a_hdr a_bytes]. fold hd b g. split; intros (k1 & j & K1 & K2); exists k, j.
    - split; [exact D|]. apply Fin. rewrite <- (slots_unique hd b' k1 k G' K1 D'). exact K2.
    - split; [exact D'|]. apply Fin. rewrite <- (slots_unique hd b k1 k G K1 D). exact K2. }
  constructor.
  - cbn [with_bytes a_bytes]. split; [exact (ed_ok _ _ _ _ _ _ W)|]. split; [rewrite (ed_shows _ _ _ _ _ _ W); exact Nd|].
    split; [destruct (ed_raws _ _ _ _ _ _ W r R) as (_ & _ & ->); exact Hl|reflexivity].
  - fold b'. rewrite <- Ev. apply view_consistent; assumption.
  - reflexivity.
  - fold b'. rewrite <- Ev, (find_of_file_in hd b' k n i c G' D'); [|apply Fin; exact F]. fold g. rewrite Ec', Hpatch. reflexivity.
  - intros m Hm. fold b'. rewrite <- Ev. rewrite Ei.
    destruct (find_view hd b k m G D) as [(j & l & Fj & ->)|(Nl & ->)].
    + rewrite (find_of_file_in hd b' k m j l G' D') by (apply Fin; exact Fj). f_equal.
      destruct Fj as (Hj & Lj & Nj & Cj). apply (ef_contents_other hd b k n i c b' G D F Hl' Hsame j l Hj Lj); [|exact Cj]. intros ->. apply Hm. congruence.
    + apply find_file_missing. intros (j & Hj & Lj & Nj). apply Nl. exists j. fold g in Lj, Nj |- *. rewrite (Sl j Hj) in Lj, Nj. auto.
  - exact Hsec.
  - intros s. unfold is_free_sector. cbn [with_bytes a_hdr a_bytes]. fold hd b g b'.
    pose proof (ef_free hd b k n i c b' G F Hl' Hsame s) as E1. fold g in E1. rewrite E1. reflexivity.
  - reflexivity.
  - destruct (ed_raws _ _ _ _ _ _ W seg Rs) as (Rs' & Ss' & _). rewrite (read_data_shows h' seg Rs'), Ss', Ss, D1.
    rewrite <- Hpatch. unfold b'. rewrite (read_data_shows h' r (ed_ok _ _ _ _ _ _ W)), (ed_shows _ _ _ _ _ _ W), map_map. apply map_ext_in. intros p Hp.
    destruct Oc as (_ & Oc). rewrite Forall_forall in Oc. rewrite getb_map by (rewrite zlen_shows by exact R; apply Oc; exact Hp). reflexivity.
  - intros m d0 Hd0. split; [exact Hd0|]. rewrite Ei in Hd0. destruct (find_name_listed hd b k m d0 G D Hd0) as (j & Hj & Lj & Nj & ->).
    destruct (dk_files _ _ _ D j Hj Lj) as (_ & _ & l & Cl & _).
    pose proof (proj2 (ef_slot_chain hd b k n i c b' G D F Hl' Hsame j l Hj) Cl) as Cl'. fold g in Lj, Cl, Cl'.
    rewrite (file_segment_chain h r hd b k im j l) by (try assumption; reflexivity). fold g.
    assert (Es' : slot g b j = slot g b' j) by (symmetry; apply Sl; exact Hj). rewrite Es' at 1.
    pose proof (file_segment_chain h' r hd b' k (with_bytes im b') j l G' D' eq_refl eq_refl Hj) as X. fold g in X.
    rewrite <- Es' in X at 1. specialize (X Lj Cl'). fold b'. rewrite X.
    pose proof (ef_order hd b k n i c b' G F Hl' Hsame l (fit_range hd b l (chain_fit hd b _ _ _ Cl))) as E2. fold g in E2. rewrite E2.
    unfold raw_indexed. destruct (ed_raws _ _ _ _ _ _ W r R) as (_ & _ & ->). reflexivity.
  - intros c0 p Hc0 Hp Hn. cbn [with_bytes a_bytes]. fold b b'. destruct Hc0 as (k1 & j & K1 & (Hj & Lj & Nj & Cj)). fold hd b g in K1, Lj, Nj, Cj, Hn.
    destruct (Z_lt_dec p (zlen b)) as [Lp|Lp]; [|unfold getb; rewrite !nth_overflow by (unfold zlen in *; lia); reflexivity].
    assert (j = i) as ->.
    { rewrite (slots_unique hd b k1 k G K1 D) in Hj. fold g in L, N. apply (live_unique g b k j i D Hj Hi Lj L). congruence. }
    rewrite (chain_det _ _ _ _ _ Cj _ C) in Hn. apply Hsame; [lia|]. intros Hin. apply (order_in_sector hd b c p Fc) in Hin. destruct Hin as (s & Hs & S1 & S2 & S3).
    apply (Hn s Hs). unfold in_sector. change (g_ss g) with (h_ssize hd). fold g in S2, S3. lia.
  - exact (ed_arr _ _ _ _ _ _ W).
Qed.
