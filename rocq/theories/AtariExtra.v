(** More about reading Atari images: cross-linked files, entries that cannot be
    right, and MyDOS files whose links form a cycle. *)
From Verif Require Import Base BaseLemmas DiskModel Loops AtariModel AtariSpec AtariGeom AtariDir AtariVtoc AtariHeader AtariProps.

(** * Cross-linked files *)
Definition sector_bytes (h : hdr) (b : list Z) (n : Z) (raw : list Z) : Prop :=
  exists p s, get_pos h n = Ok (p, s) /\ raw = slice b p (p + s) /\ 3 <= zlen raw.
(** Following the links from [n], all sectors of [c] carry the file number
    [fno], and the next one carries another number. *)
Inductive stray (h : hdr) (b : list Z) (fno : Z) : Z -> list Z -> Prop :=
| stray_here n raw :
    sector_bytes h b n raw -> link_file raw <> fno -> stray h b fno n []
| stray_more n raw c :
    sector_bytes h b n raw -> link_file raw = fno -> link_next raw <> 0 -> ~ In n c ->
    stray h b fno (link_next raw) c -> stray h b fno n (n :: c).

Lemma sector_bytes_det h b n r r' : sector_bytes h b n r -> sector_bytes h b n r' -> r = r'.
Proof. intros (p & s & E & -> & _) (p' & s' & E' & -> & _). rewrite E in E'. injection E' as <- <-. reflexivity. Qed.
Lemma read_sector_bytes h b f n seen raw : sector_bytes h b n raw ->
  exists p, read_sector h b false f n seen =
    if negb (link_file raw =? f) then Err (EAtr FileNumberMismatch164)
    else if zmem (link_next raw) (n :: seen) then Err (EAtr InvalidFile)
    else Ok (link_next raw, n :: seen, p, link_used raw).
Proof.
  intros (p & s & E & -> & L). exists p. unfold read_sector, get_raw_bytes. rewrite E. cbn [rbind].
  replace (zlen (slice b p (p + s)) <? 3) with false by lia. reflexivity.
Qed.
Lemma stray_first h b f n c : stray h b f n c ->
  (c = [] /\ exists raw, sector_bytes h b n raw /\ link_file raw <> f) \/ (exists c', c = n :: c').
Proof. intros [m raw S F|m raw c' S F N I St]; [left; eauto|right; eauto]. Qed.
Lemma stray_read h b f n c : stray h b f n c -> forall fuel seen,
  (length c < fuel)%nat -> (forall m, In m c -> ~ In m seen) ->
  (forall m, In m seen -> exists raw, sector_bytes h b m raw /\ link_file raw = f) ->
  read_runs fuel h b false f n seen = Err (EAtr FileNumberMismatch164).
Proof.
  induction 1 as [n raw S F|n raw c S F N I St IH]; intros fuel seen Hl Hs Hf.
  - destruct fuel as [|fuel]; [lia|]. cbn [read_runs]. destruct (read_sector_bytes h b f n seen raw S) as (p & ->).
    replace (negb (link_file raw =? f)) with true by lia. reflexivity.
  - destruct fuel as [|fuel]; [lia|]. cbn [read_runs]. destruct (read_sector_bytes h b f n seen raw S) as (p & ->).
    replace (negb (link_file raw =? f)) with false by lia.
    assert (Z0 : zmem (link_next raw) (n :: seen) = false).
    { apply not_true_is_false. intros Z0. apply zmem_In in Z0.
      destruct (stray_first _ _ _ _ _ St) as [(-> & raw2 & S2 & F2)|(c' & ->)].
      - destruct Z0 as [E|Z0].
        + rewrite <- E in S2. rewrite (sector_bytes_det _ _ _ _ _ S2 S) in F2. contradiction.
        + destruct (Hf _ Z0) as (raw3 & S3 & F3). rewrite (sector_bytes_det _ _ _ _ _ S2 S3) in F2. contradiction.
      - destruct Z0 as [E|Z0].
        + apply I. left. symmetry. exact E.
        + apply (Hs (link_next raw)); [right; left; reflexivity|exact Z0]. }
    rewrite Z0. cbn [rbind]. replace (link_next raw =? 0) with false by lia.
    rewrite IH; [reflexivity|cbn [length] in Hl; lia| |].
    + intros m Hm [E|Hseen]; [subst m; contradiction|]. apply (Hs m); [right; exact Hm|exact Hseen].
    + intros m [<-|Hm]; [exists raw; split; assumption|apply Hf; assumption].
Qed.
Lemma stray_length h b f n c : 0 <= h_max h -> stray h b f n c ->
  (length c <= Z.to_nat (h_max h))%nat.
Proof.
  intros Hm St.
  assert (A : NoDup c /\ Forall (fun m => 1 <= m <= h_max h) c).
  { induction St as [n raw S F|n raw c S F N I St IH]; [split; constructor|]. destruct IH as [I1 I2].
    split; [constructor; assumption|]. constructor; [|exact I2]. destruct S as (p & s & E & _).
    destruct (get_pos_valid h n Hm) as [_ X]. destruct (Z_le_dec 1 n), (Z_le_dec n (h_max h)); try lia;
      (rewrite X in E by lia; discriminate E). }
  destruct A as [A B]. 
  assert (L : (length c <= length (zrange 1 (h_max h + 1)))%nat).
  { apply NoDup_incl_length; [exact A|]. intros x Hx. rewrite Forall_forall in B. apply In_zrange. specialize (B x Hx). lia. }
  unfold zrange in L. rewrite length_zseq_nat in L. lia.
Qed.
Lemma stray_get_file im d c : 0 <= h_max (a_hdr im) -> d_sane d = true -> d_my d = false ->
  stray (a_hdr im) (a_bytes im) (d_num d) (d_start d) c -> get_file im d = Err (EAtr FileNumberMismatch164).
Proof.
  intros Hm Hs Hmy St. unfold get_file, get_file_fuel, start_read. rewrite Hs, Hmy. cbn [rbind].
  rewrite (stray_read _ _ _ _ _ St); [reflexivity| |intros m _ []|intros m []].
  pose proof (stray_length _ _ _ _ _ Hm St). unfold chain_fuel. lia.
Qed.
(** A file that reads consists of sectors carrying its number. *)
Inductive walk (h : hdr) (b : list Z) (fno : Z) : Z -> list Z -> Prop :=
| walk_end n raw : sector_bytes h b n raw -> link_file raw = fno -> link_next raw = 0 -> walk h b fno n [n]
| walk_more n raw c : sector_bytes h b n raw -> link_file raw = fno -> walk h b fno (link_next raw) c -> walk h b fno n (n :: c).
Lemma read_runs_walk fuel h b f : forall n seen runs, read_runs fuel h b false f n seen = Ok runs -> exists c, walk h b f n c.
Proof.
  induction fuel as [|fuel IH]; intros n seen runs E; [discriminate|]. cbn [read_runs] in E.
  unfold read_sector, get_raw_bytes in E. destruct (get_pos h n) as [[p s]|e] eqn:P; cbn [rbind] in E; [|discriminate].
  destruct (Z.ltb_spec (zlen (slice b p (p + s))) 3) as [L|L]; [discriminate|].
  assert (S : sector_bytes h b n (slice b p (p + s))) by (exists p, s; auto).
  fold (link_file (slice b p (p + s))) in E. fold (link_next (slice b p (p + s))) in E.
  destruct (Z.eqb_spec (link_file (slice b p (p + s))) f) as [F|F]; cbn [negb] in E; [|discriminate].
  destruct (zmem _ _); [discriminate|]. cbn [rbind] in E.
  destruct (Z.eqb_spec (link_next (slice b p (p + s))) 0) as [N|N].
  - exists [n]. apply (walk_end _ _ _ n (slice b p (p + s))); assumption.
  - destruct (read_runs fuel h b false f (link_next (slice b p (p + s))) (n :: seen)) as [rest|e] eqn:R; [|discriminate].
    destruct (IH _ _ _ R) as (c & W). exists (n :: c). apply (walk_more _ _ _ n (slice b p (p + s))); assumption.
Qed.
Lemma get_file_walk im d data : d_my d = false -> get_file im d = Ok data ->
  exists c, walk (a_hdr im) (a_bytes im) (d_num d) (d_start d) c.
Proof.
  intros Hmy E. unfold get_file, get_file_fuel in E. rewrite Hmy in E. destruct (start_read d); cbn [rbind] in E; [|discriminate].
  destruct (read_runs _ _ _ _ _ _ _) as [runs|e] eqn:R; [|discriminate]. apply (read_runs_walk _ _ _ _ _ _ _ R).
Qed.

(** * Entries of an opened image *)
Lemma parse_dirents_in fuel h : forall num b d, In d (fst (parse_dirents fuel h num b)) ->
  exists num' e, d = parse_dirent h num' e /\ zlen e = 16.
Proof.
  induction fuel as [|fuel IH]; intros num b d; cbn [parse_dirents]; [destruct b; intros []|].
  destruct b as [|x b]; [intros []|]. destruct (Z.eqb_spec (zlen (slice (x :: b) 0 16)) 16) as [L|L]; [|intros []]. cbn [negb].
  destruct (_ && _); [intros []|]. pose proof (IH (num + 1) (slice (x :: b) 16 (zlen (x :: b))) d) as IH'.
  destruct (parse_dirents fuel h (num + 1) _) as [ds err]. cbn [fst] in *. intros [<-|Hd]; [eauto 10|].
  destruct (IH' Hd) as (n' & e & E1 & E3). exists n', e. auto.
Qed.
Lemma opened_entries b im d : bytes_ok b -> open_image b = Ok im -> In d (a_files im) ->
  d_inuse d = true /\ d_sane d = true /\ 1 <= d_start d <= h_max (a_hdr im) /\ d_count d <= h_max (a_hdr im).
Proof.
  intros Hb Ho Hd. pose proof Ho as Ho'. destruct (open_image_inv b im Ho') as (h & Hh & Ebytes & _).
  assert (Hm : 0 <= h_max h) by (destruct (hdr_of_facts b h Hb Hh) as (_ & _ & X & _); exact X).
  revert Ho. unfold open_image. unfold hdr_of in Hh. cbv zeta in Hh. rewrite Hh. cbn [rbind].
  unfold get_metadata. set (im0 := mkA b h 0 0 [] true 360 1 0).
  assert (HV : a_hdr (fst (get_vtoc im0)) = h).
  { unfold get_vtoc. repeat match goal with |- context [match ?x with _ => _ end] => destruct x end; reflexivity. }
  destruct (get_vtoc im0) as [im1 [u|e]]; [|discriminate]. cbn [fst] in HV.
  unfold get_directory. destruct (get_sectors (a_hdr im1) (a_bytes im1) 361 368) as [db|e]; [|discriminate].
  pose proof (parse_dirents_in (length db) (a_hdr im1) 0 db) as PI.
  destruct (parse_dirents (length db) (a_hdr im1) 0 db) as [ds [e|]]; [discriminate|]. cbn [a_sane fst] in *.
  destruct (a_sane im1 && forallb _ ds) eqn:Es; [|discriminate]. intros E. injection E as <-.
  cbn [a_files a_hdr] in *. rewrite HV in *. apply filter_In in Hd. destruct Hd as [Hd Hu].
  apply andb_prop in Es. destruct Es as [_ Es]. rewrite forallb_forall in Es. specialize (Es d Hd). rewrite Hu in Es. cbn [negb orb] in Es.
  split; [exact Hu|]. split; [exact Es|]. destruct (PI d Hd) as (num & e & Ed & _).
  rewrite Ed in *. unfold parse_dirent in *. cbn [d_sane d_inuse d_start d_count] in *. unfold sanity in Es. rewrite Hu in Es.
  cbn [negb] in Es. destruct (sector_valid h _) eqn:V; cbn [negb] in Es; [|discriminate]. unfold sector_valid in V. lia.
Qed.

(** * MyDOS *)
Section My.
  Variables (h : hdr) (b : list Z) (fno : Z).
  Hypothesis Hmax : 0 <= h_max h.
  Definition my_next (n : Z) : Z :=
    match read_sector h b true fno n [] with Ok (nx, _, _, _) => nx | Err _ => 0 end.
  Definition my_good (n : Z) : bool :=
    match read_sector h b true fno n [] with Ok (nx, _, _, _) => negb (nx =? 0) | Err _ => false end.
  Lemma my_read n : read_sector h b true fno n [] =
    match get_pos h n with
    | Ok (p, s) => if zlen (slice b p (p + s)) <? 3 then Err EIndex
                   else Ok (my_next n, [], p, getb (slice b p (p + s)) (zlen (slice b p (p + s)) - 1))
    | Err e => Err e
    end.
  Proof.
    unfold my_next, read_sector, get_raw_bytes. destruct (get_pos h n) as [[p s]|e]; cbn [rbind]; [|reflexivity].
    destruct (zlen (slice b p (p + s)) <? 3); reflexivity.
  Qed.
  Lemma my_good_range n : my_good n = true -> 0 < n < Z.of_nat (S (Z.to_nat (h_max h))).
  Proof.
    unfold my_good. rewrite my_read. intros G. destruct (get_pos_valid h n Hmax) as [_ X].
    destruct (Z_le_dec 1 n), (Z_le_dec n (h_max h)); try lia; (rewrite X in G by lia; discriminate G).
  Qed.
  Lemma my_fuel m n : read_runs m h b true fno n [] = Err EFuel <-> alive my_next my_good m n = true.
  Proof.
    revert n. induction m as [|m IH]; intros n; cbn [read_runs alive]; [tauto|].
    unfold my_good. rewrite my_read. destruct (get_pos h n) as [[p s]|e] eqn:P; cbn [rbind andb].
    - destruct (zlen (slice b p (p + s)) <? 3) eqn:L; cbn [rbind andb]; [split; discriminate|].
      destruct (Z.eqb_spec (my_next n) 0); cbn [negb andb]; [split; discriminate|]. rewrite <- IH.
      destruct (read_runs m h b true fno (my_next n) []) as [r|e]; cbn [rbind]; [split; discriminate|]. split; congruence.
    - unfold get_pos in P. destruct (negb (sector_valid h n)); [injection P as <-; split; discriminate|].
      destruct (n <=? h_ninit h); discriminate P.
  Qed.
  Lemma my_more m m' n : (m <= m')%nat -> read_runs m h b true fno n [] <> Err EFuel ->
    read_runs m' h b true fno n [] = read_runs m h b true fno n [].
  Proof.
    revert m' n. induction m as [|m IH]; intros m' n Hm X; [exfalso; apply X; reflexivity|].
    destruct m' as [|m']; [lia|]. cbn [read_runs] in *. rewrite my_read in *. destruct (get_pos h n) as [[p s]|e]; cbn [rbind] in *; [|reflexivity].
    destruct (zlen (slice b p (p + s)) <? 3); cbn [rbind] in *; [reflexivity|]. destruct (my_next n =? 0); [reflexivity|].
    rewrite IH; [reflexivity|lia|]. intros E. apply X. rewrite E. reflexivity.
  Qed.
End My.
Lemma mydos_dichotomy im d : 0 <= h_max (a_hdr im) -> d_my d = true ->
  (get_file im d <> Err EFuel /\
   forall fuel, (chain_fuel (a_hdr im) <= fuel)%nat -> get_file_fuel fuel im d = get_file im d) \/
  (forall fuel, get_file_fuel fuel im d = Err EFuel).
Proof.
  intros Hm My. unfold get_file. set (h := a_hdr im) in *. set (b := a_bytes im).
  destruct (start_read d) as [u|e] eqn:Es.
  2:{ left. unfold get_file_fuel. rewrite Es. split; [|reflexivity]. unfold start_read in Es. destruct (d_sane d); [discriminate|].
      injection Es as <-. discriminate. }
  assert (Dec : read_runs (chain_fuel h) h b true (d_num d) (d_start d) [] = Err EFuel \/
                read_runs (chain_fuel h) h b true (d_num d) (d_start d) [] <> Err EFuel).
  { destruct (read_runs (chain_fuel h) h b true (d_num d) (d_start d) []) as [r|e]; [right; discriminate|].
    destruct e; (left; reflexivity) || (right; discriminate) || idtac. all: right; intros X; discriminate X. }
  destruct Dec as [F|F].
  - right. intros fuel. unfold get_file_fuel. rewrite Es. cbn [rbind]. fold h b. rewrite My.
    assert (X : read_runs fuel h b true (d_num d) (d_start d) [] = Err EFuel).
    { apply my_fuel. apply (alive_forever _ _ _ (my_good_range h b (d_num d) Hm)). apply my_fuel. exact F. }
    rewrite X. reflexivity.
  - left. split.
    + unfold get_file_fuel. rewrite Es. cbn [rbind]. fold h b. rewrite My.
      destruct (read_runs (chain_fuel h) h b true (d_num d) (d_start d) []) as [r|e]; cbn [rbind]; [|congruence].
      destruct (forallb _ r); [discriminate|]. unfold indexed_bytes. destruct (forallb _ _); discriminate.
    + intros fuel Hf. unfold get_file_fuel. rewrite Es. cbn [rbind]. fold h b. rewrite My.
      rewrite (my_more h b (d_num d) (chain_fuel h) fuel _ Hf F). reflexivity.
Qed.

(** * Directory entries that cannot be right *)
Lemma first_zero (f : Z -> Z) n : forall m, 0 <= m -> (forall i, 0 <= i < n -> f i <> 0) -> 0 <= n ->
  exists k, n <= k <= n + m /\ (forall i, 0 <= i < k -> f i <> 0) /\ (k < n + m -> f k = 0).
Proof.
  intros m Hm. revert n. pattern m. apply natlike_ind; [| |exact Hm].
  - intros n H Hn. exists n. split; [lia|]. split; [exact H|lia].
  - clear m Hm. intros m Hm IH n H Hn. destruct (Z.eq_dec (f n) 0) as [E|E].
    + exists n. split; [lia|]. split; [exact H|intros _; exact E].
    + destruct (IH (n + 1)) as (k & K1 & K2 & K3); [|lia|].
      * intros i Hi. destruct (Z.eq_dec i n) as [->|]; [exact E|apply H; lia].
      * exists k. split; [lia|]. split; [exact K2|intros; apply K3; lia].
Qed.
Lemma insane_refused b h i :
  hdr_of b = Ok h -> hgeo h b -> 0 <= i < num_slots (geom_of h) ->
  (forall j, 0 <= j <= i -> e_flag (slot (geom_of h) b j) <> 0) ->
  e_live (slot (geom_of h) b i) ->
  (~ 1 <= e_start (slot (geom_of h) b i) <= h_max h \/ h_max h < e_count (slot (geom_of h) b i)) ->
  exists e, open_image b = Err e.
Proof.
  intros Hh G Hi Hj Hl Hbad. destruct (open_image b) as [im|e] eqn:Ho; [exfalso|eauto].
  destruct (first_zero (fun j => e_flag (slot (geom_of h) b j)) (i + 1) (num_slots (geom_of h) - (i + 1))) as (k & K1 & K2 & K3);
    [lia|intros j Hj'; apply Hj; lia|lia|].
  revert Ho. unfold open_image. unfold hdr_of in Hh. cbv zeta in Hh. rewrite Hh. cbn [rbind]. unfold get_metadata.
  destruct (get_vtoc (mkA b h 0 0 [] true 360 1 0)) as [im1 r1] eqn:V. apply get_vtoc_keeps in V.
  cbn [a_bytes a_hdr a_files] in V. destruct V as (V1 & V2 & _). destruct r1 as [u|e]; [|discriminate].
  rewrite (get_directory_spec im1 k); rewrite ?V1, ?V2; try assumption; try lia; try (intros X; apply K3; lia).
  cbn [a_sane]. destruct (a_sane im1 && _) eqn:Es; [|discriminate]. intros _.
  apply andb_prop in Es. destruct Es as [_ Es]. rewrite forallb_forall in Es.
  specialize (Es (parse_dirent h i (slot (geom_of h) b i))).
  assert (In (parse_dirent h i (slot (geom_of h) b i)) (entries h b k)) as Hin
    by (unfold entries; apply in_map_iff; exists i; split; [reflexivity|apply In_zrange; lia]).
  specialize (Es Hin). unfold parse_dirent in Es. cbn [d_inuse d_sane] in Es.
  apply flag_bit_has in Hl. unfold e_flag in Hl. cbv zeta in Es. rewrite Hl in Es. cbn [negb orb] in Es. unfold sanity in Es. cbn [negb] in Es.
  fold (e_start (slot (geom_of h) b i)) in Es. fold (e_count (slot (geom_of h) b i)) in Es. unfold sector_valid in Es.
  destruct G. revert Es. destruct (_ || _) eqn:V; cbn [negb]; [|discriminate]. intros Es. lia.
Qed.

(** * Reported totals *)
Lemma opened_totals b im : bytes_ok b -> open_image b = Ok im ->
  exists p s, get_pos (a_hdr im) 360 = Ok (p, s) /\
    a_total im = le2 (getb b (p + 1)) (getb b (p + 2)) /\
    (h_image_size (a_hdr im) <> 133120 -> a_free im = le2 (getb b (p + 3)) (getb b (p + 4))) /\
    (h_image_size (a_hdr im) = 133120 -> exists q t, get_pos (a_hdr im) 1024 = Ok (q, t) /\
       a_free im = (le2 (getb b (p + 3)) (getb b (p + 4)) + le2 (getb b (q + 122)) (getb b (q + 123))) mod 65536).
Proof.
  intros Hb Ho. destruct (open_image_hdr b im Ho) as [Eh _]. 
  assert (Hpos : forall n p s, get_pos (a_hdr im) n = Ok (p, s) -> 0 <= p).
  { intros n p s. intros E. destruct (get_pos_inside b _ n p s Hb Eh E) as [X _]. pose proof (hdr_of_facts b _ Hb Eh). lia. }
  revert Ho. unfold open_image. pose proof Eh as Eh'. unfold hdr_of in Eh'. cbv zeta in Eh'. rewrite Eh'. cbn [rbind]. unfold get_metadata.
  set (h := a_hdr im) in *.
  destruct (get_vtoc (mkA b h 0 0 [] true 360 1 0)) as [im1 [u|e]] eqn:V; [|discriminate].
  destruct (get_directory im1) as [im2 [ds|e]] eqn:D; [|discriminate].
  assert (K : a_total im2 = a_total im1 /\ a_free im2 = a_free im1).
  { unfold get_directory in D. destruct (get_sectors _ _ 361 368); [|discriminate]. destruct (parse_dirents _ _ _ _) as [x [y|]]; [discriminate|].
    injection D as <- _. split; reflexivity. }
  destruct (a_sane im2); [|discriminate]. intros E. injection E as <-. destruct K as [-> ->]. clear D.
  unfold get_vtoc in V. cbn [a_hdr a_bytes a_total a_free a_files a_sane a_fvtoc a_nvtoc a_vtoc2] in V.
  unfold get_sectors, get_sector_slice in V. replace (Z.to_nat (360 - 360)) with O in V by lia.
  replace (Z.to_nat (1024 - 1024)) with O in V by lia. cbn [more_sectors] in V.
  destruct (get_pos h 360) as [[p s]|e] eqn:P; cbn [rbind] in V; [|discriminate].
  exists p, s. split; [reflexivity|]. pose proof (Hpos _ _ _ P) as Hp.
  destruct (Z.ltb_spec (zlen (slice b p (p + (s + 0)))) 5) as [L|L]; [discriminate|].
  assert (Hs : 5 <= s).
  { pose proof (zlen_slice_min b p (p + (s + 0)) Hp). lia. }
  cbv zeta in V. destruct (negb _); [discriminate|]. destruct (_ || _); [discriminate|].
  rewrite !getb_slice in V by lia.
  destruct (Z.eqb_spec (h_image_size h) 133120) as [E|E].
  - destruct (get_pos h 1024) as [[q t]|e] eqn:Q; cbn [rbind] in V; [|discriminate]. pose proof (Hpos _ _ _ Q) as Hq.
    destruct (Z.ltb_spec (zlen (slice b q (q + (t + 0)))) 124) as [L2|L2]; [discriminate|].
    pose proof (zlen_slice_min b q (q + (t + 0)) Hq). rewrite !getb_slice in V by lia.
    injection V as <- _. cbn [a_total a_free]. split; [reflexivity|]. split; [intros X; contradiction|].
    intros _. exists q, t. split; reflexivity.
  - injection V as <- _. cbn [a_total a_free]. split; [reflexivity|]. split; [reflexivity|contradiction].
Qed.
