(** Which exceptions a SpartaDOS boot record can lead to. *)
From Verif Require Import Base BaseLemmas Loops DiskModel AtariModel AtariSpec AtariGeom AtariHeader SpartaModel SpartaSpec SpartaProofs SpartaProofs2 SpartaLoops DetectModel DetectSpec DetectProofs DetectErrors DetectErrors2.

(** * Specification *)

(** The bytes of a sector; none for a number that is no sector of the disk. *)
Definition sector_of (h : hdr) (b : list Z) (n : Z) : list Z :=
  match get_sectors h b n n with Ok s => s | Err _ => [] end.
Definition on_disk (h : hdr) (n : Z) : Prop := 1 <= n <= h_max h.

(** The entries of the sector map that starts at sector [n]. *)
Inductive map_from (h : hdr) (b : list Z) : Z -> list Z -> Prop :=
| from_last n : on_disk h n -> map_next (sector_of h b n) = 0 ->
    map_from h b n (map_entries (sector_of h b n))
| from_more n m : on_disk h n -> map_next (sector_of h b n) <> 0 ->
    map_from h b (map_next (sector_of h b n)) m ->
    map_from h b n (map_entries (sector_of h b n) ++ m).
(** A map whose sectors go in a circle *)
Definition endless_map (h : hdr) (b : list Z) (n : Z) : Prop :=
  forall i, on_disk h (Nat.iter i (fun s => map_next (sector_of h b s)) n).
(** A map without the 0 that ends the list of the sectors of the file *)
Definition unended_map (h : hdr) (b : list Z) (n : Z) : Prop := exists m, map_from h b n m /\ ~ In 0 m.

(** The root directory: [len] is the length that its first entry gives, [dir] as many of its
    bytes as there are in its sectors. *)
Definition root_dir (h : hdr) (b : list Z) (len : Z) (dir : list Z) : Prop :=
  exists m ds, map_from h b (boot_word (geom_of h) b 9) m /\ names m ds /\ Forall (on_disk h) ds /\ ds <> [] /\
    len = se_len (flat_map (sector_of h b) ds) /\ 0 < len < 8388608 /\
    dir = firstn (Z.to_nat len) (flat_map (sector_of h b) ds).

(** The reasons for another exception than the library's *)
Inductive sparta_cause (h : hdr) (b : list Z) : exn -> Prop :=
| no_directory : boot_word (geom_of h) b 9 = 0 -> sparta_cause h b EType
| empty_directory m : map_from h b (boot_word (geom_of h) b 9) (0 :: m) -> sparta_cause h b EAttribute
| circle_directory : endless_map h b (boot_word (geom_of h) b 9) -> sparta_cause h b EFuel
| unended_directory : unended_map h b (boot_word (geom_of h) b 9) -> sparta_cause h b EIndex
| cut_entry len dir : root_dir h b len dir -> zlen dir mod 23 <> 0 -> sparta_cause h b EValue
| missing_entry len dir : root_dir h b len dir -> zlen dir < len -> zlen dir mod 23 = 0 -> sparta_cause h b EIndex
| deleted_nowhere len dir i : root_dir h b len dir -> 1 <= i -> 23 * i + 23 <= zlen dir ->
    ~ se_live (s_entry dir i) -> se_start (s_entry dir i) = 0 -> sparta_cause h b EType
| circle_file len dir i : root_dir h b len dir -> 1 <= i -> 23 * i + 23 <= zlen dir ->
    endless_map h b (se_start (s_entry dir i)) -> sparta_cause h b EFuel
| unended_file len dir i : root_dir h b len dir -> 1 <= i -> 23 * i + 23 <= zlen dir ->
    unended_map h b (se_start (s_entry dir i)) -> sparta_cause h b EIndex.

(** * Proofs *)
Section Rec.
  Variables (b : list Z) (h : hdr).
  Hypothesis Hb : bytes_ok b.
  Hypothesis Hh : atari_header b = Ok h.
  Hypothesis Hss : 128 <= h_ssize h.
  Hypothesis Hev : h_ssize h mod 2 = 0.
  Hypothesis His : h_isize h = 0 \/ h_isize h = 128.

  Lemma max_nonneg : 0 <= h_max h.
  Proof. destruct (hdr_of_facts b h Hb Hh) as (_ & _ & F & _). exact F. Qed.
  Lemma pos_err n x : get_pos h n = Err x -> is_atr x = true.
  Proof. unfold get_pos. destruct (negb _); [intros H; injection H as <-; reflexivity|destruct (n <=? h_ninit h); discriminate]. Qed.
  Lemma get_err n x : get_sectors h b n n = Err x -> is_atr x = true.
  Proof.
    unfold get_sectors, get_sector_slice. destruct (get_pos h n) as [[p s]|y] eqn:P; cbn [rbind].
    - rewrite Z.sub_diag. discriminate.
    - intros H. injection H as <-. exact (pos_err n y P).
  Qed.
  Lemma pos_on n p s : get_pos h n = Ok (p, s) -> on_disk h n /\ sector_of h b n = slice b p (p + s) /\ zlen (sector_of h b n) = s /\
    128 <= s /\ 0 <= p /\ p + s <= zlen b /\ s mod 2 = 0.
  Proof.
    intros P. destruct (pos_size b h Hb Hh Hss n p s P) as (A & B & C). destruct (hdr_of_facts b h Hb Hh) as (_ & O & _).
    pose proof max_nonneg as M. assert (E : sector_of h b n = slice b p (p + s)).
    { unfold sector_of, get_sectors, get_sector_slice. rewrite P. cbn [rbind]. rewrite Z.sub_diag. cbn. rewrite Z.add_0_r. reflexivity. }
    split; [|split; [exact E|split; [rewrite E, zlen_slice; lia|repeat split; try lia]]].
    - unfold get_pos in P. destruct (sector_valid h n) eqn:V; [|discriminate P]. unfold sector_valid in V. unfold on_disk. lia.
    - unfold get_pos in P. destruct (negb _); [discriminate|]. destruct (n <=? h_ninit h); injection P as <- <-; [|exact Hev].
      destruct His as [-> | ->]; reflexivity.
  Qed.
  Lemma on_pos n : on_disk h n -> exists p s, get_pos h n = Ok (p, s).
  Proof. intros N. apply (proj1 (get_pos_valid h n max_nonneg) N). Qed.
  Lemma on_get n : on_disk h n -> get_sectors h b n n = Ok (sector_of h b n).
  Proof.
    intros N. destruct (on_pos n N) as (p & s & P). unfold sector_of. destruct (get_sectors h b n n) as [d|y] eqn:G; [reflexivity|].
    unfold get_sectors, get_sector_slice in G. rewrite P in G. cbn [rbind] in G. rewrite Z.sub_diag in G. discriminate.
  Qed.
  Lemma get_on n d : get_sectors h b n n = Ok d -> on_disk h n /\ d = sector_of h b n /\ 128 <= zlen d /\ zlen d mod 2 = 0.
  Proof.
    intros G. assert (E : d = sector_of h b n) by (unfold sector_of; rewrite G; reflexivity). unfold get_sectors, get_sector_slice in G.
    destruct (get_pos h n) as [[p s]|] eqn:P; [|discriminate]. destruct (pos_on n p s P) as (A & B & C & D & _ & _ & F). rewrite E, C. auto.
  Qed.
  Lemma bytes_sector n : bytes_ok (sector_of h b n).
  Proof.
    unfold sector_of, get_sectors. destruct (get_sector_slice h n n) as [[p q]|]; cbn [rbind]; [apply bytes_ok_slice; exact Hb|constructor].
  Qed.
  Lemma next_nonneg n : 0 <= map_next (sector_of h b n).
  Proof. unfold map_next. apply (le2_range _ _ (bytes_ok_getb _ 0 (bytes_sector n)) (bytes_ok_getb _ 1 (bytes_sector n))). Qed.

  Lemma map_loop_err : forall fuel n acc, 0 <= n ->
    match map_loop fuel h b n acc with
    | Ok r => n = 0 /\ r = acc \/ exists m, map_from h b n m /\ r = Some (match acc with None => m | Some a => a ++ m end)
    | Err x => is_atr x = true \/ x = EFuel
    end.
  Proof.
    induction fuel as [|fuel IH]; intros n acc Hn; cbn [map_loop]; destruct (Z.leb_spec n 0) as [L|L].
    - left. split; [lia|reflexivity].
    - right. reflexivity.
    - left. split; [lia|reflexivity].
    - destruct (get_sectors h b n n) as [d|y] eqn:G; cbn [rbind]; [|left; exact (get_err n y G)].
      destruct (get_on n d G) as (O & -> & L1 & L2). replace (zlen (sector_of h b n) <? 4) with false by lia.
      rewrite Zodd_mod, L2. change (Zeq_bool 0 1) with false. cbv iota.
      rewrite words_entries by lia. change (le2 (getb (sector_of h b n) 0) (getb (sector_of h b n) 1)) with (map_next (sector_of h b n)).
      specialize (IH (map_next (sector_of h b n)) (Some (match acc with None => map_entries (sector_of h b n) | Some m => m ++ map_entries (sector_of h b n) end)) (next_nonneg n)).
      destruct (map_loop fuel h b _ _) as [r|x]; [|exact IH]. right. destruct IH as [(E & ->)|(m & F & ->)].
      + exists (map_entries (sector_of h b n)). split; [apply from_last; assumption|]. destruct acc; reflexivity.
      + exists (map_entries (sector_of h b n) ++ m). split; [apply from_more; try assumption|destruct acc; [rewrite app_assoc|]; reflexivity].
        intros E. rewrite E in F. inversion F as [? Q|? ? Q]; unfold on_disk in Q; lia.
  Qed.
  Lemma at_iter f : forall i n, at_ f i n = Nat.iter i f n.
  Proof.
    assert (K : forall i n, Nat.iter i f (f n) = f (Nat.iter i f n)) by (induction i as [|i IH]; intros n; cbn [Nat.iter nat_rect] in *; [reflexivity|f_equal; apply IH]).
    induction i as [|i IH]; intros n; [reflexivity|]. cbn [at_]. rewrite IH. apply K.
  Qed.
  Lemma step_next n : on_disk h n -> step b h n = map_next (sector_of h b n).
  Proof. intros N. unfold step. rewrite (on_get n N). reflexivity. Qed.
  Lemma good_on n : good b h n = true -> on_disk h n.
  Proof.
    unfold good. intros G. apply andb_prop in G. destruct G as [_ G]. destruct (get_sectors h b n n) as [d|] eqn:E; [|discriminate].
    exact (proj1 (get_on n d E)).
  Qed.
  Lemma fuel_endless n : sector_map (sfuel b) h b n = Err EFuel -> endless_map h b n.
  Proof.
    intros E. unfold sector_map in E. apply loop_alive in E. destruct E as [A _].
    pose proof (alive_forever (step b h) (good b h) (S (length b)) (good_range b h Hb Hh) n A) as F.
    assert (G : forall i, on_disk h (at_ (step b h) i n)).
    { intros i. apply good_on. specialize (F (S i)). rewrite alive_at in F. apply F. lia. }
    intros i. rewrite <- at_iter. assert (K : at_ (fun s => map_next (sector_of h b s)) i n = at_ (step b h) i n).
    { clear F A. revert n G. induction i as [|i IH]; intros n G; [reflexivity|]. cbn [at_]. rewrite <- (step_next n (G 0%nat)). apply IH. intros j. apply (G (S j)). }
    rewrite K. apply G.
  Qed.
  Lemma map_err n x : 0 <= n -> sector_map (sfuel b) h b n = Err x -> is_atr x = true \/ (x = EFuel /\ endless_map h b n).
  Proof.
    intros Hn E. pose proof (map_loop_err (sfuel b) n None Hn) as K. unfold sector_map in E. rewrite E in K. destruct K as [K| ->]; [left; exact K|].
    right. split; [reflexivity|apply fuel_endless; exact E].
  Qed.
  Lemma map_ok n r : 0 <= n -> sector_map (sfuel b) h b n = Ok r -> (n = 0 /\ r = None) \/ exists m, map_from h b n m /\ r = Some m.
  Proof. intros Hn E. pose proof (map_loop_err (sfuel b) n None Hn) as K. unfold sector_map in E. rewrite E in K. exact K. Qed.
  Lemma from_nonempty n m : map_from h b n m -> m <> [].
  Proof.
    intros F. assert (K : forall k, on_disk h k -> map_entries (sector_of h b k) <> []).
    { intros k O. destruct (get_on k _ (on_get k O)) as (_ & _ & L & _). unfold map_entries. intros E. apply map_eq_nil in E.
      pose proof (zlen_zrange 0 ((zlen (sector_of h b k) - 4) / 2)) as Z. rewrite E in Z. change (zlen []) with 0 in Z.
      pose proof (Z.div_le_lower_bound (zlen (sector_of h b k) - 4) 2 1 ltac:(lia) ltac:(lia)). lia. }
    inversion F as [? O|? m' O _ _]; subst; [apply K; exact O|]. intros E. apply app_eq_nil in E. destruct E as [E _]. exact (K n O E).
  Qed.

  Lemma runs_err : forall m rem,
    match sread_runs h m rem with
    | Err x => is_atr x = true \/ (x = EIndex /\ ~ In 0 m)
    | Ok runs => exists ds, names m ds /\ Forall (on_disk h) ds /\
        forallb (fun r => (snd r =? 0) || (fst r + snd r <=? zlen b)) (sruns runs) = true /\
        (0 <= rem -> flat_map (fun r => slice b (fst r) (fst r + snd r)) (sruns runs) = firstn (Z.to_nat rem) (flat_map (sector_of h b) ds)) /\
        (0 < rem -> ds <> [] -> forallb (fun r => snd r =? 0) (sruns runs) = false)
    end.
  Proof.
    induction m as [|n m IH]; intros rem; cbn [sread_runs]; [right; split; [reflexivity|intros []]|].
    destruct (Z.eqb_spec n 0) as [->|Nz].
    { exists []. split; [exists m; split; [reflexivity|intros []]|]. split; [constructor|]. split; [reflexivity|]. split; [intros _; cbn [flat_map]; rewrite firstn_nil; reflexivity|]. intros _ H. destruct (H eq_refl). }
    destruct (get_pos h n) as [[p s]|y] eqn:P; cbn [rbind]; [|left; exact (pos_err n y P)].
    destruct (pos_on n p s P) as (O & E & L & A1 & A2 & A3 & _). specialize (IH (rem - Z.min rem s)).
    destruct (sread_runs h m (rem - Z.min rem s)) as [runs|x]; cbn [rbind].
    - destruct IH as (ds & (rest & -> & N) & F & V & C & _). exists (n :: ds). split; [exists rest; split; [reflexivity|]; intros [K|K]; [congruence|exact (N K)]|].
      split; [constructor; assumption|]. unfold sruns in *. cbn [map forallb flat_map fst snd]. split.
      + rewrite V, andb_true_r. lia.
      + split.
        * intros Hr. rewrite C by lia. rewrite firstn_zapp by lia. rewrite L, E. f_equal. rewrite slice_slice by lia. f_equal; lia.
        * intros Hr _. replace (Z.max 0 (Z.min rem s) =? 0) with false by lia. reflexivity.
    - destruct IH as [IH|(-> & N)]; [left; exact IH|]. right. split; [reflexivity|]. intros [K|K]; [congruence|exact (N K)].
  Qed.

  (** Reading an entry *)
  Lemma sget_err d x : 0 <= sd_start d -> sget_bytes (sfuel b) h b d = Err x ->
    is_atr x = true \/ (x = EType /\ sd_start d = 0) \/ (x = EFuel /\ endless_map h b (sd_start d)) \/ (x = EIndex /\ unended_map h b (sd_start d)).
  Proof.
    intros Hs. unfold sget_bytes, sfile_runs. destruct (sd_sane d); cbn [negb rbind]; [|intros H; injection H as <-; left; reflexivity].
    destruct (sector_map (sfuel b) h b (sd_start d)) as [r|y] eqn:M; cbn [rbind].
    - destruct (map_ok _ _ Hs M) as [(E & ->)|(m & F & ->)]; cbn [rbind]; [intros H; injection H as <-; auto|].
      pose proof (runs_err m (sd_length d)) as K. destruct (sread_runs h m (sd_length d)) as [runs|z]; cbn [rbind].
      + destruct K as (ds & _ & _ & V & _). unfold indexed_bytes. rewrite V. intros H. match type of H with (if ?c then _ else _) = _ => destruct c; discriminate H end.
      + intros H. injection H as <-. destruct K as [K|(-> & K)]; [left; exact K|]. right. right. right. split; [reflexivity|]. exists m. auto.
    - intros H. injection H as <-. destruct (map_err _ _ Hs M) as [K|K]; auto.
  Qed.
  Lemma sget_ok d s : 0 <= sd_start d -> 0 < sd_length d -> sget_bytes (sfuel b) h b d = Ok s ->
    exists m ds, map_from h b (sd_start d) m /\ names m ds /\ Forall (on_disk h) ds /\ (ds <> [] -> s = firstn (Z.to_nat (sd_length d)) (flat_map (sector_of h b) ds)).
  Proof.
    intros Hs Hl. unfold sget_bytes, sfile_runs. destruct (sd_sane d); cbn [negb rbind]; [|discriminate].
    destruct (sector_map (sfuel b) h b (sd_start d)) as [r|y] eqn:M; cbn [rbind]; [|discriminate].
    destruct (map_ok _ _ Hs M) as [(E & ->)|(m & F & ->)]; cbn [rbind]; [discriminate|].
    pose proof (runs_err m (sd_length d)) as K. destruct (sread_runs h m (sd_length d)) as [runs|z]; cbn [rbind]; [|discriminate].
    destruct K as (ds & N & O & V & C & Z). intros H. exists m, ds. split; [exact F|]. split; [exact N|]. split; [exact O|]. intros Hd.
    rewrite (Z Hl Hd) in H. unfold indexed_bytes in H. rewrite V in H. injection H as <-. apply C. lia.
  Qed.

  (** Entries *)
  Lemma entries_err : forall n num s i, 0 <= i -> 
    match sentries n h num s i with
    | Err x => exists j, (j < n)%nat /\ i + 23 * Z.of_nat j + 23 > zlen s /\
        (x = EIndex /\ zlen s <= i + 23 * Z.of_nat j /\ (j = 0%nat \/ zlen s = i + 23 * Z.of_nat j) \/ x = EValue /\ i + 23 * Z.of_nat j < zlen s)
    | Ok ds => forall d, In d ds -> exists j, (j < n)%nat /\ i + 23 * Z.of_nat j + 23 <= zlen s /\
        exists num', parse_sdirent h num' (slice s (i + 23 * Z.of_nat j) (i + 23 * Z.of_nat j + 23)) = Ok d
    end.
  Proof.
    induction n as [|n IH]; intros num s i Hi; cbn [sentries]; [intros d []|].
    pose proof (zlen_nonneg s) as Hz.
    destruct (parse_sdirent h num (slice s i (i + 23))) as [d|x] eqn:P; cbn [rbind].
    - assert (L : i + 23 <= zlen s).
      { unfold parse_sdirent in P. rewrite zlen_slice_min in P by lia. destruct (Z.le_gt_cases (i + 23) (zlen s)) as [L|L]; [exact L|].
        match type of P with (if ?c then _ else _) = _ => destruct c eqn:Q1 end; [discriminate|].
        match type of P with (if negb ?c then _ else _) = _ => destruct c eqn:Q2 end; [lia|discriminate]. }
      specialize (IH (num + 1) s (i + 23) ltac:(lia)). destruct (sentries n h (num + 1) s (i + 23)) as [r|y]; cbn [rbind].
      + intros d' [<-|Hd].
        * exists 0%nat. rewrite Z.mul_0_r, Z.add_0_r. split; [lia|]. split; [exact L|]. exists num. exact P.
        * destruct (IH d' Hd) as (j & J1 & J2 & num' & J3). exists (S j). replace (i + 23 * Z.of_nat (S j)) with (i + 23 + 23 * Z.of_nat j) by lia. split; [lia|]. split; [lia|]. exists num'. exact J3.
      + destruct IH as (j & J1 & J2 & J3). exists (S j). replace (i + 23 * Z.of_nat (S j)) with (i + 23 + 23 * Z.of_nat j) by lia. split; [lia|]. split; [exact J2|].
        destruct J3 as [(-> & J3 & J4)|J3]; [left|right; exact J3]. split; [reflexivity|]. split; [exact J3|]. right. destruct J4 as [-> |J4]; lia.
    - exists 0%nat. rewrite Z.mul_0_r, Z.add_0_r. split; [lia|]. unfold parse_sdirent in P. rewrite zlen_slice_min in P by lia.
      match type of P with (if ?c then _ else _) = _ => destruct c eqn:Q1 end; [injection P as <-; split; [lia|]; left; split; [reflexivity|]; split; [lia|left; reflexivity]|].
      match type of P with (if negb ?c then _ else _) = _ => destruct c eqn:Q2 end; [discriminate|]. injection P as <-. split; [lia|]. right. split; [reflexivity|lia].
  Qed.

  (** The boot record *)
  Lemma record_fields im : boot_sector_info b h = Ok im -> s_bytes im = b /\ s_hdr im = h /\ s_root im = boot_word (geom_of h) b 9.
  Proof.
    unfold boot_sector_info. intros E. destruct (get_sectors h b 1 1) as [d|] eqn:G; [|discriminate]. cbn [rbind] in E. cbv zeta in E.
    assert (P : exists s, get_pos h 1 = Ok (h_offset h, s)).
    { unfold get_sectors, get_sector_slice in G. destruct (get_pos h 1) as [[p s]|] eqn:P; [|discriminate]. exists s. f_equal. f_equal.
      destruct (hdr_of_facts b h Hb Hh) as (_ & _ & _ & _ & F5).
      unfold get_pos in P. destruct (negb _); [discriminate|]. destruct (Z.leb_spec 1 (h_ninit h)); injection P as <- <-; [lia|].
      destruct F5 as [(B1 & _)|(B1 & _)]; [lia|rewrite B1; lia]. }
    destruct P as (s & P). destruct (pos_on 1 _ _ P) as (O & Es & L & A & B & C & _). destruct (get_on 1 d G) as (_ & -> & _).
    destruct (zlen (slice (sector_of h b 1) 0 33) =? 0); [discriminate|]. destruct (negb _); [discriminate|].
    match type of E with (if ?c then _ else _) = _ => destruct c; [|discriminate] end. injection E as <-. cbn [s_bytes s_hdr s_root].
    split; [reflexivity|]. split; [reflexivity|]. unfold boot_word, boot_byte. cbn [geom_of g_off].
    rewrite !(getb_slice (sector_of h b 1)) by lia. rewrite Es, !getb_slice by lia. f_equal; f_equal; lia.
  Qed.
  Lemma root_nonneg : 0 <= boot_word (geom_of h) b 9.
  Proof. unfold boot_word. apply (le2_range _ _ (bytes_ok_getb b _ Hb) (bytes_ok_getb b _ Hb)). Qed.

  (** The length of the directory, and the same in the root entry *)
  Lemma signed_len e d num : bytes_ok e -> parse_sdirent h num e = Ok d -> sd_length d = se_len e /\ se_len e < 8388608 \/ sd_length d < 0.
  Proof.
    intros B P. unfold parse_sdirent in P. destruct (_ =? 0); [discriminate|]. destruct (negb _); [discriminate|]. apply (f_equal (fun r => match r with Ok x => sd_length x | Err _ => 0 end)) in P. cbv beta iota zeta in P. cbn [sd_length] in P. rewrite <- P. clear P.
    pose proof (bytes_ok_getb e 5 B) as B5. pose proof (bytes_ok_getb e 4 B) as B4. pose proof (bytes_ok_getb e 3 B) as B3. unfold is_byte in *.
    clear - B3 B4 B5. unfold signed8, se_len, le2. destruct (Z.ltb_spec (getb e 5) 128); [left; split; lia|right; lia].
  Qed.
  Lemma names_head m ds a : names m ds -> match m with x :: _ => x = a | [] => False end -> a <> 0 -> exists r, ds = a :: r.
  Proof.
    intros (rest & -> & N) E Na. destruct ds as [|y r]; cbn [app] in E; [congruence|]. exists r. subst. reflexivity.
  Qed.

  Definition dir_read (im : simg) (d : sdirent) (m : list Z) (sec : Z) (raw : list Z) : Prop :=
    map_from h b (boot_word (geom_of h) b 9) (sec :: m) /\ sec <> 0 /\ on_disk h sec /\ raw = sector_of h b sec /\
    sd_start d = boot_word (geom_of h) b 9 /\ (sd_length d = se_len (slice raw 0 23) /\ se_len (slice raw 0 23) < 8388608 \/ sd_length d < 0).

  Lemma root_dir_of d m sec raw im s : dir_read im d m sec raw -> 0 < sd_length d -> sget_bytes (sfuel b) h b d = Ok s ->
    root_dir h b (sd_length d) s.
  Proof.
    intros (F & Nz & O & -> & St & Ln) Hl G. destruct Ln as [(Ln & Lb)|Ln]; [|lia].
    destruct (sget_ok d s ltac:(rewrite St; apply root_nonneg) Hl G) as (m' & ds & F' & N & On & C). rewrite St in F'.
    assert (Hd : exists r, ds = sec :: r).
    { assert (D : m' = sec :: m). { clear - F F'. remember (sec :: m) as k eqn:Ek. clear Ek. revert m' F'.
        induction F as [n O1 E1|n q O1 E1 F IH]; intros m' F'; inversion F' as [? O2 E2|? q' O2 E2 F2]; subst; try reflexivity; try congruence. f_equal. apply IH. exact F2. }
      subst m'. apply (names_head _ _ sec N); [reflexivity|exact Nz]. }
    destruct Hd as (r & ->). exists m', (sec :: r). split; [exact F'|]. split; [exact N|]. split; [exact On|]. split; [discriminate|].
    destruct (get_on sec _ (on_get sec O)) as (_ & _ & L & _).
    assert (E : se_len (slice (sector_of h b sec) 0 23) = se_len (flat_map (sector_of h b) (sec :: r))).
    { unfold se_len. cbn [flat_map]. rewrite !getb_slice by lia. rewrite !getb_app_l by lia. reflexivity. }
    split; [congruence|]. split; [lia|apply C; discriminate].
  Qed.

  Lemma root_dir_long len dir : root_dir h b len dir -> Z.min len 128 <= zlen dir.
  Proof.
    intros (m & ds & _ & _ & On & Nd & _ & Hl & ->). destruct ds as [|n r]; [congruence|]. inversion On as [|x l O _]; subst.
    destruct (get_on n _ (on_get n O)) as (_ & _ & L & _). cbn [flat_map]. unfold zlen in *. rewrite firstn_length, app_length. lia.
  Qed.
  Lemma directory_err im : boot_sector_info b h = Ok im ->
    match sget_directory (sfuel b) im with
    | Err x => is_atr x = true \/ sparta_cause h b x
    | Ok im' => s_bytes im' = b /\ s_hdr im' = h /\
        match s_rootd im' with
        | None => sparta_cause h b EAttribute
        | Some d => (exists s, sget_bytes (sfuel b) h b d = Ok s) /\
            forall f, In f (s_files im') -> exists len dir i, root_dir h b len dir /\ 1 <= i /\ 23 * i + 23 <= zlen dir /\
              exists num, parse_sdirent h num (s_entry dir i) = Ok f
        end
    end.
  Proof.
    intros R. destruct (record_fields im R) as (R1 & R2 & R3). unfold sget_directory. rewrite R1, R2, R3. pose proof root_nonneg as Rn.
    destruct (sector_map (sfuel b) h b (boot_word (geom_of h) b 9)) as [r|x] eqn:M; cbn [rbind].
    2:{ destruct (map_err _ _ Rn M) as [K|(-> & K)]; [left; exact K|right; apply circle_directory; exact K]. }
    destruct (map_ok _ _ Rn M) as [(E & ->)|(m & F & ->)]; [right; apply no_directory; exact E|].
    destruct m as [|sec m]; [destruct (from_nonempty _ _ F eq_refl)|].
    destruct (Z.eqb_spec sec 0) as [->|Nz].
    { cbn [s_bytes s_hdr s_rootd with_dir]. split; [exact R1|]. split; [exact R2|]. exact (empty_directory h b m F). }
    unfold get_raw_bytes. destruct (get_pos h sec) as [[p z]|y] eqn:P; cbn [rbind]; [|left; exact (pos_err sec y P)].
    destruct (pos_on sec p z P) as (O & Es & L & A & _). rewrite <- Es.
    assert (L23 : zlen (slice (sector_of h b sec) 0 23) = 23) by (rewrite zlen_slice by lia; lia).
    destruct (parse_sdirent h 0 (slice (sector_of h b sec) 0 23)) as [d0|y] eqn:Pd; cbn [rbind].
    2:{ unfold parse_sdirent in Pd. rewrite L23 in Pd. discriminate Pd. }
    set (d := with_start h d0 _). assert (DR : dir_read im d m sec (sector_of h b sec)).
    { split; [exact F|]. split; [exact Nz|]. split; [exact O|]. split; [reflexivity|]. split; [reflexivity|].
      exact (signed_len _ d0 0 (bytes_ok_slice _ _ _ (bytes_sector sec)) Pd). }
    destruct (sget_bytes (sfuel b) h b d) as [s|x] eqn:G; cbn [rbind].
    2:{ destruct (sget_err d x Rn G) as [K|[(-> & K)|[(-> & K)|(-> & K)]]]; [left; exact K|right..];
        [apply no_directory; exact K|apply circle_directory; exact K|apply unended_directory; exact K]. }
    pose proof (entries_err (num_entries (sd_length d)) 1 s 23 ltac:(lia)) as K.
    assert (Ln : forall j, (j < num_entries (sd_length d))%nat -> 23 + 23 * Z.of_nat j < sd_length d).
    { intros j Hj. unfold num_entries in Hj. assert (Q : Z.of_nat j < (sd_length d - 23 + 22) / 23) by lia.
      pose proof (Z.mul_div_le (sd_length d - 23 + 22) 23 ltac:(lia)). lia. }
    destruct (sentries _ h 1 s 23) as [ds|x]; cbn [rbind].
    - cbn [s_bytes s_hdr s_rootd s_files with_dir]. split; [exact R1|]. split; [exact R2|]. split; [exists s; exact G|].
      intros f Hf. destruct (K f Hf) as (j & J1 & J2 & num & J3). specialize (Ln j J1). exists (sd_length d), s, (1 + Z.of_nat j).
      split; [exact (root_dir_of d m sec _ im s DR ltac:(lia) G)|]. split; [lia|]. split; [lia|]. exists num. unfold s_entry.
      replace (23 * (1 + Z.of_nat j)) with (23 + 23 * Z.of_nat j) by lia. exact J3.
    - destruct K as (j & J1 & J2 & J3). specialize (Ln j J1). pose proof (root_dir_of d m sec _ im s DR ltac:(lia) G) as RD. right.
      destruct J3 as [(-> & J3 & J4)|(-> & J3)].
      + assert (D : zlen s = 23 + 23 * Z.of_nat j) by (destruct J4 as [-> |J4]; [pose proof (root_dir_long _ _ RD); lia|exact J4]).
        apply (missing_entry h b _ s RD); [lia|]. rewrite D. Z.to_euclidean_division_equations; lia.
      + apply (cut_entry h b _ s RD). intros Q. Z.to_euclidean_division_equations; lia.
  Qed.
End Rec.

Lemma as_parser_atr {A} (r : res A) x : as_parser r = Err x -> is_atr x = true \/ r = Err x.
Proof. intros H. destruct (is_atr x) eqn:E; [left; reflexivity|right; exact (as_parser_other r x H E)]. Qed.
Lemma clean_atr {A} (r : res A) x : clean r -> r = Err x -> is_atr x = true.
Proof. intros C E. rewrite E in C. cbn [clean] in C. destruct x as [a| | | | | | | | | | | |]; try discriminate C. reflexivity. Qed.

Lemma sparta_parse_err e s b x : bytes_ok b -> usual_sectors b -> parse e s PSparta b = Err x ->
  is_atr x = true \/ exists h, atari_header b = Ok h /\ sparta_cause h b x.
Proof.
  intros Hb U P. destruct (header_usual b Hb U) as (h & E & S1 & S2 & _ & S3 & _).
  destruct (as_parser_atr _ _ P) as [K|Q]; [left; exact K|]. cbn [parse_image] in Q. clear P.
  unfold open_sparta, open_sparta_fuel in Q. cbv zeta in Q. pose proof E as E'. unfold atari_header in E'. cbv zeta in E'. rewrite E' in Q. cbn [rbind] in Q.
  destruct (boot_sector_info b h) as [im|y] eqn:B; cbn [rbind] in Q.
  2:{ left. injection Q as <-. assert (N : ~ sparta_boot_record b) by (intros (h' & im' & A1 & A2); congruence).
      pose proof (sparta_clean b Hb U N) as C. unfold open_sparta, open_sparta_fuel in C. cbv zeta in C. rewrite E' in C. cbn [rbind] in C. rewrite B in C. exact (clean_atr _ _ C eq_refl). }
  pose proof (directory_err b h Hb E S1 S2 S3 im B) as D. destruct (sget_directory (sfuel b) im) as [im'|y]; cbn [rbind] in Q.
  2:{ injection Q as <-. destruct D as [D|D]; [left; exact D|right; exists h; auto]. }
  destruct D as (D1 & D2 & D3).
  assert (CS : clean (checked s (atr_strict (s_hdr im') (zlen b)))) by apply clean_checked, clean_atr_strict.
  destruct (checked s (atr_strict (s_hdr im') (zlen b))) as [[]|y] eqn:K; cbn [rbind] in Q; [|injection Q as <-; left; exact (clean_atr _ _ CS eq_refl)].
  assert (Q' : sparta_segments im' = Err x) by (destruct (sparta_segments im'); cbn [rbind] in Q; [discriminate|congruence]). clear Q.
  unfold sparta_segments in Q'. rewrite D2 in Q'.
  pose proof (clean_sector_slice h 1 (Z.min (s_numboot im') 1)) as C1.
  destruct (get_sector_slice h 1 _) as [?|y]; cbn [rbind] in Q'; [|injection Q' as <-; left; exact (clean_atr _ _ C1 eq_refl)].
  assert (C2 : clean (sbitmap_bounds im')) by (unfold sbitmap_bounds; apply clean_contig).
  destruct (sbitmap_bounds im') as [?|y]; cbn [rbind] in Q'; [|injection Q' as <-; left; exact (clean_atr _ _ C2 eq_refl)].
  destruct (s_rootd im') as [d|]; [|injection Q' as <-; right; exists h; auto].
  destruct D3 as ((c & G) & F). unfold sget_file in Q'. rewrite D1, D2, G in Q'. cbn [rbind] in Q'.
  assert (W : exists f y, In f (s_files im') /\ sget_bytes (sfuel b) h b f = Err y /\ y = x).
  { clear - Q'. induction (s_files im') as [|f l IH]; cbn [file_segments] in Q'; [discriminate|].
    destruct (sget_bytes (sfuel b) h b f) as [c|y] eqn:G.
    - destruct (IH Q') as (f' & y & A & B). exists f', y. split; [right; exact A|exact B].
    - destruct (is_invalid_file y); [|injection Q' as <-; exists f, y; split; [left; reflexivity|auto]].
      destruct (IH Q') as (f' & y' & A & B). exists f', y'. split; [right; exact A|exact B]. }
  destruct W as (f & y & Hf & Gf & ->). destruct (F f Hf) as (len & dir & i & RD & I1 & I2 & num & Pf).
  assert (Bd : bytes_ok dir).
  { destruct RD as (m & ds & _ & _ & _ & _ & _ & _ & ->). apply bytes_ok_firstn. clear - Hb. induction ds as [|n r IH]; [constructor|].
    cbn [flat_map]. apply bytes_ok_app. split; [apply bytes_sector; exact Hb|exact IH]. }
  assert (Ls : zlen (s_entry dir i) = 23) by (unfold s_entry; rewrite zlen_slice by lia; lia).
  destruct (parse_shows h num (s_entry dir i) (bytes_ok_slice _ _ _ Bd) Ls) as (f' & Pf' & Sh & Sa). rewrite Pf in Pf'. injection Pf' as <-.
  pose proof (sh_start _ _ Sh) as St.
  assert (Sn : 0 <= sd_start f) by (rewrite St; unfold se_start; apply (le2_range _ _ (bytes_ok_getb _ 1 (bytes_ok_slice _ _ _ Bd)) (bytes_ok_getb _ 2 (bytes_ok_slice _ _ _ Bd)))).
  destruct (sget_err b h Hb E S1 S2 S3 f x Sn Gf) as [K2|[(-> & K2)|[(-> & K2)|(-> & K2)]]]; [left; exact K2| | |]; right; exists h; (split; [exact E|]); rewrite St in K2.
  - apply (deleted_nowhere h b len dir i RD I1 I2); [|exact K2]. intros L. apply (sh_live _ _ Sh) in L.
    unfold sget_bytes, sfile_runs in Gf. rewrite Sa, L in Gf. unfold ssanity in Gf. cbn [negb] in Gf. unfold sector_valid in Gf. rewrite St, K2 in Gf.
    pose proof (max_nonneg b h Hb E). replace (h_max h <? 0) with false in Gf by lia. discriminate Gf.
  - exact (circle_file h b len dir i RD I1 I2 K2).
  - exact (unended_file h b len dir i RD I1 I2 K2).
Qed.
