(** The SpartaDOS model against its specification. *)
From Verif Require Import Base BaseLemmas DiskModel AtariModel AtariSpec AtariGeom AtariHeader SpartaModel SpartaSpec.

(** * Words *)
Lemma words_props : forall n l, zlen l <= 2 * Z.of_nat n ->
  zlen (words l) = zlen l / 2 /\
  forall i, 0 <= i < zlen l / 2 -> getb (words l) i = le2 (getb l (2 * i)) (getb l (2 * i + 1)).
Proof.
  induction n; intros l L.
  - destruct l; [|rewrite zlen_cons in L; pose proof (zlen_nonneg l); lia]. split; [reflexivity|]. intros i H. change (zlen []) with 0 in H. lia.
  - destruct l as [|x [|y r]].
    + split; [reflexivity|]. intros i H. change (zlen []) with 0 in H. lia.
    + split; [reflexivity|]. intros i H. change (zlen [x]) with 1 in H. lia.
    + rewrite !zlen_cons in *. destruct (IHn r ltac:(lia)) as [A B]. cbn [words]. rewrite zlen_cons, A.
      assert (E : (1 + (1 + zlen r)) / 2 = 1 + zlen r / 2).
      { replace (1 + (1 + zlen r)) with (zlen r + 1 * 2) by lia. rewrite Z.div_add by lia. lia. }
      split; [lia|]. intros i H. rewrite E in H.
      destruct (Z.eq_dec i 0) as [->|N]; [reflexivity|].
      assert (G : forall (z : Z) (w : list Z) j, 0 < j -> getb (z :: w) j = getb w (j - 1)).
      { intros z w j Hj. unfold getb. replace (Z.to_nat j) with (S (Z.to_nat (j - 1))) by lia. reflexivity. }
      rewrite G by lia. rewrite B by lia. rewrite (G x), (G y), (G x), (G y) by lia. f_equal; f_equal; lia.
Qed.
Lemma getb_mapz (f : Z -> Z) l i : 0 <= i < zlen l -> getb (map f l) i = f (getb l i).
Proof.
  intros H. unfold getb, zlen in *. rewrite <- (map_nth f). apply nth_indep. rewrite map_length. lia.
Qed.
Lemma getb_zrange0 n i : 0 <= i < n -> getb (zrange 0 n) i = i.
Proof.
  intros H. unfold zrange, getb. rewrite Z.sub_0_r.
  assert (G : forall k a j, (j < k)%nat -> nth j (zseq_nat a k) 0 = a + Z.of_nat j).
  { induction k; intros a j Hj; [lia|]. destruct j; cbn [zseq_nat nth]; [lia|]. rewrite IHk by lia. lia. }
  rewrite G by lia. lia.
Qed.
Lemma words_entries s : 4 <= zlen s -> words (slice s 4 (zlen s)) = map_entries s.
Proof.
  intros L. set (t := slice s 4 (zlen s)).
  assert (Lt : zlen t = zlen s - 4) by (unfold t; rewrite zlen_slice by lia; lia).
  destruct (words_props (Z.to_nat (zlen t)) t ltac:(lia)) as [A B]. unfold map_entries. rewrite <- Lt.
  assert (D : 0 <= zlen t / 2) by (apply Z.div_pos; lia).
  assert (D2 : 2 * (zlen t / 2) <= zlen t) by (apply Z.mul_div_le; lia).
  apply list_ext_getb.
  - rewrite A, zlen_map, zlen_zrange by lia. lia.
  - intros i Hi. rewrite A in Hi. rewrite B by lia. rewrite getb_mapz by (rewrite zlen_zrange by lia; lia). rewrite getb_zrange0 by lia.
    unfold t. rewrite !getb_slice by lia. f_equal; f_equal; lia.
Qed.

(** * Sectors *)
Section Opened.
Variables (b : list Z) (h : hdr).
Hypothesis Hb : bytes_ok b.
Hypothesis Hh : hdr_of b = Ok h.
Let g := geom_of h.

Lemma g_skew_facts : 0 <= h_ninit h <= 3 /\ (g_skew g = 0 -> h_ninit h = 0) /\ 0 <= h_max h /\ 0 < h_ssize h.
Proof.
  destruct (hdr_of_facts b h Hb Hh) as (F1 & F2 & F3 & F4 & F5). unfold g, geom_of. cbn [g_skew].
  destruct F5 as [(B1 & B2 & B3 & B4 & B5)|(B1 & B2)]; rewrite B1 in *.
  - rewrite B2, B3. lia.
  - lia.
Qed.
Lemma pos_usable n : usable g n -> get_pos h n = Ok (spos g n, g_ss g).
Proof.
  intros [U1 U2]. destruct g_skew_facts as (S1 & S2 & S3 & S4). unfold get_pos, sector_valid.
  unfold g, geom_of in U1, U2, S2. cbn [g_max g_skew] in U1, U2, S2.
  replace (negb _) with false by lia. replace (n <=? h_ninit h) with false by lia.
  unfold spos, g, geom_of. cbn [g_off g_ss g_skew]. f_equal. f_equal. lia.
Qed.
Lemma sector_usable n : usable g n -> 0 <= spos g n /\ spos g n + g_ss g <= zlen b /\ zlen (sector g b n) = g_ss g.
Proof.
  intros U. pose proof (get_pos_inside b h n _ _ Hb Hh (pos_usable n U)) as (P1 & P2 & P3).
  destruct (hdr_of_facts b h Hb Hh) as (F1 & F2 & _).
  split; [lia|]. split; [lia|]. unfold sector. rewrite zlen_slice by lia. lia.
Qed.
Lemma get_sectors_usable n : usable g n -> get_sectors h b n n = Ok (sector g b n).
Proof.
  intros U. unfold get_sectors, get_sector_slice. rewrite (pos_usable n U). cbn [rbind]. rewrite Z.sub_diag. cbn [Z.to_nat more_sectors rbind].
  unfold sector. rewrite Z.add_0_r. reflexivity.
Qed.
Lemma get_pos_usable n p : g_skew g = 0 -> get_pos h n = Ok p -> usable g n.
Proof.
  intros S E. destruct g_skew_facts as (S1 & S2 & S3 & S4). unfold get_pos in E.
  destruct (sector_valid h n) eqn:V; [|discriminate]. unfold sector_valid in V. unfold usable, g, geom_of. cbn [g_max].
  split; [lia|]. left. exact S.
Qed.
Lemma bytes_ok_sector n : bytes_ok (sector g b n).
Proof. unfold sector. apply bytes_ok_slice. exact Hb. Qed.
Lemma map_next_nonneg n : 0 <= map_next (sector g b n).
Proof.
  unfold map_next. pose proof (le2_range _ _ (bytes_ok_getb _ 0 (bytes_ok_sector n)) (bytes_ok_getb _ 1 (bytes_ok_sector n))). lia.
Qed.

(** * Chains of map sectors *)
Lemma chain_det n cs m : map_chain g b n cs m -> forall cs' m', map_chain g b n cs' m' -> cs = cs' /\ m = m'.
Proof.
  induction 1 as [n U E|n cs m U E H IH]; intros cs' m' H'; inversion H'; subst; try congruence; [split; reflexivity|].
  edestruct IH as [-> ->]; [eassumption|]. split; reflexivity.
Qed.
Lemma chain_sub n cs m : map_chain g b n cs m -> forall x, In x cs -> exists cs' m', map_chain g b x cs' m' /\ (length cs' <= length cs)%nat.
Proof.
  induction 1 as [n U E|n cs m U E H IH]; intros x Hx.
  - destruct Hx as [->|[]]. exists [x], (map_entries (sector g b x)). split; [constructor; assumption|lia].
  - destruct Hx as [->|Hx].
    + exists (x :: cs), (map_entries (sector g b x) ++ m). split; [constructor; assumption|lia].
    + destruct (IH x Hx) as (cs' & m' & C & L). exists cs', m'. split; [exact C|cbn [length]; lia].
Qed.
Lemma chain_nodup n cs m : map_chain g b n cs m -> NoDup cs.
Proof.
  induction 1 as [n U E|n cs m U E H IH]; [constructor; [intros []|constructor]|].
  constructor; [|exact IH]. intros Hin. destruct (chain_sub _ _ _ H n Hin) as (cs' & m' & C & L).
  destruct (chain_det _ _ _ C (n :: cs) (map_entries (sector g b n) ++ m)) as [E' _]; [constructor; assumption|].
  rewrite E' in L. cbn [length] in L. lia.
Qed.
Lemma chain_usable n cs m : map_chain g b n cs m -> Forall (usable g) cs.
Proof. induction 1; constructor; auto. Qed.
Lemma chain_length n cs m : map_chain g b n cs m -> (length cs <= length b)%nat.
Proof.
  intros C. destruct (hdr_of_facts b h Hb Hh) as (F1 & F2 & F3 & F4 & F5).
  assert (I : incl cs (zrange 1 (h_max h + 1))).
  { intros x Hx. pose proof (chain_usable _ _ _ C) as U. rewrite Forall_forall in U. destruct (U x Hx) as [U1 _]. unfold g, geom_of in U1. cbn [g_max] in U1. apply In_zrange. lia. }
  pose proof (NoDup_incl_length (chain_nodup _ _ _ C) I) as L. pose proof (zlen_zrange 1 (h_max h + 1) ltac:(lia)) as Lz. unfold zlen in Lz.
  assert (h_max h <= zlen b).
  { destruct F5 as [(B1 & B2 & B3 & B4 & B5)|(B1 & B2)]; [lia|]. rewrite B2.
    assert (h_image_size h / h_ssize h <= h_image_size h) by (pose proof (Z.mul_div_le (h_image_size h) (h_ssize h) ltac:(lia)); rewrite B2 in F3; nia). lia. }
  unfold zlen in *. lia.
Qed.

Lemma words_sector n : usable g n -> 4 <= g_ss g -> words (slice (sector g b n) 4 (g_ss g)) = map_entries (sector g b n).
Proof.
  intros U G4. pose proof (sector_usable n U) as (P1 & P2 & P3). rewrite <- words_entries by lia. rewrite P3. reflexivity.
Qed.
Lemma map_loop_chain n cs m : 4 <= g_ss g -> g_ss g mod 2 = 0 -> map_chain g b n cs m -> forall fuel acc, (length cs <= fuel)%nat ->
  map_loop fuel h b n acc = Ok (Some (match acc with None => m | Some a => a ++ m end)).
Proof.
  intros G4 Ge. induction 1 as [n U E|n cs m U E H IH]; intros fuel acc L; (destruct fuel as [|fuel]; [cbn [length] in L; lia|]).
  - pose proof (sector_usable n U) as (P1 & P2 & P3). cbn [map_loop]. destruct U as [U1 U2]. replace (n <=? 0) with false by lia.
    rewrite get_sectors_usable by (split; assumption). cbn [rbind]. rewrite P3. replace (g_ss g <? 4) with false by lia.
    replace (Z.odd (g_ss g)) with false by (rewrite Zodd_mod, Ge; reflexivity).
    rewrite words_sector by (try split; assumption).
    change (le2 (getb (sector g b n) 0) (getb (sector g b n) 1)) with (map_next (sector g b n)). rewrite E.
    destruct fuel; cbn [map_loop]; reflexivity.
  - pose proof (sector_usable n U) as (P1 & P2 & P3). cbn [map_loop]. pose proof U as [U1 U2]. replace (n <=? 0) with false by lia.
    rewrite get_sectors_usable by assumption. cbn [rbind]. rewrite P3. replace (g_ss g <? 4) with false by lia.
    replace (Z.odd (g_ss g)) with false by (rewrite Zodd_mod, Ge; reflexivity).
    rewrite words_sector by (try split; assumption).
    change (le2 (getb (sector g b n) 0) (getb (sector g b n) 1)) with (map_next (sector g b n)).
    rewrite IH by (cbn [length] in L; lia). destruct acc; [rewrite app_assoc|]; reflexivity.
Qed.
Lemma map_loop_sound : g_skew g = 0 -> forall fuel n acc m, 0 < n -> map_loop fuel h b n acc = Ok m ->
  exists cs m', map_chain g b n cs m' /\ m = Some (match acc with None => m' | Some a => a ++ m' end) /\ 4 <= g_ss g /\ g_ss g mod 2 = 0.
Proof.
  intros Sk. induction fuel as [|fuel IH]; intros n acc m Hn E.
  { cbn [map_loop] in E. replace (n <=? 0) with false in E by lia. discriminate. }
  cbn [map_loop] in E. replace (n <=? 0) with false in E by lia.
  destruct (get_sectors h b n n) as [d|] eqn:Ed; [|discriminate]. cbn [rbind] in E.
  assert (U : usable g n).
  { unfold get_sectors, get_sector_slice in Ed. destruct (get_pos h n) as [[p s]|] eqn:Ep; [|discriminate]. apply (get_pos_usable n (p, s)); assumption. }
  rewrite get_sectors_usable in Ed by assumption. injection Ed as <-.
  pose proof (sector_usable n U) as (P1 & P2 & P3). rewrite P3 in E.
  destruct (g_ss g <? 4) eqn:E4; [discriminate|]. destruct (Z.odd (g_ss g)) eqn:Eo; [discriminate|].
  assert (Ge : g_ss g mod 2 = 0). { rewrite Zmod_odd, Eo. reflexivity. }
  rewrite words_sector in E by (assumption || lia).
  change (le2 (getb (sector g b n) 0) (getb (sector g b n) 1)) with (map_next (sector g b n)) in E.
  pose proof (map_next_nonneg n) as Hnn.
  destruct (Z.eq_dec (map_next (sector g b n)) 0) as [Ez|Ez].
  - rewrite Ez in E. assert (E' : m = Some (match acc with None => map_entries (sector g b n) | Some a => a ++ map_entries (sector g b n) end)).
    { destruct fuel; cbn [map_loop] in E; injection E as <-; reflexivity. }
    exists [n], (map_entries (sector g b n)). split; [constructor; assumption|]. split; [exact E'|]. split; [lia|exact Ge].
  - destruct (IH (map_next (sector g b n)) _ _ ltac:(lia) E) as (cs & m' & C & -> & G).
    exists (n :: cs), (map_entries (sector g b n) ++ m'). split; [constructor; assumption|]. split; [|exact G].
    destruct acc; [rewrite app_assoc|]; reflexivity.
Qed.
(** Enough fuel. *)
Lemma sector_map_chain n cs m : 4 <= g_ss g -> g_ss g mod 2 = 0 -> map_chain g b n cs m -> sector_map (sfuel b) h b n = Ok (Some m).
Proof.
  intros G4 Ge C. unfold sector_map. pose proof (chain_length _ _ _ C). rewrite (map_loop_chain n cs m G4 Ge C) by (unfold sfuel; lia). reflexivity.
Qed.

(** * Contents *)
Lemma firstn_zapp (l1 l2 : list Z) n : 0 <= n -> firstn (Z.to_nat n) (l1 ++ l2) = slice l1 0 (Z.min n (zlen l1)) ++ firstn (Z.to_nat (n - Z.min n (zlen l1))) l2.
Proof.
  intros Hn. rewrite firstn_app. unfold slice. cbn [Z.to_nat skipn]. rewrite Z.sub_0_r. pose proof (zlen_nonneg l1).
  f_equal; [|f_equal; unfold zlen in *; lia].
  destruct (Z.le_gt_cases n (zlen l1)); [rewrite Z.min_l by lia; reflexivity|].
  rewrite Z.min_r by lia. unfold zlen in *. rewrite Nat2Z.id, firstn_all, firstn_all2 by lia. reflexivity.
Qed.
Lemma read_runs_spec : forall ds rest rem, Forall (usable g) ds -> 0 <= rem ->
  exists runs, sread_runs h (ds ++ 0 :: rest) rem = Ok runs /\
    Forall (fun r => 0 <= fst r /\ 0 <= snd r /\ fst r + snd r <= zlen b) runs /\
    flat_map (fun r => slice b (fst r) (fst r + snd r)) runs = file_bytes g b rem ds /\
    (forallb (fun r => snd r =? 0) runs = true <-> rem = 0 \/ ds = []).
Proof.
  induction ds as [|n ds IH]; intros rest rem U Hr.
  - exists []. cbn [app sread_runs Z.eqb]. split; [reflexivity|]. split; [constructor|]. split; [|split; auto].
    unfold file_bytes. cbn [flat_map]. rewrite firstn_nil. reflexivity.
  - inversion U as [|x l Un Ul]; subst. pose proof (sector_usable n Un) as (P1 & P2 & P3). destruct g_skew_facts as (_ & _ & _ & S4). 
    assert (Gs : 0 < g_ss g) by exact S4.
    destruct (IH rest (rem - Z.min rem (g_ss g)) Ul ltac:(lia)) as (runs & E & F & B & Z0).
    exists ((spos g n, Z.min rem (g_ss g)) :: runs). cbn [app sread_runs]. destruct Un as [U1 U2]. replace (n =? 0) with false by lia.
    rewrite pos_usable by (split; assumption). cbn [rbind]. rewrite E. cbn [rbind]. split; [reflexivity|].
    split; [constructor; [cbn [fst snd]; lia|exact F]|]. split.
    + cbn [flat_map fst snd]. rewrite B. unfold file_bytes. cbn [flat_map]. rewrite firstn_zapp by lia. rewrite P3. f_equal.
      unfold sector. rewrite slice_slice by lia. f_equal; lia.
    + cbn [forallb snd]. rewrite andb_true_iff, Z0. split; [intros [A _]; left; lia|intros [->|A]; [|discriminate A]]. split; lia.
Qed.
Lemma sruns_id runs : Forall (fun r : Z * Z => 0 <= fst r /\ 0 <= snd r /\ fst r + snd r <= zlen b) runs -> sruns runs = runs.
Proof.
  induction 1 as [|[p n] r A _ IH]; [reflexivity|]. unfold sruns in *. cbn [map fst snd] in *. rewrite IH. f_equal. f_equal. lia.
Qed.

(** Reading a file whose map is complete. *)
Lemma sget_bytes_spec d ds : 4 <= g_ss g -> g_ss g mod 2 = 0 -> is_file g b (sd_start d) ds -> sd_sane d = true -> 0 < sd_length d -> ds <> [] ->
  sget_bytes (sfuel b) h b d = Ok (file_bytes g b (sd_length d) ds).
Proof.
  intros G4 Ge (cs & m & C & (rest & Em & Nz) & U) Hs Hl Hd. unfold sget_bytes, sfile_runs. rewrite Hs. cbn [negb].
  rewrite (sector_map_chain _ cs m G4 Ge C). cbn [rbind]. rewrite Em.
  destruct (read_runs_spec ds rest (sd_length d) U ltac:(lia)) as (runs & E & F & B & Z0). rewrite E. cbn [rbind]. rewrite (sruns_id runs F).
  destruct (forallb (fun r => snd r =? 0) runs) eqn:Ez; [destruct (proj1 Z0 eq_refl); [lia|contradiction]|].
  unfold indexed_bytes. replace (forallb (fun r => (snd r =? 0) || (fst r + snd r <=? zlen b)) runs) with true; [rewrite B; reflexivity|].
  symmetry. apply forallb_forall. intros r Hr. rewrite Forall_forall in F. specialize (F r Hr). cbn beta in F. lia.
Qed.
(** Whatever is read is right. *)
Lemma sread_sound : g_skew g = 0 -> forall m rem runs, sread_runs h m rem = Ok runs -> exists ds, names m ds /\ Forall (usable g) ds.
Proof.
  intros Sk. induction m as [|n m IH]; intros rem runs E; [discriminate|]. cbn [sread_runs] in E.
  destruct (Z.eqb_spec n 0) as [->|Nn].
  - exists []. split; [|constructor]. exists m. split; [reflexivity|]. intros [].
  - destruct (get_pos h n) as [[p s]|] eqn:Ep; [|discriminate]. cbn [rbind] in E.
    destruct (sread_runs h m (rem - Z.min rem s)) as [r|] eqn:Er; [|discriminate].
    destruct (IH _ _ Er) as (ds & (rest & -> & Nz) & U). exists (n :: ds). split.
    + exists rest. split; [reflexivity|]. intros [->|H]; [contradiction|]. contradiction.
    + constructor; [|exact U]. apply (get_pos_usable n (p, s)); assumption.
Qed.
Lemma sget_bytes_sound d data : g_skew g = 0 -> 0 < sd_length d -> sget_bytes (sfuel b) h b d = Ok data ->
  exists ds, is_file g b (sd_start d) ds /\ (ds <> [] -> data = file_bytes g b (sd_length d) ds) /\ (ds = [] -> data = b).
Proof.
  intros Sk Hl E. pose proof E as E0. unfold sget_bytes, sfile_runs in E. destruct (sd_sane d) eqn:Hs; [|discriminate]. cbn [negb] in E.
  destruct (sector_map (sfuel b) h b (sd_start d)) as [[m|]|] eqn:Em; [|discriminate|discriminate]. cbn [rbind] in E.
  assert (Hp : 0 < sd_start d).
  { destruct (Z.le_gt_cases (sd_start d) 0); [|lia]. unfold sector_map, sfuel in Em. cbn [map_loop] in Em. replace (sd_start d <=? 0) with true in Em by lia. discriminate. }
  destruct (map_loop_sound Sk _ _ _ _ Hp Em) as (cs & m' & C & Q & G4 & Ge). injection Q as <-.
  destruct (sread_runs h m (sd_length d)) as [runs|] eqn:Er; [|discriminate]. cbn [rbind] in E.
  destruct (sread_sound Sk _ _ _ Er) as (ds & N & U).
  assert (F : is_file g b (sd_start d) ds) by (exists cs, m; auto).
  exists ds. split; [exact F|]. split.
  - intros Hd. rewrite (sget_bytes_spec d ds G4 Ge F Hs Hl Hd) in E0. injection E0 as <-. reflexivity.
  - intros ->. destruct N as (rest & -> & _). cbn [app sread_runs Z.eqb] in Er. injection Er as <-. cbn in E. injection E as <-. reflexivity.
Qed.
End Opened.
