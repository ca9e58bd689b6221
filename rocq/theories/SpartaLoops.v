(** Following a SpartaDOS sector map ends within a bound given by the size of the
    image, or never. *)
From Verif Require Import Base BaseLemmas Loops DiskModel AtariModel AtariSpec AtariGeom AtariHeader SpartaModel SpartaSpec SpartaProofs.

Section L.
Variables (b : list Z) (h : hdr).
Hypothesis Hb : bytes_ok b.
Hypothesis Hh : hdr_of b = Ok h.

Definition step (x : Z) : Z :=
  match get_sectors h b x x with Ok s => le2 (getb s 0) (getb s 1) | Err _ => 0 end.
Definition good (x : Z) : bool :=
  (0 <? x) && match get_sectors h b x x with Ok s => negb (zlen s <? 4) && negb (Z.odd (zlen s)) | Err _ => false end.

Lemma h_max_le : 0 <= h_max h <= zlen b.
Proof.
  destruct (hdr_of_facts b h Hb Hh) as (F1 & F2 & F3 & F4 & F5). split; [exact F3|].
  destruct F5 as [(B1 & B2 & B3 & B4 & B5)|(B1 & B2)]; [lia|]. rewrite B2.
  assert (h_image_size h / h_ssize h <= h_image_size h) by (pose proof (Z.mul_div_le (h_image_size h) (h_ssize h) ltac:(lia)); rewrite B2 in F3; nia). lia.
Qed.
Lemma good_range x : good x = true -> 0 < x < Z.of_nat (S (length b)).
Proof.
  unfold good. intros G. apply andb_prop in G. destruct G as [G1 G2]. pose proof h_max_le as [M1 M2]. unfold zlen in M2.
  unfold get_sectors, get_sector_slice in G2. destruct (get_pos h x) as [[p s]|] eqn:P; [|discriminate G2].
  unfold get_pos in P. destruct (sector_valid h x) eqn:V; [|discriminate P]. unfold sector_valid in V. lia.
Qed.
Lemma no_fuel_err x e : get_sectors h b x x = Err e -> e <> EFuel.
Proof.
  unfold get_sectors, get_sector_slice. destruct (get_pos h x) as [[p s]|e'] eqn:P; cbn [rbind].
  - rewrite Z.sub_diag. cbn. discriminate.
  - intros E. injection E as <-. unfold get_pos in P. destruct (negb _); [injection P as <-; discriminate|]. destruct (x <=? h_ninit h); discriminate.
Qed.
Lemma loop_alive : forall fuel x acc, map_loop fuel h b x acc = Err EFuel <-> alive step good fuel x = true /\ 0 < at_ step fuel x.
Proof.
  induction fuel as [|fuel IH]; intros x acc.
  - cbn [map_loop alive at_]. destruct (Z.leb_spec x 0); split; intros H0; try (discriminate H0); try (split; [reflexivity|lia]); try reflexivity. lia.
  - cbn [map_loop alive at_]. unfold good at 1. destruct (Z.leb_spec x 0).
    + split; [discriminate|]. intros [A _]. apply andb_prop in A. destruct A as [A _]. apply andb_prop in A. lia.
    + replace (0 <? x) with true by lia. destruct (get_sectors h b x x) as [s|e] eqn:G; cbn [rbind andb].
      * destruct (zlen s <? 4); cbn [negb andb]; [split; [discriminate|intros [A _]; discriminate A]|].
        destruct (Z.odd (zlen s)); cbn [negb andb]; [split; [discriminate|intros [A _]; discriminate A]|].
        rewrite IH. replace (step x) with (le2 (getb s 0) (getb s 1)) by (unfold step; rewrite G; reflexivity). tauto.
      * split; [intros E; injection E as ->; destruct (no_fuel_err x EFuel G eq_refl)|intros [A _]; discriminate A].
Qed.
Lemma loop_mono : forall fuel x acc r, map_loop fuel h b x acc = r -> r <> Err EFuel -> forall f2, (fuel <= f2)%nat -> map_loop f2 h b x acc = r.
Proof.
  induction fuel as [|fuel IH]; intros x acc r E N f2 L.
  - cbn [map_loop] in E. destruct f2; cbn [map_loop]; destruct (x <=? 0); congruence.
  - destruct f2 as [|f2]; [lia|]. cbn [map_loop] in *. destruct (x <=? 0); [exact E|].
    destruct (get_sectors h b x x); cbn [rbind] in *; [|exact E]. destruct (zlen a <? 4); [exact E|]. destruct (Z.odd (zlen a)); [exact E|].
    apply (IH _ _ _ E N). lia.
Qed.
Lemma sector_map_dichotomy x :
  (sector_map (sfuel b) h b x <> Err EFuel /\ forall fuel, (sfuel b <= fuel)%nat -> sector_map fuel h b x = sector_map (sfuel b) h b x) \/
  (forall fuel, sector_map fuel h b x = Err EFuel).
Proof.
  unfold sector_map. destruct (map_loop (sfuel b) h b x None) as [m|e] eqn:E.
  - left. split; [discriminate|]. intros fuel L. apply (loop_mono _ _ _ _ E); [discriminate|exact L].
  - destruct e; try (left; split; [discriminate|]; intros fuel L; apply (loop_mono _ _ _ _ E); [discriminate|exact L]).
    right. apply loop_alive in E. destruct E as [A _]. pose proof (alive_forever step good (S (length b)) good_range x A) as F.
    intros fuel. apply loop_alive. split; [apply F|]. specialize (F (S fuel)). rewrite alive_at in F. specialize (F fuel ltac:(lia)).
    apply good_range in F. lia.
Qed.
Lemma runs_no_fuel : forall m rem e, sread_runs h m rem = Err e -> e <> EFuel.
Proof.
  induction m as [|n m IH]; intros rem e E; [injection E as <-; discriminate|]. cbn [sread_runs] in E. destruct (n =? 0); [discriminate|].
  destruct (get_pos h n) as [[p s]|e'] eqn:P; cbn [rbind] in E.
  - destruct (sread_runs h m (rem - Z.min rem s)) eqn:R; [discriminate|]. injection E as <-. apply (IH _ _ R).
  - injection E as <-. unfold get_pos in P. destruct (negb _); [injection P as <-; discriminate|]. destruct (n <=? h_ninit h); discriminate.
Qed.
Lemma sget_bytes_dichotomy d :
  (sget_bytes (sfuel b) h b d <> Err EFuel /\ forall fuel, (sfuel b <= fuel)%nat -> sget_bytes fuel h b d = sget_bytes (sfuel b) h b d) \/
  (forall fuel, sget_bytes fuel h b d = Err EFuel).
Proof.
  unfold sget_bytes, sfile_runs. destruct (sd_sane d); cbn [negb]; [|left; split; [discriminate|reflexivity]].
  destruct (sector_map_dichotomy (sd_start d)) as [[N E]|F].
  - left. split; [|intros fuel L; rewrite (E fuel L); reflexivity].
    destruct (sector_map (sfuel b) h b (sd_start d)) as [[m|]|e]; cbn [rbind]; [|discriminate|congruence].
    destruct (sread_runs h m (sd_length d)) eqn:R; cbn [rbind]; [|intros X; injection X as ->; exact (runs_no_fuel _ _ _ R eq_refl)].
    destruct (forallb _ _); [discriminate|]. unfold indexed_bytes. destruct (forallb _ _); discriminate.
  - right. intros fuel. rewrite F. reflexivity.
Qed.
Lemma entries_no_fuel : forall n num s i e, sentries n h num s i = Err e -> e <> EFuel.
Proof.
  induction n as [|n IH]; intros num s i e E; [discriminate|]. cbn [sentries] in E.
  destruct (parse_sdirent h num (slice s i (i + 23))) as [d|e'] eqn:P; cbn [rbind] in E.
  - destruct (sentries n h (num + 1) s (i + 23)) eqn:R; [discriminate|]. injection E as <-. apply (IH _ _ _ _ R).
  - injection E as <-. unfold parse_sdirent in P. destruct (_ =? 0); [injection P as <-; discriminate|]. destruct (negb _); [injection P as <-; discriminate|discriminate].
Qed.
End L.

Lemma open_dichotomy b : bytes_ok b ->
  (open_sparta b <> Err EFuel /\ forall fuel, (sfuel b <= fuel)%nat -> open_sparta_fuel fuel b = open_sparta b) \/
  (forall fuel, open_sparta_fuel fuel b = Err EFuel).
Proof.
  intros Hb. unfold open_sparta, open_sparta_fuel. fold (hdr_of b).
  destruct (hdr_of b) as [h|e] eqn:Hh; cbn [rbind].
  2:{ left. split; [|reflexivity]. unfold hdr_of, check_size in Hh. repeat match type of Hh with context [if ?c then _ else _] => destruct c end; try discriminate Hh; injection Hh as <-; discriminate. }
  destruct (boot_sector_info b h) as [im|e] eqn:E0; cbn [rbind].
  2:{ left. split; [|reflexivity]. unfold boot_sector_info in E0. destruct (get_sectors h b 1 1) eqn:G; cbn [rbind] in E0.
      - destruct (zlen (slice a 0 33) =? 0); [injection E0 as <-; discriminate|]. destruct (negb _); [injection E0 as <-; discriminate|].
        match type of E0 with (if ?c then _ else _) = _ => destruct c end; [discriminate|]. injection E0 as <-. discriminate.
      - injection E0 as <-. intros X. injection X as ->. exact (no_fuel_err b h 1 EFuel G eq_refl). }
  assert (R : s_hdr im = h /\ s_bytes im = b).
  { unfold boot_sector_info in E0. destruct (get_sectors h b 1 1); [|discriminate E0]. cbn [rbind] in E0.
    destruct (zlen (slice a 0 33) =? 0); [discriminate E0|]. destruct (negb _); [discriminate E0|].
    match type of E0 with (if ?c then _ else _) = _ => destruct c; [|discriminate E0] end. injection E0 as <-. split; reflexivity. }
  destruct R as [R1 R2]. unfold sget_directory. rewrite R1, R2.
  destruct (sector_map_dichotomy b h Hb Hh (s_root im)) as [[N E]|F].
  2:{ right. intros fuel. rewrite F. reflexivity. }
  left. assert (G : forall d, sd_start d = s_root im -> sget_bytes (sfuel b) h b d <> Err EFuel /\ forall fuel, (sfuel b <= fuel)%nat -> sget_bytes fuel h b d = sget_bytes (sfuel b) h b d).
  { intros d Hd. destruct (sget_bytes_dichotomy b h Hb Hh d) as [X|X]; [exact X|]. exfalso.
    specialize (X (sfuel b)). unfold sget_bytes, sfile_runs in X. destruct (sd_sane d); [|discriminate X]. cbn [negb] in X. rewrite Hd in X.
    destruct (sector_map (sfuel b) h b (s_root im)) as [[m|]|e]; cbn [rbind] in X; [|discriminate X|congruence].
    destruct (sread_runs h m (sd_length d)) eqn:Rr; cbn [rbind] in X; [|injection X as ->; exact (runs_no_fuel h _ _ _ Rr eq_refl)].
    destruct (forallb _ _); [discriminate X|]. unfold indexed_bytes in X. destruct (forallb _ _); discriminate X. }
  split.
  - destruct (sector_map (sfuel b) h b (s_root im)) as [[[|s m]|]|e]; cbn [rbind]; [discriminate| |discriminate|congruence].
    destruct (s =? 0); [discriminate|]. unfold get_raw_bytes.
    destruct (get_pos h s) as [[p z]|e'] eqn:P; cbn [rbind].
    2:{ unfold get_pos in P. destruct (negb _); [injection P as <-; discriminate|]. destruct (s <=? h_ninit h); discriminate. }
    destruct (parse_sdirent h 0 _) as [d0|e'] eqn:Pd; cbn [rbind].
    2:{ unfold parse_sdirent in Pd. destruct (_ =? 0); [injection Pd as <-; discriminate|]. destruct (negb _); [injection Pd as <-; discriminate|discriminate]. }
    destruct (G (with_start h d0 (s_root im)) eq_refl) as [G1 _].
    destruct (sget_bytes (sfuel b) h b _) as [sb|e'] eqn:Gb; cbn [rbind]; [|congruence].
    destruct (sentries _ _ _ _ _) eqn:Se; cbn [rbind]; [discriminate|]. intros X. injection X as ->. exact (entries_no_fuel h _ _ _ _ _ Se eq_refl).
  - intros fuel L. rewrite (E fuel L). destruct (sector_map (sfuel b) h b (s_root im)) as [[[|s m]|]|e]; cbn [rbind]; try reflexivity.
    destruct (s =? 0); [reflexivity|]. destruct (get_raw_bytes h b s) as [[[r p] z]|e']; cbn [rbind]; [|reflexivity].
    destruct (parse_sdirent h 0 _) as [d0|e']; cbn [rbind]; [|reflexivity]. 
    destruct (G (with_start h d0 (s_root im)) eq_refl) as [_ G2]. rewrite (G2 fuel L). reflexivity.
Qed.
