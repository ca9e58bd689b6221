(** Which exceptions reading a file can raise. *)
From Verif Require Import Base BaseLemmas DiskModel ExecModel DirLemmas AtariModel AtariSpec AtariGeom AtariHeader DetectModel DetectSpec DetectProofs DetectErrors DetectErrors2 DetectErrors3 Dos33Model.
From Verif Require Properties_Atari Properties_Atari2 Properties_Dos33.

(** A byte near the end of the data that, as the number of bytes in a sector, is larger than
    any sector of 128 bytes. *)
Definition large_count_at_end (b : list Z) : Prop :=
  exists i, zlen b - 127 <= i < zlen b /\ 128 < getb b i.

Section Atari.
  Variables (b : list Z) (h : hdr).
  Hypothesis Hb : bytes_ok b.
  Hypothesis Hh : atari_header b = Ok h.
  Hypothesis Hss : 128 <= h_ssize h.
  Lemma read_sector_err my fnum cur seen x : read_sector h b my fnum cur seen = Err x -> is_atr x = true.
  Proof.
    unfold read_sector, get_raw_bytes. destruct (get_pos h cur) as [[p s]|y] eqn:P; cbn [rbind].
    - destruct (pos_size b h Hb Hh Hss cur p s P) as (A & B & C). destruct (hdr_of_facts b h Hb Hh) as (_ & O & _).
      rewrite zlen_slice by lia. replace (p + s - p <? 3) with false by lia.
      destruct my; [discriminate|]. destruct (negb _); [intros H; injection H as <-; reflexivity|].
      destruct (zmem _ _); [intros H; injection H as <-; reflexivity|discriminate].
    - intros H. injection H as <-. unfold get_pos in P. destruct (negb _); [injection P as <-; reflexivity|destruct (_ <=? _); discriminate].
  Qed.
  Lemma read_sector_run my fnum cur seen nx sn p n : read_sector h b my fnum cur seen = Ok (nx, sn, p, n) ->
    exists s, 128 <= s /\ 0 <= p /\ p + s <= zlen b /\ n = getb b (p + s - 1).
  Proof.
    unfold read_sector, get_raw_bytes. destruct (get_pos h cur) as [[q s]|y] eqn:P; cbn [rbind]; [|discriminate].
    destruct (pos_size b h Hb Hh Hss cur q s P) as (A & B & C). destruct (hdr_of_facts b h Hb Hh) as (_ & O & _).
    rewrite zlen_slice by lia. replace (q + s - q <? 3) with false by lia. intros E. exists s.
    assert (q = p /\ n = getb b (q + s - 1)) as (-> & ->).
    { destruct my.
      - injection E as <- <- <- <-. split; [reflexivity|]. rewrite getb_slice by lia. f_equal. lia.
      - destruct (negb _); [discriminate|]. destruct (zmem _ _); [discriminate|]. injection E as <- <- <- <-. split; [reflexivity|].
        rewrite getb_slice by lia. f_equal. lia. }
    split; [exact A|]. split; [lia|]. split; [exact B|reflexivity].
  Qed.
  Lemma read_runs_err my fnum f cur seen :
    match read_runs f h b my fnum cur seen with
    | Err x => is_atr x = true \/ x = EFuel
    | Ok runs => forall r, In r runs -> exists s, 128 <= s /\ 0 <= fst r /\ fst r + s <= zlen b /\ snd r = getb b (fst r + s - 1)
    end.
  Proof.
    revert cur seen. induction f as [|f IH]; intros cur seen; cbn [read_runs]; [right; reflexivity|].
    destruct (read_sector h b my fnum cur seen) as [[[[nx sn] p] n]|y] eqn:R; cbn [rbind].
    - pose proof (read_sector_run _ _ _ _ _ _ _ _ R) as K. destruct (nx =? 0).
      + intros r [<-|[]]. exact K.
      + specialize (IH nx sn). destruct (read_runs f h b my fnum nx sn) as [rest|z]; cbn [rbind]; [|exact IH].
        intros r [<-|Hr]; [exact K|exact (IH r Hr)].
    - left. exact (read_sector_err _ _ _ _ _ R).
  Qed.
End Atari.

Lemma atari_file_err b im d x : bytes_ok b -> usual_sectors b -> open_image b = Ok im -> In d (a_files im) -> get_file im d = Err x ->
  is_atr x = true \/ (x = EFuel /\ d_mydos d = true /\ forall fuel, get_file_fuel fuel im d = Err EFuel) \/ (x = EIndex /\ large_count_at_end b).
Proof.
  intros Hb U O Hd G. destruct (open_image_hdr b im O) as [Hh Bm]. destruct (header_usual b Hb U) as (h & E & S1 & _).
  assert (h = a_hdr im) by congruence. subst h.
  pose proof G as G0. unfold get_file, get_file_fuel, start_read in G. destruct (d_sane d); cbn [rbind] in G; [|injection G as <-; left; reflexivity].
  rewrite Bm in G. pose proof (read_runs_err b (a_hdr im) Hb E S1 (d_my d) (d_num d) (chain_fuel (a_hdr im)) (d_start d) []) as K.
  destruct (read_runs _ _ b _ _ _ _) as [runs|y]; cbn [rbind] in G.
  - destruct (forallb _ runs); [discriminate|]. unfold indexed_bytes in G.
    destruct (forallb (fun r => _ || _) runs) eqn:F; [discriminate|]. injection G as <-. right. right. split; [reflexivity|].
    assert (N : exists r, In r runs /\ zlen b < fst r + snd r).
    { clear - F. induction runs as [|r l IH]; cbn [forallb] in F; [discriminate|]. apply andb_false_iff in F. destruct F as [F|F].
      - apply orb_false_iff in F. exists r. split; [left; reflexivity|lia].
      - destruct (IH F) as (r' & A & B). exists r'. split; [right; exact A|exact B]. }
    destruct N as (r & Hr & L). destruct (K r Hr) as (s & A & B & C & D). exists (fst r + s - 1).
    pose proof (bytes_ok_getb b (fst r + s - 1) Hb) as Q. unfold is_byte in Q. rewrite <- D in *. lia.
  - injection G as <-. destruct K as [K| ->]; [left; exact K|]. right. left. split; [reflexivity|].
    destruct (d_mydos d) eqn:M.
    + split; [reflexivity|]. destruct (Properties_Atari2.C10_mydos_read_ends_or_never_does b im d Hb O Hd M) as [(N & _)|N]; [contradiction|exact N].
    + exfalso. destruct (Properties_Atari.C10_atari_reading_terminates_partial b im d (chain_fuel (a_hdr im)) Hb O Hd M (le_n _)) as (N & _).
      apply N. exact G0.
Qed.

(** DOS 3.3 *)
Lemma dos33_file_err b im d x : bytes_ok b -> vtoc_sectors b <= 560 -> open33 b = Ok im -> get_file3 im d = Err x ->
  is_atr x = true \/ x = EName \/ (x = EFuel /\ forall fuel, get_file_fuel3 fuel im d = Err EFuel).
Proof.
  intros Hb M O G. destruct (open33_hdr b im O) as (L & Bm & EM).
  assert (P : 0 <= h_max3 (i_hdr im)).
  { rewrite EM. unfold vtoc_sectors. pose proof (bytes_ok_getb _ (272 * 256 + 0x34) Hb). pose proof (bytes_ok_getb _ (272 * 256 + 0x35) Hb). unfold is_byte in *. nia. }
  assert (R : forall n, match get_raw3 (i_hdr im) (i_bytes im) n with Ok (raw, _) => zlen raw = 256 | Err y => y = EName end).
  { intros n. destruct (valid3 (i_hdr im) n) eqn:V.
    - rewrite Bm. destruct (get_raw3_ok (i_hdr im) b n L ltac:(lia) V P) as (-> & Z). exact Z.
    - unfold get_raw3, get_pos3. rewrite V. reflexivity. }
  assert (T : forall f n, match ts_loop f (i_hdr im) (i_bytes im) n with Ok _ => True | Err y => is_atr y = true \/ y = EName \/ y = EFuel end).
  { induction f as [|f IH]; intros n; cbn [ts_loop]; destruct (0 <? n); auto.
    unfold assert_valid3. destruct (valid3 _ _) eqn:V; cbn [rbind]; [|left; reflexivity].
    pose proof (R n) as Rn. destruct (get_raw3 _ _ n) as [[raw p]|y]; cbn [rbind]; [|auto].
    match goal with |- context [ts_loop f ?a ?b ?m] => specialize (IH m); destruct (ts_loop f a b m) as [[tl m']|] end; cbn [rbind]; auto. }
  assert (Q : forall m, match read_map (i_hdr im) (i_bytes im) m with Ok _ => True | Err y => y = EName end).
  { induction m as [|n m IH]; cbn [read_map]; [exact I|]. pose proof (R n) as Rn. destruct (get_raw3 _ _ n) as [[raw p]|y]; cbn [rbind]; [|exact Rn].
    destruct (read_map _ _ m); cbn [rbind]; auto. }
  assert (F : is_atr x = true \/ x = EName \/ x = EFuel).
  { unfold get_file3, get_file_fuel3 in G. destruct (negb _); [injection G as <-; left; reflexivity|].
    unfold get_tslist in G. pose proof (T (fuel33 (i_hdr im)) (from_ts (d3_track d) (d3_sector d))) as K.
    destruct (ts_loop _ _ _ _) as [[tl m]|y]; cbn [rbind] in G; [|injection G as <-; exact K].
    destruct (pyslice0 _ _) as [|n0 r]; [injection G as <-; auto|]. specialize (Q (n0 :: r)). destruct (read_map _ _ (n0 :: r)); cbn [rbind] in G; [|injection G as <-; auto].
    destruct (forallb _ _); [discriminate|]. destruct (_ =? 4); cbn [rbind] in G; [|discriminate]. pose proof (R n0) as Rn.
    destruct (get_raw3 _ _ n0) as [[raw p]|y]; cbn [rbind] in G; [|injection G as <-; auto]. rewrite Rn in G. change (256 <? 2) with false in G. cbn [rbind] in G. discriminate. }
  destruct F as [F|[F|F]]; auto. right. right. split; [exact F|].
  destruct (Properties_Dos33.C10_dos33_read_ends_or_never_does im d P) as [(N & _)|N]; [congruence|exact N].
Qed.
