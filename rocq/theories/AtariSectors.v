(** Building the sectors of a new file: chunks, links, and the chain they form. *)
From Verif Require Import Base BaseLemmas DiskModel DirLemmas AtariModel AtariSpec AtariGeom AtariDir AtariVtoc AtariChain.

Lemma build_sectors_spec ss p : 0 < p -> forall fuel data, (length data <= fuel)%nat ->
  exists cs, build_sectors fuel ss p data = Ok (map (fun c => make_sector ss c (-1)) cs) /\
    concat cs = data /\ Forall (fun c => 1 <= zlen c <= p) cs /\
    zlen cs = sectors_needed p (zlen data) /\
    (forall c r, cs = r ++ [c] -> Forall (fun x => zlen x = p) r).
Proof.
  intros Hp fuel; induction fuel as [|fuel IH]; intros data Hf.
  - destruct data; [|cbn in Hf; lia]. exists [].
    split; [reflexivity|]. split; [reflexivity|]. split; [constructor|]. split.
    + rewrite !zlen_nil. unfold sectors_needed. symmetry. apply Z.div_small. lia.
    + intros c r E. symmetry in E. apply app_eq_nil in E. destruct E; discriminate.
  - destruct data as [|x data'] eqn:Ed.
    + exists []. split; [reflexivity|]. split; [reflexivity|]. split; [constructor|]. split.
      * rewrite !zlen_nil. unfold sectors_needed. symmetry. apply Z.div_small. lia.
      * intros c r E. symmetry in E. apply app_eq_nil in E. destruct E; discriminate.
    + rewrite <- Ed in *. cbn [build_sectors]. rewrite Ed. rewrite <- Ed.
      set (count := Z.min p (zlen data)).
      assert (Hl : 0 < zlen data) by (rewrite Ed, zlen_cons; pose proof (zlen_nonneg data'); lia).
      assert (Hrest : zlen (slice data count (zlen data)) = zlen data - count)
        by (unfold count; rewrite zlen_slice; lia).
      destruct (IH (slice data count (zlen data))) as (cs & E1 & E2 & E3 & E4 & E5).
      { unfold zlen in *. unfold count in *. lia. }
      assert (Hc : zlen (slice data 0 count) = count) by (unfold count; rewrite zlen_slice; lia).
      exists (slice data 0 count :: cs). rewrite E1. cbn [rbind map concat].
      split; [reflexivity|]. split; [|split; [|split]].
      * rewrite E2. unfold count. rewrite <- slice_split by lia. apply slice_full.
      * constructor; [|assumption]. rewrite Hc. unfold count. lia.
      * rewrite zlen_cons, E4, Hrest. unfold sectors_needed, count.
        destruct (Z_le_gt_dec (zlen data) p) as [Hle|Hgt].
        -- rewrite Z.min_r by lia. rewrite Z.sub_diag, Z.add_0_l.
           rewrite (Z.div_small (p - 1)) by lia.
           replace (zlen data + p - 1) with (1 * p + (zlen data - 1)) by lia.
           rewrite Z.div_add_l by lia. rewrite (Z.div_small (zlen data - 1)) by lia. lia.
        -- rewrite Z.min_l by lia.
           replace (zlen data + p - 1) with (1 * p + (zlen data - p + p - 1)) by lia.
           rewrite (Z.div_add_l 1) by lia. lia.
      * intros c r E. destruct r as [|r0 r].
        -- constructor.
        -- cbn [app] in E. injection E as E E'. constructor; [|apply (E5 c); assumption].
           subst r0. rewrite Hc.
           assert (0 < zlen cs) by (rewrite E', zlen_app, zlen_cons, zlen_nil; pose proof (zlen_nonneg r); lia).
           unfold count in *. destruct (Z_le_gt_dec (zlen data) p) as [Hle|Hgt]; [|lia].
           rewrite Hrest in E4. unfold sectors_needed in E4.
           rewrite Z.min_r, Z.sub_diag, Z.add_0_l, (Z.div_small (p - 1)) in E4 by lia. lia.
Qed.

Lemma Forall2_inv_head {A B} (P : A -> B -> Prop) x y l m : Forall2 P (x :: l) (y :: m) -> P x y.
Proof. inversion 1; assumption. Qed.
Lemma Forall2_inv_tail {A B} (P : A -> B -> Prop) x y l m : Forall2 P (x :: l) (y :: m) -> Forall2 P l m.
Proof. inversion 1; assumption. Qed.

(** * Linking *)
Section Link.
  Variables (ss f : Z).
  Hypothesis Hss : 128 <= ss <= 256.
  Hypothesis Hf : 0 <= f < 64.

  Definition numbered (c : list Z) (n : Z) : wsector :=
    set_fnum (set_num (make_sector ss c (-1)) n) f.

  Definition good_link (s : wsector) (c : list Z) (next : Z) : Prop :=
    zlen (s_data s) = ss /\ link_file (s_data s) = f /\ link_used (s_data s) = zlen c /\
    slice (s_data s) 0 (zlen c) = c /\ link_next (s_data s) = next /\
    (bytes_ok c -> bytes_ok (s_data s)).

  Lemma setnext_good c n next : zlen c <= ss - 3 -> 0 <= next < 1024 ->
    s_num (atari_setnext (numbered c n) next) = n /\
    good_link (atari_setnext (numbered c n) next) c next.
  Proof.
    intros Hc Hn. unfold numbered. rewrite make_sector_spec by lia.
    pose proof (zlen_nonneg c).
    unfold atari_setnext, set_data, set_fnum, set_num, fill_sec. cbn [s_num s_size s_fnum s_data s_used app].
    split; [reflexivity|]. rewrite zlen_nil, Z.sub_0_r, Z.add_0_l.
    set (t := [u8 (f * 4 + (next / 256) mod 4); u8 (next mod 256); u8 (zlen c)]).
    set (d0 := c ++ zrepeat 0 (ss - zlen c)).
    assert (Ht : zlen t = 3) by reflexivity.
    assert (Hd0 : zlen d0 = ss) by (unfold d0; rewrite zlen_app, zlen_zrepeat; lia).
    assert (Hd : zlen (setslice d0 (ss - 3) t) = ss) by (rewrite zlen_setslice; lia).
    assert (G3 : getb (setslice d0 (ss - 3) t) (ss - 3) = u8 (f * 4 + (next / 256) mod 4)).
    { rewrite getb_setslice by lia. rewrite Ht.
      replace ((ss - 3 <=? ss - 3) && (ss - 3 <? ss - 3 + 3)) with true by lia.
      rewrite Z.sub_diag. reflexivity. }
    assert (G2 : getb (setslice d0 (ss - 3) t) (ss - 2) = u8 (next mod 256)).
    { rewrite getb_setslice by lia. rewrite Ht.
      replace ((ss - 3 <=? ss - 2) && (ss - 2 <? ss - 3 + 3)) with true by lia.
      replace (ss - 2 - (ss - 3)) with 1 by lia. reflexivity. }
    assert (G1 : getb (setslice d0 (ss - 3) t) (ss - 1) = u8 (zlen c)).
    { rewrite getb_setslice by lia. rewrite Ht.
      replace ((ss - 3 <=? ss - 1) && (ss - 1 <? ss - 3 + 3)) with true by lia.
      replace (ss - 1 - (ss - 3)) with 2 by lia. reflexivity. }
    unfold good_link, link_file, link_next, link_used. cbn [s_data]. rewrite Hd, G3, G2, G1.
    split; [reflexivity|]. split; [|split; [|split; [|split]]].
    - unfold u8. Z.to_euclidean_division_equations; lia.
    - apply u8_id. unfold is_byte; lia.
    - rewrite slice_setslice_before by lia. unfold d0. apply slice_app_full_l.
    - unfold u8. Z.to_euclidean_division_equations; lia.
    - intros Hb. apply bytes_ok_setslice.
      + apply bytes_ok_app. split; [assumption|]. apply bytes_ok_zrepeat; unfold is_byte; lia.
      + unfold t. repeat constructor; apply is_byte_u8.
  Qed.

  Lemma link_loop_some ns : forall cs c n,
    length ns = length cs -> zlen c <= ss - 3 -> Forall (fun c => zlen c <= ss - 3) cs ->
    Forall (fun n => 0 <= n < 1024) ns ->
    let l := link_loop atari_setnext f (Some (numbered c n))
               (combine (map (fun c => make_sector ss c (-1)) cs) ns) in
    map s_num l = n :: ns /\
    Forall2 (fun s p => good_link s (fst p) (snd p)) l (combine (c :: cs) (ns ++ [0])).
  Proof.
    induction ns as [|m ns IH]; intros cs c n Hl Hc Hcs Hns; cbv zeta.
    - destruct cs; [|discriminate]. cbn [map combine link_loop app].
      destruct (setnext_good c n 0 Hc ltac:(lia)) as [E1 E2]. cbn [map].
      rewrite E1. split; [reflexivity|]. constructor; [exact E2|constructor].
    - destruct cs as [|c' cs]; [discriminate|]. inversion Hcs; subst. inversion Hns; subst.
      cbn [map combine link_loop app].
      destruct (setnext_good c n m Hc ltac:(assumption)) as [E1 E2].
      fold (numbered c' m).
      destruct (IH cs c' m) as [I1 I2]; try assumption; [cbn in Hl; lia|].
      cbn [map]. rewrite E1, I1. split; [reflexivity|].
      constructor; [exact E2|exact I2].
  Qed.

  Lemma link_loop_spec ns cs :
    length ns = length cs -> cs <> [] -> Forall (fun c => zlen c <= ss - 3) cs ->
    Forall (fun n => 0 <= n < 1024) ns ->
    let l := link_loop atari_setnext f None (combine (map (fun c => make_sector ss c (-1)) cs) ns) in
    map s_num l = ns /\
    Forall2 (fun s p => good_link s (fst p) (snd p)) l (combine cs (tl ns ++ [0])).
  Proof.
    intros Hl Hne Hcs Hns. destruct cs as [|c cs]; [congruence|]. destruct ns as [|n ns]; [discriminate|].
    inversion Hcs; subst. inversion Hns; subst. cbn [map combine link_loop tl].
    fold (numbered c n). apply link_loop_some; try assumption. cbn in Hl; lia.
  Qed.
End Link.

(** The linked sectors, once on the disk, form a chain holding the data. *)
Lemma linked_chain g b f ss : 0 <= f -> g_ss g = ss -> forall l cs ns,
  Forall2 (fun s p => good_link ss f s (fst p) (snd p)) l (combine cs (tl ns ++ [0])) ->
  map s_num l = ns -> length cs = length ns -> ns <> [] -> NoDup ns ->
  Forall (data_sector g) ns -> Forall (fun c => zlen c <= ss - 3) cs ->
  (forall s, In s l -> sector g b (s_num s) = s_data s) ->
  chain g b f (hd 0 ns) ns /\ contents g b ns = concat cs.
Proof.
  intros Hf Hg l.
  assert (NL : forall s, next_link f s = link_next s) by (intros s; unfold next_link; replace (f =? -1) with false by lia; reflexivity).
  induction l as [|s l IH]; intros cs ns HF Hn Hlen Hne Hnd Hds Hcs Hsec.
  - cbn in Hn. congruence.
  - destruct cs as [|c cs]; [destruct ns; [congruence|discriminate]|].
    destruct ns as [|n ns]; [congruence|].
    cbn [map] in Hn. injection Hn as En Hn.
    assert (Hs : sector g b n = s_data s) by (rewrite <- En; apply Hsec; left; reflexivity).
    pose proof (Forall_inv Hds) as Hd1. apply Forall_inv_tail in Hds.
    pose proof (Forall_inv Hcs) as Hc1. apply Forall_inv_tail in Hcs.
    apply NoDup_cons_iff in Hnd. destruct Hnd as [Hni Hnd].
    cbn [tl] in HF.
    destruct ns as [|m ns].
    + destruct l; [|discriminate]. destruct cs; [|discriminate].
      cbn [app combine] in HF. pose proof (Forall2_inv_head _ _ _ _ _ HF) as Hg1. cbn [fst snd] in Hg1.
      destruct Hg1 as (L1 & L2 & L3 & L4 & L5 & L6). cbn [hd map] in *.
      split.
      * apply chain_end; rewrite ?NL, ?Hs; try assumption; [right; assumption|]. rewrite L3. lia.
      * cbn [contents flat_map concat]. rewrite Hs, L3, L4. reflexivity.
    + cbn [app combine] in HF. pose proof (Forall2_inv_head _ _ _ _ _ HF) as Hg1. apply Forall2_inv_tail in HF. cbn [fst snd] in Hg1.
      destruct Hg1 as (L1 & L2 & L3 & L4 & L5 & L6).
      destruct (IH cs (m :: ns)) as [I1 I2]; try assumption; try reflexivity.
      * cbn in Hlen |- *; lia.
      * discriminate.
      * intros s' Hs'. apply Hsec. right; assumption.
      * split.
        -- cbn [hd] in *. apply chain_more; rewrite ?NL, ?Hs; try assumption.
           ++ right; assumption.
           ++ rewrite L3. lia.
           ++ rewrite L5. exact I1.
        -- cbn [contents flat_map concat] in *. rewrite I2. rewrite Hs, L3, L4. reflexivity.
Qed.
