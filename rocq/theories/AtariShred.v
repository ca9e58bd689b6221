(** The effect of shredding, proved against [dos2_disk]. *)
From Verif Require Import Base BaseLemmas DiskModel DirLemmas AtariModel AtariSpec AtariGeom AtariDir AtariVtoc AtariChain AtariSectors AtariWrite.

Definition is_free (g : geom) (b : list Z) (n : Z) : bool := (n <? 720) && (free_bit g b n =? 1).

Lemma shred_loop_spec h smap fill : zlen smap = 1280 -> 
  (forall n, getb smap n = 1 -> 4 <= n) ->
  forall n i b, hgeo h b -> 1 <= i -> i + Z.of_nat n = h_max h + 1 ->
  shred_loop n h smap fill i b =
  (put_secs (geom_of h) (map (fun m => (m, zrepeat (u8 fill) (h_ssize h)))
     (filter (fun m => getb smap m =? 1) (zrange i (Z.max i (Z.min (h_max h + 1) 1280))))) b,
   if (h_max h <? 1280) || (h_max h <? i) then Ok tt else Err EIndex).
Proof.
  intros Hz Hf. induction n as [|n IH]; intros i b G Hi Hn.
  - cbn [shred_loop]. replace (Z.max i (Z.min (h_max h + 1) 1280)) with i by lia.
    rewrite zrange_nil by lia. cbn [filter map put_secs fold_left].
    replace ((h_max h <? 1280) || (h_max h <? i)) with true by lia. reflexivity.
  - cbn [shred_loop].
    assert (Hgp : exists pos size, get_pos h i = Ok (pos, size) /\ (4 <= i -> pos = spos (geom_of h) i /\ size = h_ssize h)).
    { destruct (Z_le_dec 4 i).
      - rewrite (get_pos_in h b G) by lia. eauto.
      - unfold get_pos, sector_valid. replace (negb _) with false by lia.
        destruct (i <=? h_ninit h); eexists; eexists; (split; [reflexivity|lia]). }
    destruct Hgp as (pos & size & -> & Hps). rewrite Hz.
    destruct (Z.leb_spec 1280 i).
    + replace (Z.max i (Z.min (h_max h + 1) 1280)) with i by lia.
      rewrite zrange_nil by lia. cbn [filter map put_secs fold_left].
      replace ((h_max h <? 1280) || (h_max h <? i)) with false by lia. reflexivity.
    + replace (Z.max i (Z.min (h_max h + 1) 1280)) with (Z.min (h_max h + 1) 1280) by lia.
      rewrite (zrange_cons i) by lia. cbn [filter].
      assert (Em : Z.max (i + 1) (Z.min (h_max h + 1) 1280) = Z.min (h_max h + 1) 1280) by lia.
      destruct (getb smap i =? 1) eqn:E.
      * specialize (Hf i ltac:(lia)). destruct (Hps Hf) as [-> ->].
        pose proof (zlen_sector h b G i ltac:(lia)) as Zs. unfold sector in Zs.
        change (g_ss (geom_of h)) with (h_ssize h) in Zs. rewrite Zs.
        rewrite IH; [|apply hgeo_setsec; [assumption|lia|]|lia|lia].
        -- rewrite Em. cbn [map put_secs fold_left fst snd]. f_equal.
           replace (h_max h <? i + 1) with (h_max h =? i) by lia.
           destruct (h_max h <? 1280) eqn:E1; [reflexivity|]. cbn [orb].
           replace (h_max h =? i) with false by lia. replace (h_max h <? i) with false by lia. reflexivity.
        -- rewrite zlen_zrepeat; destruct G; lia.
      * rewrite IH by (try assumption; lia). rewrite Em. f_equal.
        destruct (h_max h <? 1280) eqn:E1; [reflexivity|]. cbn [orb].
        replace (h_max h <? i + 1) with false by lia. replace (h_max h <? i) with false by lia. reflexivity.
Qed.

Record shred_effect (h : hdr) (b : list Z) (k : Z) (b' : list Z) (fill : Z) : Prop := mkSE {
  se_len : zlen b' = zlen b;
  se_hdr : hdr_of b' = hdr_of b;
  se_disk : dos2_disk (geom_of h) b' k;
  se_sector : forall n, 4 <= n <= h_max h ->
     sector (geom_of h) b' n = if is_free (geom_of h) b n then zrepeat (u8 fill) (h_ssize h) else sector (geom_of h) b n;
  se_files : forall name i c, file_in (geom_of h) b k name i c ->
     file_in (geom_of h) b' k name i c /\ contents (geom_of h) b' c = contents (geom_of h) b c;
  se_prefix : forall x y, 0 <= x -> y <= spos (geom_of h) 4 -> slice b' x y = slice b x y;
  se_suffix : forall x y, spos (geom_of h) (h_max h + 1) <= x -> slice b' x y = slice b x y;
  se_slots : forall i, 0 <= i < num_slots (geom_of h) -> slot (geom_of h) b' i = slot (geom_of h) b i
}.

Lemma shred_body_ok h b k fill : hgeo h b -> dos2_disk (geom_of h) b k ->
  exists b', shred_body (view h b k) fill
             = (with_bytes (view h b k) b', if h_max h <? 1280 then Ok tt else Err EIndex) /\
    shred_effect h b k b' fill.
Proof.
  intros G D. pose proof (hg_ss _ _ G) as Hss. pose proof (hg_max _ _ G) as Hmax.
  set (g := geom_of h) in *.
  assert (Hfree : forall n, getb (smap_of h b) n = 1 -> 0 <= n < 720 /\ free_bit g b n = 1 /\ data_sector g n).
  { intros n Hn. destruct (Z_lt_dec n 0) as [L|L].
    - exfalso. unfold getb in Hn. replace (Z.to_nat n) with (Z.to_nat 0) in Hn by lia.
      fold (getb (smap_of h b) 0) in Hn. rewrite (getb_smap h b G) in Hn by lia.
      cbn [Z.ltb Z.compare] in Hn. pose proof (dk_free _ _ _ D 0 ltac:(lia) Hn) as (X & _). lia.
    - destruct (Z_lt_dec n 1280) as [L'|L'].
      + rewrite (getb_smap h b G) in Hn by lia. destruct (n <? 720) eqn:E; [|lia].
        split; [lia|]. split; [assumption|]. apply (dk_free _ _ _ D); [lia|assumption].
      + exfalso. unfold getb in Hn. rewrite nth_overflow in Hn; [lia|].
        pose proof (zlen_smap h b G) as Z1. unfold zlen in Z1. lia. }
  set (secs := map (fun m => (m, zrepeat (u8 fill) (h_ssize h)))
     (filter (fun m => getb (smap_of h b) m =? 1) (zrange 1 (Z.max 1 (Z.min (h_max h + 1) 1280))))).
  assert (Hsecs : in_secs h secs).
  { apply Forall_forall. intros p Hp. unfold secs in Hp. apply in_map_iff in Hp. destruct Hp as (m & <- & Hm).
    apply filter_In in Hm. destruct Hm as [_ Hm]. destruct (Hfree m ltac:(lia)) as (_ & _ & (R & _)).
    cbn [fst snd]. change (g_max g) with (h_max h) in R. split; [assumption|]. apply zlen_zrepeat. lia. }
  destruct (put_secs_props h secs b G Hsecs) as (Pl & Ps & Pp & Pt). fold g in Pl, Ps, Pp, Pt.
  set (b' := put_secs g secs b) in *.
  assert (Hfst : map fst secs = filter (fun m => getb (smap_of h b) m =? 1) (zrange 1 (Z.max 1 (Z.min (h_max h + 1) 1280)))).
  { unfold secs. rewrite map_map. cbn [fst]. apply map_id. }
  assert (Hsec : forall n, 4 <= n <= h_max h ->
     sector g b' n = if is_free g b n then zrepeat (u8 fill) (h_ssize h) else sector g b n).
  { intros n Hn. rewrite Ps by assumption. unfold is_free. destruct (_ && _) eqn:E.
    - apply last_put_in.
      + rewrite Hfst. apply NoDup_filter, NoDup_zseq_nat.
      + unfold secs. apply in_map_iff. exists n. split; [reflexivity|]. apply filter_In. rewrite In_zrange.
        split; [lia|]. rewrite (getb_smap h b G) by lia. fold g. replace (n <? 720) with true by lia. lia.
    - apply last_put_notin. rewrite Hfst. intros Hin. apply filter_In in Hin. destruct Hin as [_ Hin].
      destruct (Hfree n ltac:(lia)) as (A1 & A2 & _). lia. }
  assert (Hnf : forall n, 4 <= n <= h_max h -> is_free g b n = false -> sector g b' n = sector g b n).
  { intros n Hn E. rewrite Hsec, E by assumption. reflexivity. }
  assert (Hsys : forall n, 360 <= n <= 368 -> sector g b' n = sector g b n).
  { intros n Hn. apply Hnf; [lia|]. unfold is_free. destruct (free_bit g b n =? 1) eqn:E; [|lia].
    pose proof (dk_free _ _ _ D n ltac:(lia) ltac:(lia)) as (_ & _ & X). lia. }
  assert (G' : hgeo h b') by (eapply hgeo_zlen; eassumption).
  assert (Hslot : forall i, 0 <= i < num_slots g -> slot g b' i = slot g b i).
  { intros i Hi. apply (slot_sectors h b' b i G' G); [|assumption]. intros n Hn. apply Hsys. lia. }
  assert (Hfb : forall n, free_bit g b' n = free_bit g b n).
  { intros n. unfold free_bit. rewrite Hsys by lia. reflexivity. }
  pose proof (num_slots_64 g ltac:(change (g_ss g) with (h_ssize h); lia)) as Hns.
  pose proof (dk_k _ _ _ D) as Hk.
  assert (Hchain : forall i c, 0 <= i < k -> e_live (slot g b i) -> slot_chain g b i c ->
     forall m, In m c -> sector g b' m = sector g b m).
  { intros i c Hi Li Hc m Hm. pose proof (chain_data _ _ _ _ _ Hc) as Dc. rewrite Forall_forall in Dc.
    destruct (Dc m Hm) as (R & _). apply Hnf; [exact R|].
    destruct (dk_files _ _ _ D i Hi Li) as (_ & _ & c' & Hc' & _ & Hfr).
    rewrite (chain_det _ _ _ _ _ Hc _ Hc') in Hm. unfold is_free.
    destruct (Z.ltb_spec m 720); [|reflexivity]. rewrite Hfr by assumption. reflexivity. }
  assert (Hstay : forall i c, 0 <= i < k -> e_live (slot g b i) -> slot_chain g b i c -> slot_chain g b' i c).
  { intros i c Hi Li Hc. unfold slot_chain. rewrite Hslot by zl. apply (chain_frame g b); [exact Hc|]. exact (Hchain i c Hi Li Hc). }
  assert (Hwas : forall i c, 0 <= i < k -> e_live (slot g b i) -> slot_chain g b' i c -> slot_chain g b i c).
  { intros i c Hi Li Hc. destruct (dk_files _ _ _ D i Hi Li) as (_ & _ & c' & Hc' & _).
    rewrite (slot_chain_det _ _ _ _ _ Hc (Hstay i c' Hi Li Hc')). exact Hc'. }
  assert (Hpfx : forall x y, 0 <= x -> y <= spos g 4 -> slice b' x y = slice b x y) by (intros; apply Pp; assumption).
  exists b'. split.
  - unfold shred_body. rewrite get_vtoc_object_view by assumption. cbn [lift_st].
    change (a_hdr (view h b k)) with h. change (a_bytes (view h b k)) with b.
    rewrite shred_loop_spec; [|apply zlen_smap; assumption| |assumption|lia|lia].
    + fold g secs b'. replace (h_max h <? 1) with false by lia. rewrite orb_false_r. reflexivity.
    + intros n Hn. destruct (Hfree n Hn) as (_ & _ & (R & _)). lia.
  - constructor; try assumption.
    + apply hdr_of_same; [assumption|]. apply Hpfx; [lia|]. exact (hg_first _ _ G).
    + constructor.
      * apply bytes_ok_put_secs; [exact (dk_bytes _ _ _ D)|]. apply Forall_forall. intros p Hp.
        unfold secs in Hp. apply in_map_iff in Hp. destruct Hp as (m & <- & _). cbn [snd].
        apply bytes_ok_zrepeat. unfold is_byte, u8. apply Z.mod_pos_bound. lia.
      * exact (dk_ss _ _ _ D).
      * exact (dk_max _ _ _ D).
      * exact (dk_first _ _ _ D).
      * rewrite Pl. exact (dk_fit _ _ _ D).
      * fold g. rewrite Hsys by lia. exact (dk_vtoc _ _ _ D).
      * intros n Hn. fold g. rewrite Hfb. apply (dk_free _ _ _ D); assumption.
      * exact Hk.
      * intros i Hi. fold g. rewrite Hslot by zl. apply (dk_used _ _ _ D); assumption.
      * intros i Hi. fold g in Hi. fold g. rewrite Hslot by zl. apply (dk_unused _ _ _ D); assumption.
      * intros i j Hij Hj Lj. fold g in Lj. fold g. rewrite Hslot in * by zl. rewrite Hslot by zl. apply (dk_names _ _ _ D); assumption.
      * intros i Hi Li. fold g in Li. fold g. rewrite Hslot in * by zl.
        destruct (dk_files _ _ _ D i Hi Li) as (M1 & M2 & c & Hc & Hne & Hfr).
        split; [|split; [assumption|]].
        { intros j ci cj n Hj Hji Lj Hci Hcj. rewrite Hslot in Lj by zl.
          apply (M1 j ci cj n Hj Hji Lj); [apply Hwas|apply Hwas]; assumption. }
        exists c. pose proof (Hchain i c Hi Li Hc) as Kp.
        split; [apply Hstay; assumption|].
        split; [rewrite (contents_frame g b) by assumption; assumption|].
        intros n Hn Hn7. rewrite Hfb. apply Hfr; assumption.
    + intros name i c (Hi & Li & Ni & Ci). fold g in Li, Ni, Ci. pose proof (Hchain i c Hi Li Ci) as Kp.
      split; [|apply contents_frame; assumption].
      unfold file_in. fold g. rewrite Hslot by zl. split; [assumption|]. split; [assumption|]. split; [assumption|].
      apply Hstay; assumption.
    + intros x y Hx. apply Pt. rewrite (spos_succ g) in Hx. exact Hx.
Qed.
