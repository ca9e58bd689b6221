(** The effect of deleting a file, proved against [dos2_disk]. *)
From Verif Require Import Base BaseLemmas DiskModel DirLemmas AtariModel AtariSpec AtariGeom AtariDir AtariVtoc AtariChain AtariSectors AtariWrite.

(** * What a walk over sector links visits *)
Section Walk.
  Variables (h : hdr) (b : list Z).
  Hypothesis G : hgeo h b.
  Let g := geom_of h.

  Lemma get_raw_err n : ~ (1 <= n <= h_max h) -> get_raw_bytes h b n = Err (EAtr ByteNotInFile166).
  Proof.
    intros Hn. unfold get_raw_bytes, get_pos, sector_valid. pose proof (hg_max _ _ G).
    replace ((h_max h <? 0) || (1 <=? n) && (n <? h_max h + 1)) with false by lia. reflexivity.
  Qed.

  (** Without MyDOS entries the walk visits only sectors with the file's number,
      ends within the fuel, and leaves the system area alone. *)
  Lemma walk_reads f : (forall n, 4 <= n <= h_max h -> ~ system_sector n ->
        ~ system_sector (link_next (sector g b n))) ->
    forall fuel n seen, ~ system_sector n ->
    match read_nums fuel h b false f n seen with
    | Ok nums => forall m, In m nums -> 4 <= m <= h_max h /\ ~ system_sector m /\ link_file (sector g b m) = f
    | Err e => e = EFuel \/ is_atr e = true
    end.
  Proof.
    intros Hlinks. induction fuel as [|fuel IH]; intros n seen Hn; [left; reflexivity|].
    cbn [read_nums]. unfold read_sector.
    destruct (Z_le_dec 1 n) as [L|L]; [destruct (Z_le_dec n (h_max h)) as [L'|L']|].
    - assert (Hin : 4 <= n <= h_max h) by (unfold system_sector in Hn; lia).
      rewrite (get_raw_in h b G) by assumption. cbn [rbind]. fold g.
      pose proof (zlen_sector h b G n Hin) as Hl. fold g in Hl. rewrite Hl.
      pose proof (hg_ss _ _ G) as Hss. replace (h_ssize h <? 3) with false by lia.
      destruct (negb _) eqn:En; [right; reflexivity|].
      destruct (zmem _ _); [right; reflexivity|]. cbn [rbind].
      assert (Hnext : getb (sector g b n) (h_ssize h - 3) mod 4 * 256 + getb (sector g b n) (h_ssize h - 2)
        = link_next (sector g b n)) by (unfold link_next; rewrite Hl; reflexivity).
      rewrite Hnext.
      assert (Hlf : link_file (sector g b n) = f) by (unfold link_file; rewrite Hl; lia).
      destruct (_ =? 0); [intros m [<-|[]]; auto|].
      specialize (IH (link_next (sector g b n)) (n :: seen) (Hlinks n Hin Hn)).
      destruct (read_nums fuel h b false f _ _) as [nums|e]; cbn [rbind]; [|assumption].
      intros m [<-|Hm]; auto.
    - rewrite get_raw_err by lia. right; reflexivity.
    - rewrite get_raw_err by lia. right; reflexivity.
  Qed.
End Walk.

(** Reading an Atari DOS file needs no more than [chain_fuel] steps (C10). *)
Section Fuel.
  Variables (h : hdr) (b : list Z) (f : Z).

  Lemma read_sector_seen n seen nx seen' p u :
    read_sector h b false f n seen = Ok (nx, seen', p, u) ->
    sector_valid h n = true /\ seen' = n :: seen /\ ~ In nx seen'.
  Proof.
    unfold read_sector. intros H. destruct (get_raw_bytes h b n) as [[[raw pos] sz]|e] eqn:E; [|discriminate].
    cbn [rbind] in H.
    assert (V : sector_valid h n = true).
    { unfold get_raw_bytes, get_pos in E. destruct (sector_valid h n); [reflexivity|discriminate]. }
    destruct (zlen raw <? 3); [discriminate|]. destruct (negb _); [discriminate|].
    destruct (zmem _ _) eqn:Z; [discriminate|]. injection H as <- <- <- <-.
    split; [assumption|]. split; [reflexivity|]. apply zmem_false. assumption.
  Qed.

  Lemma read_fuel fuel : 0 <= h_max h -> forall n seen,
    NoDup (n :: seen) -> (forall m, In m seen -> 1 <= m <= h_max h) ->
    (S (Z.to_nat (h_max h)) <= length seen + fuel)%nat ->
    read_nums fuel h b false f n seen <> Err EFuel /\
    read_runs fuel h b false f n seen <> Err EFuel.
  Proof.
    intros Hm. induction fuel as [|fuel IH]; intros n seen Hnd Hr Hl.
    - exfalso. apply NoDup_cons_iff in Hnd. destruct Hnd as [_ Hnd].
      assert (Hi : incl seen (zrange 1 (h_max h + 1))) by (intros x Hx; apply In_zrange; specialize (Hr x Hx); lia).
      pose proof (NoDup_incl_length Hnd Hi) as L. unfold zrange in L. rewrite length_zseq_nat in L. lia.
    - cbn [read_nums read_runs]. destruct (read_sector h b false f n seen) as [[[[nx seen'] p] u]|e] eqn:E.
      + cbn [rbind]. apply read_sector_seen in E. destruct E as (V & -> & Hni).
        assert (1 <= n <= h_max h) by (unfold sector_valid in V; lia).
        destruct (nx =? 0); [split; discriminate|].
        destruct (IH nx (n :: seen)) as [I1 I2].
        * constructor; assumption.
        * intros m [<-|Hx]; auto.
        * cbn [length]. lia.
        * destruct (read_nums _ _ _ _ _ _ _); destruct (read_runs _ _ _ _ _ _ _); cbn [rbind];
            split; congruence.
      + cbn [rbind]. unfold read_sector, get_raw_bytes, get_pos in E.
        assert (e <> EFuel); [|split; congruence].
        destruct (negb (sector_valid h n)); [cbn in E; congruence|].
        destruct (n <=? h_ninit h); cbn [rbind] in E;
          (destruct (_ <? 3); [congruence|]; destruct (negb _); [congruence|];
           destruct (zmem _ _); congruence).
  Qed.
End Fuel.

(** * Effect *)
Record delete_effect (h : hdr) (b : list Z) (k : Z) (b' : list Z) (i : Z) (nums : list Z) : Prop := mkDE {
  de_len : zlen b' = zlen b;
  de_hdr : hdr_of b' = hdr_of b;
  de_disk : dos2_disk (geom_of h) b' k;
  de_old : forall n j cj, j <> i -> file_in (geom_of h) b k n j cj ->
     file_in (geom_of h) b' k n j cj /\ contents (geom_of h) b' cj = contents (geom_of h) b cj;
  de_free : forall n, 0 <= n < 720 ->
     free_bit (geom_of h) b' n = if zmem n nums then 1 else free_bit (geom_of h) b n;
  de_frame : forall n, 4 <= n <= h_max h -> ~ (360 <= n <= 368) ->
     sector (geom_of h) b' n = sector (geom_of h) b n;
  de_prefix : forall x y, 0 <= x -> y <= spos (geom_of h) 4 -> slice b' x y = slice b x y;
  de_suffix : forall x y, spos (geom_of h) (h_max h + 1) <= x -> slice b' x y = slice b x y;
  de_vtoc : forall j, 0 <= j < 10 \/ 100 <= j < h_ssize h ->
     getb (sector (geom_of h) b' 360) j = getb (sector (geom_of h) b 360) j;
  de_slots : forall j, 0 <= j < k -> j <> i -> same_entry (slot (geom_of h) b j) (slot (geom_of h) b' j);
  de_slot : let e := slot (geom_of h) b i in let e' := slot (geom_of h) b' i in
     0 <= i < k /\ ~ e_live e' /\ flag_has e' 128 /\ (flag_has e' 4 -> flag_has e 4) /\
     e_name e' = e_name e /\ e_start e' = e_start e /\ e_count e' = e_count e
}.

Lemma find_index_spec name (f : Z -> dirent) i : forall m x,
  x <= i < x + Z.of_nat m -> filename (f i) = name ->
  (forall j, x <= j < i -> filename (f j) <> name) ->
  find_index name (map f (zseq_nat x m)) x = Some (i, f i).
Proof.
  induction m as [|m IH]; intros x Hx Hn Hj; [lia|]. cbn [zseq_nat map find_index].
  destruct (Z.eq_dec x i) as [->|Hne].
  - replace (zlist_eqb name (filename (f i))) with true; [reflexivity|]. symmetry. apply zlist_eqb_eq. congruence.
  - replace (zlist_eqb name (filename (f x))) with false.
    + apply IH; [lia|assumption|]. intros; apply Hj; lia.
    + symmetry. apply zlist_eqb_neq. intros E. apply (Hj x); [lia|congruence].
Qed.
Lemma find_index_none name (f : Z -> dirent) : forall m x,
  (forall j, x <= j < x + Z.of_nat m -> filename (f j) <> name) ->
  find_index name (map f (zseq_nat x m)) x = None.
Proof.
  induction m as [|m IH]; intros x Hj; [reflexivity|]. cbn [zseq_nat map find_index].
  replace (zlist_eqb name (filename (f x))) with false.
  - apply IH. intros; apply Hj; lia.
  - symmetry. apply zlist_eqb_neq. intros E. apply (Hj x); [lia|congruence].
Qed.

Lemma delete_body_gen h b k name i nums :
  hgeo h b -> dos2_disk (geom_of h) b k -> 0 <= i < k -> e_name (slot (geom_of h) b i) = name ->
  (forall j, 0 <= j < i -> e_name (slot (geom_of h) b j) <> name) ->
  d_sane (parse_dirent h i (slot (geom_of h) b i)) = true ->
  read_nums (chain_fuel h) h b (flag_bit (e_flag (slot (geom_of h) b i)) 4) i
            (e_start (slot (geom_of h) b i)) [] = Ok nums ->
  (forall n, In n nums -> 0 <= n < 1280 /\ 4 <= n <= h_max h /\ ~ system_sector n /\
     (forall j c, 0 <= j < k -> j <> i -> e_live (slot (geom_of h) b j) -> slot_chain (geom_of h) b j c -> ~ In n c)) ->
  exists b',
    delete_body (view h b k) name = (with_bytes (view h b k) b', Ok tt) /\
    delete_effect h b k b' i nums.
Proof.
  intros G D Hi Hname Hfirst Hsane Hread Hnums.
  pose proof (hg_ss _ _ G) as Hss. pose proof (hg_max _ _ G) as Hmax. pose proof (hg_pay _ _ G) as Hpay.
  pose proof (dk_k _ _ _ D) as Hk. pose proof (dk_bytes _ _ _ D) as Hbok.
  pose proof (num_slots_64 (geom_of h) ltac:(change (g_ss (geom_of h)) with (h_ssize h); lia)) as Hns.
  set (g := geom_of h) in *.
  set (d := parse_dirent h i (slot g b i)) in *.
  assert (Hfind : find_index name (entries h b k) 0 = Some (i, d)).
  { unfold entries, zrange. fold g.
    rewrite (find_index_spec name (fun i => parse_dirent h i (slot g b i)) i); [reflexivity|lia| |].
    - rewrite e_name_filename. assumption.
    - intros j Hj. rewrite e_name_filename. apply Hfirst. lia. }
  (* the free map *)
  destruct (free_sectors_spec nums (smap_of h b)) as (smap' & Efs & Hsm' & Hgsm).
  { intros n Hn. rewrite (zlen_smap h b G). apply Hnums in Hn. zl. }
  rewrite (zlen_smap h b G) in Hsm'.
  assert (Hbits : Forall is_bit (slice smap' 0 720)).
  { apply Forall_forall. intros x Hx. apply (In_nth _ _ 0) in Hx. destruct Hx as (m & Hm & <-).
    rewrite (length_slice720 smap' Hsm') in Hm.
    replace (nth m (slice smap' 0 720) 0) with (getb (slice smap' 0 720) (Z.of_nat m))
      by (unfold getb; rewrite Nat2Z.id; reflexivity).
    rewrite getb_slice by zl. rewrite Z.add_0_l, Hgsm by zl.
    destruct (zmem _ _); [right; reflexivity|]. rewrite (getb_smap h b G) by zl.
    replace (Z.of_nat m <? 720) with true by zl. apply free_bit_bit. }
  destruct (calc_bitmap_spec h b smap' G Hsm') as [Hnvl Ecb].
  destruct (new_vtoc_fields h b smap' G Hsm' Hbits) as [Nv1 Nv2].
  set (nv := new_vtoc h b smap') in *. fold g in Ecb, Nv1.
  (* the directory *)
  set (d1 := mark_deleted d) in *.
  set (es := map encode_dirent (upd (entries h b k) i d1)).
  assert (Hzes : zlen es = k) by (unfold es; rewrite zlen_map, zlen_upd; apply zlen_entries; zl).
  assert (Hslotok : forall j, 0 <= j < k -> slot_ok (slot g b j)).
  { intros j Hj. destruct (dk_used _ _ _ D j Hj) as (U1 & U2 & U3 & U4).
    split; [|split; [apply bytes_ok_slice; assumption|auto]].
    unfold g. rewrite (slot_dir h b j G) by (change (geom_of h) with g; zl). unfold num_slots in Hns.
    change (g_ss g) with (h_ssize h) in Hns.
    rewrite zlen_slice; [zl|zl|zl|]. rewrite (zlen_dir h b G). zl. }
  assert (Hnthes : forall j, 0 <= j < k -> nth (Z.to_nat j) es [] =
     if j =? i then encode_dirent d1 else encode_dirent (parse_dirent h j (slot g b j))).
  { intros j Hj. unfold es.
    rewrite nth_indep with (d' := encode_dirent d1) by (rewrite <- Hzes in Hj; unfold es, zlen in Hj; zl).
    rewrite map_nth. unfold upd. rewrite nth_upd_nat.
    pose proof (zlen_entries h b k ltac:(zl)) as Hze. unfold zlen in Hze.
    destruct (Z.eqb_spec j i) as [->|Hne].
    - rewrite Nat.eqb_refl. replace (Nat.ltb _ _) with true; [reflexivity|].
      symmetry. apply Nat.ltb_lt. zl.
    - replace (Nat.eqb _ _) with false by (symmetry; apply Nat.eqb_neq; zl). cbn [andb].
      f_equal. unfold entries.
      rewrite (nth_map_zrange (fun i => parse_dirent h i (slot (geom_of h) b i))) by zl. reflexivity. }
  assert (Hes16 : Forall (fun e => zlen e = 16) es).
  { apply Forall_forall. intros e He. unfold es in He. apply in_map_iff in He.
    destruct He as (x & <- & _). apply encode_fields. }
  assert (Hpok : forall j, 0 <= j < k -> bytes_ok (d_base (parse_dirent h j (slot g b j))) /\ bytes_ok (d_ext (parse_dirent h j (slot g b j)))).
  { intros j Hj. destruct (Hslotok j Hj) as (_ & B & _).
    cbn [parse_dirent d_base d_ext]. split; apply bytes_ok_trim, bytes_ok_slice; assumption. }
  assert (Hesok : Forall bytes_ok es).
  { apply Forall_forall. intros e He. apply (In_nth _ _ []) in He. destruct He as (m & Hm & <-).
    replace m with (Z.to_nat (Z.of_nat m)) by zl.
    assert (Hm' : 0 <= Z.of_nat m < k) by (unfold zlen in Hzes; zl).
    rewrite Hnthes by assumption. destruct (Z.eqb_spec (Z.of_nat m) i).
    - apply bytes_ok_encode; apply (Hpok i Hi).
    - apply bytes_ok_encode; apply (Hpok (Z.of_nat m) Hm'). }
  assert (Hesne : es <> []) by (intros E; rewrite E, zlen_nil in Hzes; zl).
  (* the writes *)
  set (b1 := setsec g b 360 nv).
  set (b3 := put_secs g [(360, nv)] b1).
  assert (G1 : hgeo h b1) by (apply hgeo_setsec; [assumption|zl|assumption]).
  assert (HL2 : in_secs h [(360, nv)]) by (repeat constructor; cbn [fst snd]; try zl; assumption).
  destruct (put_secs_props h _ b1 G1 HL2) as (P2l & P2s & P2p & P2t). fold g b3 in P2l, P2s, P2p, P2t.
  assert (G3 : hgeo h b3) by (eapply hgeo_zlen; eassumption).
  destruct (write_dir h b3 es G3 Hesne Hes16 ltac:(zl) Hesok) as (dl & Edl & Hdl & Hslots). cbv zeta in Hslots.
  fold g in Hslots.
  set (L3 := map (fun s => (s_num s, s_data s)) (number_dir 361 dl)) in *.
  set (b4 := put_secs g L3 b3) in *.
  assert (HL3 : in_secs h L3).
  { apply Forall_forall. intros p Hp. apply in_map_iff in Hp. destruct Hp as (s & <- & Hs).
    cbn [fst snd]. rewrite Forall_forall in Hdl. destruct (Hdl s Hs) as (A & B & _). split; [zl|assumption]. }
  destruct (put_secs_props h L3 b3 G3 HL3) as (P3l & P3s & P3p & P3t). fold g b4 in P3l, P3s, P3p, P3t.
  assert (Hz1 : zlen b1 = zlen b) by (apply zlen_setsec; [assumption|zl|assumption]).
  assert (Hz : zlen b4 = zlen b) by congruence.
  assert (Hdirnums : forall n, In n (map fst L3) -> 361 <= n <= 368).
  { intros n Hn. apply in_map_iff in Hn. destruct Hn as (p & <- & Hp). apply in_map_iff in Hp.
    destruct Hp as (s & <- & Hs). cbn [fst]. rewrite Forall_forall in Hdl. apply (Hdl s Hs). }
  assert (S360 : sector g b4 360 = nv).
  { rewrite P3s, last_put_notin by (try zl; intros C; apply Hdirnums in C; zl).
    rewrite P2s by zl. reflexivity. }
  assert (Sother : forall n, 4 <= n <= h_max h -> ~ (360 <= n <= 368) -> sector g b4 n = sector g b n).
  { intros n Hn H3. rewrite P3s, last_put_notin by (try assumption; intros C; apply Hdirnums in C; zl).
    rewrite P2s, last_put_notin by (try assumption; cbn; zl).
    unfold b1. rewrite (sector_setsec h b G) by (try zl; assumption).
    replace (n =? 360) with false by zl. reflexivity. }
  assert (Sdir3 : forall n, 361 <= n <= 368 -> sector g b3 n = sector g b n).
  { intros n Hn. rewrite P2s, last_put_notin by (try zl; cbn; zl).
    unfold b1. rewrite (sector_setsec h b G) by (try zl; assumption).
    replace (n =? 360) with false by zl. reflexivity. }
  assert (Hslot3 : forall j, 0 <= j < num_slots g -> slot g b3 j = slot g b j)
    by (intros j Hj; apply (slot_sectors h b3 b j G3 G Sdir3 Hj)).
  assert (Pfx : forall x y, 0 <= x -> y <= spos g 4 -> slice b4 x y = slice b x y).
  { intros x y Hx Hy. rewrite P3p, P2p by assumption.
    apply slice_setsec_prefix; try assumption; zl. }
  assert (Sfx : forall x y, spos g (h_max h + 1) <= x -> slice b4 x y = slice b x y).
  { intros x y Hx. rewrite spos_succ in Hx. change (g_ss g) with (h_ssize h) in Hx.
    rewrite P3t, P2t by assumption.
    apply slice_setsec_suffix; try assumption; zl. }
  destruct Hslots as [Hsl1 Hsl2]. rewrite Hzes in Hsl1, Hsl2.
  assert (Eold : forall j, 0 <= j < k -> j <> i -> same_entry (slot g b j) (slot g b4 j)).
  { intros j Hj Hji. rewrite Hsl1 by zl. rewrite Hnthes by zl. replace (j =? i) with false by zl.
    apply encode_parse_same. apply Hslotok. assumption. }
  (* the deleted slot *)
  destruct (encode_parse_same h i (slot g b i) (Hslotok i Hi)) as (_ & C2 & C3 & C4 & C5).
  pose proof (encode_fields d) as (F1 & F2 & F3 & F4 & F5 & F6).
  pose proof (encode_fields d1) as (K1 & K2 & K3 & K4 & K5 & K6).
  fold d in C2, C3, C4, C5.
  assert (Enew : slot g b4 i = encode_dirent d1).
  { rewrite Hsl1 by zl. rewrite Hnthes by zl. rewrite Z.eqb_refl. reflexivity. }
  assert (Ebase : e_base (slot g b4 i) = e_base (slot g b i)).
  { rewrite <- C4. rewrite Enew. unfold e_base. rewrite K5, F5. reflexivity. }
  assert (Eext : e_ext (slot g b4 i) = e_ext (slot g b i)).
  { rewrite <- C5. rewrite Enew. unfold e_ext. rewrite K6, F6. reflexivity. }
  assert (Estart : e_start (slot g b4 i) = e_start (slot g b i)).
  { rewrite <- C3. rewrite Enew, K4, F4. reflexivity. }
  assert (Ecount : e_count (slot g b4 i) = e_count (slot g b i)).
  { rewrite <- C2. rewrite Enew, K3, F3. reflexivity. }
  assert (Eflag : e_flag (slot g b4 i) = flag_of d1) by (rewrite Enew; exact K2).
  pose proof (flag_of_bits (d_out d1) (d_dos2 d1) (d_mydos d1) (d_isdir d1) (d_locked d1) (d_inuse d1) (d_deleted d1)) as FB.
  cbv zeta in FB. fold (flag_of d1) in FB. destruct FB as (_ & _ & B4 & B8 & _ & _ & B64 & B128 & Brange).
  rewrite <- Eflag in B4, B8, B64, B128.
  assert (Edead : ~ e_live (slot g b4 i)) by (apply flag_bit_has_false; exact B64).
  assert (E128 : flag_has (slot g b4 i) 128) by (apply flag_bit_has; exact B128).
  assert (Ename : e_name (slot g b4 i) = e_name (slot g b i)) by (unfold e_name; rewrite Ebase, Eext; reflexivity).
  assert (Hfree' : forall n, 0 <= n < 720 -> free_bit g b4 n = if zmem n nums then 1 else free_bit g b n).
  { intros n Hn. unfold free_bit at 1. rewrite S360, Nv2 by assumption. rewrite Hgsm by zl.
    rewrite (getb_smap h b G) by zl. replace (n <? 720) with true by zl. reflexivity. }
  assert (Hkeep : forall j c, slot_chain g b j c -> forall m, In m c -> sector g b4 m = sector g b m).
  { intros j c Hc m Hm. pose proof (chain_data _ _ _ _ _ Hc) as Dc. rewrite Forall_forall in Dc.
    destruct (Dc m Hm) as (R & _ & X). apply Sother; assumption. }
  assert (Hstay : forall j c, 0 <= j < k -> j <> i -> slot_chain g b j c -> slot_chain g b4 j c).
  { intros j c Hj Hne Hc. destruct (Eold j Hj Hne) as (E1 & E2 & E3 & E4 & E5).
    unfold slot_chain, owner. rewrite E1, E3. apply (chain_frame g b); [exact Hc|]. exact (Hkeep j c Hc). }
  assert (Hwas : forall j, 0 <= j < k -> e_live (slot g b4 j) ->
     exists c, j <> i /\ e_live (slot g b j) /\ slot_chain g b j c /\ slot_chain g b4 j c).
  { intros j Hj Lj. assert (Hne : j <> i) by (intros ->; contradiction). destruct (Eold j Hj Hne) as (E1 & _).
    assert (Lj' : e_live (slot g b j)) by (unfold e_live, flag_has in *; rewrite <- E1; assumption).
    destruct (dk_files _ _ _ D j Hj Lj') as (_ & _ & c & Hc & _). exists c. auto using Hstay. }
  assert (Dk : dos2_disk g b4 k).
  { constructor.
    - apply bytes_ok_put_secs.
      + apply bytes_ok_put_secs.
        * apply bytes_ok_setsec; [assumption|]. apply bytes_ok_new_vtoc; assumption.
        * repeat constructor. apply bytes_ok_new_vtoc; assumption.
      + apply Forall_forall. intros p Hp. apply in_map_iff in Hp. destruct Hp as (s & <- & Hs).
        cbn [snd]. rewrite Forall_forall in Hdl. apply (Hdl s Hs).
    - exact (dk_ss _ _ _ D).
    - exact (dk_max _ _ _ D).
    - exact (dk_first _ _ _ D).
    - rewrite Hz. exact (dk_fit _ _ _ D).
    - rewrite S360. rewrite Nv1 by zl. exact (dk_vtoc _ _ _ D).
    - intros n Hn H1. rewrite Hfree' in H1 by assumption. destruct (zmem n nums) eqn:Em.
      + apply zmem_In in Em. destruct (Hnums n Em) as (A1 & A2 & A3 & _). unfold system_sector in A3.
        split; [exact A2|]. split; [zl|]. zl.
      + apply (dk_free _ _ _ D); assumption.
    - zl.
    - intros j Hj. destruct (Z.eq_dec j i) as [->|Hne].
      + destruct (dk_used _ _ _ D i Hi) as (U1 & U2 & U3 & U4).
        rewrite Ebase, Eext. split; [|split; [apply flag_bit_has_false; assumption|auto]].
        intros E0. unfold flag_bit in B128. rewrite E0 in B128. discriminate.
      + destruct (Eold j ltac:(zl) Hne) as (E1 & E2 & E3 & E4 & E5).
        destruct (dk_used _ _ _ D j ltac:(zl)) as (U1 & U2 & U3 & U4).
        unfold flag_has in *. rewrite E1, E4, E5. auto.
    - intros j Hj. destruct (Hsl2 j ltac:(zl)) as [E|E]; rewrite E; [reflexivity|].
      rewrite Hslot3 by zl. apply (dk_unused _ _ _ D). zl.
    - intros i0 j Hij Hj Lj.
      assert (Nsame : forall m, 0 <= m < k -> e_name (slot g b4 m) = e_name (slot g b m)).
      { intros m Hm. destruct (Z.eq_dec m i) as [->|Hne]; [assumption|].
        destruct (Eold m ltac:(zl) Hne) as (_ & _ & _ & E4 & E5).
        unfold e_name. rewrite E4, E5. reflexivity. }
      rewrite !Nsame by zl. apply (dk_names _ _ _ D); try zl.
      destruct (Z.eq_dec j i) as [->|Hne]; [contradiction|].
      destruct (Eold j ltac:(zl) Hne) as (E1 & _). unfold e_live, flag_has in *. rewrite <- E1. assumption.
    - intros j Hj Lj. destruct (Z.eq_dec j i) as [->|Hne]; [contradiction|].
      destruct (Eold j ltac:(zl) Hne) as (E1 & E2 & E3 & E4 & E5).
      assert (Lj' : e_live (slot g b j)) by (unfold e_live, flag_has in *; rewrite <- E1; assumption).
      destruct (dk_files _ _ _ D j ltac:(zl) Lj') as (M1 & M2 & c & Hc & Hcne & Hfr).
      split; [|split; [rewrite E2; assumption|]].
      { intros l cj cl n Hl Hlj Ll Hcj Hcl Hin Hin'.
        destruct (Hwas j Hj Lj) as (c0 & _ & _ & Q0 & Q4). rewrite (slot_chain_det _ _ _ _ _ Hcj Q4) in Hin.
        destruct (Hwas l Hl Ll) as (c1 & _ & Llb & Q1 & Q5). rewrite (slot_chain_det _ _ _ _ _ Hcl Q5) in Hin'.
        exact (M1 l c0 c1 n Hl Hlj Llb Q0 Q1 Hin Hin'). }
      exists c. pose proof (Hkeep j c Hc) as Kp.
      split; [apply Hstay; assumption|].
      split; [rewrite (contents_frame g b); [assumption|intros m Hm; apply Kp; assumption]|].
      intros n Hn Hn7. pose proof (chain_data _ _ _ _ _ Hc) as Dc. rewrite Forall_forall in Dc.
      destruct (Dc n Hn) as (R & _). rewrite Hfree' by zl.
      replace (zmem n nums) with false; [apply Hfr; assumption|].
      symmetry. apply zmem_false. intros Hin. destruct (Hnums n Hin) as (_ & _ & _ & Hlf).
      exact (Hlf j c Hj Hne Lj' Hc Hn). }
  exists b4. split.
  - unfold delete_body. rewrite get_directory_view by assumption. cbv zeta.
    change (a_hdr (view h b k)) with h. change (a_bytes (view h b k)) with b.
    rewrite Hfind. unfold start_read. rewrite Hsane. cbn [rbind].
    change (d_my d) with (flag_bit (e_flag (slot g b i)) 4). change (d_num d) with i.
    change (d_start d) with (e_start (slot g b i)).
    rewrite Hread. cbn [lift_st].
    rewrite get_vtoc_object_view by assumption. cbn [lift_st].
    rewrite Efs. cbn [lift_st]. fold g. rewrite Ecb. fold b1 d1 nv.
    unfold atari_dir_sectors. fold es. rewrite Edl. cbn [rbind lift_st].
    rewrite (write_sectors_put h [fill_sec (h_ssize h) 360 0 [] nv] b1 G1).
    2:{ constructor; [|constructor]. rewrite s_data_fill_full by assumption. cbn [fill_sec s_num]. split; [zl|assumption]. }
    cbn [map]. rewrite s_data_fill_full by assumption. cbn [fill_sec s_num].
    fold g b3. cbn [lift_st].
    rewrite (write_sectors_put h (number_dir 361 dl) b3 G3).
    2:{ revert Hdl. apply Forall_impl. intros s (A & B & _). split; [zl|assumption]. }
    fold g L3 b4. reflexivity.
  - constructor; try assumption.
    + apply hdr_of_same; [assumption|]. apply Pfx; [zl|]. exact (hg_first _ _ G).
    + intros n j cj Hne (Hj & Lj & Nj & Cj).
      destruct (Eold j Hj Hne) as (E1 & E2 & E3 & E4 & E5).
      pose proof (Hkeep j cj Cj) as Kp. split.
      * split; [zl|]. unfold e_live, flag_has, e_name in *. fold g. rewrite E1, E4, E5.
        split; [assumption|]. split; [assumption|]. apply Hstay; assumption.
      * apply contents_frame. intros m Hm; apply Kp; assumption.
    + intros j Hj. fold g. rewrite S360. destruct Hj as [Hj|Hj]; [apply Nv1; assumption|].
      unfold nv, new_vtoc. pose proof (zlen_sector h b G 360 ltac:(zl)).
      rewrite getb_setslice; rewrite ?(zlen_pack720 smap' Hsm'); try zl.
      replace ((10 <=? j) && (j <? 10 + 90)) with false by zl. reflexivity.
    + cbv zeta. fold g. split; [zl|]. split; [assumption|]. split; [assumption|].
      split; [|auto]. rewrite <- !flag_bit_has. rewrite B4. intros X. exact X.
Qed.
