(** Proofs about the executable writers and parsers. *)
From Verif Require Import Base BaseLemmas DiskModel AtariModel ExecModel ExecSpec.

Lemma setslice_mid {A} (p m d s : list A) i : i = zlen p -> zlen m = zlen d ->
  setslice (p ++ m ++ s) i d = p ++ d ++ s.
Proof.
  intros -> H. unfold setslice. rewrite zlen_length. rewrite firstn_app, Nat.sub_diag, firstn_all. cbn [firstn]. rewrite app_nil_r.
  f_equal. f_equal. rewrite skipn_app, skipn_all2 by lia. replace (length p + length d - length p)%nat with (length m) by (unfold zlen in H; lia).
  cbn [app]. rewrite skipn_app, skipn_all, Nat.sub_diag. reflexivity.
Qed.
Lemma zrepeat_add b n m : 0 <= n -> 0 <= m -> zrepeat b (n + m) = zrepeat b n ++ zrepeat b m.
Proof. intros. unfold zrepeat. rewrite Z2Nat.inj_add by lia. apply repeat_app. Qed.
Definition xsize (s : iseg) : Z := 4 + zlen (i_data s).
Fixpoint xsizes (l : list iseg) : Z := match l with [] => 0 | s :: r => xsize s + xsizes r end.
Lemma xsizes_nonneg l : 0 <= xsizes l.
Proof. induction l as [|s r IH]; cbn [xsizes]; unfold xsize; [lia|]. pose proof (zlen_nonneg (i_data s)). lia. Qed.
Definition xenc (s : iseg) : list Z :=
  put2 (i_origin s) ++ put2 (i_origin s + zlen (i_data s) - 1) ++ i_data s.
Lemma xex_fill_spec l : forall i pre, i = zlen pre ->
  xex_fill l i (pre ++ zrepeat 0 (xsizes l)) = pre ++ flat_map xenc l.
Proof.
  induction l as [|s r IH]; intros i pre Hi; [cbn; reflexivity|]. cbn [xsizes flat_map].
  pose proof (xsizes_nonneg r). pose proof (zlen_nonneg (i_data s)).
  unfold xsize. replace (4 + zlen (i_data s) + xsizes r) with (2 + (2 + (zlen (i_data s) + xsizes r))) by lia.
  rewrite !zrepeat_add by lia. cbn [xex_fill].
  rewrite (setslice_mid pre) by (rewrite ?zlen_zrepeat, ?zlen_put2; lia).
  rewrite (app_assoc pre). rewrite (setslice_mid (pre ++ put2 _)) by (rewrite ?zlen_zrepeat, ?zlen_app, ?zlen_put2; lia).
  rewrite (app_assoc (pre ++ put2 _)).
  rewrite (setslice_mid ((pre ++ put2 _) ++ put2 _)) by (rewrite ?zlen_zrepeat, ?zlen_app, ?zlen_put2; lia).
  rewrite (app_assoc ((pre ++ put2 _) ++ put2 _)). rewrite IH.
  - unfold xenc. rewrite <- !app_assoc. reflexivity.
  - rewrite !zlen_app, !zlen_put2. lia.
Qed.
Lemma xex_total_spec l : xex_total l = 2 + xsizes l.
Proof.
  unfold xex_total. generalize 2. induction l as [|s r IH]; intros t; cbn [fold_left xsizes]; [lia|]. rewrite IH. unfold xsize. lia.
Qed.
Lemma xex_bytes_spec t l : t = 2 + xsizes l -> xex_bytes t l = [255; 255] ++ flat_map xenc l.
Proof.
  intros ->. unfold xex_bytes. pose proof (xsizes_nonneg l). rewrite zrepeat_add by lia.
  replace (setslice (zrepeat 0 2 ++ zrepeat 0 (xsizes l)) 0 [255; 255]) with ([255; 255] ++ zrepeat 0 (xsizes l)).
  - apply xex_fill_spec. reflexivity.
  - symmetry. apply (setslice_mid [] (zrepeat 0 2) [255; 255]); reflexivity.
Qed.
Definition with_run (segs : list iseg) (a : Z) : list iseg := mkI 0x2e0 (put2 a) :: segs.
Lemma get_xex_spec segs run x : get_xex segs run = Ok x ->
  (existsb (fun s => i_origin s =? 0x2e0) segs = true /\ x = [255; 255] ++ flat_map xenc segs) \/
  (existsb (fun s => i_origin s =? 0x2e0) segs = false /\
   exists a, xex_run segs run = Ok a /\ x = [255; 255] ++ flat_map xenc (with_run segs a)).
Proof.
  unfold get_xex. destruct (existsb _ segs).
  - intros [= <-]. left. split; [reflexivity|]. apply xex_bytes_spec. apply xex_total_spec.
  - destruct (xex_run segs run) as [a|e]; cbn [rbind]; [|discriminate]. intros [= <-]. right. split; [reflexivity|].
    exists a. split; [reflexivity|]. apply xex_bytes_spec. rewrite xex_total_spec. cbn [with_run xsizes]. unfold xsize. cbn [i_data]. rewrite zlen_put2. lia.
Qed.

(** * The parser *)
Lemma zlen_encode_pos p : whole p \/ cut p -> 1 <= zlen (encode_piece p).
Proof.
  destruct p as [|o d|x|l|o e d]; cbn [encode_piece]; rewrite ?zlen_app, ?zlen_put2; cbn [whole cut].
  - cbn; lia.
  - pose proof (zlen_nonneg d). lia.
  - cbn; lia.
  - lia.
  - pose proof (zlen_nonneg d). lia.
Qed.
Lemma le2_at (pre r : list Z) o k pos : zlen pre + k = pos -> 0 <= k -> 0 <= o < 65536 ->
  forall m, zlen m = k -> le2 (getb (pre ++ m ++ put2 o ++ r) pos) (getb (pre ++ m ++ put2 o ++ r) (pos + 1)) = o.
Proof.
  intros <- Hk Ho m Hm. pose proof (zlen_nonneg pre) as Hp.
  assert (G : forall i, 0 <= i < 2 -> getb (pre ++ m ++ put2 o ++ r) (zlen pre + k + i) = getb (put2 o) i).
  { intros i Hi. rewrite getb_app_r by lia. replace (zlen pre + k + i - zlen pre) with (k + i) by lia.
    rewrite getb_app_r by lia. replace (k + i - zlen m) with i by lia. apply getb_app_l. rewrite zlen_put2. lia. }
  rewrite <- (Z.add_0_r (zlen pre + k)) at 1. rewrite !G by lia. rewrite le2_put2. apply u16_id. lia.
Qed.
Lemma pieces_cons p r : pieces_ok (p :: r) -> (whole p \/ cut p) /\ (r <> [] -> whole p) /\ pieces_ok r.
Proof. destruct r as [|q r]; cbn [pieces_ok]; [intros H; split; [exact H|]; split; [congruence|exact I]|]. intros [H1 H2]. auto. Qed.

Lemma parse_complete ps : forall fuel pre st spos first,
  pieces_ok ps -> bytes_ok (encode ps) -> (length (encode ps) < fuel)%nat ->
  (first = true -> begins_ok ps) ->
  snd (parse_xex_loop fuel (pre ++ encode ps) st (zlen pre) spos first) = Ok (reports (zlen pre) ps).
Proof.
  induction ps as [|p r IH]; intros fuel pre st spos first Hok Hby Hf Hfirst.
  - cbn [encode flat_map]. rewrite app_nil_r. destruct fuel; [lia|]. cbn [parse_xex_loop]. replace (zlen pre <? zlen pre) with false by lia. reflexivity.
  - destruct (pieces_cons p r Hok) as (Hp & Hw & Hr). cbn [encode flat_map reports] in *. fold (encode r) in *.
    apply bytes_ok_app in Hby. destruct Hby as [Hbp Hby].
    destruct fuel as [|fuel]; [cbn in Hf; lia|].
    pose proof (zlen_nonneg pre). pose proof (zlen_nonneg (encode r)).
    destruct p as [|o d|x|l|o e d]; cbn [parse_xex_loop encode_piece report] in *.
    + (* marker *)
      rewrite !zlen_app. cbn [zlen length] in *. change (zlen [255; 255]) with 2.
      replace (zlen pre <? zlen pre + (2 + zlen (encode r))) with true by lia.
      replace (zlen pre + 1 <? zlen pre + (2 + zlen (encode r))) with true by lia. cbn [negb].
      replace (le2 (getb (pre ++ [255; 255] ++ encode r) (zlen pre)) (getb (pre ++ [255; 255] ++ encode r) (zlen pre + 1))) with 65535.
      2: { rewrite (getb_app_r pre _ (zlen pre)), (getb_app_r pre _ (zlen pre + 1)) by lia. replace (zlen pre - zlen pre) with 0 by lia. replace (zlen pre + 1 - zlen pre) with 1 by lia. reflexivity. }
      cbn [Z.eqb Pos.eqb]. rewrite app_assoc. replace (zlen pre + 2) with (zlen (pre ++ [255; 255])) by (rewrite zlen_app; reflexivity).
      rewrite IH; [reflexivity|assumption|assumption|rewrite app_length in Hf; cbn [length] in Hf; lia|discriminate].
    + (* segment *)
      assert (Hs : 0 <= o < 65535 /\ 1 <= zlen d /\ o + zlen d <= 65536) by (destruct Hp as [Hp|[]]; exact Hp).
      destruct first; [exfalso; specialize (Hfirst eq_refl); destruct r; exact Hfirst|].
      assert (L : zlen (pre ++ (put2 o ++ put2 (o + zlen d - 1) ++ d) ++ encode r) = zlen pre + 4 + zlen d + zlen (encode r))
        by (rewrite !zlen_app, !zlen_put2; lia).
      rewrite L. replace (zlen pre <? zlen pre + 4 + zlen d + zlen (encode r)) with true by lia.
      replace (zlen pre + 1 <? zlen pre + 4 + zlen d + zlen (encode r)) with true by lia. cbn [negb].
      assert (E1 : le2 (getb (pre ++ (put2 o ++ put2 (o + zlen d - 1) ++ d) ++ encode r) (zlen pre))
                    (getb (pre ++ (put2 o ++ put2 (o + zlen d - 1) ++ d) ++ encode r) (zlen pre + 1)) = o).
      { rewrite <- app_assoc. apply (le2_at pre _ o 0 (zlen pre)) with (m := []); (reflexivity || lia). }
      assert (E2 : le2 (getb (pre ++ (put2 o ++ put2 (o + zlen d - 1) ++ d) ++ encode r) (zlen pre + 2))
                    (getb (pre ++ (put2 o ++ put2 (o + zlen d - 1) ++ d) ++ encode r) (zlen pre + 3)) = o + zlen d - 1).
      { rewrite <- app_assoc, <- app_assoc. replace (zlen pre + 3) with (zlen pre + 2 + 1) by lia.
        apply (le2_at pre _ _ 2 (zlen pre + 2)); try lia. apply zlen_put2. }
      rewrite E1, E2. replace (o =? 65535) with false by lia.
      rewrite zlen_slice by (rewrite ?L; lia). replace (zlen pre + 4 - zlen pre <? 4) with false by lia.
      replace (o + zlen d - 1 <? o) with false by lia.
      replace (o + zlen d - 1 - o + 1) with (zlen d) by lia.
      assert (ED : slice (pre ++ (put2 o ++ put2 (o + zlen d - 1) ++ d) ++ encode r) (zlen pre + 4) (zlen pre + 4 + zlen d) = d).
      { replace (pre ++ (put2 o ++ put2 (o + zlen d - 1) ++ d) ++ encode r) with ((pre ++ put2 o ++ put2 (o + zlen d - 1)) ++ d ++ encode r) by (rewrite <- !app_assoc; reflexivity).
        rewrite slice_app_r by (rewrite !zlen_app, !zlen_put2; lia). rewrite !zlen_app, !zlen_put2.
        replace (zlen pre + 4 - (zlen pre + (2 + 2))) with 0 by lia. replace (zlen pre + 4 + zlen d - (zlen pre + (2 + 2))) with (zlen d) by lia.
        apply slice_app_full_l. }
      rewrite ED. replace (zlen d <? zlen d) with false by lia.
      assert (EP : zlen pre + (4 + zlen d) = zlen (pre ++ put2 o ++ put2 (o + zlen d - 1) ++ d)) by (rewrite !zlen_app, !zlen_put2; lia).
      rewrite app_assoc. rewrite EP.
      match goal with |- context [parse_xex_loop fuel ?b ?s ?q ?sp false] =>
        pose proof (IH fuel (pre ++ put2 o ++ put2 (o + zlen d - 1) ++ d) s sp false Hr Hby) as IH' end.
      destruct (parse_xex_loop _ _ _ _ _ _) as [st'' [rest|e]]; cbn [snd] in *.
      * rewrite !app_length in Hf. cbn [put2 length] in Hf. specialize (IH' ltac:(lia) ltac:(discriminate)). injection IH' as ->.
        cbn [app]. repeat f_equal. apply zlen_app.
      * rewrite !app_length in Hf. cbn [put2 length] in Hf. specialize (IH' ltac:(lia) ltac:(discriminate)). discriminate.
    + (* one byte *)
      destruct r as [|q r]; [|exfalso; apply (Hw ltac:(discriminate))]. cbn [encode flat_map] in *. rewrite app_nil_r.
      rewrite zlen_app. change (zlen [x]) with 1. replace (zlen pre <? zlen pre + 1) with true by lia.
      replace (zlen pre + 1 <? zlen pre + 1) with false by lia. cbn [negb snd reports app].
      replace (slice (pre ++ [x]) (zlen pre) (zlen pre + 1)) with [x]; [reflexivity|].
      symmetry. apply slice_app_full_r. reflexivity.
    + destruct r as [|q r]; [|exfalso; apply (Hw ltac:(discriminate))]. cbn [encode flat_map] in *. rewrite app_nil_r.
      destruct Hp as [[]|(Hl & Hn)].
      destruct first; [exfalso; specialize (Hfirst eq_refl); exact Hfirst|].
      rewrite zlen_app. replace (zlen pre <? zlen pre + zlen l) with true by lia.
      replace (zlen pre + 1 <? zlen pre + zlen l) with true by lia. cbn [negb].
      assert (B : le2 (getb (pre ++ l) (zlen pre)) (getb (pre ++ l) (zlen pre + 1)) =? 65535 = false).
      { rewrite (getb_app_r pre _ (zlen pre)), (getb_app_r pre _ (zlen pre + 1)) by lia. replace (zlen pre - zlen pre) with 0 by lia. replace (zlen pre + 1 - zlen pre) with 1 by lia.
        destruct l as [|a [|b l]]; [cbn in Hl; lia|cbn in Hl; lia|]. pose proof (Forall_inv Hbp) as Ba. pose proof (Forall_inv (Forall_inv_tail Hbp)) as Bb.
        change (le2 a b =? 65535 = false). apply Z.eqb_neq. intros E. apply Hn. cbn [slice Z.to_nat skipn firstn].
        unfold le2, is_byte in *. replace a with 255 by lia. replace b with 255 by lia. reflexivity. }
      rewrite B. replace (slice (pre ++ l) (zlen pre) (zlen pre + 4)) with l by (symmetry; apply slice_app_drop; lia).
      replace (zlen l <? 4) with true by lia. reflexivity.
    + destruct r as [|q r]; [|exfalso; apply (Hw ltac:(discriminate))]. cbn [encode flat_map] in *. rewrite app_nil_r.
      destruct Hp as [[]|(Ho & He & Hd)]. pose proof (zlen_nonneg d) as Hd0.
      destruct first; [exfalso; specialize (Hfirst eq_refl); exact Hfirst|].
      assert (L : zlen (pre ++ put2 o ++ put2 e ++ d) = zlen pre + 4 + zlen d) by (rewrite !zlen_app, !zlen_put2; lia).
      rewrite L. replace (zlen pre <? zlen pre + 4 + zlen d) with true by lia.
      replace (zlen pre + 1 <? zlen pre + 4 + zlen d) with true by lia. cbn [negb].
      assert (E1 : le2 (getb (pre ++ put2 o ++ put2 e ++ d) (zlen pre)) (getb (pre ++ put2 o ++ put2 e ++ d) (zlen pre + 1)) = o)
        by (apply (le2_at pre _ o 0 (zlen pre)) with (m := []); (reflexivity || lia)).
      assert (E2 : le2 (getb (pre ++ put2 o ++ put2 e ++ d) (zlen pre + 2)) (getb (pre ++ put2 o ++ put2 e ++ d) (zlen pre + 3)) = e).
      { replace (zlen pre + 3) with (zlen pre + 2 + 1) by lia. apply (le2_at pre _ _ 2 (zlen pre + 2)); try lia. apply zlen_put2. }
      rewrite E1, E2. replace (o =? 65535) with false by lia.
      rewrite zlen_slice by (rewrite ?L; lia). replace (zlen pre + 4 - zlen pre <? 4) with false by lia.
      replace (e <? o) with false by lia.
      assert (ED : slice (pre ++ put2 o ++ put2 e ++ d) (zlen pre + 4) (zlen pre + 4 + (e - o + 1)) = d).
      { replace (pre ++ put2 o ++ put2 e ++ d) with ((pre ++ put2 o ++ put2 e) ++ d) by (rewrite <- !app_assoc; reflexivity).
        replace (zlen pre + 4) with (zlen (pre ++ put2 o ++ put2 e)) by (rewrite !zlen_app, !zlen_put2; lia).
        apply slice_app_drop. lia. }
      rewrite ED. replace (zlen d <? e - o + 1) with true by lia. reflexivity.
Qed.

(** Soundness: whatever the parser accepts is a sequence of pieces. *)
Lemma slice_cons_at (b : list Z) pos : 0 <= pos < zlen b -> slice b pos (zlen b) = getb b pos :: slice b (pos + 1) (zlen b).
Proof.
  intros H. rewrite (slice_split b pos (pos + 1)) by lia. change (getb b pos :: slice b (pos + 1) (zlen b)) with ([getb b pos] ++ slice b (pos + 1) (zlen b)).
  f_equal. apply list_ext_getb; [rewrite zlen_slice by lia; cbn; lia|]. intros i Hi. rewrite zlen_slice in Hi by lia.
  rewrite getb_slice by lia. replace i with 0 by lia. rewrite getb_cons0. f_equal. lia.
Qed.
Lemma slice_two (b : list Z) p : 0 <= p -> p + 2 <= zlen b -> slice b p (p + 2) = [getb b p; getb b (p + 1)].
Proof.
  intros H1 H2. apply list_ext_getb; [rewrite zlen_slice by lia; cbn; lia|]. intros i Hi. rewrite zlen_slice in Hi by lia. rewrite getb_slice by lia.
  assert (Hi2 : i = 0 \/ i = 1) by lia. destruct Hi2 as [-> | ->]; [rewrite Z.add_0_r|]; reflexivity.
Qed.
Lemma whole_cons p r : whole p -> pieces_ok r -> pieces_ok (p :: r).
Proof. destruct r; cbn [pieces_ok]; auto. Qed.
Lemma parse_sound : forall fuel b st pos spos first st' segs, bytes_ok b -> 0 <= pos <= zlen b ->
  parse_xex_loop fuel b st pos spos first = (st', Ok segs) ->
  exists ps, pieces_ok ps /\ slice b pos (zlen b) = encode ps /\ segs = reports pos ps /\ (first = true -> begins_ok ps).
Proof.
  induction fuel as [|fuel IH]; intros b st pos spos first st' segs Hb Hpos E; [discriminate|]. cbn [parse_xex_loop] in E.
  destruct (Z.ltb_spec pos (zlen b)) as [H1|H1]; cbn [negb] in E.
  2: { injection E as <- <-. exists []. rewrite slice_oob by lia. cbn. auto. }
  destruct (Z.ltb_spec (pos + 1) (zlen b)) as [H2|H2]; cbn [negb] in E.
  2: { injection E as <- <-. exists [PCutByte (getb b pos)]. split; [right; exact I|].
       rewrite slice_cons_at by lia. rewrite slice_oob by lia. split; [reflexivity|]. split; [|intros _; exact I].
       cbn [reports report app]. replace (pos + 1) with (zlen b) at 2 by lia. rewrite slice_cons_at by lia. rewrite slice_oob by lia. reflexivity. }
  pose proof (bytes_ok_getb b pos Hb) as B0. pose proof (bytes_ok_getb b (pos + 1) Hb) as B1.
  destruct (Z.eqb_spec (le2 (getb b pos) (getb b (pos + 1))) 65535) as [H3|H3].
  { destruct (IH b st (pos + 2) spos false st' segs Hb ltac:(lia) E) as (ps & P1 & P2 & P3 & P4).
    exists (PMark :: ps). split; [apply whole_cons; [exact I|exact P1]|]. split; [|split; [|intros _; exact I]].
    - rewrite !slice_cons_at by lia. replace (pos + 1 + 1) with (pos + 2) by lia. rewrite P2. cbn [encode flat_map encode_piece app].
      unfold le2, is_byte in *. replace (getb b pos) with 255 by lia. replace (getb b (pos + 1)) with 255 by lia. reflexivity.
    - rewrite P3. reflexivity. }
  destruct first; [discriminate|].
  destruct (Z.ltb_spec (zlen (slice b pos (pos + 4))) 4) as [H4|H4].
  { injection E as <- <-. exists [PCutHead (slice b pos (pos + 4))]. rewrite zlen_slice_min in H4 by lia.
    assert (E1 : slice b pos (zlen b) = slice b pos (pos + 4)).
    { unfold slice. rewrite !firstn_all2; [reflexivity| |]; rewrite skipn_length; unfold zlen in *; lia. }
    split; [right; split|].
    - rewrite zlen_slice_min by lia. lia.
    - rewrite slice_slice by lia. intros X. apply H3. replace (getb b pos) with (getb (slice b pos (pos + 2)) 0) by (rewrite getb_slice by lia; f_equal; lia).
      rewrite <- (getb_slice b pos (pos + 2) 1) by lia.
      replace (Z.min (pos + 4) (pos + 2)) with (pos + 2) in X by lia. 
      replace (pos + 0) with pos in X by lia. rewrite X. reflexivity.
    - split; [cbn [encode flat_map encode_piece]; rewrite app_nil_r; exact E1|]. split; [reflexivity|discriminate]. }
  rewrite zlen_slice_min in H4 by lia.
  pose proof (bytes_ok_getb b (pos + 2) Hb) as B2. pose proof (bytes_ok_getb b (pos + 3) Hb) as B3.
  pose proof (le2_range _ _ B0 B1) as R1. pose proof (le2_range _ _ B2 B3) as R2.
  remember (le2 (getb b pos) (getb b (pos + 1))) as start eqn:Es. remember (le2 (getb b (pos + 2)) (getb b (pos + 3))) as last eqn:El.
  assert (Head : forall q, pos + 4 <= q -> slice b pos q = put2 start ++ put2 last ++ slice b (pos + 4) q).
  { intros q Hq. rewrite (slice_split b pos (pos + 4)) by lia. rewrite (slice_split b pos (pos + 2) (pos + 4)) by lia. rewrite <- app_assoc. rewrite Es, El, !put2_le2 by assumption.
    replace (pos + 4) with (pos + 2 + 2) by lia. rewrite !slice_two by lia. replace (pos + 2 + 1) with (pos + 3) by lia. reflexivity. }
  destruct (Z.ltb_spec last start) as [H5|H5]; [discriminate|].
  destruct (Z.ltb_spec (zlen (slice b (pos + 4) (pos + 4 + (last - start + 1)))) (last - start + 1)) as [H6|H6].
  { injection E as <- <-. rewrite zlen_slice_min in H6 by lia.
    assert (E1 : slice b (pos + 4) (pos + 4 + (last - start + 1)) = slice b (pos + 4) (zlen b)).
    { unfold slice. rewrite !firstn_all2; [reflexivity| |]; rewrite skipn_length; unfold zlen in *; lia. }
    exists [PCutData start last (slice b (pos + 4) (pos + 4 + (last - start + 1)))].
    split; [right; cbn [cut]; rewrite zlen_slice_min by lia; lia|]. split.
    - cbn [encode flat_map encode_piece]. rewrite app_nil_r. rewrite E1. apply Head. lia.
    - split; [reflexivity|discriminate]. }
  rewrite zlen_slice_min in H6 by lia.
  destruct (parse_xex_loop fuel b _ _ _ false) as [st2 [rest|e]] eqn:E2; [|discriminate]. injection E as <- <-.
  assert (Hp2 : 0 <= pos + (4 + (last - start + 1)) <= zlen b) by lia.
  destruct (IH b _ _ _ false _ _ Hb Hp2 E2) as (ps & P1 & P2 & P3 & P4).
  exists (PSeg start (slice b (pos + 4) (pos + 4 + (last - start + 1))) :: ps).
  assert (LD : zlen (slice b (pos + 4) (pos + 4 + (last - start + 1))) = last - start + 1) by (rewrite zlen_slice by lia; lia).
  split; [apply whole_cons; [cbn [whole]; rewrite LD; lia|exact P1]|]. split; [|split; [|discriminate]].
  - cbn [encode flat_map encode_piece]. fold (encode ps). rewrite <- P2, LD. replace (start + (last - start + 1) - 1) with last by lia.
    rewrite <- !app_assoc. rewrite Head by lia. f_equal. f_equal. rewrite (slice_split b (pos + 4) (pos + 4 + (last - start + 1)) (zlen b)) by lia.
    f_equal. f_equal. lia.
  - cbn [reports report app encode_piece]. rewrite !zlen_app, !zlen_put2, LD. rewrite P3. do 2 f_equal. lia.
Qed.
(** Nothing but InvalidBinaryFile is ever raised. *)
Lemma parse_errors : forall fuel b st pos spos first st' e, 0 <= pos -> (Z.to_nat (zlen b - pos) < fuel)%nat ->
  parse_xex_loop fuel b st pos spos first = (st', Err e) -> e = EAtr InvalidBinaryFile.
Proof.
  induction fuel as [|fuel IH]; intros b st pos spos first st' e Hpos Hf E; [lia|]. cbn [parse_xex_loop] in E.
  destruct (Z.ltb_spec pos (zlen b)) as [H1|H1]; cbn [negb] in E; [|discriminate].
  destruct (Z.ltb_spec (pos + 1) (zlen b)) as [H2|H2]; cbn [negb] in E; [|discriminate].
  destruct (_ =? 65535); [eapply IH; [| |exact E]; lia|].
  destruct first; [injection E as _ <-; reflexivity|]. destruct (_ <? 4); [discriminate|].
  destruct (Z.ltb_spec (le2 (getb b (pos + 2)) (getb b (pos + 3))) (le2 (getb b pos) (getb b (pos + 1)))) as [H5|H5]; [injection E as _ <-; reflexivity|].
  destruct (_ <? _); [discriminate|]. destruct (parse_xex_loop fuel b _ _ _ false) as [st2 [rest|e2]] eqn:E2; [discriminate|].
  injection E as <- <-. eapply IH; [| |exact E2]; lia.
Qed.
Lemma parse_xex_iff b st : bytes_ok b -> forall segs,
  (snd (parse_xex b st) = Ok segs <->
   exists ps, pieces_ok ps /\ begins_ok ps /\ b = encode ps /\ segs = reports 0 ps).
Proof.
  intros Hb segs. unfold parse_xex. split.
  - destruct (parse_xex_loop _ _ _ _ _ _) as [st' r] eqn:E. cbn [snd]. intros ->.
    assert (H0 : 0 <= 0 <= zlen b) by (pose proof (zlen_nonneg b); lia).
    destruct (parse_sound _ _ _ _ _ _ _ _ Hb H0 E) as (ps & P1 & P2 & P3 & P4).
    rewrite slice_full in P2. exists ps. auto.
  - intros (ps & P1 & P2 & -> & ->). apply (parse_complete ps _ [] st 0 true); auto.
Qed.
Lemma parse_xex_total b st : (exists segs, snd (parse_xex b st) = Ok segs) \/ snd (parse_xex b st) = Err (EAtr InvalidBinaryFile).
Proof.
  unfold parse_xex. destruct (parse_xex_loop _ _ _ _ _ _) as [st' [segs|e]] eqn:E; cbn [snd]; [left; eauto|right].
  f_equal. eapply parse_errors; [|  |exact E]; unfold zlen; lia.
Qed.
