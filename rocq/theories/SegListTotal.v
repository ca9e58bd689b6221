(** Every image that a parser accepts has its list of segments made: the listing repeats
    what recognising the image did. *)
From Coq Require Import String.
From Verif Require Import Base BaseLemmas DiskModel AtariModel AtariSpec AtariGeom AtariHeader AtariProps SpartaModel SpartaSpec SpartaProofs ExecModel ExecSpec ExecProofs SegModel SegSpec SegProofs SegProofs2 SegProofs3 SegProofs5 DetectModel DetectErrors2 DetectErrors3.
From Verif Require Import Dos33Model TextModel EditModel SegListModel SegListSpec SegListProofs SegListSparta SegListExec SegSaveModel SegSaveProofs.
From Verif Require CartModel SegProofs6.

Definition ok {A} (m : heap * res A) : Prop := exists x, snd m = Ok x.
Lemma ok_bind {A B} (m : heap * res A) (k : heap -> A -> heap * res B) : ok m -> (forall x, snd m = Ok x -> ok (k (fst m) x)) -> ok (hbind m k).
Proof. intros (x & E) H. destruct m as [h y]. cbn [snd] in E. subst y. exact (H x eq_refl). Qed.
Lemma ok_pure {A} h (x : A) : ok (pure h (Ok x)). Proof. exists x. reflexivity. Qed.

(** * Comments *)
Lemma ok_notes s notes : forall h, (forall it, In it notes -> exists p, raw_index s (fst it) = Ok p) -> ok (each (fun h it => set_comment_at h s (fst it) (snd it)) notes h).
Proof.
  induction notes as [|it notes IH]; intros h H; cbn [each]; [exists tt; reflexivity|]. destruct (H it (or_introl eq_refl)) as (p & E).
  unfold set_comment_at. rewrite E. apply IH. intros it' Hi. apply H. right. exact Hi.
Qed.
Lemma ok_annotate r h s notes : plain r h s -> ok (annotate h s notes).
Proof.
  intros (_ & N). apply ok_notes. intros it _. unfold raw_index. destruct (r_win s) as [| |o] eqn:E; eauto. destruct (N o eq_refl).
Qed.

(** * Files *)
Lemma ok_each {D A} (name : D -> list Z) make (get : D -> res A) r ds :
  (forall h d, plain r h r -> kept r h (fst (make h d)) /\ forall s, snd (make h d) = Ok s -> part r (fst (make h d)) (g_raw s)) ->
  file_segments get ds = Ok tt -> forall h, plain r h r ->
  (forall h' d, kept r h h' -> In d ds -> match get d with Ok _ => ok (make h' d) | Err e => is_invalid_file e = true -> snd (make h' d) = Err e end) ->
  ok (each_file name make r h ds).
Proof.
  intros M. induction ds as [|d ds IH]; intros E h P G; cbn [each_file]; [exists []; reflexivity|]. cbn [file_segments] in E.
  destruct (M h d P) as (K & _). pose proof (G h d (kept_refl r h) (or_introl eq_refl)) as X. pose proof (plain_kept _ _ _ _ K P) as P1.
  assert (G' : forall h' d', kept r (fst (make h d)) h' -> In d' ds -> match get d' with Ok _ => ok (make h' d') | Err e => is_invalid_file e = true -> snd (make h' d') = Err e end)
    by (intros h0 d0 P0 I0; apply G; [exact (kept_trans _ _ _ _ K P0)|right; exact I0]).
  destruct (get d) as [c|e].
  - destruct X as (s & X). destruct (make h d) as [h1 y]. cbn [fst snd] in *. subst y. apply ok_bind; [exact (IH E h1 P1 G')|]. intros l _. exists (s :: l). reflexivity.
  - destruct (is_invalid_file e) eqn:I; [|discriminate]. specialize (X eq_refl). destruct (make h d) as [h1 y]. cbn [fst snd] in *. subst y. rewrite I.
    apply ok_bind; [exact (IH E h1 P1 G')|]. intros l _. eexists. reflexivity.
Qed.
(** Selecting positions inside the data *)
Lemma ok_indexed h r (b : list Z) (o : list Z) : r_win r = WAll -> raw_len h r = zlen b -> Forall (fun p => 0 <= p < zlen b) o -> exists x, raw_indexed h r (to_numpy_list o) = Ok x /\ exists o', r_win x = WOrder o' /\ length o' = length o.
Proof.
  intros W L F. unfold raw_indexed. rewrite W, L. rewrite nindexes_ok.
  - cbn [rbind]. eexists. split; [reflexivity|]. cbn [r_win]. eexists. split; [reflexivity|]. unfold to_numpy_list. rewrite !map_length. reflexivity.
  - unfold to_numpy_list. apply Forall_forall. intros i Hi. apply in_map_iff in Hi. destruct Hi as (j & <- & Hj). rewrite Forall_forall in F. specialize (F j Hj).
    unfold u32. pose proof (Z.mod_pos_bound j 4294967296 ltac:(lia)). pose proof (Z.mod_le j 4294967296 ltac:(lia) ltac:(lia)). lia.
Qed.
(** Runs *)
Lemma indexed_runs b runs c : indexed_bytes b runs = Ok c -> Forall (fun r => 0 <= fst r /\ 0 <= snd r) runs -> Forall (fun p => 0 <= p < zlen b) (run_positions runs).
Proof.
  unfold indexed_bytes. destruct (forallb _ runs) eqn:F; [|discriminate]. intros _ G. rewrite forallb_forall in F. rewrite Forall_forall in G. apply Forall_forall. intros p Hp.
  unfold run_positions in Hp. apply in_flat_map in Hp. destruct Hp as ([q n] & H1 & H2). specialize (F _ H1). specialize (G _ H1). cbn [fst snd] in *. apply In_zrange in H2. lia.
Qed.
Lemma read_runs_in b hd my fnum : bytes_ok b -> hdr_of b = Ok hd -> forall fuel cur seen runs, read_runs fuel hd b my fnum cur seen = Ok runs -> Forall (fun r => 0 <= fst r /\ 0 <= snd r) runs.
Proof.
  intros Hb Hh. destruct (hdr_of_facts b hd Hb Hh) as (F1 & F2 & _). induction fuel as [|f IH]; intros cur seen runs E; cbn [read_runs] in E; [discriminate|].
  destruct (read_sector hd b my fnum cur seen) as [[[[next seen'] pos] n]|] eqn:Er; [|discriminate]. cbn [rbind] in E.
  assert (X : 0 <= pos /\ 0 <= n).
  { unfold read_sector, get_raw_bytes in Er. destruct (get_pos hd cur) as [[p s]|] eqn:Ep; [|discriminate]. cbn [rbind] in Er.
    pose proof (get_pos_inside b hd cur _ _ Hb Hh Ep) as (P1 & P2 & P3). assert (B : forall i, is_byte (getb (slice b p (p + s)) i)) by (intros i; apply bytes_ok_getb, bytes_ok_slice, Hb). unfold is_byte in B.
    destruct (_ <? 3); [discriminate|]. destruct my.
    - assert (Y : pos = p /\ n = getb (slice b p (p + s)) (zlen (slice b p (p + s)) - 1)) by (split; congruence). destruct Y as [-> ->]. split; [lia|apply B].
    - destruct (negb _); [discriminate|]. destruct (zmem _ _); [discriminate|].
      assert (Y : pos = p /\ n = getb (slice b p (p + s)) (zlen (slice b p (p + s)) - 1)) by (split; congruence). destruct Y as [-> ->]. split; [lia|apply B]. }
  destruct (next =? 0); [injection E as <-; repeat constructor; cbn [fst snd]; apply X|]. destruct (read_runs f hd b my fnum next seen') as [rest|] eqn:Ef; [|discriminate].
  injection E as <-. constructor; [exact X|exact (IH _ _ _ Ef)].
Qed.
Lemma positions_empty runs : Forall (fun r : Z * Z => 0 <= fst r /\ 0 <= snd r) runs -> (run_positions runs = [] <-> forallb (fun r => snd r =? 0) runs = true).
Proof. intros F. apply positions_none. eapply Forall_impl; [|exact F]. cbv beta. intros r. lia. Qed.

Section T.
  Variable r : raw.
  Hypothesis W : r_win r = WAll.
  Lemma kept_len h h' : kept r h h' -> raw_len h' r = raw_len h r.
  Proof. intros ((A & _) & _). unfold raw_len. rewrite W. apply A. Qed.

  (** ** Atari DOS *)
  Lemma boot_ok h hd b rec n : boot_segments hd b rec n = Ok tt -> exists l, boot_segs h r hd b rec n = Ok l.
  Proof.
    unfold boot_segments, boot_segs. destruct (get_sectors _ _ _ _) as [data|]; cbn [rbind]; [|discriminate]. destruct (view_rec _ _) as [v|]; cbn [rbind]; [|discriminate].
    destruct (_ =? 0); [|eauto]. destruct (get_sector_slice _ _ _) as [[x y]|]; cbn [rbind]; [eauto|discriminate].
  Qed.
  Lemma atari_vtoc_ok h im v : plain r h r -> vtoc_bounds im = Ok v -> ok (atari_vtoc_segs h r im).
  Proof.
    intros P. unfold vtoc_bounds, atari_vtoc_segs. destruct (get_contiguous (a_hdr im) (a_fvtoc im) (a_nvtoc im)) as [[x y]|]; cbn [rbind]; [|discriminate]. intros E.
    cbn [pure hbind]. set (s := raw_slice h r _ _). assert (Ps : plain r h s) by (apply plain_slice; exact P).
    apply ok_bind; [exact (ok_annotate r h s _ Ps)|]. intros u _. pose proof (kept_annotate r h s vtoc_notes (proj1 Ps)) as K. set (h1 := fst (annotate h s vtoc_notes)) in *. pose proof (plain_kept _ _ _ _ K P) as P1.
    destruct (0 <? a_vtoc2 im); [|eexists; reflexivity]. destruct (get_contiguous (a_hdr im) (a_vtoc2 im) 1) as [q|]; cbn [rbind] in E; [|discriminate]. cbn [pure hbind].
    apply ok_bind; [eapply (ok_annotate r); apply plain_slice; exact P1|]. intros u2 _. eexists. reflexivity.
  Qed.
  Lemma atari_file_ok im h d : bytes_ok (a_bytes im) -> hdr_of (a_bytes im) = Ok (a_hdr im) -> raw_len h r = zlen (a_bytes im) ->
    match get_file im d with Ok _ => ok (atari_file_seg r im h d) | Err e => is_invalid_file e = true -> snd (atari_file_seg r im h d) = Err e end.
  Proof.
    intros Hb Hh L. unfold get_file, get_file_fuel, atari_file_seg, file_segment, pure, ok. cbn [snd]. destruct (start_read d) as [u|e]; cbn [rbind]; [|reflexivity].
    destruct (read_runs _ _ _ _ _ _ _) as [runs|e] eqn:Er; cbn [rbind]; [|reflexivity]. pose proof (read_runs_in _ _ _ _ Hb Hh _ _ _ _ Er) as F.
    pose proof (positions_empty runs F) as Em. destruct (forallb (fun r0 => snd r0 =? 0) runs) eqn:Z0.
    - destruct Em as [_ Em]. rewrite (Em eq_refl). eexists. reflexivity.
    - destruct (indexed_bytes (a_bytes im) runs) as [c|e] eqn:Ei.
      + pose proof (indexed_runs _ _ _ Ei F) as I. destruct (ok_indexed h r (a_bytes im) _ W L I) as (x & Ex & _). destruct (run_positions runs); [destruct Em as [Em _]; discriminate (Em eq_refl)|].
        rewrite Ex. eexists. reflexivity.
      + unfold indexed_bytes in Ei. destruct (forallb _ runs) in Ei; [discriminate|]. assert (e = EIndex) by congruence. subst e. discriminate.
  Qed.
  Lemma atari_ok h im b : bytes_ok b -> open_image b = Ok im -> plain r h r -> raw_len h r = zlen b -> atari_segments im = Ok tt -> ok (atari_parse_segments h r im).
  Proof.
    intros Hb Ho P L E. destruct (open_image_hdr b im Ho) as (Hh & Bb). unfold atari_segments in E. unfold atari_parse_segments. cbv zeta.
    destruct (boot_segments _ _ _ _) as [[]|] eqn:Eb; cbn [rbind] in E; [|discriminate]. destruct (boot_ok h _ _ _ _ Eb) as (lb & ->). cbn [pure hbind].
    destruct (vtoc_bounds im) as [v|] eqn:Ev; cbn [rbind] in E; [|discriminate]. apply ok_bind; [exact (atari_vtoc_ok h im v P Ev)|]. intros c _.
    pose proof (atari_vtoc_good r h im P) as (K1 & _). pose proof (plain_kept _ _ _ _ K1 P) as P1. set (h1 := fst (atari_vtoc_segs h r im)) in *.
    destruct (get_contiguous (a_hdr im) 361 8) as [q|] eqn:Eq; cbn [rbind] in E; [|discriminate]. apply ok_bind.
    { unfold atari_dir_segs. rewrite Eq. cbn [pure hbind]. apply ok_bind; [eapply (ok_annotate r); apply plain_slice; exact P1|]. intros u _. eexists. reflexivity. }
    intros d _. pose proof (atari_dir_good r h1 im P1) as (K2 & _). pose proof (plain_kept _ _ _ _ K2 P1) as P2. set (h2 := fst (atari_dir_segs h1 r im)) in *.
    apply ok_bind; [|intros x _; eexists; reflexivity]. apply (ok_each _ _ (get_file im)); [intros h0 d0 P0; apply atari_file_part; exact P0|exact E|exact P2|].
    intros h0 d0 K0 _. apply atari_file_ok; [rewrite Bb; exact Hb|rewrite Bb; exact Hh|]. rewrite (kept_len _ _ K0), (kept_len _ _ K2), (kept_len _ _ K1), Bb. exact L.
  Qed.

  (** ** SpartaDOS *)
  Lemma sparta_file_ok im h d t : bytes_ok (s_bytes im) -> hdr_of (s_bytes im) = Ok (s_hdr im) -> raw_len h r = zlen (s_bytes im) ->
    match sget_file im d with Ok _ => ok (sparta_file_seg r im h (d, t)) | Err e => is_invalid_file e = true -> snd (sparta_file_seg r im h (d, t)) = Err e end.
  Proof.
    intros Hb Hh L. unfold sget_file, sget_bytes, sparta_file_seg, pure, ok. cbn [snd]. destruct (sfile_runs _ _ _ _) as [runs|e] eqn:Er; cbn [rbind]; [|reflexivity].
    assert (F : Forall (fun r => 0 <= fst r /\ 0 <= snd r /\ fst r + snd r <= zlen (s_bytes im)) runs).
    { unfold sfile_runs in Er. destruct (negb _); [discriminate|]. destruct (sector_map _ _ _ _) as [[m|]|]; cbn [rbind] in Er; try discriminate.
      destruct (sread_runs (s_hdr im) m (sd_length d)) as [x|] eqn:Ex; cbn [rbind] in Er; [|discriminate]. injection Er as <-. exact (runs_in _ _ Hb Hh _ _ _ Ex). }
    pose proof (positions_in _ runs F) as I. destruct (ok_indexed h r _ _ W L I) as (x & Ex & _).
    assert (G : exists s, match run_positions runs with [] => Ok (mkSeg (KEmpty (stamp_text t)) (sfilename d) 0 r)
      | o => let! x := raw_indexed h r (to_numpy_list o) in Ok (mkSeg KDefault (sfilename d ++ txt " " ++ dec (sd_length d) ++ txt "@" ++ dec (sd_start d) ++ txt " " ++ stamp_text t) 0 x) end = Ok s).
    { destruct (run_positions runs); [eauto|]. rewrite Ex. cbn [rbind]. eauto. }
    destruct (forallb _ runs); [exact G|]. unfold indexed_bytes. destruct (forallb _ runs) eqn:Fb; [exact G|]. discriminate.
  Qed.
  Lemma sparta_hdr b a : open_sparta b = Ok a -> hdr_of b = Ok (s_hdr a) /\ s_bytes a = b.
  Proof.
    intros Op. unfold open_sparta, open_sparta_fuel in Op. cbv zeta in Op. unfold hdr_of. cbv zeta. destruct (check_size _ _) as [hd|]; cbn [rbind] in Op; [|discriminate].
    destruct (boot_sector_info b hd) as [im0|] eqn:Eb; cbn [rbind] in Op; [|discriminate].
    assert (B0 : s_bytes im0 = b /\ s_hdr im0 = hd).
    { unfold boot_sector_info in Eb. destruct (get_sectors hd b 1 1) as [x|]; cbn [rbind] in Eb; [|discriminate]. cbv zeta in Eb. destruct (_ =? 0); [discriminate|]. destruct (negb _); [discriminate|].
      destruct (_ && _); [|discriminate]. injection Eb as <-. split; reflexivity. }
    unfold sget_directory in Op. destruct (sector_map _ _ _ _) as [[[|s0 m]|]|]; cbn [rbind] in Op; try discriminate.
    destruct (s0 =? 0); [injection Op as <-; unfold with_dir; cbn [s_hdr s_bytes]; split; [f_equal; symmetry|]; apply B0|]. destruct (get_raw_bytes _ _ _) as [[[x y] z]|]; cbn [rbind] in Op; [|discriminate].
    destruct (parse_sdirent _ _ _) as [d0|]; cbn [rbind] in Op; [|discriminate]. destruct (sget_bytes _ _ _ _) as [s1|]; cbn [rbind] in Op; [|discriminate].
    destruct (sentries _ _ _ _ _) as [ds|]; cbn [rbind] in Op; [|discriminate]. injection Op as <-. unfold with_dir; cbn [s_hdr s_bytes]; split; [f_equal; symmetry|]; apply B0.
  Qed.
  Lemma file_segments_fst {A} (get : sdirent -> res A) (l : list (sdirent * list Z)) : file_segments (fun dt => get (fst dt)) l = file_segments get (map fst l).
  Proof. induction l as [|[d t] l IH]; [reflexivity|]. cbn [file_segments map fst]. rewrite IH. reflexivity. Qed.
  Lemma sparta_ok h im b : bytes_ok b -> open_sparta b = Ok im -> plain r h r -> raw_len h r = zlen b -> sparta_segments im = Ok tt -> ok (sparta_parse_segments h r im).
  Proof.
    intros Hb Ho P L E. destruct (sparta_hdr b im Ho) as (Hh & Bb). rewrite <- Bb in Hb, Hh, L. unfold sparta_segments in E. unfold sparta_parse_segments. cbv zeta.
    unfold sparta_boot_segs, sparta_vtoc_segs. destruct (get_sector_slice _ _ _) as [[x y]|]; cbn [rbind] in E |- *; [|discriminate]. cbn [pure hbind].
    destruct (sbitmap_bounds im) as [[u v]|]; cbn [rbind] in E |- *; [|discriminate]. cbn [pure hbind]. destruct (s_rootd im) as [d|] eqn:Rd; [|discriminate].
    destruct (sget_file im d) as [c|] eqn:Gf; cbn [rbind] in E; [|discriminate].
    pose proof (sparta_file_part r im h (d, root_stamp im d) P) as (K & _). apply ok_bind.
    { unfold sparta_dir_segs. rewrite Rd. apply ok_bind; [|intros s _; eexists; reflexivity]. pose proof (sparta_file_ok im h d (root_stamp im d) Hb Hh L) as X. rewrite Gf in X. exact X. }
    intros l1 _. unfold stamps. rewrite Rd, Gf. cbn [rbind pure hbind]. set (l := map _ (s_files im)). assert (Ml : map fst l = s_files im) by (unfold l; rewrite map_map; cbn [fst]; apply map_id).
    assert (Eh : fst (sparta_dir_segs h r im) = h).
    { unfold sparta_dir_segs. rewrite Rd. unfold sparta_file_seg at 1, pure, hbind. match goal with |- context[match ?x with Ok _ => _ | Err _ => _ end] => destruct x end; reflexivity. }
    rewrite Eh. apply ok_bind; [|intros e _; eexists; reflexivity].
    apply (ok_each _ _ (fun dt => sget_file im (fst dt))); [intros h0 d0 P0; apply sparta_file_part; exact P0|rewrite file_segments_fst, Ml; exact E|exact P|].
    intros h0 [d0 t0] K0 _. cbn [fst]. apply sparta_file_ok; [exact Hb|exact Hh|]. rewrite (kept_len _ _ K0). exact L.
  Qed.

  (** ** DOS 3.3 *)
  Lemma more_ok h m : forall n, more_sectors3 h m n = Ok tt -> exists x, more_size3 h m n = Ok x.
  Proof.
    induction m as [|m IH]; intros n E; cbn [more_sectors3 more_size3] in *; [eauto|]. destruct (get_pos3 h (n + 1)) as [[p s]|]; cbn [rbind] in *; [|discriminate].
    destruct (IH _ E) as (x & ->). cbn [rbind]. eauto.
  Qed.
  Lemma bounds_ok h a b : sector_slice3 h a b = Ok tt -> exists x y, slice_bounds3 h a b = Ok (x, y).
  Proof.
    unfold sector_slice3, slice_bounds3. destruct (get_pos3 h a) as [[p s]|]; cbn [rbind]; [|discriminate]. intros E. destruct (more_ok _ _ _ E) as (x & ->). cbn [rbind]. eauto.
  Qed.
  Lemma catalog_ok b h f : zlen b = 143360 -> forall n, snd (cat_loop f h b n) = None -> exists runs, catalog_runs f h b n = Ok runs /\
    Forall (fun r => 0 <= fst r /\ snd r = 256 /\ fst r + snd r <= zlen b) runs.
  Proof.
    intros L. induction f as [|f IH]; intros n E; cbn [cat_loop catalog_runs] in *; destruct (0 <? n) eqn:Hn; [discriminate|eauto| |eauto].
    destruct (assert_valid3 h n) as [u|]; cbn [rbind]; [|discriminate]. unfold get_raw3, get_pos3 in *. destruct (negb _); cbn [rbind] in *; [discriminate|].
    unfold link_of in *. destruct (zlen (slice b (n * 256) (n * 256 + 256)) <? 3) eqn:H3; cbn [rbind] in *; [discriminate|].
    match goal with |- context[catalog_runs f h b ?m] => specialize (IH m); destruct (cat_loop f h b m) as [ds err] end. cbn [snd] in *. destruct (IH E) as (runs & -> & F). cbn [rbind].
    eexists. split; [reflexivity|]. constructor; [|exact F]. cbn [fst snd]. rewrite zlen_slice_min in H3 by lia. split; [lia|]. split; [reflexivity|].
    assert (Q : n * 256 < 143360) by lia. lia.
  Qed.
  Lemma notes_in e : forall c n i, Forall (fun it => e + i <= fst it < e + i + 35 * Z.of_nat c) (entry_notes3 c n (e + i)).
  Proof.
    induction c as [|c IH]; intros n i; cbn [entry_notes3]; [constructor|]. rewrite Nat2Z.inj_succ. cbn [app].
    do 5 (apply Forall_cons; [cbn [fst]; lia|]). specialize (IH (n + 1) (i + 35)). replace (e + i + 0x23) with (e + (i + 35)) by lia.
    eapply Forall_impl; [|exact IH]. intros it. cbv beta. lia.
  Qed.
  Lemma catalog_notes_in k : forall f n j, 0 <= j -> Forall (fun it => 0 <= fst it < 256 * k) (catalog_notes3 f (256 * k) n (256 * j)).
  Proof.
    induction f as [|f IH]; intros n j Hj; cbn [catalog_notes3]; [constructor|]. destruct (Z.ltb_spec (256 * j) (256 * k)); [|constructor]. cbn [app].
    do 4 (apply Forall_cons; [cbn [fst]; lia|]). apply Forall_app. split.
    - eapply Forall_impl; [|apply (notes_in (256 * j) 7 n 11)]. intros it. cbv beta. lia.
    - replace (256 * j + 0x0b + 7 * 0x23) with (256 * (j + 1)) by lia. apply IH. lia.
  Qed.
  Lemma zlen_runs k : forall runs, k = zlen runs -> Forall (fun r => 0 <= fst r /\ snd r = 256 /\ True) runs -> zlen (run_positions runs) = 256 * k.
  Proof.
    intros runs ->. induction 1 as [|[p n] l A _ IH]; [reflexivity|]. unfold run_positions in *. cbn [flat_map fst snd] in *. rewrite zlen_app, zlen_cons, IH, zlen_zrange by lia. lia.
  Qed.
  Lemma catalog3_ok h im b : zlen b = 143360 -> i_bytes im = b -> snd (cat_loop (fuel33 (i_hdr im)) (i_hdr im) b (h_fdir (i_hdr im))) = None -> plain r h r -> raw_len h r = zlen b ->
    ok (catalog_segs3 h r im) /\ kept r h (fst (catalog_segs3 h r im)).
  Proof.
    intros L Bb Ec P Lr. destruct (catalog_ok b _ _ L _ Ec) as (runs & Er & F). unfold catalog_segs3. rewrite Bb, Er. cbn [pure hbind].
    assert (F2 : Forall (fun r => 0 <= fst r /\ 0 <= snd r /\ fst r + snd r <= zlen b) runs) by (eapply Forall_impl; [|exact F]; intros it; cbv beta; lia).
    destruct (ok_indexed h r b _ W Lr (positions_in _ runs F2)) as (s & Es & o & Ws & Lo). rewrite Es. cbn [pure hbind].
    assert (Ln : raw_len h s = 256 * zlen runs).
    { unfold raw_len. rewrite Ws. unfold zlen in *. rewrite Lo. apply (zlen_runs _ runs eq_refl). eapply Forall_impl; [|exact F]. intros it. cbv beta. tauto. }
    assert (X : ok (annotate h s (catalog_notes3 (Z.to_nat (raw_len h s)) (raw_len h s) 0 0))).
    { apply ok_notes. intros it Hi. unfold raw_index. rewrite Ws. pose proof (catalog_notes_in (zlen runs) (Z.to_nat (raw_len h s)) 0 0 ltac:(lia)) as N. rewrite <- Ln in N. change (256 * 0) with 0 in N.
      rewrite Forall_forall in N. specialize (N it Hi). cbv beta in N. unfold nindex. replace (raw_len h s) with (zlen o) in N by (unfold raw_len; rewrite Ws; reflexivity).
      destruct (Z.leb_spec (- zlen o) (fst it)); [|lia]. destruct (Z.ltb_spec (fst it) (zlen o)); [|lia]. cbn [andb rbind]. eauto. }
    split; [apply ok_bind; [exact X|]; intros u _; eexists; reflexivity|].
    assert (K : kept r h (fst (annotate h s (catalog_notes3 (Z.to_nat (raw_len h s)) (raw_len h s) 0 0)))).
    { destruct runs as [|p q].
      - change (zlen (@nil (Z * Z))) with 0 in Ln. rewrite Ln. cbn [catalog_notes3 Z.mul Z.to_nat]. unfold annotate. cbn [each fst]. unfold mark_data. rewrite Ws.
        assert (Hs : r_style s = r_style r). { unfold raw_indexed in Es. rewrite W in Es. destruct (nindexes _ _); cbn [rbind] in Es; [injection Es as <-; reflexivity|discriminate]. }
        destruct o; [|unfold zlen in *; discriminate Lo]. unfold upd_style. rewrite Hs, Ln. change (win_slice (256 * 0) (WOrder []) None None) with (@nil Z). apply (kept_style r h r (fun _ => style_bits k_data) []); [apply P|constructor|intros _; exact data_byte].
      - apply kept_annotate. apply (part_indexed r h r (run_positions (p :: q)) s P); [|exact Es]. destruct p as [p n]. apply Forall_inv in F. cbn [fst snd] in F. apply runs_head. lia. }
    destruct X as (u & X). destruct (annotate h s _) as [h1 y]. cbn [fst snd] in *. subst y. exact K.
  Qed.
  Lemma read_map_in b h : zlen b = 143360 -> 0 <= h_max3 h -> forall m runs, read_map h b m = Ok runs -> Forall (fun r => 0 <= snd r /\ (snd r = 0 \/ 0 <= fst r /\ fst r + snd r <= zlen b)) runs.
  Proof.
    intros L M. induction m as [|n m IH]; intros runs E; cbn [read_map] in E; [injection E as <-; constructor|]. unfold get_raw3, get_pos3 in E. destruct (negb (valid3 h n)) eqn:V; cbn [rbind] in E; [discriminate|].
    destruct (read_map h b m) as [rest|]; cbn [rbind] in E; [|discriminate]. injection E as <-. constructor; [|exact (IH _ eq_refl)]. cbn [fst snd].
    unfold valid3 in V. assert (0 <= n) by lia. rewrite zlen_slice_min by lia. lia.
  Qed.
  Lemma map_positions b runs : Forall (fun r => 0 <= snd r /\ (snd r = 0 \/ 0 <= fst r /\ fst r + snd r <= zlen b)) runs -> Forall (fun p => 0 <= p < @zlen Z b) (run_positions runs).
  Proof.
    intros F. apply Forall_forall. intros p Hp. unfold run_positions in Hp. apply in_flat_map in Hp. destruct Hp as ([q n] & H1 & H2).
    rewrite Forall_forall in F. specialize (F _ H1). cbn [fst snd] in *. apply In_zrange in H2. lia.
  Qed.
  Lemma file3_ok im h d : zlen (i_bytes im) = 143360 -> 0 <= h_max3 (i_hdr im) -> raw_len h r = zlen (i_bytes im) ->
    match get_file3 im d with Ok _ => ok (file_seg3 r im h d) | Err e => is_invalid_file e = true -> snd (file_seg3 r im h d) = Err e end.
  Proof.
    intros L M Lr. unfold get_file3, get_file_fuel3, file_seg3, file_segment3. destruct (negb (d3_sane d)); [reflexivity|].
    destruct (get_tslist _ _ _ _) as [[t [|n0 m]]|e]; cbn [rbind]; [reflexivity| |reflexivity]. destruct (read_map _ _ _) as [runs|e] eqn:Er; cbn [rbind]; [|reflexivity].
    pose proof (read_map_in _ _ L M _ _ Er) as F. pose proof (positions_none runs) as Pn. destruct Pn as [Pn1 Pn2]; [eapply Forall_impl; [|exact F]; intros x; cbv beta; lia|].
    destruct (ok_indexed h r _ _ W Lr (map_positions _ _ F)) as (x & Ex & _).
    destruct (forallb (fun r0 => snd r0 =? 0) runs) eqn:Fz.
    - rewrite Pn2 by reflexivity. eexists. reflexivity.
    - destruct (run_positions runs) as [|p ps] eqn:Ep; [specialize (Pn1 eq_refl); discriminate|]. rewrite Ex. destruct (d3_type d =? 4); [|eexists; reflexivity]. cbn [hd].
      destruct (get_raw3 (i_hdr im) (i_bytes im) n0) as [[q z]|]; cbn [rbind]; [|reflexivity]. destruct (zlen q <? 2); cbn [rbind]; [reflexivity|]. eexists. reflexivity.
  Qed.
  Lemma open33_cat b im : open33 b = Ok im -> snd (cat_loop (fuel33 (i_hdr im)) (i_hdr im) b (h_fdir (i_hdr im))) = None.
  Proof.
    unfold open33. destruct (negb (zlen b =? 143360)); [discriminate|]. unfold get_metadata3.
    destruct (boot_info (mkI b hdr33_0 [] true)); [|discriminate]. unfold get_vtoc3. cbn [i_hdr i_bytes].
    destruct (get_raw3 hdr33_0 b 272) as [[v p]|]; [|discriminate].
    set (h := mkH33 (from_ts (getb v 1) (getb v 2)) (getb v 0x34 * getb v 0x35) (getb v 0x27)). cbv zeta. destruct (assert_valid3 h (h_fdir h)); [|discriminate].
    unfold get_directory3, get_directory_fuel. cbn [i_hdr i_bytes i_files i_sane].
    destruct (cat_loop (fuel33 h) h b (h_fdir h)) as [ds [e|]] eqn:Ec; [discriminate|]. cbn [i_sane].
    destruct (true && forallb d3_sane ds); [|discriminate]. intros E. injection E as <-. cbn [i_hdr]. rewrite Ec. reflexivity.
  Qed.
  Lemma dos33_ok h im b : bytes_ok b -> open33 b = Ok im -> plain r h r -> raw_len h r = zlen b -> dos33_segments im = Ok tt -> ok (parse_segments3 h r im).
  Proof.
    intros Hb Ho P L E. destruct (open33_hdr b im Ho) as (Lb & Bb & Mx). pose proof (open33_cat b im Ho) as Ec. unfold dos33_segments in E. cbv zeta in E. unfold parse_segments3. cbv zeta.
    unfold boot_segs3. cbn [boot_list3].
    destruct (sector_slice3 _ 0 0) as [[]|] eqn:E1; cbn [rbind] in E; [|discriminate]. destruct (sector_slice3 _ 1 9) as [[]|] eqn:E2; cbn [rbind] in E; [|discriminate].
    destruct (sector_slice3 _ 0x0a 0x0b) as [[]|] eqn:E3; cbn [rbind] in E; [|discriminate]. destruct (sector_slice3 _ 0x0c (0x0c + 25)) as [[]|] eqn:E4; cbn [rbind] in E; [|discriminate].
    destruct (bounds_ok _ _ _ E1) as (x1 & y1 & ->). destruct (bounds_ok _ _ _ E2) as (x2 & y2 & ->). destruct (bounds_ok _ _ _ E3) as (x3 & y3 & ->). destruct (bounds_ok _ _ _ E4) as (x4 & y4 & ->).
    cbn [rbind pure hbind]. destruct (get_pos3 (i_hdr im) 272) as [q|] eqn:Eq; cbn [rbind] in E; [|discriminate]. apply ok_bind.
    { unfold vtoc_segs3. rewrite Eq. cbn [pure hbind]. apply ok_bind; [eapply (ok_annotate r); apply plain_slice; exact P|]. intros u _. eexists. reflexivity. }
    intros c _. pose proof (vtoc3_good r h im P) as (K1 & _). pose proof (plain_kept _ _ _ _ K1 P) as P1. set (h1 := fst (vtoc_segs3 h r im)) in *.
    destruct (catalog3_ok h1 im b Lb Bb Ec P1 ltac:(rewrite (kept_len _ _ K1); exact L)) as (C & K2). apply ok_bind; [exact C|]. intros d _. pose proof (plain_kept _ _ _ _ K2 P1) as P2. set (h2 := fst (catalog_segs3 h1 r im)) in *.
    apply ok_bind; [|intros e _; eexists; reflexivity]. apply (ok_each _ _ (get_file3 im)); [intros h0 d0 P0; apply file3_part; exact P0|exact E|exact P2|].
    intros h0 d0 K0 _. apply file3_ok; [rewrite Bb; exact Lb|rewrite Mx; unfold vtoc_sectors; pose proof (bytes_ok_getb _ (272 * 256 + 0x34) Hb); pose proof (bytes_ok_getb _ (272 * 256 + 0x35) Hb); unfold is_byte in *; nia|]. rewrite (kept_len _ _ K0), (kept_len _ _ K2), (kept_len _ _ K1), Bb. exact L.
  Qed.

  (** ** All formats *)
  Theorem always_listed e strict p h b im : bytes_ok b -> raw_ok h r -> read_data h r = b -> parse_image e strict p b = Ok im -> exists h' l, image_segments h r p im = (h', Ok l).
  Proof.
    intros Hb R Rb E. pose proof (plain_r r h R W) as P.
    assert (L : raw_len h r = zlen b) by (rewrite <- Rb, read_data_shows, zlen_map, zlen_shows by exact R; reflexivity).
    assert (X : ok (parse_segments h r im)).
    { destruct p; cbn [parse_image] in E.
      - destruct (kboot_open b) as [k|]; cbn [rbind] in E; [|discriminate]. destruct (checked _ _); cbn [rbind] in E; [|discriminate]. injection E as <-. eexists. reflexivity.
      - destruct (open_sparta b) as [a|] eqn:Ho; cbn [rbind] in E; [|discriminate]. destruct (checked _ _); cbn [rbind] in E; [|discriminate].
        destruct (sparta_segments a) as [[]|] eqn:Es; cbn [rbind] in E; [|discriminate]. injection E as <-. exact (sparta_ok h a b Hb Ho P L Es).
      - destruct (open_image b) as [a|] eqn:Ho; cbn [rbind] in E; [|discriminate]. destruct (checked _ _); cbn [rbind] in E; [|discriminate].
        destruct (atari_segments a) as [[]|] eqn:Es; cbn [rbind] in E; [|discriminate]. injection E as <-. exact (atari_ok h a b Hb Ho P L Es).
      - destruct (atari_header b) as [hd|]; cbn [rbind] in E; [|discriminate]. destruct (boot_check _ _); cbn [rbind] in E; [|discriminate]. destruct (checked _ _); cbn [rbind] in E; [|discriminate].
        destruct (boot_segments hd b 1 6) as [[]|] eqn:Es; cbn [rbind] in E; [|discriminate]. injection E as <-. cbn [parse_segments]. unfold boot_parse_segments. destruct (boot_ok h _ _ _ _ Es) as (l & ->). eexists. reflexivity.
      - destruct (atari_header b) as [hd|]; cbn [rbind] in E; [|discriminate]. destruct (checked _ _); cbn [rbind] in E; [|discriminate]. injection E as <-. eexists. reflexivity.
      - destruct (snd (parse_xex b (zrepeat 0 (zlen b)))) as [segs|] eqn:Ex; [|discriminate]. injection E as <-.
        apply (parse_xex_iff b _ Hb) in Ex. destruct Ex as (ps & P1 & P2 & Eb & _). subst b.
        assert (Nd : NoDup (shows h r)) by (unfold shows; rewrite W; apply SegProofs6.nodup_zrange).
        destruct (xex_list r ps (S (length (encode ps))) h [] 0 true P1 ltac:(rewrite <- Eb; exact Hb) ltac:(lia) (fun _ => P2) R Nd ltac:(cbn [app]; rewrite <- Eb; exact L) ltac:(cbn; lia)) as (h' & l & El & _ & _).
        cbn [app] in El. change (zlen (@nil Z)) with 0 in El. cbn [parse_segments]. unfold xex_parse_segments. rewrite Eb, El. eexists. reflexivity.
      - unfold cart_image in E. destruct (CartModel.open_cart b t) as [c|]; cbn [rbind] in E; [|discriminate].
        assert (exists c', im = ICart c') as (c' & ->); [|eexists; reflexivity]. destruct strict.
        + destruct (checked _ _); cbn [rbind] in E; [|discriminate]. injection E as <-. eauto.
        + destruct (CartModel.cart_relaxed c); cbn [rbind] in E; [|discriminate]. injection E as <-. eauto.
      - unfold cart_image in E. destruct (CartModel.open_cart b t) as [c|]; cbn [rbind] in E; [|discriminate].
        assert (exists c', im = ICart c') as (c' & ->); [|eexists; reflexivity]. destruct strict.
        + destruct (checked _ _); cbn [rbind] in E; [|discriminate]. injection E as <-. eauto.
        + destruct (CartModel.cart_relaxed c); cbn [rbind] in E; [|discriminate]. injection E as <-. eauto.
      - unfold rom_image in E. destruct (CartModel.open_rom b); cbn [rbind] in E; [|discriminate]. injection E as <-. eexists. reflexivity.
      - unfold rom_image in E. destruct (CartModel.open_rom b); cbn [rbind] in E; [|discriminate]. injection E as <-. eexists. reflexivity.
      - unfold rom_image in E. destruct (CartModel.open_rom b); cbn [rbind] in E; [|discriminate]. injection E as <-. eexists. reflexivity.
      - unfold mame_image in E. destruct (e_zip e b) as [|l|]; try discriminate. destruct (existsb _ l); [discriminate|]. destruct l as [|z l]; [discriminate|]. injection E as <-. cbn [parse_segments]. unfold mame_parse_segments.
        destruct (new_raw h _) as [h1 x]. eexists. reflexivity.
      - unfold rom_image in E. destruct (CartModel.open_rom b); cbn [rbind] in E; [|discriminate]. injection E as <-. eexists. reflexivity.
      - destruct (open33 b) as [a|] eqn:Ho; cbn [rbind] in E; [|discriminate]. destruct (dos33_segments a) as [[]|] eqn:Es; cbn [rbind] in E; [|discriminate]. injection E as <-. exact (dos33_ok h a b Hb Ho P L Es).
      - unfold prodos_image in E. destruct (negb _); [discriminate|]. destruct (zlist_eqb _ _); discriminate.
      - destruct (parse_bsave b) as [s|] eqn:Es; cbn [rbind] in E; [|discriminate]. injection E as <-. cbn [parse_segments]. unfold bin_parse_segments. rewrite Rb. unfold parse_bsave in Es. cbv zeta in *.
        destruct (zlen (slice b 0 4) =? 4); [|discriminate]. destruct (negb _); [discriminate|]. destruct (zlen (slice b 4 _) =? _); [|discriminate]. eexists. reflexivity. }
    unfold image_segments, with_whole. destruct X as (l & X). destruct (parse_segments h r im) as [h' y]. cbn [snd] in X. subst y. cbn [hbind]. eauto.
  Qed.
End T.
