(** C84: a file can be edited in place through its segment.

    Vocabulary: [image_raw h r b] says that the raw data [r] of the image object holds
    the bytes [b]; [edit_file] finds the file, takes its segment, narrows it by the
    slices and selections [c] and assigns as [e] says; [targets] and [values] are the
    indexes of the file's bytes assigned to and what is stored there. *)
From Verif Require Import Base BaseLemmas DiskModel DirLemmas AtariModel AtariSpec AtariGeom AtariDir AtariVtoc AtariChain AtariSectors AtariWrite AtariDelete AtariShred AtariOps AtariSession AtariMore AtariBlank AtariHeader AtariProps AtariDemo
  SegModel SegSpec SegProofs SegProofs2 EditModel EditSpec EditProofs EditAtari.
From Verif Require Import Dos33Model Dos33Spec Dos33Files Dos33Ops Dos33Session Dos33Demo Edit33.

(** The raw data of an image that has just been read. *)
Lemma new_raw_image h b : zlen b <= 2147483648 -> image_raw (fst (new_raw h b)) (snd (new_raw h b)) b.
Proof.
  intros L. assert (E0 : arr (fst (new_raw h b)) (length (hp_arr h)) = b).
  { cbn [new_raw fst]. unfold arr. cbn [hp_arr]. rewrite app_nth2 by lia. rewrite Nat.sub_diag. reflexivity. }
  assert (E1 : arr (fst (new_raw h b)) (S (length (hp_arr h))) = zrepeat 0 (zlen b)).
  { cbn [new_raw fst]. unfold arr. cbn [hp_arr]. rewrite app_nth2 by lia. replace (S (length (hp_arr h)) - length (hp_arr h))%nat with 1%nat by lia. reflexivity. }
  unfold image_raw, raw_ok, shows, raw_len, read_data. cbn [snd new_raw r_data r_style r_extra r_win]. fold (new_raw h b).
  change (mkHp _ _) with (fst (new_raw h b)). rewrite E0, E1. cbn [new_raw fst hp_arr hp_ext win_ok positions win_read].
  rewrite !app_length. cbn [length]. rewrite zlen_zrepeat by apply zlen_nonneg.
  repeat split; try lia. apply NoDup_zseq_nat.
Qed.

(** * Atari DOS *)
Lemma edit_file_step h r im n data c ps e : consistent im -> image_raw h r (a_bytes im) -> find_file im n = Ok data ->
  Forall sel_ok c -> choose_all (zrange 0 (zlen data)) c = Some ps -> how_ok ps e ->
  exists d seg h' im', find_name n (a_files im) = Some d /\ file_segment h r im d = Ok seg /\ raw_ok h seg /\ read_data h seg = data /\
    edit_file h r im n c e = (h', im', Ok tt) /\ file_edit h r im n data seg (targets ps e) (values e) h' im'.
Proof.
  intros C R F H1 H2 H3. unfold edit_file. destruct (find_name n (a_files im)) as [d|] eqn:Ed; [|unfold find_file in F; rewrite Ed in F; discriminate].
  destruct (file_edit_ok h r im n d data C R Ed F) as (seg & Es & Rs & Rd & K). destruct (K c ps e H1 H2 H3) as (h' & Ea & W).
  exists d, seg, h', (with_bytes im (read_data h' r)). rewrite Es, Ea. split; [reflexivity|]. split; [reflexivity|]. split; [exact Rs|]. split; [exact Rd|]. split; [reflexivity|exact W].
Qed.
(** The segment of a file shows the file; assigning through any window of it patches the
    file at the indexes of the window and changes nothing else of the disk. *)
Theorem C84_atari_edit_partial h r im n data c ps e :
  consistent im -> image_raw h r (a_bytes im) -> find_file im n = Ok data ->
  Forall sel_ok c -> choose_all (zrange 0 (zlen data)) c = Some ps -> how_ok ps e ->
  exists d seg h' im', find_name n (a_files im) = Some d /\ file_segment h r im d = Ok seg /\ read_data h seg = data /\
    edit_file h r im n c e = (h', im', Ok tt) /\
    image_raw h' r (a_bytes im') /\ consistent im' /\ open_image (a_bytes im') = Ok im' /\
    find_file im' n = Ok (patch data (targets ps e) (values e)) /\ read_data h' seg = patch data (targets ps e) (values e) /\
    listing im' = listing im /\ a_free im' = a_free im /\
    (forall m, m <> n -> find_file im' m = find_file im m) /\
    (forall m s, sectors_of im' m s <-> sectors_of im m s) /\ (forall s, is_free_sector im' s <-> is_free_sector im s) /\
    (forall s p, sectors_of im n s -> 0 <= p -> (forall x, In x s -> ~ in_sector (geom_of (a_hdr im)) x p) -> getb (a_bytes im') p = getb (a_bytes im) p) /\
    arr h' (r_style r) = arr h (r_style r).
Proof.
  intros C R F H1 H2 H3. destruct (edit_file_step h r im n data c ps e C R F H1 H2 H3) as (d & seg & h' & im' & Ed & Es & Rs & Rd & Ee & W).
  exists d, seg, h', im'. pose proof (fe_consistent _ _ _ _ _ _ _ _ _ _ W) as C'.
  split; [exact Ed|]. split; [exact Es|]. split; [exact Rd|]. split; [exact Ee|]. split; [exact (fe_raw _ _ _ _ _ _ _ _ _ _ W)|].
  split; [exact C'|]. split; [apply C'|]. split; [exact (fe_read _ _ _ _ _ _ _ _ _ _ W)|]. split; [exact (fe_segment _ _ _ _ _ _ _ _ _ _ W)|].
  split; [exact (fe_listing _ _ _ _ _ _ _ _ _ _ W)|]. split; [exact (fe_reported _ _ _ _ _ _ _ _ _ _ W)|].
  split; [exact (fe_others _ _ _ _ _ _ _ _ _ _ W)|]. split; [exact (fe_sectors _ _ _ _ _ _ _ _ _ _ W)|]. split; [exact (fe_free _ _ _ _ _ _ _ _ _ _ W)|].
  split; [exact (fe_bytes _ _ _ _ _ _ _ _ _ _ W)|]. apply (fe_styles _ _ _ _ _ _ _ _ _ _ W). apply not_eq_sym. apply R.
Qed.
Print Assumptions C84_atari_edit_partial.

(** A segment taken earlier, of any file, is still that file's segment. *)
Theorem C84_atari_segments_stay_valid h r im n data c ps e m d :
  consistent im -> image_raw h r (a_bytes im) -> find_file im n = Ok data ->
  Forall sel_ok c -> choose_all (zrange 0 (zlen data)) c = Some ps -> how_ok ps e -> find_name m (a_files im) = Some d ->
  exists h' im', edit_file h r im n c e = (h', im', Ok tt) /\ find_name m (a_files im') = Some d /\ file_segment h' r im' d = file_segment h r im d.
Proof.
  intros C R F H1 H2 H3 Hm. destruct (edit_file_step h r im n data c ps e C R F H1 H2 H3) as (_ & seg & h' & im' & _ & _ & _ & _ & Ee & W).
  exists h', im'. split; [exact Ee|]. exact (fe_held _ _ _ _ _ _ _ _ _ _ W m d Hm).
Qed.
Print Assumptions C84_atari_segments_stay_valid.

(** Any sequence of edits of any files does to the disk what it does to a map. *)
Theorem C84_atari_session_partial l : forall h r im m m',
  consistent im -> image_raw h r (a_bytes im) -> (forall n, fs_of im n = m n) -> edits m l m' ->
  exists h' im', edit_all h r im l = (h', im', Ok tt) /\ consistent im' /\ image_raw h' r (a_bytes im') /\
    listing im' = listing im /\ forall n, fs_of im' n = m' n.
Proof.
  induction l as [|[[n c] e] l IH]; intros h r im m m' C R Hm He; inversion He; subst.
  - exists h, im. split; [reflexivity|]. split; [exact C|]. split; [exact R|]. split; [reflexivity|]. intros n. rewrite Hm. auto.
  - assert (F : find_file im n = Ok data).
    { pose proof (Hm n) as X. unfold fs_of in X. destruct (find_file im n) as [x|]; congruence. }
    destruct (edit_file_step h r im n data c ps e C R F) as (_ & seg & h1 & im1 & _ & _ & _ & _ & Ee & W); try assumption.
    cbn [edit_all]. rewrite Ee. pose proof (fe_consistent _ _ _ _ _ _ _ _ _ _ W) as C1. pose proof (fe_raw _ _ _ _ _ _ _ _ _ _ W) as R1.
    assert (M1 : forall x, fs_of im1 x = fs_put m n (patch data (targets ps e) (values e)) x).
    { intros x. unfold fs_put. destruct (zlist_eqb x n) eqn:Ex.
      * apply zlist_eqb_eq in Ex. subst x. unfold fs_of. rewrite (fe_read _ _ _ _ _ _ _ _ _ _ W). reflexivity.
      * rewrite <- Hm. unfold fs_of. rewrite (fe_others _ _ _ _ _ _ _ _ _ _ W); [reflexivity|]. intros ->.
        rewrite (proj2 (zlist_eqb_eq n n)) in Ex by reflexivity. discriminate. }
    destruct (IH h1 r im1 _ m' C1 R1 M1 H9) as (h' & im' & E2 & C2 & R2 & L2 & M2).
    exists h', im'. split; [exact E2|]. split; [exact C2|]. split; [exact R2|]. split; [|exact M2].
      rewrite L2. exact (fe_listing _ _ _ _ _ _ _ _ _ _ W).
Qed.
Print Assumptions C84_atari_session_partial.

(** Every third byte of the middle of a 300-byte file, the last byte, and then a run
    across the border of the first two sectors (at 125). *)
Definition ed1 : how := Many [0; 2; 0] [1; 2; 3].
Definition ed2 : how := Part (Some 120) (Some 130) (zrange 10 20).
Definition three_edits : list edit :=
  [(hello, [Sl (Some 100) (Some 200); Ix [0; 3; 6; 9]], ed1); (hello, [], One 299 7); (hello, [], ed2)].
Definition edited_text : list Z :=
  zrepeat 65 100 ++ [3] ++ zrepeat 65 5 ++ [2] ++ zrepeat 65 13 ++ zrange 10 20 ++ zrepeat 65 169 ++ [7].
Lemma three_legal m : m hello = Some text -> exists m', edits m three_edits m' /\ m' hello = Some edited_text.
Proof.
  intros H. eexists. split.
  - eapply edits_cons; [exact H|constructor; [exact Logic.I|]; constructor; [split; [repeat constructor; lia|cbn; lia]|constructor]|vm_compute; reflexivity| |].
    { split; [apply bytes_ok_b; reflexivity|]. split; [reflexivity|]. repeat constructor; cbn; lia. }
    eapply edits_cons; [unfold fs_put; rewrite (proj2 (zlist_eqb_eq hello hello)) by reflexivity; reflexivity|constructor|vm_compute; reflexivity| |].
    { split; [apply bytes_ok_b; reflexivity|]. split; [reflexivity|]. cbn; lia. }
    eapply edits_cons; [unfold fs_put; rewrite (proj2 (zlist_eqb_eq hello hello)) by reflexivity; reflexivity|constructor|vm_compute; reflexivity| |].
    { split; [apply bytes_ok_b; reflexivity|]. split; [reflexivity|]. exact Logic.I. }
    constructor. intros n. reflexivity.
  - unfold fs_put at 1. rewrite (proj2 (zlist_eqb_eq hello hello)) by reflexivity. f_equal.
Qed.
Lemma small_image : exists im, consistent im /\ find_file im hello = Ok text /\ zlen (a_bytes im) = 92176.
Proof.
  destruct blank_image as (im & _ & C & L & F & P & M & B).
  assert (LW : legal_write im hello text).
  { split; [apply valid_stored; exact hello_valid|]. rewrite (proj2 (valid_stored _ hello_valid)). split; [discriminate|]. split; [apply bytes_ok_b; reflexivity|].
    rewrite listing_files, L. split; [intros []|cbn; lia]. }
  destruct (write_master im hello text (tidy_consistent _ C) LW) as [(Hs & im' & c & Ew & W)|(Hs & _)].
  - exists im'. split; [apply (wr_consistent _ _ _ _ _ W)|]. split; [exact (wr_read _ _ _ _ _ W)|].
    rewrite (wr_len _ _ _ _ _ W), B. rewrite zlen_fmt; lia.
  - exfalso. revert Hs. rewrite P, F. intros Hs. vm_compute in Hs. congruence.
Qed.
Example C84_example : exists h r im h' im', consistent im /\ image_raw h r (a_bytes im) /\ find_file im hello = Ok text /\
  edit_all h r im three_edits = (h', im', Ok tt) /\ find_file im' hello = Ok edited_text.
Proof.
  destruct small_image as (im & C & F & B).
  assert (B' : zlen (a_bytes im) <= 2147483648) by lia.
  pose proof (new_raw_image (mkHp [] []) _ B') as R. set (h := fst _) in R. set (r := snd _) in R.
  destruct (three_legal (fs_of im)) as (m' & He & Hm); [unfold fs_of; rewrite F; reflexivity|].
  destruct (C84_atari_session_partial three_edits h r im (fs_of im) m' C R (fun _ => eq_refl) He) as (h' & im' & Ee & _ & _ & _ & M).
  exists h, r, im, h', im'. split; [exact C|]. split; [exact R|]. split; [exact F|]. split; [exact Ee|].
  specialize (M hello). rewrite Hm in M. unfold fs_of in M. destruct (find_file im' hello); congruence.
Qed.

(** The full claim is false of files without bytes: their segment is the whole image, and
    what is assigned to it goes to the boot sectors. *)
Lemma file_segment_empty h r im d runs : start_read d = Ok tt ->
  read_runs (chain_fuel (a_hdr im)) (a_hdr im) (a_bytes im) (d_my d) (d_num d) (d_start d) [] = Ok runs ->
  forallb (fun x => snd x =? 0) runs = true -> file_segment h r im d = Ok r.
Proof.
  intros H1 H2 H3. unfold file_segment. rewrite H1, H2. cbn [rbind]. replace (run_positions runs) with (@nil Z); [reflexivity|].
  clear H2. induction runs as [|[p u] runs IH]; [reflexivity|]. cbn [forallb fst snd] in H3. apply andb_true_iff in H3. destruct H3 as [H3 H4].
  unfold run_positions. cbn [flat_map fst snd]. replace u with 0 by lia. rewrite Z.add_0_r. unfold zrange. rewrite Z.sub_diag. cbn [Z.to_nat zseq_nat app]. exact (IH H4).
Qed.
Definition empty_check (im : aimg) : bool :=
  bytes_b odd_disk && (zlen odd_disk =? 47120) &&
  match find_name [65] (a_files im) with
  | Some d => match start_read d with Ok _ => true | Err _ => false end &&
      match read_runs (chain_fuel (a_hdr im)) (a_hdr im) (a_bytes im) (d_my d) (d_num d) (d_start d) [] with
      | Ok runs => forallb (fun x => snd x =? 0) runs
      | Err _ => false
      end
  | None => false
  end.
Lemma empty_check_true : with_open odd_disk false empty_check = true.
Proof. vm_cast_no_check (eq_refl true). Qed.
Theorem C84_empty_file_refuted :
  exists im d h r h' im', open_image (a_bytes im) = Ok im /\ bytes_ok (a_bytes im) /\ image_raw h r (a_bytes im) /\
    find_name [65] (a_files im) = Some d /\ file_segment h r im d = Ok r /\
    edit_file h r im [65] [] (One 16 255) = (h', im', Ok tt) /\ getb (a_bytes im) 16 <> 255 /\ getb (a_bytes im') 16 = 255.
Proof.
  destruct (with_open_true _ _ empty_check_true) as (im & Ho & E). unfold empty_check in E.
  assert (B : a_bytes im = odd_disk) by (revert Ho; apply open_image_bytes).
  destruct (find_name [65] (a_files im)) as [d|] eqn:Ed; [|rewrite andb_comm in E; discriminate].
  apply andb_true_iff in E. destruct E as [E E3]. apply andb_true_iff in E. destruct E as [E1 E2]. apply andb_true_iff in E3. destruct E3 as [E3 E4].
  destruct (start_read d) as [[]|] eqn:Es; [|discriminate]. destruct (read_runs _ _ _ _ _ _ _) as [runs|] eqn:Er; [|discriminate].
  assert (L : zlen (a_bytes im) <= 2147483648) by (rewrite B; lia).
  pose proof (new_raw_image (mkHp [] []) _ L) as R. set (h := fst _) in R. set (r := snd _) in R.
  pose proof (file_segment_empty h r im d runs Es Er E4) as Sg.
  pose proof R as (R0 & N0 & L0 & B0). pose proof (image_raw_len _ _ _ R) as Hl.
  assert (H16 : 0 <= 16 < raw_len h r) by (rewrite <- Hl, B; lia).
  destruct (assign_wrote h r (One 16 255) R0) as (h' & Ea & W1 & _).
  { split; [apply bytes_ok_b; reflexivity|]. split; [reflexivity|]. rewrite zlen_shows by exact R0. exact H16. }
  cbn [targets values] in W1. specialize (W1 16 ltac:(lia)).
  assert (E16 : getb (shows h r) 16 = 16).
  { unfold shows. change (r_win r) with WAll. cbn [positions]. rewrite getb_zrange; [lia|]. change (zlen (arr h (r_data r))) with (raw_len h r). lia. }
  rewrite E16 in W1. cbn [last_write] in W1. rewrite Z.eqb_refl in W1.
  exists im, d, h, r, h', (with_bytes im (read_data h' r)).
  split; [rewrite B; exact Ho|]. split; [rewrite B; apply bytes_b_ok; exact E1|]. split; [exact R|]. split; [exact Ed|]. split; [exact Sg|].
  unfold edit_file, assign_in. rewrite Ed, Sg. cbn [take_all]. rewrite Ea. split; [reflexivity|]. split; [rewrite B; vm_compute; discriminate|].
  cbn [with_bytes a_bytes]. exact W1.
Qed.
Print Assumptions C84_empty_file_refuted.

(** * DOS 3.3 *)
Lemma edit_file3_step h r im n data c ps e : consistent3 im -> image_raw h r (i_bytes im) -> find_file3 im n = Ok data ->
  Forall sel_ok c -> choose_all (zrange 0 (zlen data)) c = Some ps -> how_ok ps e ->
  exists d h1 seg h' im', find_name3 n (i_files im) = Some d /\ file_segment3 h r im d = (h1, Ok seg) /\ styled h r h1 /\ read_data h1 seg = data /\
    edit_file3 h r im n c e = (h', im', Ok tt) /\ file_edit3 h1 r im n data seg (targets ps e) (values e) h' im'.
Proof.
  intros C R F H1 H2 H3. unfold edit_file3. destruct (find_name3 n (i_files im)) as [d|] eqn:Ed; [|unfold find_file3 in F; rewrite Ed in F; discriminate].
  destruct (file_edit3_ok h r im n d data C R Ed F) as (h1 & seg & Es & St & _ & Rs & Rd & K). destruct (K c ps e H1 H2 H3) as (h' & Ea & W).
  exists d, h1, seg, h', (with_bytes3 im (read_data h' r)). rewrite Es, Ea.
  split; [reflexivity|]. split; [reflexivity|]. split; [exact St|]. split; [exact Rd|]. split; [reflexivity|exact W].
Qed.
Theorem C84_dos33_edit h r im n data c ps e :
  consistent3 im -> image_raw h r (i_bytes im) -> find_file3 im n = Ok data ->
  Forall sel_ok c -> choose_all (zrange 0 (zlen data)) c = Some ps -> how_ok ps e ->
  exists d h1 seg h' im', find_name3 n (i_files im) = Some d /\ file_segment3 h r im d = (h1, Ok seg) /\ read_data h1 seg = data /\
    edit_file3 h r im n c e = (h', im', Ok tt) /\
    image_raw h' r (i_bytes im') /\ consistent3 im' /\ open33 (i_bytes im') = Ok im' /\
    find_file3 im' n = Ok (patch data (targets ps e) (values e)) /\ read_data h' seg = patch data (targets ps e) (values e) /\
    i_files im' = i_files im /\
    (forall m, m <> n -> find_file3 im' m = find_file3 im m) /\
    (forall m t l, sectors_of3 im' m t l <-> sectors_of3 im m t l) /\ (forall s, is_free3 im' s <-> is_free3 im s) /\
    (forall t l p, sectors_of3 im n t l -> 0 <= p -> ~ In (p / 256) l -> getb (i_bytes im') p = getb (i_bytes im) p).
Proof.
  intros C R F H1 H2 H3. destruct (edit_file3_step h r im n data c ps e C R F H1 H2 H3) as (d & h1 & seg & h' & im' & Ed & Es & St & Rd & Ee & W).
  exists d, h1, seg, h', im'. pose proof (f3_consistent _ _ _ _ _ _ _ _ _ _ W) as C'.
  split; [exact Ed|]. split; [exact Es|]. split; [exact Rd|]. split; [exact Ee|]. split; [exact (f3_raw _ _ _ _ _ _ _ _ _ _ W)|].
  split; [exact C'|]. split; [apply C'|]. split; [exact (f3_read _ _ _ _ _ _ _ _ _ _ W)|]. split; [exact (f3_segment _ _ _ _ _ _ _ _ _ _ W)|].
  split; [exact (f3_files _ _ _ _ _ _ _ _ _ _ W)|]. split; [exact (f3_others _ _ _ _ _ _ _ _ _ _ W)|].
  split; [exact (f3_sectors _ _ _ _ _ _ _ _ _ _ W)|]. split; [exact (f3_free _ _ _ _ _ _ _ _ _ _ W)|]. exact (f3_bytes _ _ _ _ _ _ _ _ _ _ W).
Qed.
Print Assumptions C84_dos33_edit.

Theorem C84_dos33_segments_stay_valid h r im n data c ps e m d :
  consistent3 im -> image_raw h r (i_bytes im) -> find_file3 im n = Ok data ->
  Forall sel_ok c -> choose_all (zrange 0 (zlen data)) c = Some ps -> how_ok ps e -> find_name3 m (i_files im) = Some d ->
  exists h' im', edit_file3 h r im n c e = (h', im', Ok tt) /\ find_name3 m (i_files im') = Some d /\
    snd (file_segment3 h' r im' d) = snd (file_segment3 h r im d).
Proof.
  intros C R F H1 H2 H3 Hm. destruct (edit_file3_step h r im n data c ps e C R F H1 H2 H3) as (d0 & h1 & seg & h' & im' & _ & Es & St & _ & Ee & W).
  exists h', im'. split; [exact Ee|]. split; [rewrite (f3_files _ _ _ _ _ _ _ _ _ _ W); exact Hm|].
  rewrite (f3_held _ _ _ _ _ _ _ _ _ _ W m d Hm). apply file_segment3_styled; [apply R|exact St].
Qed.
Print Assumptions C84_dos33_segments_stay_valid.

Theorem C84_dos33_session l : forall h r im m m',
  consistent3 im -> image_raw h r (i_bytes im) -> (forall n, fs_of3 im n = m n) -> edits m l m' ->
  exists h' im', edit_all3 h r im l = (h', im', Ok tt) /\ consistent3 im' /\ image_raw h' r (i_bytes im') /\
    i_files im' = i_files im /\ forall n, fs_of3 im' n = m' n.
Proof.
  induction l as [|[[n c] e] l IH]; intros h r im m m' C R Hm He; inversion He; subst.
  - exists h, im. split; [reflexivity|]. split; [exact C|]. split; [exact R|]. split; [reflexivity|]. intros n. rewrite Hm. auto.
  - assert (F : find_file3 im n = Ok data).
    { pose proof (Hm n) as X. unfold fs_of3 in X. destruct (find_file3 im n) as [x|]; congruence. }
    destruct (edit_file3_step h r im n data c ps e C R F) as (_ & h0 & seg & h1 & im1 & _ & _ & _ & _ & Ee & W); try assumption.
    cbn [edit_all3]. rewrite Ee. pose proof (f3_consistent _ _ _ _ _ _ _ _ _ _ W) as C1. pose proof (f3_raw _ _ _ _ _ _ _ _ _ _ W) as R1.
    assert (M1 : forall x, fs_of3 im1 x = fs_put m n (patch data (targets ps e) (values e)) x).
    { intros x. unfold fs_put. destruct (zlist_eqb x n) eqn:Ex.
      * apply zlist_eqb_eq in Ex. subst x. unfold fs_of3. rewrite (f3_read _ _ _ _ _ _ _ _ _ _ W). reflexivity.
      * rewrite <- Hm. unfold fs_of3. rewrite (f3_others _ _ _ _ _ _ _ _ _ _ W); [reflexivity|]. intros ->.
        rewrite (proj2 (zlist_eqb_eq n n)) in Ex by reflexivity. discriminate. }
    destruct (IH h1 r im1 _ m' C1 R1 M1 H9) as (h' & im' & E2 & C2 & R2 & L2 & M2).
    exists h', im'. split; [exact E2|]. split; [exact C2|]. split; [exact R2|]. split; [|exact M2].
      rewrite L2. exact (f3_files _ _ _ _ _ _ _ _ _ _ W).
Qed.
Print Assumptions C84_dos33_session.

(** The locked type B file HELLO: a byte of its code, and the load address in its first
    four bytes. *)
Definition two_edits : list edit := [(HELLO, [Sl (Some 4) None], One 1 96); (HELLO, [Ix [1; 0]], Part None None [8; 32])].
Definition edited_hello : list Z := sec256 [32; 8; 2; 0; 169; 96].
Lemma two_legal m : m HELLO = Some hello_data -> exists m', edits m two_edits m' /\ m' HELLO = Some edited_hello.
Proof.
  intros H. eexists. split.
  - eapply edits_cons; [exact H|constructor; [exact Logic.I|constructor]|vm_compute; reflexivity| |].
    { split; [apply bytes_ok_b; reflexivity|]. split; [reflexivity|]. cbn; lia. }
    eapply edits_cons; [unfold fs_put; rewrite (proj2 (zlist_eqb_eq HELLO HELLO)) by reflexivity; reflexivity|constructor; [split; [repeat constructor; lia|cbn; lia]|constructor]|vm_compute; reflexivity| |].
    { split; [apply bytes_ok_b; reflexivity|]. split; [reflexivity|]. exact Logic.I. }
    constructor. intros n. reflexivity.
  - unfold fs_put at 1. rewrite (proj2 (zlist_eqb_eq HELLO HELLO)) by reflexivity. f_equal.
Qed.
Example C84_dos33_example : exists h r im h' im', consistent3 im /\ image_raw h r (i_bytes im) /\ find_file3 im HELLO = Ok hello_data /\
  edit_all3 h r im two_edits = (h', im', Ok tt) /\ find_file3 im' HELLO = Ok edited_hello.
Proof.
  pose proof full_consistent as C. pose proof (proj1 full_read) as F. set (im := full_im) in *.
  destruct (consistent3_view im C) as (cat & k & E & D).
  assert (B : zlen (i_bytes im) <= 2147483648) by (rewrite (k3_size _ _ _ D); lia).
  pose proof (new_raw_image (mkHp [] []) _ B) as R. set (h := fst _) in R. set (r := snd _) in R.
  destruct (two_legal (fs_of3 im)) as (m' & He & Hm); [unfold fs_of3; rewrite F; reflexivity|].
  destruct (C84_dos33_session two_edits h r im (fs_of3 im) m' C R (fun _ => eq_refl) He) as (h' & im' & Ee & _ & _ & _ & M).
  exists h, r, im, h', im'. split; [exact C|]. split; [exact R|]. split; [exact F|]. split; [exact Ee|].
  specialize (M HELLO). rewrite Hm in M. unfold fs_of3 in M. destruct (find_file3 im' HELLO); congruence.
Qed.
