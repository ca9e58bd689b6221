(** Properties C01-C15, C47 and C48: Atari DOS 2 disk images.

    Vocabulary: [consistent im] says that the image object [im] is what opening
    its bytes gives and that these bytes form a consistent disk, which may hold
    DOS 2 and MyDOS files ([AtariSpec.dos2_disk]); [listing im] are the names shown; [find_file],
    [write_file], [delete_file], [shred] model the API calls.  [stored_name n] is
    the name [n] cut to 8.3, equal to [n] for every [valid_name]. *)
From Verif Require Import Base BaseLemmas DiskModel DirLemmas AtariModel AtariSpec AtariGeom AtariDir AtariVtoc AtariChain AtariSectors AtariWrite AtariDelete AtariShred AtariOps AtariSession AtariMore AtariBlank AtariHeader AtariProps AtariDemo.
From Verif Require AtariBalance.

(** * Witness: formatted disks of every supported geometry are consistent *)
Theorem atari_formatted_disk_consistent ss nsec :
  128 <= ss <= 256 -> ss mod 16 = 0 -> 368 <= nsec -> plain_size ss nsec ->
  exists im, open_image (fmt_disk ss nsec) = Ok im /\ consistent_tidy im /\ listing im = [] /\
    a_bytes im = fmt_disk ss nsec /\ a_hdr im = fmt_hdr ss nsec.
Proof. exact (fmt_opens ss nsec). Qed.
Print Assumptions atari_formatted_disk_consistent.
Example atari_formatted_sizes : plain_size 128 720 /\ plain_size 256 720 /\ plain_size 128 1040 /\ plain_size 144 5000.
Proof. unfold plain_size. repeat split; cbn [In]; lia. Qed.

(** * C01 *)
Theorem C01_atari_write_then_read im n d im' :
  consistent im -> legal_write im n d -> write_file im n d = (im', Ok tt) ->
  find_file im' (stored_name n) = Ok d /\ consistent im' /\
  open_image (a_bytes im') = Ok im'.
Proof.
  intros C L E. destruct (write_master im n d C L) as [(_ & im2 & c & E2 & W)|(_ & E2)]; [|congruence].
  rewrite E in E2. injection E2 as <-. split; [apply (wr_read _ _ _ _ _ W)|].
  pose proof (wr_consistent _ _ _ _ _ W) as C'. split; [assumption|apply C'].
Qed.
Print Assumptions C01_atari_write_then_read.
(** Names of the form BASE.EXT within 8.3 are stored unchanged. *)
Theorem C01_valid_names_are_stored_unchanged n : valid_name n -> storable n /\ stored_name n = n.
Proof. exact (valid_stored n). Qed.
Print Assumptions C01_valid_names_are_stored_unchanged.
Example C01_example : exists im im', consistent im /\ listing im = [hello] /\ legal_write im other text /\
  write_file im other text = (im', Ok tt) /\ valid_name other.
Proof.
  destruct demo_write as (im & im' & C & L & W & E). exists im, im'.
  split; [apply tidy_consistent; exact C|]. split; [exact L|]. split; [exact W|]. split; [exact E|exact other_valid].
Qed.
(** Without the guard "name not yet present" the claim is false: the old
    contents are returned. *)
Theorem C01_duplicate_name_refuted :
  exists im n d im', open_image (a_bytes im) = Ok im /\ valid_name n /\
    write_file im n d = (im', Ok tt) /\ find_file im' n <> Ok d.
Proof.
  destruct (with_open_true _ _ bad_dup_true) as (im & Ho & E). unfold bad_dup in E. apply andb_true_iff in E. destruct E as [E1 E2].
  destruct (write_file im other [2]) as [im' r] eqn:Ew. apply andb_true_iff in E2. destruct E2 as [E2 E3].
  exists im, other, [2], im'. split.
  - assert (B : a_bytes im = dup_disk); [|rewrite B; exact Ho]. revert Ho. apply open_image_bytes.
  - split; [exact other_valid|]. split; [rewrite Ew; destruct r as [[]|]; [reflexivity|discriminate]|].
    apply ok_is_eq in E3. rewrite E3. discriminate.
Qed.
Print Assumptions C01_duplicate_name_refuted.

(** * C02 *)
Theorem C02_atari_write_keeps_other_files im n d im' :
  consistent im -> legal_write im n d -> write_file im n d = (im', Ok tt) ->
  (exists l1 l2, listing im = l1 ++ l2 /\ listing im' = l1 ++ stored_name n :: l2) /\
  (forall m, m <> stored_name n -> find_file im' m = find_file im m).
Proof.
  intros C L E. destruct (write_master im n d C L) as [(_ & im2 & c & E2 & W)|(_ & E2)]; [|congruence].
  rewrite E in E2. injection E2 as <-. split; [apply (wr_listing _ _ _ _ _ W)|apply (wr_others _ _ _ _ _ W)].
Qed.
Print Assumptions C02_atari_write_keeps_other_files.
Example C02_example : exists im im' d, consistent im /\ legal_write im other text /\
  write_file im other text = (im', Ok tt) /\ hello <> stored_name other /\ find_file im hello = Ok d /\ d <> [].
Proof.
  destruct demo_image as (im & C & L & Fd & F & P & M).
  assert (LW : legal_write im other text).
  { split; [apply valid_stored; exact other_valid|]. rewrite (proj2 (valid_stored _ other_valid)).
    split; [discriminate|]. split; [apply bytes_ok_b; reflexivity|].
    rewrite listing_files, L. split; [intros [E|[]]; discriminate|cbn; lia]. }
  destruct (write_master im other text (tidy_consistent _ C) LW) as [(Hs & im' & c & Ew & W)|(Hs & _)].
  - exists im, im', text. split; [apply tidy_consistent; exact C|]. split; [exact LW|]. split; [exact Ew|].
    split; [discriminate|]. split; [exact Fd|discriminate].
  - exfalso. revert Hs. rewrite P, F. intros Hs. vm_compute in Hs. congruence.
Qed.

(** * C03 *)
Theorem C03_atari_delete_removes_only_that_file im n :
  consistent im -> In n (listing im) ->
  exists im', delete_file im n = (im', Ok tt) /\ consistent im' /\
    find_file im' n = Err (EAtr FileNotFound) /\
    (exists l1 l2, listing im = l1 ++ n :: l2 /\ listing im' = l1 ++ l2) /\
    (forall m, m <> n -> find_file im' m = find_file im m).
Proof.
  intros C L. destruct (delete_master im n C L) as (im' & c & E & W). exists im'.
  split; [exact E|]. destruct W. auto.
Qed.
Print Assumptions C03_atari_delete_removes_only_that_file.
Theorem C03_atari_delete_unlisted_is_harmless im n :
  consistent_tidy im -> ~ In n (listing im) ->
  exists im' r, delete_file im n = (im', r) /\ consistent_tidy im' /\ listing im' = listing im /\
    (forall m, find_file im' m = find_file im m) /\ (r = Ok tt \/ im' = im).
Proof. exact (delete_unlisted im n). Qed.
Print Assumptions C03_atari_delete_unlisted_is_harmless.
Example C03_example : exists im, consistent_tidy im /\ In hello (listing im) /\ ~ In other (listing im).
Proof.
  destruct demo_image as (im & C & L & _). exists im. rewrite L. split; [exact C|].
  split; [left; reflexivity|]. intros [E|[]]; discriminate.
Qed.
(** A name that is not listed is not always refused: deleting a deleted file
    succeeds. *)
Theorem C03_unlisted_name_not_found_refuted :
  exists im n im', open_image (a_bytes im) = Ok im /\ bytes_ok (a_bytes im) /\ ~ In n (listing im) /\
    delete_file im n = (im', Ok tt).
Proof.
  destruct (with_open_true _ _ odd_check_true) as (im & Ho & E). unfold odd_check in E.
  repeat (apply andb_true_iff in E; let X := fresh "E" in destruct E as [E X]).
  destruct (delete_file im [67]) as [im' r] eqn:Ed. exists im, [67], im'.
  assert (B : a_bytes im = odd_disk) by (revert Ho; apply open_image_bytes).
  split; [rewrite B; exact Ho|]. split; [rewrite B; apply bytes_b_ok; exact E|]. split.
  - intros Hin. apply negb_true_iff in E1. assert (X : existsb (fun n => zlist_eqb n [67]) (listing im) = true).
    { apply existsb_exists. exists [67]. split; [exact Hin|reflexivity]. } congruence.
  - rewrite Ed. cbn [snd] in E0. destruct r as [[]|]; [reflexivity|discriminate E0].
Qed.
Print Assumptions C03_unlisted_name_not_found_refuted.

(** * C04 *)
Theorem C04_atari_sessions_are_maps im ops :
  consistent_tidy im -> all_ops legal_op im ops ->
  let (im', m') := run im (fs_of im) ops in consistent_tidy im' /\ answers im' m'.
Proof. exact (session_tidy im ops). Qed.
Print Assumptions C04_atari_sessions_are_maps.
Theorem C04_atari_sessions_are_maps_any_shred im ops :
  consistent im -> all_ops strict_op im ops ->
  let (im', m') := run im (fs_of im) ops in consistent im' /\ answers im' m'.
Proof. exact (session_strict im ops). Qed.
Print Assumptions C04_atari_sessions_are_maps_any_shred.
(** Each step of a session either succeeds or is refused with a documented error. *)
Theorem C04_atari_step_results im o m :
  consistent_tidy im -> legal_op im o -> answers im m ->
  let (im', r) := do_op im o in
  consistent_tidy im' /\ answers im' (map_step m o r) /\ refusal im o r.
Proof.
  intros C L A. pose proof (op_step true im o m (tidy_good _ C)) as S. destruct (do_op im o) as [im' r].
  destruct S as (S1 & S2 & S3).
  - destruct o; cbn in *; auto.
  - exact A.
  - split; [apply good_tidy; exact S1|]. split; assumption.
Qed.
Print Assumptions C04_atari_step_results.
Example C04_example : exists im, consistent_tidy im /\ listing im = [hello] /\
  all_ops legal_op im [OWrite other text; OShred 0; ODelete hello; ODelete hello; OWrite hello text].
Proof.
  destruct demo_image as (im & C & L & Fd & F & P & M). exists im. split; [exact C|]. split; [exact L|].
  assert (LW : legal_write im other text).
  { split; [apply valid_stored; exact other_valid|]. rewrite (proj2 (valid_stored _ other_valid)).
    split; [discriminate|]. split; [apply bytes_ok_b; reflexivity|].
    rewrite listing_files, L. split; [intros [E|[]]; discriminate|cbn; lia]. }
  cbn [all_ops legal_op do_op]. split; [exact LW|].
  destruct (write_master im other text (tidy_consistent _ C) LW) as [(Hs & im1 & c & Ew & W)|(Hs & _)].
  2:{ exfalso. revert Hs. rewrite P, F. intros Hs. vm_compute in Hs. congruence. }
  rewrite Ew. cbn [fst]. split; [unfold u8; split; discriminate|].
  destruct (wr_listing _ _ _ _ _ W) as (l1 & l2 & E1 & E2). rewrite L in E1.
  rewrite (proj2 (valid_stored _ other_valid)) in E2.
  pose proof (wr_hdr _ _ _ _ _ W) as Hh.
  destruct (shred_master im1 0 (wr_consistent _ _ _ _ _ W)) as (im2 & Es & S).
  rewrite Es. cbn [fst]. split; [exact I|].
  assert (In2 : In hello (listing im2)).
  { rewrite (sr_listing _ _ _ S), E2. apply in_or_app.
    assert (X : In hello (l1 ++ l2)) by (rewrite <- E1; left; reflexivity).
    apply in_app_or in X. cbn [In]. tauto. }
  assert (Len2 : zlen (listing im2) = 2).
  { rewrite (sr_listing _ _ _ S), E2. apply (f_equal zlen) in E1. rewrite zlen_app in *. rewrite zlen_cons.
    change (zlen [hello]) with 1 in E1. lia. }
  assert (ND2 : forall x, In x (listing im2) -> x = hello \/ x = other).
  { intros x Hx. rewrite (sr_listing _ _ _ S), E2 in Hx. apply in_app_or in Hx. cbn [In] in Hx.
    assert (X : In x (l1 ++ l2) -> x = hello) by (rewrite <- E1; intros [X|[]]; auto).
    rewrite in_app_iff in X. intuition. }
  destruct (delete_master im2 hello (sr_consistent _ _ _ S) In2) as (im3 & c3 & Ed & W3).
  rewrite Ed. cbn [fst]. split; [exact I|].
  assert (N3 : ~ In hello (listing im3)).
  { destruct (dr_listing _ _ _ _ W3) as (a1 & a2 & A1 & A2). rewrite A2. intros X.
    assert (Y : exists y, a1 ++ a2 = [y] /\ In y (listing im2)).
    { rewrite A1 in Len2. rewrite zlen_app, zlen_cons in Len2.
      assert (Z : zlen (a1 ++ a2) = 1) by (rewrite zlen_app; lia).
      destruct (a1 ++ a2) as [|y [|z r]] eqn:Ea.
      - rewrite zlen_nil in Z. lia.
      - exists y. split; [reflexivity|]. rewrite A1. 
        assert (In y (a1 ++ a2)) by (rewrite Ea; left; reflexivity).
        apply in_or_app. apply in_app_or in H. cbn [In]. tauto.
      - rewrite !zlen_cons in Z. pose proof (zlen_nonneg r). lia. }
    pose proof (dr_gone _ _ _ _ W3) as Gn. pose proof (wr_consistent _ _ _ _ _ W).
    destruct (consistent_view im3 (dr_consistent _ _ _ _ W3)) as (k3 & E3 & G3 & D3 & _).
    rewrite E3 in Gn. assert (X3 : In hello (listing im3)) by (rewrite A2; exact X).
    rewrite E3 in X3. rewrite In_listing in X3. destruct (listed_file _ _ _ D3 _ X3) as (i & cc & Fi & _).
    rewrite (find_of_file_in _ _ _ _ _ _ G3 D3 Fi) in Gn. discriminate. }
  assert (C3 : consistent_tidy im3).
  { pose proof (session_tidy im [OWrite other text; OShred 0; ODelete hello] C) as SS.
    cbn [all_ops legal_op do_op run] in SS. rewrite Ew in SS. cbn [fst] in SS. rewrite Es in SS. cbn [fst] in SS. rewrite Ed in SS.
    destruct SS as [SS _]; [|exact SS]. split; [exact LW|]. split; [unfold u8; split; discriminate|]. auto. }
  destruct (delete_unlisted im3 hello C3 N3) as (im4 & r4 & E4 & C4 & L4 & F4 & _).
  rewrite E4. cbn [fst]. split; [|exact I]. split; [apply valid_stored; exact hello_valid|].
  rewrite (proj2 (valid_stored _ hello_valid)). split; [discriminate|]. split; [apply bytes_ok_b; reflexivity|].
  rewrite listing_files, L4. split; [exact N3|].
  destruct (dr_listing _ _ _ _ W3) as (a1 & a2 & A1 & A2). rewrite A2. rewrite A1 in Len2.
  rewrite zlen_app in *. rewrite zlen_cons in Len2. lia.
Qed.

(** * C05 *)
Theorem C05_atari_refused_write_changes_nothing_partial im n d im' e :
  consistent im -> legal_write im n d -> write_file im n d = (im', Err e) ->
  im' = im /\ e = EAtr NotEnoughSpaceOnDisk /\ free_sectors_of im < sectors_needed (payload_of im) (zlen d).
Proof.
  intros C L E. destruct (write_master im n d C L) as [(_ & im2 & c & E2 & W)|(H & E2)]; [congruence|].
  rewrite E in E2. injection E2 as <- <-. auto.
Qed.
Print Assumptions C05_atari_refused_write_changes_nothing_partial.
(** A name that cannot be encoded is refused and changes nothing either. *)
Theorem C05_atari_unencodable_name im n d c :
  consistent im -> In c n -> 255 < c -> write_file im n d = (im, Err EUnicode).
Proof. exact (write_unicode im n d c). Qed.
Print Assumptions C05_atari_unencodable_name.
Example C05_example : exists im, consistent im /\ listing im = [hello] /\ legal_write im other (zrepeat 65 100000) /\
  write_file im other (zrepeat 65 100000) = (im, Err (EAtr NotEnoughSpaceOnDisk)).
Proof. exact demo_refuse. Qed.
(** False for empty data: the write is refused, but the image has changed and
    can no longer be opened. *)
Theorem C05_empty_file_refuted :
  exists im n im' e, consistent_tidy im /\ valid_name n /\ ~ In n (listing im) /\
    write_file im n [] = (im', Err (EAtr e)) /\ a_bytes im' <> a_bytes im /\
    forall im2, open_image (a_bytes im') <> Ok im2.
Proof.
  destruct (fmt_opens 128 368) as (im0 & Ho0 & C & L & B & _); [lia|reflexivity|lia|unfold plain_size; split; [cbn [In]; lia|lia]|].
  destruct (with_open_true _ _ bad_empty_true) as (im & Ho & E). unfold bad_empty in E. rewrite Ho0 in Ho. injection Ho as ->.
  destruct (write_file im other []) as [im' r] eqn:Ew.
  apply andb_true_iff in E. destruct E as [E E3]. apply andb_true_iff in E. destruct E as [E1 E2].
  exists im, other, im', InvalidDiskImage. split; [exact C|]. split; [exact other_valid|].
  rewrite L. split; [intros []|]. split.
  - rewrite Ew. destruct r as [u|e]; [discriminate E1|]. destruct e; try discriminate E1.
    match type of E1 with context [match ?x with _ => _ end] => destruct x end; try discriminate E1; reflexivity.
  - split.
    + apply negb_true_iff in E2. apply zlist_eqb_neq in E2. exact E2.
    + intros im2 H2. rewrite H2 in E3. discriminate E3.
Qed.
Print Assumptions C05_empty_file_refuted.

(** * C06 *)
Theorem C06_atari_write_takes_exactly_the_sectors_needed im n d im' :
  consistent im -> legal_write im n d -> write_file im n d = (im', Ok tt) ->
  exists c, sectors_of im' (stored_name n) c /\ NoDup c /\
    zlen c = sectors_needed (payload_of im) (zlen d) /\
    (forall s, In s c -> is_free_sector im s) /\
    (forall s, is_free_sector im' s <-> is_free_sector im s /\ ~ In s c) /\
    free_sectors_of im' = free_sectors_of im - sectors_needed (payload_of im) (zlen d).
Proof.
  intros C L E. destruct (write_master im n d C L) as [(_ & im2 & c & E2 & W)|(_ & E2)]; [|congruence].
  rewrite E in E2. injection E2 as <-. exists c. destruct W. repeat (split; [assumption|]). assumption.
Qed.
Print Assumptions C06_atari_write_takes_exactly_the_sectors_needed.
Theorem C06_atari_write_succeeds_iff_space im n d :
  consistent im -> legal_write im n d ->
  ((exists im', write_file im n d = (im', Ok tt)) <->
   sectors_needed (payload_of im) (zlen d) <= free_sectors_of im).
Proof.
  intros C L. destruct (write_master im n d C L) as [(H & im2 & c & E2 & W)|(H & E2)].
  - split; eauto.
  - split; [intros (x & E); congruence|lia].
Qed.
Print Assumptions C06_atari_write_succeeds_iff_space.
Theorem C06_atari_delete_returns_exactly_its_sectors im n :
  consistent im -> In n (listing im) ->
  exists im' c, delete_file im n = (im', Ok tt) /\ sectors_of im n c /\ NoDup c /\
    (forall s, is_free_sector im' s <-> is_free_sector im s \/ (In s c /\ s < 720)) /\
    free_sectors_of im' = free_sectors_of im + zlen (filter (fun s => s <? 720) c).
Proof.
  intros C L. destruct (delete_master im n C L) as (im' & c & E & W). exists im', c.
  split; [exact E|]. destruct W. auto.
Qed.
Print Assumptions C06_atari_delete_returns_exactly_its_sectors.
Example C06_example : exists im, consistent im /\ In hello (listing im) /\ legal_write im other text /\
  free_sectors_of im = 704 /\ sectors_needed (payload_of im) (zlen text) = 3.
Proof.
  destruct demo_image as (im & C & L & Fd & F & P & M). exists im. split; [apply tidy_consistent; exact C|].
  rewrite L, F, P. split; [left; reflexivity|]. split; [|split; reflexivity].
  split; [apply valid_stored; exact other_valid|]. rewrite (proj2 (valid_stored _ other_valid)).
  split; [discriminate|]. split; [apply bytes_ok_b; reflexivity|].
  rewrite listing_files, L. split; [intros [E|[]]; discriminate|cbn; lia].
Qed.

(** * C07 *)
Theorem C07_atari_shred_wipes_exactly_the_free_space im fill :
  consistent im ->
  exists im', shred im fill = (im', if h_max (a_hdr im) <? 1280 then Ok tt else Err EIndex) /\
    consistent im' /\ zlen (a_bytes im') = zlen (a_bytes im) /\
    listing im' = listing im /\ (forall m, find_file im' m = find_file im m) /\
    (forall s p, is_free_sector im s -> in_sector (geom_of (a_hdr im)) s p -> getb (a_bytes im') p = u8 fill) /\
    (forall p, 0 <= p -> (forall s, is_free_sector im s -> ~ in_sector (geom_of (a_hdr im)) s p) ->
       getb (a_bytes im') p = getb (a_bytes im) p).
Proof.
  intros C. destruct (shred_master im fill C) as (im' & E & S). exists im'. split; [exact E|]. destruct S. auto 10.
Qed.
Print Assumptions C07_atari_shred_wipes_exactly_the_free_space.
Example C07_example : exists im, consistent im /\ listing im = [hello] /\ free_sectors_of im = 704 /\
  h_max (a_hdr im) < 1280.
Proof.
  destruct demo_image as (im & C & L & Fd & F & P & M). exists im. rewrite M.
  split; [apply tidy_consistent; exact C|]. split; [exact L|]. split; [exact F|lia].
Qed.

(** * C08 *)
Theorem C08_atari_write_touches_only_what_it_must im n d im' :
  consistent im -> legal_write im n d -> write_file im n d = (im', Ok tt) ->
  zlen (a_bytes im') = zlen (a_bytes im) /\
  exists c, sectors_of im' (stored_name n) c /\ (forall s, In s c -> is_free_sector im s) /\
    forall p, 0 <= p ->
      (forall s, In s c \/ 360 <= s <= 368 -> ~ in_sector (geom_of (a_hdr im)) s p) ->
      getb (a_bytes im') p = getb (a_bytes im) p.
Proof.
  intros C L E. destruct (write_master im n d C L) as [(_ & im2 & c & E2 & W)|(_ & E2)]; [|congruence].
  rewrite E in E2. injection E2 as <-. destruct W. split; [assumption|]. exists c. auto.
Qed.
Print Assumptions C08_atari_write_touches_only_what_it_must.
Theorem C08_atari_delete_touches_only_the_system_sectors im n :
  consistent im -> In n (listing im) ->
  exists im', delete_file im n = (im', Ok tt) /\ zlen (a_bytes im') = zlen (a_bytes im) /\
    forall p, 0 <= p -> (forall s, 360 <= s <= 368 -> ~ in_sector (geom_of (a_hdr im)) s p) ->
      getb (a_bytes im') p = getb (a_bytes im) p.
Proof.
  intros C L. destruct (delete_master im n C L) as (im' & c & E & W). exists im'. split; [exact E|]. destruct W. auto.
Qed.
Print Assumptions C08_atari_delete_touches_only_the_system_sectors.
Example C08_example : exists im im', consistent im /\ In hello (listing im) /\ legal_write im other text /\
  write_file im other text = (im', Ok tt).
Proof.
  destruct demo_write as (im & im' & C & L & W & E). exists im, im'.
  split; [apply tidy_consistent; exact C|]. rewrite L. split; [left; reflexivity|]. auto.
Qed.

(** * C09: false *)
Theorem C09_full_directory_refuted :
  exists im n im', open_image (a_bytes im) = Ok im /\ h_ssize (a_hdr im) = 128 /\ zlen (a_files im) = 64 /\
    valid_name n /\ write_file im n [1] = (im', Ok tt) /\ ~ In n (listing im') /\
    exists m d, find_file im m = Ok d /\ find_file im' m <> Ok d.
Proof.
  destruct (with_open_true _ _ bad_full_true) as (im & Ho & E). unfold bad_full in E.
  apply andb_true_iff in E. destruct E as [E E2]. apply andb_true_iff in E. destruct E as [E E1].
  apply andb_true_iff in E. destruct E as [E E0].
  destruct (write_file im other [1]) as [im' r] eqn:Ew.
  apply andb_true_iff in E2. destruct E2 as [E2 E4]. apply andb_true_iff in E2. destruct E2 as [E2 E3].
  assert (B : a_bytes im = full_disk) by (revert Ho; apply open_image_bytes).
  exists im, other, im'. split; [rewrite B; exact Ho|]. split; [lia|]. split; [lia|]. split; [exact other_valid|].
  split; [rewrite Ew; destruct r as [[]|]; [reflexivity|discriminate]|]. split.
  - intros Hin. apply negb_true_iff in E3. assert (X : existsb (fun n => zlist_eqb n other) (listing im') = true).
    { apply existsb_exists. exists other. split; [exact Hin|reflexivity]. } congruence.
  - exists (full_name 0), [100]. split.
    + rewrite forallb_forall in E1. specialize (E1 0 ltac:(apply In_zrange; lia)). apply ok_is_eq in E1. exact E1.
    + apply ok_is_neq. apply negb_true_iff in E4. exact E4.
Qed.
Print Assumptions C09_full_directory_refuted.

(** * C10 *)
Theorem C10_atari_reading_terminates_partial b im d fuel :
  bytes_ok b -> open_image b = Ok im -> In d (a_files im) -> d_mydos d = false ->
  (chain_fuel (a_hdr im) <= fuel)%nat ->
  get_file_fuel fuel im d <> Err EFuel /\ get_file_fuel fuel im d = get_file im d.
Proof.
  intros Hb Ho Hd Hm Hf. destruct (open_image_inv b im Ho) as (h & Hh & -> & Hfiles).
  apply get_file_no_fuel; try assumption.
  - destruct (hdr_of_facts b (a_hdr im) Hb Hh) as (_ & _ & X & _). exact X.
  - rewrite (Hfiles d Hd). exact Hm.
Qed.
Print Assumptions C10_atari_reading_terminates_partial.
(** A MyDOS file whose sector links to itself is read forever. *)
Theorem C10_mydos_loop_refuted :
  exists b im d, bytes_ok b /\ open_image b = Ok im /\ In d (a_files im) /\
    forall fuel, get_file_fuel fuel im d = Err EFuel.
Proof.
  destruct (with_open_true _ _ odd_check_true) as (im & Ho & E). unfold odd_check in E.
  repeat (apply andb_true_iff in E; let X := fresh "E" in destruct E as [E X]).
  destruct (find_name [66] (a_files im)) as [d|] eqn:Fd; [|discriminate E2].
  apply andb_true_iff in E2. destruct E2 as [E2 K5]. apply andb_true_iff in E2. destruct E2 as [E2 K4].
  apply andb_true_iff in E2. destruct E2 as [E2 K6]. assert (Es : d_start d = 5) by (apply Z.eqb_eq; exact K4).
  exists odd_disk, im, d. split; [apply bytes_b_ok; exact E|]. split; [exact Ho|].
  split; [eapply find_name_In; exact Fd|]. intros fuel.
  unfold get_file_fuel, start_read. rewrite K6, E2, Es. cbn [rbind].
  destruct (read_sector (a_hdr im) (a_bytes im) true (d_num d) 5 []) as [[[[n s] p] u]|] eqn:R; [|discriminate K5].
  apply andb_true_iff in K5. destruct K5 as [K5 _]. apply Z.eqb_eq in K5. subst n.
  rewrite (mydos_loop _ _ _ 5 p u []); [reflexivity|discriminate|]. intros s'. revert R. unfold read_sector.
  destruct (get_raw_bytes _ _ _) as [[[raw p'] z]|]; cbn [rbind]; [|discriminate].
  destruct (zlen raw <? 3); [discriminate|]. intros R. injection R as <- <- <- <-. reflexivity.
Qed.
Print Assumptions C10_mydos_loop_refuted.
Example C10_example : exists im d, open_image (a_bytes im) = Ok im /\ bytes_ok (a_bytes im) /\
  In d (a_files im) /\ d_mydos d = false.
Proof.
  destruct demo_image as (im & C & L & _). destruct (consistent_view im (tidy_consistent _ C)) as (k & E & G & D & _).
  assert (Hin : In hello (listing im)) by (rewrite L; left; reflexivity).
  pose proof Hin as Hin2. rewrite E in Hin2. rewrite In_listing in Hin2. destruct Hin2 as (i & Hi & Li & Ni).
  exists im, (parse_dirent (a_hdr im) i (slot (geom_of (a_hdr im)) (a_bytes im) i)).
  split; [apply C|]. split; [apply (dk_bytes _ _ _ D)|]. split.
  - rewrite E at 4. cbn [view a_files]. apply filter_In. split; [|apply flag_bit_has; exact Li].
    unfold entries. apply in_map_iff. exists i. split; [reflexivity|]. apply In_zrange. lia.
  - cbn [parse_dirent d_mydos]. apply flag_bit_has_false. destruct C as (_ & k' & D' & T). rewrite (AtariBalance.disk_k_det _ _ _ _ D D') in Hi. apply (td_dos2 _ _ _ T i Hi).
Qed.
(** More: on a consistent disk every listed file reads back its contents. *)
Theorem C10_atari_every_listed_file_reads im n :
  consistent im -> In n (listing im) -> exists d, find_file im n = Ok d /\ d <> [].
Proof.
  intros C Hin. destruct (consistent_view im C) as (k & E & G & D & _). rewrite E in Hin |- *.
  rewrite In_listing in Hin. destruct (listed_file _ _ _ D _ Hin) as (i & c & F & Hne & _).
  exists (contents (geom_of (a_hdr im)) (a_bytes im) c). split; [apply (find_of_file_in _ _ _ _ _ _ G D F)|exact Hne].
Qed.
Print Assumptions C10_atari_every_listed_file_reads.

(** * C11 *)
Theorem C11_sectors_inside b h n p s :
  bytes_ok b -> hdr_of b = Ok h -> get_pos h n = Ok (p, s) ->
  h_offset h <= p /\ 0 < s /\ p + s <= zlen b.
Proof. exact (get_pos_inside b h n p s). Qed.
Print Assumptions C11_sectors_inside.
Theorem C11_sectors_disjoint_partial b h n m p s q t :
  bytes_ok b -> hdr_of b = Ok h -> (h_ninit h = 0 \/ 3 < n /\ 3 < m) ->
  n <> m -> get_pos h n = Ok (p, s) -> get_pos h m = Ok (q, t) -> p + s <= q \/ q + t <= p.
Proof.
  intros Hb E [Hi|[Hn Hm]].
  - exact (get_pos_disjoint b h n m p s q t Hb E Hi).
  - exact (get_pos_disjoint_boot b h n m p s q t Hb E Hn Hm).
Qed.
Print Assumptions C11_sectors_disjoint_partial.
Theorem C11_sectors_cover_partial b h p :
  bytes_ok b -> hdr_of b = Ok h -> h_ninit h = 0 ->
  h_offset h <= p < h_offset h + h_max h * h_ssize h ->
  exists n q s, get_pos h n = Ok (q, s) /\ q <= p < q + s.
Proof. exact (get_pos_cover b h p). Qed.
Print Assumptions C11_sectors_cover_partial.
Theorem C11_invalid_sectors_refused b h n :
  bytes_ok b -> hdr_of b = Ok h ->
  (1 <= n <= h_max h -> exists p s, get_pos h n = Ok (p, s)) /\
  (~ 1 <= n <= h_max h -> get_pos h n = Err (EAtr ByteNotInFile166)).
Proof.
  intros Hb E. apply get_pos_valid. destruct (hdr_of_facts b h Hb E) as (_ & _ & X & _). exact X.
Qed.
Print Assumptions C11_invalid_sectors_refused.
Example C11_example : exists b h, bytes_ok b /\ hdr_of b = Ok h /\ h_ninit h = 0 /\ h_max h = 720 /\
  get_pos h 720 = Ok (92048, 128).
Proof.
  exists (fmt_disk 128 720), (fmt_hdr 128 720).
  pose proof (fmt_dos2 128 720 ltac:(lia) eq_refl ltac:(lia)) as D.
  split; [apply (dk_bytes _ _ _ D)|].
  split; [apply fmt_hdr_of; [lia|reflexivity|lia|unfold plain_size; split; [cbn [In]; lia|lia]]|].
  split; [reflexivity|]. split; reflexivity.
Qed.
(** The 183936-byte double density layout: boot sectors overlap. *)
Theorem C11_boot_sectors_overlap_refuted :
  exists b h p s q t, bytes_ok b /\ hdr_of b = Ok h /\ get_pos h 1 = Ok (p, s) /\ get_pos h 2 = Ok (q, t) /\
    p < q < p + s.
Proof.
  exists (zrepeat 0 183936), (mkH 0 183936 256 128 3 253 720 0 0 0), 0, 128, 3, 128.
  split; [apply bytes_ok_zrepeat; unfold is_byte; lia|]. split.
  - unfold hdr_of, read_header. rewrite zlen_zrepeat by lia.
    rewrite slice_zrepeat by lia. reflexivity.
  - split; [reflexivity|]. split; [reflexivity|]. lia.
Qed.
Print Assumptions C11_boot_sectors_overlap_refuted.

(** * C12 *)
Theorem C12_atr_header_round_trip h :
  h_image_size h mod 16 = 0 -> 0 <= h_image_size h < 268435456 ->
  0 <= h_ssize h < 65536 -> 0 <= h_crc h < 4294967296 -> 0 <= h_unused h < 4294967296 ->
  0 <= h_flags h < 256 ->
  atr_header (atr_encode h) =
  Ok (mkH 16 (h_image_size h) (h_ssize h) 0 0 128 0 (h_crc h) (h_unused h) (h_flags h)).
Proof. exact (atr_round h). Qed.
Print Assumptions C12_atr_header_round_trip.
Theorem C12_add_atr_header_then_open data :
  zlen data mod 16 = 0 -> zlen data < 268435456 ->
  exists b, add_atr_header data = Ok b /\ slice b 16 (zlen b) = data /\ zlen b = 16 + zlen data /\
    h_offset (read_header b) = 16 /\ hdr_of b = check_size (read_header b) (zlen data) /\
    (exists h, hdr_of b = Ok h /\ h_offset h = 16 /\ check_size (mkH 16 0 128 0 0 128 0 0 0 0) (zlen data) = Ok h).
Proof. exact (add_atr_header_open data). Qed.
Print Assumptions C12_add_atr_header_then_open.
Example C12_example : let h := mkH 16 92160 128 0 0 125 720 77 5 1 in
  h_image_size h mod 16 = 0 /\ 0 <= h_image_size h < 268435456 /\ zlen (zrepeat 7 160) mod 16 = 0.
Proof. cbn. split; [reflexivity|]. split; [lia|reflexivity]. Qed.

(** * C13 *)
Theorem C13_atari_dirent_reencode_partial h num e :
  zlen e = 16 -> bytes_ok e -> ~ flag_has e 8 -> no_nul_end (e_base e) -> no_nul_end (e_ext e) ->
  parse_dirent h num (encode_dirent (parse_dirent h num e)) = parse_dirent h num e.
Proof. exact (reencode_dirent h num e). Qed.
Print Assumptions C13_atari_dirent_reencode_partial.
Example C13_example : let e := entry 0x62 3 4 [72; 69; 76; 76; 79] in
  zlen e = 16 /\ bytes_ok e /\ ~ flag_has e 8 /\ no_nul_end (e_base e) /\ no_nul_end (e_ext e).
Proof.
  cbv zeta. split; [reflexivity|]. split; [apply bytes_ok_b; reflexivity|].
  split; [vm_compute; discriminate|]. split; reflexivity.
Qed.
Theorem C13_flag_bit_lost_refuted : exists h num e, zlen e = 16 /\ bytes_ok e /\
  parse_dirent h num (encode_dirent (parse_dirent h num e)) <> parse_dirent h num e.
Proof.
  exists xfd_header, 0, (entry 0x4a 1 4 [65]). split; [reflexivity|]. split; [apply bytes_ok_b; reflexivity|].
  vm_compute. discriminate.
Qed.
Print Assumptions C13_flag_bit_lost_refuted.
Theorem C13_nul_name_lost_refuted : exists h num e, zlen e = 16 /\ bytes_ok e /\ ~ flag_has e 8 /\
  filename (parse_dirent h num (encode_dirent (parse_dirent h num e))) <> filename (parse_dirent h num e).
Proof.
  exists xfd_header, 0, ([0x42; 1; 0; 4; 0; 65; 32; 0; 32; 32; 32; 32; 32; 32; 32; 32]).
  split; [reflexivity|]. split; [apply bytes_ok_b; reflexivity|]. split; [vm_compute; discriminate|].
  vm_compute. discriminate.
Qed.
Print Assumptions C13_nul_name_lost_refuted.

(** * C14 (Atari) *)
Theorem C14_atari_bitmap_decode v m : parse_vtoc v = Ok m -> bytes_ok v ->
  packbits (slice m 0 720) = slice v 10 100 /\ zlen m = 1280 /\
  (forall n, 0 <= n < 720 -> getb m n = (getb v (10 + n / 8) / 2 ^ (7 - n mod 8)) mod 2) /\
  (forall n, 720 <= n -> getb m n = 0).
Proof. exact (parse_vtoc_bits v m). Qed.
Print Assumptions C14_atari_bitmap_decode.
Theorem C14_atari_bitmap_reencode im start count m :
  bytes_ok (a_bytes im) -> 0 <= start -> get_vtoc_object im = Ok (start, count, m) ->
  fst (calc_bitmap (h_ssize (a_hdr im)) (a_bytes im) start count m) = a_bytes im.
Proof. exact (vtoc_reencode im start count m). Qed.
Print Assumptions C14_atari_bitmap_reencode.
Example C14_example : exists im start count m, bytes_ok (a_bytes im) /\ 0 <= start /\
  get_vtoc_object im = Ok (start, count, m).
Proof.
  destruct demo_image as (im & C & L & _). destruct (consistent_view im (tidy_consistent _ C)) as (k & E & G & D & _).
  exists im, (spos (geom_of (a_hdr im)) 360), (h_ssize (a_hdr im)), (smap_of (a_hdr im) (a_bytes im)).
  split; [apply (dk_bytes _ _ _ D)|]. split.
  - pose proof (spos_bounds _ _ G 360) as B. pose proof (hg_max _ _ G). pose proof (hg_first _ _ G). lia.
  - rewrite E at 1. apply get_vtoc_object_view. exact G.
Qed.

(** * C15: false *)
Theorem C15_empty_file_reads_whole_image im d c :
  hgeo (a_hdr im) (a_bytes im) -> bytes_ok (a_bytes im) -> d_sane d = true -> 0 <= d_num d ->
  chain (geom_of (a_hdr im)) (a_bytes im) (if d_my d then -1 else d_num d) (d_start d) c ->
  contents (geom_of (a_hdr im)) (a_bytes im) c = [] ->
  get_file im d = Ok (a_bytes im).
Proof. intros G B S N. exact (get_file_empty im d _ c G B S (conj N eq_refl)). Qed.
Print Assumptions C15_empty_file_reads_whole_image.
Theorem C15_empty_file_refuted :
  exists im n, open_image (a_bytes im) = Ok im /\ bytes_ok (a_bytes im) /\ In n (listing im) /\
    find_file im n = Ok (a_bytes im) /\ a_bytes im <> [].
Proof.
  destruct (with_open_true _ _ odd_check_true) as (im & Ho & E). unfold odd_check in E.
  repeat (apply andb_true_iff in E; let X := fresh "E" in destruct E as [E X]).
  assert (B : a_bytes im = odd_disk) by (revert Ho; apply open_image_bytes).
  apply ok_is_eq in E3. exists im, [65]. rewrite B. split; [exact Ho|]. split; [apply bytes_b_ok; exact E|].
  split.
  - unfold find_file in E3. destruct (find_name [65] (a_files im)) as [d|] eqn:Fd; [|discriminate].
    apply in_map_iff. exists d. split; [symmetry; eapply find_name_eq; exact Fd|eapply find_name_In; exact Fd].
  - split; [exact E3|]. discriminate.
Qed.
Print Assumptions C15_empty_file_refuted.

(** * C47 *)
Theorem C47_atari_all_sector_sizes_partial ss nsec n d :
  128 <= ss <= 256 -> ss mod 16 = 0 -> 368 <= nsec -> plain_size ss nsec ->
  storable n -> d <> [] -> bytes_ok d ->
  sectors_needed (ss - 3) (zlen d) <= zlen (filter (usable nsec) (zrange 0 720)) ->
  exists im im', open_image (fmt_disk ss nsec) = Ok im /\ write_file im n d = (im', Ok tt) /\
    find_file im' (stored_name n) = Ok d.
Proof.
  intros H1 H2 H3 P Hn Hd Hb Hs. destruct (fmt_opens ss nsec H1 H2 H3 P) as (im & Ho & C & L & B & Hh).
  assert (LW : legal_write im n d).
  { split; [assumption|]. split; [assumption|]. split; [assumption|]. rewrite listing_files, L.
    split; [intros []|rewrite zlen_nil; lia]. }
  destruct (write_master im n d (tidy_consistent _ C) LW) as [(_ & im' & c & Ew & W)|(Hf & _)].
  - exists im, im'. split; [exact Ho|]. split; [exact Ew|apply (wr_read _ _ _ _ _ W)].
  - exfalso. revert Hf. unfold free_sectors_of, payload_of. rewrite B, Hh, fmt_geom_of, fmt_free_count by assumption.
    change (h_payload (fmt_hdr ss nsec)) with (ss - 3). lia.
Qed.
Print Assumptions C47_atari_all_sector_sizes_partial.
Example C47_example : 128 <= 240 <= 256 /\ 240 mod 16 = 0 /\ plain_size 240 1000 /\ storable hello /\
  sectors_needed (240 - 3) 10000 <= zlen (filter (usable 1000) (zrange 0 720)).
Proof.
  split; [lia|]. split; [reflexivity|]. split; [unfold plain_size; split; [cbn [In]; lia|lia]|].
  split; [apply valid_stored, hello_valid|]. vm_compute. discriminate.
Qed.
Theorem C47_wide_sectors_refuted :
  exists im n d im', open_image (a_bytes im) = Ok im /\ h_ssize (a_hdr im) = 272 /\ valid_name n /\
    listing im = [] /\ bytes_ok d /\
    write_file im n d = (im', Ok tt) /\ exists d', find_file im' n = Ok d' /\ zlen d' < zlen d.
Proof.
  destruct (with_open_true _ _ bad_wide_true) as (im & Ho & E). unfold bad_wide in E.
  apply andb_true_iff in E. destruct E as [E E2]. apply andb_true_iff in E. destruct E as [E E1].
  destruct (write_file im other (zrepeat 65 269)) as [im' r] eqn:Ew.
  apply andb_true_iff in E2. destruct E2 as [E2 E3].
  assert (B : a_bytes im = fmt_disk 272 368) by (revert Ho; apply open_image_bytes).
  exists im, other, (zrepeat 65 269), im'. split; [rewrite B; exact Ho|]. split; [lia|].
  split; [exact other_valid|]. split; [unfold listing; destruct (a_files im); [reflexivity|discriminate]|].
  split; [apply bytes_ok_zrepeat; unfold is_byte; lia|].
  split; [rewrite Ew; destruct r as [[]|]; [reflexivity|discriminate]|].
  apply ok_is_eq in E3. exists (zrepeat 65 13). split; [exact E3|]. rewrite !zlen_zrepeat by lia. lia.
Qed.
Print Assumptions C47_wide_sectors_refuted.

(** * C48: false -- the reported count never changes *)
Theorem C48_reported_free_count_is_stale im n d im' :
  consistent im -> legal_write im n d -> write_file im n d = (im', Ok tt) ->
  a_free im' = a_free im /\ free_sectors_of im' = free_sectors_of im - sectors_needed (payload_of im) (zlen d).
Proof.
  intros C L E. destruct (write_master im n d C L) as [(_ & im2 & c & E2 & W)|(_ & E2)]; [|congruence].
  rewrite E in E2. injection E2 as <-. destruct W. split; assumption.
Qed.
Print Assumptions C48_reported_free_count_is_stale.
Theorem C48_reported_free_count_refuted :
  exists im n d im', consistent im /\ legal_write im n d /\ write_file im n d = (im', Ok tt) /\
    free_sectors_of im' < free_sectors_of im /\ a_free im' = a_free im.
Proof.
  destruct demo_image as (im & C & L & Fd & F & P & M).
  assert (LW : legal_write im other text).
  { split; [apply valid_stored; exact other_valid|]. rewrite (proj2 (valid_stored _ other_valid)).
    split; [discriminate|]. split; [apply bytes_ok_b; reflexivity|].
    rewrite listing_files, L. split; [intros [E|[]]; discriminate|cbn; lia]. }
  destruct (write_master im other text (tidy_consistent _ C) LW) as [(Hs & im' & c & Ew & W)|(Hs & _)].
  - exists im, other, text, im'. split; [apply tidy_consistent; exact C|]. split; [exact LW|]. split; [exact Ew|].
    destruct W. split; [|assumption]. rewrite wr_free_count, P.
    change (sectors_needed 125 (zlen text)) with 3. lia.
  - exfalso. revert Hs. rewrite P, F. intros Hs. vm_compute in Hs. congruence.
Qed.
Print Assumptions C48_reported_free_count_refuted.
