(** Properties C16-C22, C52 and C53, and the DOS 3.3 parts of C07, C10, C13 and
    C14.

    Vocabulary: [consistent3 im] says that the image object [im] is what opening
    its bytes gives and that these bytes form a consistent DOS 3.3 disk
    ([Dos33Spec.dos33_disk]); [listing3 im] are the names shown, [type_of3] and
    [locked_of3] the type and lock state shown; [find_file3], [write_file3],
    [delete_file3], [shred3] model the API calls.  [stored_name3 n] is [n] cut to
    29 characters and without trailing blanks; [padded d] is [d] followed by
    zeros up to a multiple of 256 bytes. *)
From Verif Require Import Base BaseLemmas DiskModel DirLemmas AtariSpec AtariVtoc AtariSectors Loops Dos33Model Dos33Spec Dos33Geom Dos33Vtoc Dos33Dir Dos33Files Dos33Update Dos33Alloc Dos33Write Dos33Delete Dos33Shred Dos33Ops Dos33Session Dos33Loops Dos33Demo Dos33Props.

(** * A concrete case: the disk with one locked file HELLO *)
Definition NEW : list Z := [78; 69; 87].
Definition new_data : list Z := [1; 2; 3].
Lemma NEW_ascii : ascii NEW.
Proof. unfold NEW. repeat constructor; lia. Qed.
Lemma new_data_ok : bytes_ok new_data.
Proof. apply bytes_ok_b. reflexivity. Qed.
Lemma NEW_stored : stored_name3 NEW = NEW.
Proof. reflexivity. Qed.
Lemma legal_one ft d : type_code ft <> 0 -> d <> [] -> bytes_ok d -> legal_write3 one_im NEW ft d.
Proof.
  intros Ht Hd Ho. split; [exact NEW_ascii|]. split; [exact Ht|]. split; [exact Hd|]. split; [exact Ho|].
  rewrite one_listing, NEW_stored. intros [H|[]]. discriminate H.
Qed.
Lemma one_write ft d : type_code ft <> 0 -> d <> [] -> bytes_ok d -> need3 (zlen d) <= 494 ->
  exists im' tl dl, write_file3 one_im NEW ft d = (im', Ok tt) /\ write_result3 one_im im' NEW ft d tl dl.
Proof.
  intros Ht Hd Ho Hn. pose proof (legal_one ft d Ht Hd Ho) as L.
  destruct (write_master3 one_im NEW ft d one_consistent L) as [(_ & _ & im' & tl & dl & E & W)|[(H & _)|[(H & _)|(_ & H & _)]]].
  - exists im', tl, dl. split; assumption.
  - exfalso. rewrite one_free in H. unfold need3 in Hn.
    assert (0 <= lists3 (sectors3 (zlen d))).
    { unfold lists3, sectors3. pose proof (zlen_nonneg d). Z.to_euclidean_division_equations; lia. } lia.
  - exfalso. rewrite one_free in H. lia.
  - exfalso. apply H. exact one_room.
Qed.

(** * C16 *)
Theorem C16_dos33_write_then_read im n ft d im' :
  consistent3 im -> legal_write3 im n ft d -> write_file3 im n ft d = (im', Ok tt) ->
  find_file3 im' (stored_name3 n) = Ok (padded d) /\ type_of3 im' (stored_name3 n) = Some (type_code ft) /\
  consistent3 im' /\ open33 (i_bytes im') = Ok im'.
Proof.
  intros C L E.
  destruct (write_master3 im n ft d C L) as [(_ & _ & im2 & tl & dl & E2 & W)|[(_ & E2)|[(_ & im2 & l & E2 & _)|(_ & _ & im2 & l & E2 & _)]]];
    rewrite E in E2; try discriminate E2. injection E2 as <-.
  split; [apply (wr3_read _ _ _ _ _ _ _ W)|]. split; [apply (wr3_type _ _ _ _ _ _ _ W)|].
  pose proof (wr3_consistent _ _ _ _ _ _ _ W) as C'. split; [exact C'|apply C'].
Qed.
Print Assumptions C16_dos33_write_then_read.
(** Padding only adds zeros, fewer than 256, up to a whole sector. *)
Theorem C16_padding d : exists z, padded d = d ++ zrepeat 0 z /\ 0 <= z < 256 /\ zlen (padded d) mod 256 = 0.
Proof.
  exists (256 * sectors3 (zlen d) - zlen d). pose proof (zlen_nonneg d) as H.
  assert (R : 0 <= 256 * sectors3 (zlen d) - zlen d < 256) by (unfold sectors3; Z.to_euclidean_division_equations; lia).
  split; [reflexivity|]. split; [exact R|]. unfold padded. rewrite zlen_app, zlen_zrepeat by lia.
  replace (zlen d + (256 * sectors3 (zlen d) - zlen d)) with (sectors3 (zlen d) * 256) by lia. apply Z_mod_mult.
Qed.
Print Assumptions C16_padding.
(** Names of up to 29 characters without trailing blanks are stored unchanged. *)
Theorem C16_names_are_stored_unchanged n : zlen n <= 29 -> rstrip n = n -> stored_name3 n = n.
Proof. intros H E. unfold stored_name3. rewrite slice_all by assumption. exact E. Qed.
Print Assumptions C16_names_are_stored_unchanged.
Example C16_example : exists im im', consistent3 im /\ listing3 im = [HELLO] /\ legal_write3 im NEW [66] new_data /\
  write_file3 im NEW [66] new_data = (im', Ok tt) /\ stored_name3 NEW = NEW /\
  padded new_data = [1; 2; 3] ++ zrepeat 0 253.
Proof.
  destruct (one_write [66] new_data ltac:(discriminate) ltac:(discriminate) new_data_ok ltac:(vm_compute; discriminate)) as (im' & tl & dl & E & _).
  exists one_im, im'. split; [exact one_consistent|]. split; [exact one_listing|].
  split; [apply legal_one; [discriminate|discriminate|exact new_data_ok]|]. split; [exact E|]. split; reflexivity.
Qed.

(** * C17 *)
Theorem C17_dos33_write_keeps_other_files_partial im n ft d im' :
  consistent3 im -> legal_write3 im n ft d -> write_file3 im n ft d = (im', Ok tt) ->
  (exists l1 l2, listing3 im = l1 ++ l2 /\ listing3 im' = l1 ++ stored_name3 n :: l2) /\
  (forall m, m <> stored_name3 n -> find_file3 im' m = find_file3 im m /\ type_of3 im' m = type_of3 im m) /\
  (forall m, In m (listing3 im) -> locked_of3 im m = Some false -> locked_of3 im' m = Some false).
Proof.
  intros C L E.
  destruct (write_master3 im n ft d C L) as [(_ & _ & im2 & tl & dl & E2 & W)|[(_ & E2)|[(_ & im2 & l & E2 & _)|(_ & _ & im2 & l & E2 & _)]]];
    rewrite E in E2; try discriminate E2. injection E2 as <-.
  split; [apply (wr3_listing _ _ _ _ _ _ _ W)|]. split; [apply (wr3_others _ _ _ _ _ _ _ W)|].
  intros m Hm _. apply (wr3_unlocked _ _ _ _ _ _ _ W).
  destruct (wr3_listing _ _ _ _ _ _ _ W) as (l1 & l2 & E1 & E3). rewrite E1 in Hm. rewrite E3.
  apply in_app_iff in Hm. apply in_app_iff. cbn [In]. tauto.
Qed.
Print Assumptions C17_dos33_write_keeps_other_files_partial.
Example C17_example : exists im im', consistent3 im /\ legal_write3 im NEW [66] new_data /\
  write_file3 im NEW [66] new_data = (im', Ok tt) /\ HELLO <> stored_name3 NEW /\
  find_file3 im HELLO = Ok hello_data /\ type_of3 im HELLO = Some 4.
Proof.
  destruct (one_write [66] new_data ltac:(discriminate) ltac:(discriminate) new_data_ok ltac:(vm_compute; discriminate)) as (im' & tl & dl & E & _).
  exists one_im, im'. split; [exact one_consistent|].
  split; [apply legal_one; [discriminate|discriminate|exact new_data_ok]|]. split; [exact E|].
  split; [discriminate|]. exact one_read.
Qed.
(** The lock state is not kept: any write unlocks every file. *)
Theorem C17_dos33_lock_lost_refuted : exists im im' n d,
  consistent3 im /\ legal_write3 im n [66] d /\ write_file3 im n [66] d = (im', Ok tt) /\
  exists m, In m (listing3 im) /\ m <> stored_name3 n /\ locked_of3 im m = Some true /\ locked_of3 im' m = Some false.
Proof.
  destruct (one_write [66] new_data ltac:(discriminate) ltac:(discriminate) new_data_ok ltac:(vm_compute; discriminate)) as (im' & tl & dl & E & W).
  exists one_im, im', NEW, new_data. split; [exact one_consistent|].
  split; [apply legal_one; [discriminate|discriminate|exact new_data_ok]|]. split; [exact E|].
  exists HELLO. split; [rewrite one_listing; left; reflexivity|]. split; [discriminate|]. split; [exact one_locked|].
  apply (wr3_unlocked _ _ _ _ _ _ _ W). destruct (wr3_listing _ _ _ _ _ _ _ W) as (l1 & l2 & E1 & E3). rewrite E3.
  assert (H : In HELLO (l1 ++ l2)) by (rewrite <- E1, one_listing; left; reflexivity).
  apply in_app_iff in H. apply in_app_iff. cbn [In]. tauto.
Qed.
Print Assumptions C17_dos33_lock_lost_refuted.
Theorem C17_dos33_every_write_unlocks_all im n ft d im' :
  consistent3 im -> legal_write3 im n ft d -> write_file3 im n ft d = (im', Ok tt) ->
  forall m, In m (listing3 im') -> locked_of3 im' m = Some false.
Proof.
  intros C L E.
  destruct (write_master3 im n ft d C L) as [(_ & _ & im2 & tl & dl & E2 & W)|[(_ & E2)|[(_ & im2 & l & E2 & _)|(_ & _ & im2 & l & E2 & _)]]];
    rewrite E in E2; try discriminate E2. injection E2 as <-. apply (wr3_unlocked _ _ _ _ _ _ _ W).
Qed.
Print Assumptions C17_dos33_every_write_unlocks_all.

(** * C18 *)
Theorem C18_dos33_delete_removes_only_that_file im n :
  consistent3 im -> In n (listing3 im) ->
  exists im', delete_file3 im n = (im', Ok tt) /\ consistent3 im' /\
    (exists l1 l2, listing3 im = l1 ++ n :: l2 /\ listing3 im' = l1 ++ l2) /\
    ~ In n (listing3 im') /\ find_file3 im' n = Err (EAtr FileNotFound) /\
    (forall m, m <> n -> find_file3 im' m = find_file3 im m /\ type_of3 im' m = type_of3 im m).
Proof.
  intros C Hin. destruct (delete_master3 im n C Hin) as (im' & tl & dl & E & W). exists im'.
  pose proof (dr3_consistent _ _ _ _ _ W) as C'. pose proof (dr3_gone _ _ _ _ _ W) as G.
  split; [exact E|]. split; [exact C'|]. split; [apply (dr3_listing _ _ _ _ _ W)|]. split.
  - intros H. destruct (consistent3_view im' C') as (cat & k & Ei & D). rewrite Ei in H, G.
    apply In_listing3 in H; [|assumption]. destruct (listed_file3 _ _ _ _ D H) as (i & tl' & dl' & F).
    rewrite (proj1 (find_of_file_in3 _ _ _ _ _ _ _ D F)) in G. discriminate G.
  - split; [exact G|]. apply (dr3_others _ _ _ _ _ W).
Qed.
Print Assumptions C18_dos33_delete_removes_only_that_file.
Example C18_example : exists im, consistent3 im /\ In HELLO (listing3 im) /\ find_file3 im HELLO = Ok hello_data.
Proof.
  exists full_im. split; [exact full_consistent|]. split; [rewrite full_listing; left; reflexivity|]. apply full_read.
Qed.
(** A name in no catalog entry is refused, and nothing changes.  (The full
    claim has "not listed" instead; see below.) *)
Theorem C18_dos33_unknown_name_refused_partial im n :
  consistent3 im -> ~ named3 im n -> delete_file3 im n = (im, Err (EAtr FileNotFound)).
Proof. exact (delete_unknown3 im n). Qed.
Print Assumptions C18_dos33_unknown_name_refused_partial.
Example C18_unknown_example : exists im, consistent3 im /\ ~ named3 im NEW.
Proof. exists full_im. split; [exact full_consistent|]. apply full_no_named; discriminate. Qed.
(** An already deleted file can be deleted again without an error ... *)
Theorem C18_dos33_double_delete_refuted : exists im n im',
  consistent3 im /\ ~ In n (listing3 im) /\ delete_file3 im n = (im', Ok tt).
Proof.
  assert (N : ~ In GONE (listing3 full_im)) by (rewrite full_listing; intros [H|[]]; discriminate H).
  destruct (stale_master3 full_im GONE [50] [51] full_consistent N full_gone_safe) as (im' & E & _).
  exists full_im, GONE, im'. split; [exact full_consistent|]. split; [exact N|exact E].
Qed.
Print Assumptions C18_dos33_double_delete_refuted.
(** ... which is harmless if its old sectors belong to nobody by now ... *)
Theorem C18_dos33_double_delete_harmless im n tl dl :
  consistent3 im -> ~ In n (listing3 im) -> stale_safe3 im n tl dl ->
  exists im', delete_file3 im n = (im', Ok tt) /\ consistent3 im' /\ listing3 im' = listing3 im /\
    (forall m, find_file3 im' m = find_file3 im m /\ type_of3 im' m = type_of3 im m).
Proof.
  intros C N S. destruct (stale_master3 im n tl dl C N S) as (im' & E & W). exists im'.
  split; [exact E|]. split; [apply (st3_consistent _ _ _ W)|]. split; [apply (st3_listing _ _ _ W)|apply (st3_files _ _ _ W)].
Qed.
Print Assumptions C18_dos33_double_delete_harmless.
Example C18_harmless_example : exists im, consistent3 im /\ ~ In GONE (listing3 im) /\ stale_safe3 im GONE [50] [51].
Proof.
  exists full_im. split; [exact full_consistent|]. split; [|exact full_gone_safe].
  rewrite full_listing. intros [H|[]]. discriminate H.
Qed.
(** ... but frees the sectors of a file that has them now. *)
Theorem C18_dos33_double_delete_frees_used_sectors_refuted : exists im n m tl dl,
  consistent3 im /\ ~ In n (listing3 im) /\ sectors_of3 im m tl dl /\ n <> m /\ tl ++ dl <> [] /\
  forall s, In s (tl ++ dl) -> ~ is_free3 im s /\ is_free3 (fst (delete_file3 im n)) s.
Proof.
  exists full_im, OLD, HELLO, [48], [49]. split; [exact full_consistent|].
  split; [rewrite full_listing; intros [H|[]]; discriminate H|].
  split; [exists demo_cat, 3, 0; split; [exact demo_full_disk|exact full_file]|]. split; [discriminate|].
  split; [discriminate|]. intros s Hs. assert (Hs' : s = 48 \/ s = 49) by (cbn in Hs; lia). split.
  - intros [_ F]. rewrite full_bytes in F. unfold demo_full in F. rewrite demo_bit in F by exact full_len.
    destruct Hs'; subst s; vm_compute in F; discriminate F.
  - apply (stale_frees3 full_im OLD [48] [49] s full_consistent full_old_stale); [|exact Hs|lia].
    intros x Hx. cbn in Hx. lia.
Qed.
Print Assumptions C18_dos33_double_delete_frees_used_sectors_refuted.

(** * C19 *)
Theorem C19_dos33_session_is_a_map im ops :
  consistent3 im -> all_ops3 legal_op3 im ops ->
  let (im', m') := run3 im (fs_of3 im) ops in
  consistent3 im' /\
  forall n, find_file3 im' n = match m' n with Some d => Ok d | None => Err (EAtr FileNotFound) end.
Proof. intros C L. apply (session3 ops im (fs_of3 im) C (answers_self3 im C) L). Qed.
Print Assumptions C19_dos33_session_is_a_map.
Theorem C19_dos33_step_results im o :
  consistent3 im -> legal_op3 im o -> refusal3 im o (snd (do_op3 im o)).
Proof.
  intros C L. pose proof (step3 im o _ C L (answers_self3 im C)) as S. destruct (do_op3 im o) as [im' r]. apply S.
Qed.
Print Assumptions C19_dos33_step_results.
Example C19_example : exists im, consistent3 im /\
  all_ops3 legal_op3 im [PWrite NEW [66] new_data; PWrite NEW [66] []; PDelete HELLO; PShred 0; PDelete NEW].
Proof.
  exists one_im. split; [exact one_consistent|].
  destruct (one_write [66] new_data ltac:(discriminate) ltac:(discriminate) new_data_ok ltac:(vm_compute; discriminate)) as (im1 & tl & dl & E1 & W).
  cbn [all_ops3 do_op3 legal_op3]. split; [left; apply legal_one; [discriminate|discriminate|exact new_data_ok]|].
  rewrite E1. cbn [fst]. split; [right; reflexivity|].
  pose proof (wr3_consistent _ _ _ _ _ _ _ W) as C1.
  rewrite (write_empty3 im1 NEW [66] C1). cbn [fst].
  destruct (wr3_listing _ _ _ _ _ _ _ W) as (l1 & l2 & H1 & H2). rewrite one_listing in H1. rewrite NEW_stored in H2.
  assert (M1 : In HELLO (listing3 im1)).
  { assert (X : In HELLO (l1 ++ l2)) by (rewrite <- H1; left; reflexivity). rewrite H2.
    apply in_app_iff in X. apply in_app_iff. cbn [In]. tauto. }
  split; [left; exact M1|].
  destruct (delete_master3 im1 HELLO C1 M1) as (im2 & tl2 & dl2 & E2 & W2). rewrite E2. cbn [fst].
  pose proof (dr3_consistent _ _ _ _ _ W2) as C2. split; [exact I|].
  destruct (shred_master3 im2 0 C2) as (im3 & E3 & W3). rewrite E3. cbn [fst].
  pose proof (sr3_consistent _ _ _ W3) as C3.
  destruct (dr3_listing _ _ _ _ _ W2) as (q1 & q2 & Q1 & Q2).
  assert (M3 : In NEW (listing3 im3)).
  { rewrite (sr3_listing _ _ _ W3), Q2.
    assert (X : In NEW (listing3 im1)) by (rewrite H2; apply in_app_iff; right; left; reflexivity). rewrite Q1 in X.
    apply in_app_iff in X. destruct X as [X|[X|X]]; [|discriminate X|]; apply in_app_iff; tauto. }
  split; [left; exact M3|]. exact I.
Qed.
(** Without the guard on deleted names the claim is false: see C18. *)

(** * C20 *)
Theorem C20_dos33_refused_write_partial im n ft d im' e :
  consistent3 im -> legal_write3 im n ft d -> write_file3 im n ft d = (im', Err (EAtr e)) ->
  (free_sectors3 im < sectors3 (zlen d) -> im' = im) /\
  consistent3 im' /\ i_files im' = i_files im /\ (forall m, find_file3 im' m = find_file3 im m) /\
  (forall p, 0 <= p -> p / 256 <> 272 -> getb (i_bytes im') p = getb (i_bytes im) p) /\
  (forall s, is_free3 im' s -> is_free3 im s).
Proof.
  intros C L E.
  destruct (write_master3 im n ft d C L) as [(_ & _ & im2 & tl & dl & E2 & W)|[(_ & E2)|[(Hs & im2 & l & E2 & W & _)|(Hs & _ & im2 & l & E2 & W & _)]]];
    rewrite E in E2; try discriminate E2; injection E2 as <- _.
  - split; [reflexivity|]. split; [exact C|]. auto 10.
  - split; [lia|]. split; [apply (lk3_consistent _ _ _ W)|]. split; [apply (lk3_dir _ _ _ W)|].
    split; [intros m; apply (lk3_files _ _ _ W)|]. split; [apply (lk3_bytes _ _ _ W)|].
    intros s. rewrite (lk3_free _ _ _ W). tauto.
  - split.
    { intros X. exfalso. unfold need3 in Hs.
      assert (0 <= lists3 (sectors3 (zlen d))); [|lia].
      unfold lists3, sectors3. pose proof (zlen_nonneg d). clear -H. Z.to_euclidean_division_equations; lia. }
    split; [apply (lk3_consistent _ _ _ W)|]. split; [apply (lk3_dir _ _ _ W)|].
    split; [intros m; apply (lk3_files _ _ _ W)|]. split; [apply (lk3_bytes _ _ _ W)|].
    intros s. rewrite (lk3_free _ _ _ W). tauto.
Qed.
Print Assumptions C20_dos33_refused_write_partial.
Definition big_data (n : Z) : list Z := zrepeat 1 (256 * n).
Lemma big_data_len n : 0 <= n -> zlen (big_data n) = 256 * n.
Proof. intros. unfold big_data. apply zlen_zrepeat. lia. Qed.
Lemma big_data_ok n : bytes_ok (big_data n).
Proof. apply bytes_ok_zrepeat. unfold is_byte. lia. Qed.
Lemma big_data_nil n : 0 < n -> big_data n <> [].
Proof. intros H E. assert (X : zlen (big_data n) = 0) by (rewrite E; reflexivity). rewrite big_data_len in X; lia. Qed.
Lemma sectors3_big n : sectors3 (256 * n) = n.
Proof. unfold sectors3. Z.to_euclidean_division_equations; lia. Qed.
Example C20_example : exists im d im', consistent3 im /\ legal_write3 im NEW [66] d /\
  free_sectors3 im < sectors3 (zlen d) /\ write_file3 im NEW [66] d = (im', Err (EAtr NotEnoughSpaceOnDisk)).
Proof.
  assert (L : legal_write3 one_im NEW [66] (big_data 495))
    by (apply legal_one; [discriminate|apply big_data_nil; lia|apply big_data_ok]).
  assert (F : free_sectors3 one_im < sectors3 (zlen (big_data 495))) by (rewrite one_free, big_data_len, sectors3_big; lia).
  exists one_im, (big_data 495). destruct (write_master3 one_im NEW [66] (big_data 495) one_consistent L) as [(H & _)|[(_ & E)|[(H & _)|(H & _)]]].
  - exfalso. unfold need3 in H. rewrite one_free in *. rewrite big_data_len, sectors3_big in * by lia. vm_compute in H. apply H. reflexivity.
  - exists one_im. auto using one_consistent.
  - exfalso. clear -H F. lia.
  - exfalso. unfold need3 in H. rewrite one_free in *. rewrite big_data_len, sectors3_big in * by lia. vm_compute in H. apply H. reflexivity.
Qed.
(** The bytes can change: when the data fits but its track/sector lists do
    not, the sectors for the data stay marked as used. *)
Theorem C20_dos33_refused_write_leaks_refuted : exists im n d im',
  consistent3 im /\ legal_write3 im n [66] d /\ write_file3 im n [66] d = (im', Err (EAtr NotEnoughSpaceOnDisk)) /\
  i_bytes im' <> i_bytes im /\ free_sectors3 im = 494 /\ free_sectors3 im' = 0.
Proof.
  assert (L : legal_write3 one_im NEW [66] (big_data 494))
    by (apply legal_one; [discriminate|apply big_data_nil; lia|apply big_data_ok]).
  assert (S : sectors3 (zlen (big_data 494)) = 494) by (rewrite big_data_len, sectors3_big by lia; reflexivity).
  assert (Nd : need3 (zlen (big_data 494)) = 499) by (unfold need3; rewrite S; reflexivity).
  exists one_im, NEW, (big_data 494).
  destruct (write_master3 one_im NEW [66] (big_data 494) one_consistent L) as [(H & _)|[(H & _)|[(_ & im' & l & E & W & Hl)|(H & _)]]].
  - exfalso. rewrite Nd, one_free in H. lia.
  - exfalso. rewrite S, one_free in H. lia.
  - exists im'. split; [exact one_consistent|]. split; [exact L|]. split; [exact E|].
    pose proof (lk3_free_count _ _ _ W) as F. rewrite Hl, S, one_free in F.
    split; [|split; [exact one_free|lia]]. intros X.
    assert (Y : free_sectors3 im' = free_sectors3 one_im) by (unfold free_sectors3; rewrite X; reflexivity).
    rewrite one_free in Y. lia.
  - exfalso. rewrite Nd, one_free in H. lia.
Qed.
Print Assumptions C20_dos33_refused_write_leaks_refuted.

(** * C21 *)
Definition all_types : list (list Z) := [[84]; [73]; [65]; [66]; [83]; [82]; [97]; [98]].
Theorem C21_dos33_types_listed_partial im n ft d :
  consistent3 im -> In ft all_types -> ft <> [84] -> ascii n -> d <> [] -> bytes_ok d -> ~ In (stored_name3 n) (listing3 im) ->
  need3 (zlen d) <= free_sectors3 im -> has_room3 im ->
  exists im', write_file3 im n ft d = (im', Ok tt) /\ In (stored_name3 n) (listing3 im') /\
    find_file3 im' (stored_name3 n) = Ok (padded d) /\
    option_map type_text (type_of3 im' (stored_name3 n)) = Some ft.
Proof.
  intros C Ht Hne Ha Hd Ho Hn Hf Hr.
  assert (Tc : type_code ft <> 0 /\ type_text (type_code ft) = ft).
  { unfold all_types in Ht. cbn [In] in Ht.
    destruct Ht as [Ht|[Ht|[Ht|[Ht|[Ht|[Ht|[Ht|[Ht|[]]]]]]]]]; subst ft; [congruence|..]; (split; [discriminate|reflexivity]). }
  assert (L : legal_write3 im n ft d) by (repeat split; try assumption; apply Tc).
  destruct (write_master3 im n ft d C L) as [(_ & _ & im' & tl & dl & E & W)|[(H & _)|[(H & _)|(_ & H & _)]]].
  - exists im'. split; [exact E|]. split.
    + destruct (wr3_listing _ _ _ _ _ _ _ W) as (l1 & l2 & _ & ->). apply in_app_iff. right. left. reflexivity.
    + split; [apply (wr3_read _ _ _ _ _ _ _ W)|]. rewrite (wr3_type _ _ _ _ _ _ _ W). cbn [option_map]. f_equal. apply Tc.
  - exfalso. unfold need3 in Hf. assert (0 <= lists3 (sectors3 (zlen d))); [|lia].
    unfold lists3, sectors3. pose proof (zlen_nonneg d) as Hz. clear -Hz. Z.to_euclidean_division_equations; lia.
  - exfalso. lia.
  - exfalso. apply H. exact Hr.
Qed.
Print Assumptions C21_dos33_types_listed_partial.
Example C21_example : exists im, consistent3 im /\ ascii NEW /\ ~ In (stored_name3 NEW) (listing3 im) /\
  need3 (zlen new_data) <= free_sectors3 im /\ has_room3 im.
Proof.
  exists one_im. split; [exact one_consistent|]. split; [exact NEW_ascii|].
  split; [rewrite one_listing; intros [H|[]]; discriminate H|]. split; [rewrite one_free; vm_compute; discriminate|exact one_room].
Qed.
(** A file of type T is accepted but not listed, and its sectors are lost. *)
Theorem C21_dos33_text_file_vanishes_refuted : exists im n d im',
  consistent3 im /\ ascii n /\ d <> [] /\ has_room3 im /\ need3 (zlen d) <= free_sectors3 im /\
  write_file3 im n [84] d = (im', Ok tt) /\ ~ In (stored_name3 n) (listing3 im') /\
  find_file3 im' (stored_name3 n) = Err (EAtr FileNotFound) /\ free_sectors3 im' < free_sectors3 im.
Proof.
  assert (Nf : need3 (zlen new_data) <= free_sectors3 one_im) by (rewrite one_free; vm_compute; discriminate).
  destruct (hidden_master3 one_im NEW [84] new_data one_consistent NEW_ascii eq_refl ltac:(discriminate) new_data_ok Nf one_room one_no_deleted)
    as (im' & l & E & W & Hl).
  exists one_im, NEW, new_data, im'. split; [exact one_consistent|]. split; [exact NEW_ascii|]. split; [discriminate|].
  split; [exact one_room|]. split; [exact Nf|]. split; [exact E|].
  assert (N : ~ In (stored_name3 NEW) (listing3 one_im)) by (rewrite one_listing; intros [H|[]]; discriminate H).
  split; [rewrite (hd3_listing _ _ _ W); exact N|]. split.
  - rewrite (proj1 (hd3_files _ _ _ W _)). unfold one_im in N |- *. rewrite (In_listing3 _ _ _ _ demo_one_disk) in N.
    destruct (find_view3 _ _ _ (stored_name3 NEW) demo_one_disk) as [(i & tl & dl & (F1 & F2 & F3 & _) & _)|(_ & R & _)]; [|exact R].
    exfalso. apply N. exists i. auto.
  - rewrite (hd3_free_count _ _ _ W), Hl. change (need3 (zlen new_data)) with 2. lia.
Qed.
Print Assumptions C21_dos33_text_file_vanishes_refuted.
(** The same for every disk without deleted entries. *)
Theorem C21_dos33_text_files_always_vanish im n d :
  consistent3 im -> ascii n -> d <> [] -> bytes_ok d -> need3 (zlen d) <= free_sectors3 im -> has_room3 im -> no_deleted3 im ->
  exists im', write_file3 im n [84] d = (im', Ok tt) /\ listing3 im' = listing3 im /\
    free_sectors3 im' = free_sectors3 im - need3 (zlen d).
Proof.
  intros C Ha Hd Ho Hf Hr Hn. destruct (hidden_master3 im n [84] d C Ha eq_refl Hd Ho Hf Hr Hn) as (im' & l & E & W & Hl).
  exists im'. split; [exact E|]. split; [apply (hd3_listing _ _ _ W)|]. rewrite <- Hl. apply (hd3_free_count _ _ _ W).
Qed.
Print Assumptions C21_dos33_text_files_always_vanish.

(** * C22 *)
(** Exactly when a write succeeds.  [has_room3]: some entry is marked deleted,
    or some unused entry is not in the last catalog sector. *)
Theorem C22_dos33_catalog_usable_partial im n ft d :
  consistent3 im -> legal_write3 im n ft d ->
  ((exists im', write_file3 im n ft d = (im', Ok tt)) <-> need3 (zlen d) <= free_sectors3 im /\ has_room3 im).
Proof.
  intros C L.
  destruct (write_master3 im n ft d C L) as [(H1 & H2 & im2 & tl & dl & E2 & W)|[(H & E2)|[(H & im2 & l & E2 & W & _)|(_ & H & im2 & l & E2 & W & _)]]].
  - split; [intros _; split; assumption|]. intros _. exists im2. exact E2.
  - split; [intros (im' & E); congruence|]. intros (H1 & _). exfalso. unfold need3 in H1.
    assert (0 <= lists3 (sectors3 (zlen d))); [|lia].
    unfold lists3, sectors3. pose proof (zlen_nonneg d) as Hz. clear -Hz. Z.to_euclidean_division_equations; lia.
  - split; [intros (im' & E); congruence|]. intros (H1 & _). exfalso. lia.
  - split; [intros (im' & E); congruence|]. intros (_ & H2). contradiction.
Qed.
Print Assumptions C22_dos33_catalog_usable_partial.
Example C22_example : exists im, consistent3 im /\ legal_write3 im NEW [66] new_data /\
  need3 (zlen new_data) <= free_sectors3 im /\ has_room3 im.
Proof.
  exists one_im. split; [exact one_consistent|]. split; [apply legal_one; [discriminate|discriminate|exact new_data_ok]|].
  split; [rewrite one_free; vm_compute; discriminate|exact one_room].
Qed.
(** The last catalog sector cannot be used: here all seven entries of the only
    catalog sector are unused. *)
Theorem C22_dos33_last_catalog_sector_refuted : exists im n d im' c,
  consistent3 im /\ legal_write3 im n [66] d /\ need3 (zlen d) <= free_sectors3 im /\ listing3 im = [] /\
  catalog_sector im c /\ (forall i, 0 <= i < 7 -> ~ x_used (slice (sec (i_bytes im) c) (11 + 35 * i) (46 + 35 * i))) /\
  write_file3 im n [66] d = (im', Err (EAtr NoSpaceInDirectory)).
Proof.
  assert (L : legal_write3 tiny_im NEW [66] new_data).
  { split; [exact NEW_ascii|]. split; [discriminate|]. split; [discriminate|]. split; [exact new_data_ok|].
    rewrite tiny_listing. intros []. }
  assert (Nf : need3 (zlen new_data) <= free_sectors3 tiny_im) by (rewrite tiny_free; vm_compute; discriminate).
  destruct (write_master3 tiny_im NEW [66] new_data tiny_consistent L) as [(_ & H & _)|[(H & _)|[(H & _)|(_ & _ & im' & l & E & _)]]].
  - exfalso. apply tiny_no_room. exact H.
  - exfalso. rewrite tiny_free in H. vm_compute in H. discriminate H.
  - exfalso. lia.
  - exists tiny_im, NEW, new_data, im', 287. split; [exact tiny_consistent|]. split; [exact L|]. split; [exact Nf|].
    split; [exact tiny_listing|]. split; [exists [287], 0; split; [exact demo_tiny_disk|left; reflexivity]|].
    split; [|exact E]. intros i Hi. rewrite tiny_bytes. unfold demo_tiny. rewrite demo_sec_at by (exact tiny_len || lia).
    assert (X : i = 0 \/ i = 1 \/ i = 2 \/ i = 3 \/ i = 4 \/ i = 5 \/ i = 6) by lia.
    intros U. apply demo_used_spec in U. repeat (destruct X as [X|X]; [subst i; vm_compute in U; discriminate U|]).
    subst i; vm_compute in U; discriminate U.
Qed.
Print Assumptions C22_dos33_last_catalog_sector_refuted.

(** * C52: exact space accounting *)
Theorem C52_dos33_write_takes_the_lowest_free_sectors im n ft d im' :
  consistent3 im -> legal_write3 im n ft d -> write_file3 im n ft d = (im', Ok tt) ->
  free_sectors3 im' = free_sectors3 im - need3 (zlen d) /\
  exists tl dl, sectors_of3 im' (stored_name3 n) tl dl /\ NoDup (dl ++ tl) /\
    zlen dl = sectors3 (zlen d) /\ zlen tl = lists3 (zlen dl) /\
    (forall s, In s (dl ++ tl) -> is_free3 im s) /\
    (forall s r, In s (dl ++ tl) -> is_free3 im r -> r < s -> In r (dl ++ tl)) /\
    (forall s, is_free3 im' s <-> is_free3 im s /\ ~ In s (dl ++ tl)).
Proof.
  intros C L E.
  destruct (write_master3 im n ft d C L) as [(_ & _ & im2 & tl & dl & E2 & W)|[(_ & E2)|[(_ & im2 & l & E2 & _)|(_ & _ & im2 & l & E2 & _)]]];
    rewrite E in E2; try discriminate E2. injection E2 as <-.
  split; [apply (wr3_free_count _ _ _ _ _ _ _ W)|]. exists tl, dl.
  split; [apply (wr3_sectors _ _ _ _ _ _ _ W)|]. split; [apply (wr3_nodup _ _ _ _ _ _ _ W)|].
  destruct (wr3_count _ _ _ _ _ _ _ W) as [H1 H2]. split; [exact H1|]. split; [exact H2|].
  split; [apply (wr3_were_free _ _ _ _ _ _ _ W)|]. split; [apply (wr3_lowest _ _ _ _ _ _ _ W)|apply (wr3_free _ _ _ _ _ _ _ W)].
Qed.
Print Assumptions C52_dos33_write_takes_the_lowest_free_sectors.
Theorem C52_dos33_delete_returns_its_sectors im n im' :
  consistent3 im -> In n (listing3 im) -> delete_file3 im n = (im', Ok tt) ->
  exists tl dl, sectors_of3 im n tl dl /\ NoDup (tl ++ dl) /\
    free_sectors3 im' = free_sectors3 im + zlen (tl ++ dl) /\
    (forall s, is_free3 im' s <-> is_free3 im s \/ In s (tl ++ dl)).
Proof.
  intros C Hin E. destruct (delete_master3 im n C Hin) as (im2 & tl & dl & E2 & W). rewrite E in E2. injection E2 as <-.
  exists tl, dl. split; [apply (dr3_sectors _ _ _ _ _ W)|]. split; [apply (dr3_nodup _ _ _ _ _ W)|].
  split; [apply (dr3_free_count _ _ _ _ _ W)|apply (dr3_free _ _ _ _ _ W)].
Qed.
Print Assumptions C52_dos33_delete_returns_its_sectors.
(** Writing a file and deleting it again restores the free map. *)
Theorem C52_dos33_write_then_delete_restores_the_free_map im n ft d im1 :
  consistent3 im -> legal_write3 im n ft d -> write_file3 im n ft d = (im1, Ok tt) ->
  exists im2, delete_file3 im1 (stored_name3 n) = (im2, Ok tt) /\
    free_sectors3 im2 = free_sectors3 im /\ (forall s, is_free3 im2 s <-> is_free3 im s) /\
    listing3 im2 = listing3 im /\ (forall m, find_file3 im2 m = find_file3 im m).
Proof.
  intros C L E.
  destruct (write_master3 im n ft d C L) as [(_ & _ & imx & tl & dl & E2 & W)|[(_ & E2)|[(_ & imx & l & E2 & _)|(_ & _ & imx & l & E2 & _)]]];
    rewrite E in E2; try discriminate E2. injection E2 as <-.
  pose proof (wr3_consistent _ _ _ _ _ _ _ W) as C1.
  destruct (wr3_listing _ _ _ _ _ _ _ W) as (l1 & l2 & A1 & A2).
  assert (Hin : In (stored_name3 n) (listing3 im1)) by (rewrite A2; apply in_app_iff; right; left; reflexivity).
  destruct (delete_master3 im1 _ C1 Hin) as (im2 & tl' & dl' & E3 & W2). exists im2. split; [exact E3|].
  assert (S : tl' = tl /\ dl' = dl).
  { destruct (dr3_sectors _ _ _ _ _ W2) as (cat & k & i & D & Hi & Li & Ni & Fi).
    destruct (wr3_sectors _ _ _ _ _ _ _ W) as (cat' & k' & i' & D' & Hi' & Li' & Ni' & Fi').
    destruct (disk_det _ _ _ _ _ D D') as [-> ->].
    assert (i = i') by (apply (live_names _ _ _ D' i i'); try assumption; congruence). subst i'.
    destruct (file_at_det _ _ _ _ _ _ Fi Fi') as [-> ->]. split; reflexivity. }
  destruct S as [-> ->].
  assert (F : forall s, is_free3 im2 s <-> is_free3 im s).
  { intros s. rewrite (dr3_free _ _ _ _ _ W2), (wr3_free _ _ _ _ _ _ _ W).
    pose proof (wr3_were_free _ _ _ _ _ _ _ W s) as X.
    pose proof (in_app_iff dl tl s) as A3. pose proof (in_app_iff tl dl s) as A4.
    clear -X A3 A4. destruct (in_dec Z.eq_dec s dl), (in_dec Z.eq_dec s tl); tauto. }
  split; [|split; [exact F|split]].
  - rewrite (dr3_free_count _ _ _ _ _ W2), (wr3_free_count _ _ _ _ _ _ _ W).
    destruct (wr3_count _ _ _ _ _ _ _ W) as [H1 H2]. rewrite zlen_app, H2, H1. unfold need3. lia.
  - destruct L as (_ & _ & _ & _ & Hnl). destruct (dr3_listing _ _ _ _ _ W2) as (q1 & q2 & Q1 & Q2).
    rewrite A1 in Hnl |- *. rewrite Q2. rewrite A2 in Q1.
    assert (G : forall l1 q1 : list (list Z), ~ In (stored_name3 n) (l1 ++ l2) -> l1 ++ stored_name3 n :: l2 = q1 ++ stored_name3 n :: q2 ->
      q1 ++ q2 = l1 ++ l2).
    { clear. generalize (stored_name3 n). intros x0.
      induction l1 as [|x l1 IH]; intros [|y q1] N Q; cbn [app] in *;
        [injection Q; intros Q1|injection Q; intros Q1 Q0..].
      - congruence.
      - exfalso. apply N. rewrite Q1. apply in_app_iff. right. left. reflexivity.
      - exfalso. apply N. left. exact Q0.
      - rewrite Q0. f_equal. apply IH; [intros X; apply N; right; exact X|exact Q1]. }
    apply G; assumption.
  - intros m. destruct (list_eq_dec Z.eq_dec m (stored_name3 n)) as [->|Hne].
    + rewrite (dr3_gone _ _ _ _ _ W2). destruct L as (_ & _ & _ & _ & Hnl).
      destruct (consistent3_view im C) as (cat & k & Ei & D). rewrite Ei in Hnl |- *. rewrite In_listing3 in Hnl by assumption.
      destruct (find_view3 _ cat k (stored_name3 n) D) as [(i & tl' & dl' & (F1 & F2 & F3 & _) & _)|(_ & R & _)]; [|symmetry; exact R].
      exfalso. apply Hnl. exists i. auto.
    + rewrite (proj1 (dr3_others _ _ _ _ _ W2 m Hne)). apply (wr3_others _ _ _ _ _ _ _ W m Hne).
Qed.
Print Assumptions C52_dos33_write_then_delete_restores_the_free_map.
Example C52_example : exists im im', consistent3 im /\ legal_write3 im NEW [66] new_data /\
  write_file3 im NEW [66] new_data = (im', Ok tt) /\ need3 (zlen new_data) = 2 /\ free_sectors3 im = 494.
Proof.
  destruct (one_write [66] new_data ltac:(discriminate) ltac:(discriminate) new_data_ok ltac:(vm_compute; discriminate)) as (im' & tl & dl & E & _).
  exists one_im, im'. split; [exact one_consistent|]. split; [apply legal_one; [discriminate|discriminate|exact new_data_ok]|].
  split; [exact E|]. split; [reflexivity|exact one_free].
Qed.

(** * C53: writes and deletes touch only what they must *)
Theorem C53_dos33_write_touches_only_its_sectors im n ft d im' :
  consistent3 im -> legal_write3 im n ft d -> write_file3 im n ft d = (im', Ok tt) ->
  zlen (i_bytes im') = zlen (i_bytes im) /\ i_hdr im' = i_hdr im /\
  exists tl dl, sectors_of3 im' (stored_name3 n) tl dl /\
    forall p, 0 <= p -> p / 256 <> 272 -> ~ catalog_sector im (p / 256) -> ~ In (p / 256) (dl ++ tl) ->
      getb (i_bytes im') p = getb (i_bytes im) p.
Proof.
  intros C L E.
  destruct (write_master3 im n ft d C L) as [(_ & _ & im2 & tl & dl & E2 & W)|[(_ & E2)|[(_ & im2 & l & E2 & _)|(_ & _ & im2 & l & E2 & _)]]];
    rewrite E in E2; try discriminate E2. injection E2 as <-.
  split; [apply (wr3_len _ _ _ _ _ _ _ W)|]. split; [apply (wr3_hdr _ _ _ _ _ _ _ W)|]. exists tl, dl.
  split; [apply (wr3_sectors _ _ _ _ _ _ _ W)|apply (wr3_bytes _ _ _ _ _ _ _ W)].
Qed.
Print Assumptions C53_dos33_write_touches_only_its_sectors.
Theorem C53_dos33_delete_touches_only_vtoc_and_catalog im n im' :
  consistent3 im -> In n (listing3 im) -> delete_file3 im n = (im', Ok tt) ->
  zlen (i_bytes im') = zlen (i_bytes im) /\ i_hdr im' = i_hdr im /\
  forall p, 0 <= p -> p / 256 <> 272 -> ~ catalog_sector im (p / 256) -> getb (i_bytes im') p = getb (i_bytes im) p.
Proof.
  intros C Hin E. destruct (delete_master3 im n C Hin) as (im2 & tl & dl & E2 & W). rewrite E in E2. injection E2 as <-.
  split; [apply (dr3_len _ _ _ _ _ W)|]. split; [apply (dr3_hdr _ _ _ _ _ W)|apply (dr3_bytes _ _ _ _ _ W)].
Qed.
Print Assumptions C53_dos33_delete_touches_only_vtoc_and_catalog.
Example C53_example : exists im, consistent3 im /\ In HELLO (listing3 im) /\ legal_write3 im NEW [66] new_data /\
  ~ catalog_sector im (12800 / 256).
Proof.
  exists one_im. split; [exact one_consistent|]. split; [rewrite one_listing; left; reflexivity|].
  split; [apply legal_one; [discriminate|discriminate|exact new_data_ok]|].
  intros (cat & k & D & Hc). destruct (disk_det _ _ _ _ _ D demo_one_disk) as [-> ->]. unfold demo_cat in Hc. cbn in Hc. lia.
Qed.

(** * C07, DOS 3.3 part *)
Theorem C07_dos33_shred_wipes_exactly_the_free_space im fill :
  consistent3 im ->
  exists im', shred3 im fill = (im', Ok tt) /\ consistent3 im' /\ zlen (i_bytes im') = zlen (i_bytes im) /\
    i_files im' = i_files im /\ (forall m, find_file3 im' m = find_file3 im m) /\
    (forall s p, is_free3 im s -> 256 * s <= p < 256 * s + 256 -> getb (i_bytes im') p = u8 fill) /\
    (forall p, 0 <= p -> ~ is_free3 im (p / 256) -> getb (i_bytes im') p = getb (i_bytes im) p).
Proof.
  intros C. destruct (shred_master3 im fill C) as (im' & E & W). exists im'. split; [exact E|].
  split; [apply (sr3_consistent _ _ _ W)|]. split; [apply (sr3_len _ _ _ W)|]. split; [apply (sr3_dir _ _ _ W)|].
  split; [intros m; apply (sr3_files _ _ _ W)|]. split; [apply (sr3_wiped _ _ _ W)|apply (sr3_kept _ _ _ W)].
Qed.
Print Assumptions C07_dos33_shred_wipes_exactly_the_free_space.
Example C07_dos33_example : exists im, consistent3 im /\ free_sectors3 im = 494 /\ is_free3 im 50 /\ ~ is_free3 im 49.
Proof.
  assert (B : forall s, free_bit3 (i_bytes full_im) s = demo_vbit s)
    by (intros s; rewrite full_bytes; apply demo_bit; exact full_len).
  exists full_im. split; [exact full_consistent|]. split; [exact full_free|]. split.
  - split; [lia|]. rewrite B. vm_compute. reflexivity.
  - intros [_ F]. rewrite B in F. vm_compute in F. discriminate F.
Qed.

(** * C10, DOS 3.3 part *)
(** Reading a file of a consistent disk ends and gives data. *)
Theorem C10_dos33_listed_files_read_partial im n :
  consistent3 im -> In n (listing3 im) -> exists d, find_file3 im n = Ok d.
Proof.
  intros C Hin. destruct (consistent3_view im C) as (cat & k & E & D). rewrite E in Hin |- *.
  apply In_listing3 in Hin; [|assumption]. destruct (listed_file3 _ _ _ _ D Hin) as (i & tl & dl & F).
  exists (contents3 (i_bytes im) dl). apply (find_of_file_in3 _ _ _ _ _ _ _ D F).
Qed.
Print Assumptions C10_dos33_listed_files_read_partial.
Example C10_dos33_example : exists im, consistent3 im /\ In HELLO (listing3 im).
Proof. exists one_im. split; [exact one_consistent|]. rewrite one_listing. left. reflexivity. Qed.
(** On any image, consistent or not, the loops over links either end within
    one step per sector or never end. *)
Theorem C10_dos33_read_ends_or_never_does im d : 0 <= h_max3 (i_hdr im) ->
  (get_file3 im d <> Err EFuel /\
   forall fuel, (fuel33 (i_hdr im) <= fuel)%nat -> get_file_fuel3 fuel im d = get_file3 im d) \/
  (forall fuel, get_file_fuel3 fuel im d = Err EFuel).
Proof. exact (get_file3_dichotomy im d). Qed.
Print Assumptions C10_dos33_read_ends_or_never_does.
Theorem C10_dos33_catalog_ends_or_never_does im : 0 <= h_max3 (i_hdr im) ->
  snd (get_directory3 im) <> Err EFuel \/ (forall fuel, snd (get_directory_fuel fuel im) = Err EFuel).
Proof. exact (get_directory3_dichotomy im). Qed.
Print Assumptions C10_dos33_catalog_ends_or_never_does.
Theorem C10_dos33_cyclic_list_refuted : exists b im d,
  bytes_ok b /\ zlen b = 143360 /\ open33 b = Ok im /\ find_name3 HELLO (i_files im) = Some d /\
  forall fuel, get_file_fuel3 fuel im d = Err EFuel.
Proof.
  exists loop_disk, loop_im, (parse_ent (H3 (fdir3 demo_one)) hello_entry).
  split; [exact loop_disk_ok|]. split; [exact loop_disk_len|]. split; [exact loop_opens|]. split; [exact loop_hello|exact loop_never].
Qed.
Print Assumptions C10_dos33_cyclic_list_refuted.
(** Opening can loop forever too. *)
Theorem C10_dos33_cyclic_catalog_refuted : exists b im,
  bytes_ok b /\ zlen b = 143360 /\ get_vtoc3 (mkI b hdr33_0 [] true) = (im, Ok tt) /\ open33 b = Err EFuel /\
  forall fuel, snd (get_directory_fuel fuel im) = Err EFuel.
Proof.
  exists cat_loop_disk, (mkI cat_loop_disk (H3 287) [] true). split.
  - apply demo_ok. apply bytes_ok_b. vm_compute. reflexivity.
  - split; [exact cat_loop_disk_len|]. split; [exact cat_loop_vtoc|]. split; [exact cat_loop_open|exact cat_loop_never].
Qed.
Print Assumptions C10_dos33_cyclic_catalog_refuted.

(** * C13, DOS 3.3 part *)
Theorem C13_dos33_entry_reencode_partial h e :
  zlen e = 35 -> bytes_ok e -> ~ x_dead e -> ~ x_locked e -> rstrip (x_name e) = x_name e ->
  exists e', encode_ent (parse_ent h e) = Ok e' /\ zlen e' = 35 /\ parse_ent h e' = parse_ent h e.
Proof. exact (reencode_live h e). Qed.
Print Assumptions C13_dos33_entry_reencode_partial.
Theorem C13_dos33_deleted_entry_reencode_partial h e :
  zlen e = 35 -> bytes_ok e -> x_dead e -> rstrip (x_name e) = x_name e ->
  exists e', encode_ent (parse_ent h e) = Ok e' /\ zlen e' = 35 /\ x_dead e' /\ x_name e' = x_name e /\
    x_stale e' = x_stale e /\ x_count e' = x_count e.
Proof. exact (reencode_dead h e). Qed.
Print Assumptions C13_dos33_deleted_entry_reencode_partial.
Definition plain_entry : list Z := [3; 0; 4] ++ demo_name HELLO ++ [2; 0].
Example C13_dos33_example :
  (zlen plain_entry = 35 /\ bytes_ok plain_entry /\ ~ x_dead plain_entry /\ ~ x_locked plain_entry /\
   rstrip (x_name plain_entry) = x_name plain_entry) /\
  (zlen gone_entry = 35 /\ bytes_ok gone_entry /\ x_dead gone_entry /\ rstrip (x_name gone_entry) = x_name gone_entry).
Proof.
  split.
  - split; [reflexivity|]. split; [apply bytes_ok_b; reflexivity|]. split; [vm_compute; discriminate|].
    split; [vm_compute; intros X; apply X; reflexivity|vm_compute; reflexivity].
  - split; [reflexivity|]. split; [apply bytes_ok_b; reflexivity|]. split; vm_compute; reflexivity.
Qed.
(** The lock bit of any live entry is lost. *)
Theorem C13_dos33_lock_lost_refuted : exists h e e', zlen e = 35 /\ bytes_ok e /\ x_live e /\ x_locked e /\
  encode_ent (parse_ent h e) = Ok e' /\ ~ x_locked e' /\ parse_ent h e' <> parse_ent h e.
Proof.
  exists (H3 287), hello_entry. eexists. split; [reflexivity|]. split; [apply bytes_ok_b; reflexivity|].
  split; [exact hello_live|]. split; [vm_compute; discriminate|]. split; [vm_compute; reflexivity|].
  split; [vm_compute; intros X; apply X; reflexivity|]. vm_compute. discriminate.
Qed.
Print Assumptions C13_dos33_lock_lost_refuted.
(** A locked file of type T becomes an entry that ends the catalog sector. *)
Theorem C13_dos33_locked_text_lost_refuted : exists h e e', zlen e = 35 /\ bytes_ok e /\ x_live e /\
  encode_ent (parse_ent h e) = Ok e' /\ ~ x_used e'.
Proof.
  exists (H3 287), ([3; 0; 128] ++ demo_name HELLO ++ [2; 0]). eexists. split; [reflexivity|]. split; [apply bytes_ok_b; reflexivity|].
  split; [split; vm_compute; discriminate|]. split; [vm_compute; reflexivity|].
  intros U. apply demo_used_spec in U. vm_compute in U. discriminate U.
Qed.
Print Assumptions C13_dos33_locked_text_lost_refuted.

(** * C14, DOS 3.3 part *)
Theorem C14_dos33_bitmap_decode v n : zlen v = 256 -> bytes_ok v -> 0 <= n < 800 ->
  getb (parse_vtoc3 v) n
  = ((256 * getb v (56 + 4 * (n / 16)) + getb v (57 + 4 * (n / 16))) / 2 ^ (n mod 16)) mod 2.
Proof.
  intros Hv Hb Hn. rewrite getb_parse_vtoc3 by (assumption || lia). replace (n <? 800) with true by lia. reflexivity.
Qed.
Print Assumptions C14_dos33_bitmap_decode.
Theorem C14_dos33_bitmap_reencode v : zlen v = 256 -> bytes_ok v -> pack_vtoc3 v (parse_vtoc3 v) = v.
Proof. exact (pack_parse_vtoc3 v). Qed.
Print Assumptions C14_dos33_bitmap_reencode.
Example C14_dos33_example : zlen demo_vtoc = 256 /\ bytes_ok demo_vtoc /\
  getb (parse_vtoc3 demo_vtoc) 49 = 0 /\ getb (parse_vtoc3 demo_vtoc) 50 = 1.
Proof. split; [reflexivity|]. split; [apply bytes_ok_b; vm_compute; reflexivity|]. split; vm_compute; reflexivity. Qed.
