(** Atari DOS and DOS 3.3 images act like maps, so the command theorems apply. *)
From Verif Require Import Base BaseLemmas DiskModel DirLemmas AtariModel AtariSpec AtariGeom AtariDir AtariVtoc AtariChain AtariSectors AtariWrite AtariDelete AtariShred AtariOps AtariSession AtariMore AtariHeader AtariProps Dos33Model Dos33Spec Dos33Geom Dos33Vtoc Dos33Dir Dos33Files Dos33Update Dos33Alloc Dos33Delete Dos33Shred Dos33Ops Dos33Session CliModel CliProofs.

(** * Every number has digits *)
Lemma number_snoc base ds c : number base (ds ++ [c]) = number base ds * base + digit_val c.
Proof. unfold number. rewrite fold_left_app. reflexivity. Qed.
Definition digit_char (v : Z) : Z := if v <? 10 then 48 + v else 55 + v.
Lemma digit_char_ok base v : base <= 36 -> 0 <= v < base -> is_digit base (digit_char v) /\ digit_val (digit_char v) = v.
Proof.
  intros Hb Hv. unfold is_digit, digit_char. destruct (Z.ltb_spec v 10).
  - assert (E : digit_val (48 + v) = v) by (unfold digit_val; replace ((48 <=? 48 + v) && (48 + v <=? 57)) with true by lia; lia). rewrite E. lia.
  - assert (E : digit_val (55 + v) = v).
    { unfold digit_val. replace ((48 <=? 55 + v) && (55 + v <=? 57)) with false by lia. replace ((97 <=? 55 + v) && (55 + v <=? 122)) with false by lia.
      replace ((65 <=? 55 + v) && (55 + v <=? 90)) with true by lia. lia. }
    rewrite E. lia.
Qed.
Lemma number_exists base v : 2 <= base <= 36 -> 0 <= v -> exists ds, ds <> [] /\ Forall (is_digit base) ds /\ number base ds = v.
Proof.
  intros Hb Hv0. generalize Hv0. revert v Hv0. apply (Z_lt_induction (fun v => 0 <= v -> exists ds, ds <> [] /\ Forall (is_digit base) ds /\ number base ds = v)).
  intros v IH Hv. destruct (Z.ltb_spec v base) as [L|L].
  - destruct (digit_char_ok base v ltac:(lia) ltac:(lia)) as [D E]. exists [digit_char v]. split; [discriminate|]. split; [constructor; [assumption|constructor]|]. unfold number. cbn. lia.
  - pose proof (Z.mod_pos_bound v base ltac:(lia)) as M. destruct (IH (v / base)) as (ds & N & F & E).
    { split; [apply Z.div_pos; lia|apply Z.div_lt; lia]. } { apply Z.div_pos; lia. }
    destruct (digit_char_ok base (v mod base) ltac:(lia) M) as [D E2]. exists (ds ++ [digit_char (v mod base)]). split; [destruct ds; discriminate|].
    split; [apply Forall_app; split; [exact F|constructor; [assumption|constructor]]|]. rewrite number_snoc, E, E2. pose proof (Z.div_mod v base ltac:(lia)). lia.
Qed.

(** * Lookup *)
Lemma NoDup_map_inj {T} (f : T -> list Z) l : NoDup l -> (forall a b, In a l -> In b l -> f a = f b -> a = b) -> NoDup (map f l).
Proof.
  induction 1 as [|x l N ND IH]; intros Hi; [constructor|]. cbn [map]. constructor.
  - intros H. apply in_map_iff in H. destruct H as (y & E & Hy). apply N. rewrite (Hi x y); [exact Hy|left; reflexivity|right; exact Hy|congruence].
  - apply IH. intros a b Ha Hb. apply Hi; right; assumption.
Qed.
Lemma find_name_none n ds : find_name n ds = None <-> ~ In n (map filename ds).
Proof.
  induction ds as [|d r IH]; cbn [find_name map In]; [tauto|]. destruct (zlist_eqb n (filename d)) eqn:E.
  - apply zlist_eqb_eq in E. split; [discriminate|]. intros H. exfalso. apply H. left. congruence.
  - apply zlist_eqb_neq in E. rewrite IH. intuition congruence.
Qed.
Lemma find_name_name n ds d : find_name n ds = Some d -> filename d = n.
Proof. induction ds as [|x r IH]; cbn [find_name]; [discriminate|]. destruct (zlist_eqb n (filename x)) eqn:E; [|exact IH]. intros H. injection H as <-. apply zlist_eqb_eq in E. auto. Qed.
Lemma find_name_in ds d : NoDup (map filename ds) -> In d ds -> find_name (filename d) ds = Some d.
Proof.
  induction ds as [|x r IH]; intros N H; [destruct H|]. cbn [find_name map] in *. inversion N as [|? ? N1 N2]; subst. destruct H as [-> |H].
  - replace (zlist_eqb (filename d) (filename d)) with true by (symmetry; apply zlist_eqb_eq; reflexivity). reflexivity.
  - destruct (zlist_eqb (filename d) (filename x)) eqn:E; [|apply IH; assumption]. apply zlist_eqb_eq in E. exfalso. apply N1. rewrite <- E. apply in_map. exact H.
Qed.
Lemma find_name3_none n ds : find_name3 n ds = None <-> ~ In n (map d3_name ds).
Proof.
  induction ds as [|d r IH]; cbn [find_name3 map In]; [tauto|]. destruct (zlist_eqb n (d3_name d)) eqn:E.
  - apply zlist_eqb_eq in E. split; [discriminate|]. intros H. exfalso. apply H. left. congruence.
  - apply zlist_eqb_neq in E. rewrite IH. intuition congruence.
Qed.
Lemma find_name3_name n ds d : find_name3 n ds = Some d -> d3_name d = n.
Proof. induction ds as [|x r IH]; cbn [find_name3]; [discriminate|]. destruct (zlist_eqb n (d3_name x)) eqn:E; [|exact IH]. intros H. injection H as <-. apply zlist_eqb_eq in E. auto. Qed.
Lemma find_name3_in ds d : NoDup (map d3_name ds) -> In d ds -> find_name3 (d3_name d) ds = Some d.
Proof.
  induction ds as [|x r IH]; intros N H; [destruct H|]. cbn [find_name3 map] in *. inversion N as [|? ? N1 N2]; subst. destruct H as [-> |H].
  - replace (zlist_eqb (d3_name d) (d3_name d)) with true by (symmetry; apply zlist_eqb_eq; reflexivity). reflexivity.
  - destruct (zlist_eqb (d3_name d) (d3_name x)) eqn:E; [|apply IH; assumption]. apply zlist_eqb_eq in E. exfalso. apply N1. rewrite <- E. apply in_map. exact H.
Qed.
Lemma NoDup_zrange' a b : NoDup (zrange a b).
Proof.
  unfold zrange. generalize (Z.to_nat (b - a)). intros n. revert a. induction n as [|n IH]; intros a; cbn [zseq_nat]; constructor; [|apply IH].
  intros H. apply In_zseq_nat in H. lia.
Qed.

(** * Atari DOS 2 *)
Lemma listing_NoDup im : consistent im -> NoDup (listing im).
Proof.
  intros C. destruct (consistent_view im C) as (k & E & G & D & _). rewrite E, listing_view. unfold live_slots. apply NoDup_map_inj.
  - apply NoDup_filter, NoDup_zrange'.
  - intros i j Hi Hj En. apply filter_In in Hi, Hj. rewrite In_zrange in Hi, Hj. destruct Hi as [Hi Li], Hj as [Hj Lj].
    apply flag_bit_has in Li, Lj. eapply live_unique; eassumption.
Qed.
(** What the commands see of an Atari DOS image.  write_file ignores the file type. *)
Definition atari_api : api := mkApi aimg dirent open_image a_bytes a_files filename
  (fun im n => find_name n (a_files im)) get_file (fun im n _ d => write_file im n d) delete_file (fun im => shred im 0) [].
Definition atari_name (n : list Z) : Prop := storable n /\ stored_name n = n.
Definition atari_data (d : list Z) : Prop := d <> [] /\ bytes_ok d.
Lemma look_atari im n : look atari_api im n = fs_of im n.
Proof. unfold look, fs_of, find_file. cbn [atari_api p_find p_read]. destruct (find_name n (a_files im)); reflexivity. Qed.
Lemma fs_of_answers im m : (forall n, find_file im n = Err (EAtr FileNotFound) \/ exists d, find_file im n = Ok d) -> (forall n, fs_of im n = m n) -> answers im m.
Proof.
  intros T H n. rewrite <- H. unfold fs_of. destruct (T n) as [->|(d & ->)]; reflexivity.
Qed.
Lemma find_total_c im n : consistent im -> find_file im n = Err (EAtr FileNotFound) \/ exists d, find_file im n = Ok d.
Proof.
  intros C. destruct (consistent_view im C) as (k & E & G & D & _). rewrite E. destruct (find_view (a_hdr im) (a_bytes im) k n G D) as [(i & c & _ & ->)|[_ ->]]; eauto.
Qed.
Lemma listed_found im n : consistent im -> In n (listing im) -> exists d, find_file im n = Ok d.
Proof.
  intros C Hin. destruct (consistent_view im C) as (k & E & G & D & _). rewrite E in Hin |- *.
  destruct (find_view (a_hdr im) (a_bytes im) k n G D) as [(i & c & _ & ->)|[N _]]; eauto. exfalso. apply N. apply In_listing in Hin. exact Hin.
Qed.
Lemma files_count im : zlen (a_files im) = zlen (listing im).
Proof. unfold listing, zlen. rewrite map_length. reflexivity. Qed.
Lemma atari_lawful : lawful atari_api consistent atari_name (fun _ d => atari_data d) (fun im k => zlen (a_files im) + k <= 64) (fun d => d)
  (fun e => e = EAtr NotEnoughSpaceOnDisk).
Proof.
  constructor; cbn [atari_api p_img p_ent p_open p_bytes p_files p_name p_find p_read p_write p_delete].
  - intros im [C _]. exact C.
  - intros im n C. rewrite find_name_none. destruct (in_dec (list_eq_dec Z.eq_dec) n (map filename (a_files im))) as [Hin|Hin]; [right|left; exact Hin].
    destruct (listed_found im n C Hin) as (d & E). exists d. rewrite look_atari. unfold fs_of. rewrite E. reflexivity.
  - intros im n ft d im' C [N1 N2] [D1 D2] Ft Fn E. apply find_name_none in Fn.
    assert (L : legal_write im n d) by (split; [exact N1|]; split; [exact D1|]; split; [exact D2|]; rewrite N2; split; [exact Fn|lia]).
    destruct (write_master im n d C L) as [(_ & im2 & c & E2 & W)|(_ & E2)]; [|congruence]. rewrite E in E2. injection E2 as <-.
    split; [apply (wr_consistent _ _ _ _ _ W)|]. split; [rewrite look_atari; unfold fs_of; rewrite <- N2 at 1; rewrite (wr_read _ _ _ _ _ W); reflexivity|].
    split; [intros m Hm; rewrite !look_atari; unfold fs_of; rewrite (wr_others _ _ _ _ _ W m) by congruence; reflexivity|].
    intros k Hk Hf. destruct (wr_listing _ _ _ _ _ W) as (l1 & l2 & E1 & E2). rewrite files_count in Hf |- *. rewrite E2, E1 in *.
    unfold zlen in *. rewrite !app_length in *. cbn [length]. lia.
  - intros im n ft d im' e C [N1 N2] [D1 D2] Ft Fn E. apply find_name_none in Fn.
    assert (L : legal_write im n d) by (split; [exact N1|]; split; [exact D1|]; split; [exact D2|]; rewrite N2; split; [exact Fn|lia]).
    destruct (write_master im n d C L) as [(_ & im2 & c & E2 & W)|(_ & E2)]; congruence.
  - intros im n d H. eapply find_name_name. exact H.
  - intros im d C Hd. apply find_name_in; [apply listing_NoDup; exact C|exact Hd].
  - intros im n C Fn. assert (Hin : In n (listing im)).
    { destruct (in_dec (list_eq_dec Z.eq_dec) n (listing im)) as [H|H]; [exact H|]. apply find_name_none in H. contradiction. }
    destruct (delete_master im n C Hin) as (im' & c & E & W). exists im'. split; [exact E|]. split; [apply (dr_consistent _ _ _ _ W)|].
    split; [rewrite look_atari; unfold fs_of; rewrite (dr_gone _ _ _ _ W); reflexivity|].
    split; [intros m Hm; rewrite !look_atari; unfold fs_of; rewrite (dr_others _ _ _ _ W m Hm); reflexivity|].
    intros k Hf. destruct (dr_listing _ _ _ _ W) as (l1 & l2 & E1 & E2). rewrite files_count in Hf |- *. rewrite E2, E1 in *.
    unfold zlen in *. rewrite !app_length in *. cbn [length] in Hf. lia.
  - intros im j k Hjk Hf. lia.
Qed.

(** * DOS 3.3 *)
Lemma listing3_NoDup im : consistent3 im -> NoDup (listing3 im).
Proof.
  intros C. destruct (consistent3_view im C) as (cat & k & E & D). rewrite E, listing3_view by exact D. unfold live_slots3. apply NoDup_map_inj.
  - apply NoDup_filter, NoDup_zrange'.
  - intros i j Hi Hj En. apply filter_In in Hi, Hj. rewrite In_zrange in Hi, Hj. destruct Hi as [Hi Li], Hj as [Hj Lj].
    apply (live_b_spec _ _ _ _ D Hi) in Li. apply (live_b_spec _ _ _ _ D Hj) in Lj. eapply live_names; eassumption.
Qed.
Definition dos33_api : api := mkApi img33 ent open33 i_bytes i_files d3_name
  (fun im n => find_name3 n (i_files im)) get_file3 write_file3 delete_file3 (fun im => shred3 im 0) [66].
Definition dos33_name (n : list Z) : Prop := ascii n /\ stored_name3 n = n.
Definition dos33_data (ft d : list Z) : Prop := type_code ft <> 0 /\ d <> [] /\ bytes_ok d.
Lemma look_dos33 im n : look dos33_api im n = fs_of3 im n.
Proof. unfold look, fs_of3, find_file3. cbn [dos33_api p_find p_read]. destruct (find_name3 n (i_files im)); reflexivity. Qed.
Lemma listed_found3 im n : consistent3 im -> In n (listing3 im) -> exists d, find_file3 im n = Ok d.
Proof.
  intros C Hin. destruct (consistent3_view im C) as (cat & k & E & D). rewrite E in Hin |- *.
  destruct (find_view3 _ cat k n D) as [(i & tl & dl & _ & -> & _)|(N & _)]; eauto. exfalso. apply N. apply In_listing3 in Hin; assumption.
Qed.
Lemma dos33_lawful : lawful dos33_api consistent3 dos33_name dos33_data (fun _ _ => True) padded
  (fun e => e = EAtr NotEnoughSpaceOnDisk \/ e = EAtr NoSpaceInDirectory).
Proof.
  constructor; cbn [dos33_api p_img p_ent p_open p_bytes p_files p_name p_find p_read p_write p_delete].
  - intros im [C _]. exact C.
  - intros im n C. rewrite find_name3_none. destruct (in_dec (list_eq_dec Z.eq_dec) n (map d3_name (i_files im))) as [Hin|Hin]; [right|left; exact Hin].
    destruct (listed_found3 im n C Hin) as (d & E). exists d. rewrite look_dos33. unfold fs_of3. rewrite E. reflexivity.
  - intros im n ft d im' C [N1 N2] (D1 & D2 & D3) _ Fn E. apply find_name3_none in Fn.
    assert (L : legal_write3 im n ft d) by (split; [exact N1|]; split; [exact D1|]; split; [exact D2|]; split; [exact D3|]; rewrite N2; exact Fn).
    destruct (write_master3 im n ft d C L) as [(_ & _ & im2 & tl & dl & E2 & W)|[(_ & E2)|[(_ & im2 & l & E2 & _)|(_ & _ & im2 & l & E2 & _)]]]; try congruence.
    rewrite E in E2. injection E2 as <-.
    split; [apply (wr3_consistent _ _ _ _ _ _ _ W)|]. split; [rewrite look_dos33; unfold fs_of3; rewrite <- N2 at 1; rewrite (wr3_read _ _ _ _ _ _ _ W); reflexivity|].
    split; [intros m Hm; rewrite !look_dos33; unfold fs_of3; rewrite (proj1 (wr3_others _ _ _ _ _ _ _ W m ltac:(congruence))); reflexivity|auto].
  - intros im n ft d im' e C [N1 N2] (D1 & D2 & D3) _ Fn E. apply find_name3_none in Fn.
    assert (L : legal_write3 im n ft d) by (split; [exact N1|]; split; [exact D1|]; split; [exact D2|]; split; [exact D3|]; rewrite N2; exact Fn).
    destruct (write_master3 im n ft d C L) as [(_ & _ & im2 & tl & dl & E2 & W)|[(_ & E2)|[(_ & im2 & l & E2 & _)|(_ & _ & im2 & l & E2 & _)]]]; rewrite E in E2; injection E2; intros; subst; auto; discriminate.
  - intros im n d H. eapply find_name3_name. exact H.
  - intros im d C Hd. apply find_name3_in; [apply listing3_NoDup; exact C|exact Hd].
  - intros im n C Fn. assert (Hin : In n (listing3 im)).
    { destruct (in_dec (list_eq_dec Z.eq_dec) n (listing3 im)) as [H|H]; [exact H|]. apply find_name3_none in H. contradiction. }
    destruct (delete_master3 im n C Hin) as (im' & tl & dl & E & W). exists im'. split; [exact E|]. split; [apply (dr3_consistent _ _ _ _ _ W)|].
    split; [rewrite look_dos33; unfold fs_of3; rewrite (dr3_gone _ _ _ _ _ W); reflexivity|].
    split; [intros m Hm; rewrite !look_dos33; unfold fs_of3; rewrite (proj1 (dr3_others _ _ _ _ _ W m Hm)); reflexivity|auto].
  - auto.
Qed.
