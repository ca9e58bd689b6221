(** Atari DOS: no sector is lost or invented. *)
From Coq Require Import Permutation.
From Verif Require Import Base BaseLemmas DiskModel DirLemmas AtariModel AtariSpec AtariGeom AtariDir AtariVtoc AtariChain AtariSectors AtariWrite AtariDelete AtariShred AtariOps AtariSession AtariMore AtariHeader AtariProps.
From Verif Require CliInst.

(** A sector of a listed file. *)
Definition owned (im : aimg) (s : Z) : Prop := exists m c, sectors_of im m c /\ In s c.
(** A sector that the map covers and that is accounted for. *)
Definition accounted (im : aimg) (s : Z) : Prop := is_free_sector im s \/ (s < 720 /\ owned im s).

Lemma disk_k_det g b k k' : dos2_disk g b k -> dos2_disk g b k' -> k = k'.
Proof.
  intros D D'. pose proof (dk_k _ _ _ D). pose proof (dk_k _ _ _ D'). pose proof (num_slots_64 g ltac:(apply (dk_ss _ _ _ D))) as N.
  destruct (Z.lt_total k k') as [L|[L|L]]; [|assumption|]; exfalso.
  - destruct (dk_used _ _ _ D' k ltac:(lia)) as [X _]. apply X. apply (dk_unused _ _ _ D). lia.
  - destruct (dk_used _ _ _ D k' ltac:(lia)) as [X _]. apply X. apply (dk_unused _ _ _ D'). lia.
Qed.
Lemma file_in_det g b k n i c i' c' : dos2_disk g b k -> file_in g b k n i c -> file_in g b k n i' c' -> i = i' /\ c = c'.
Proof.
  intros D (H1 & H2 & H3 & H4) (H1' & H2' & H3' & H4'). assert (i = i') by (eapply live_unique; eauto; congruence). subst i'. split; [reflexivity|]. exact (chain_det _ _ _ _ _ H4 _ H4').
Qed.
Lemma sectors_det im n c c' : sectors_of im n c -> sectors_of im n c' -> c = c'.
Proof.
  intros (k & i & D & F) (k' & i' & D' & F'). rewrite <- (disk_k_det _ _ _ _ D D') in F'. apply (file_in_det _ _ _ _ _ _ _ _ D F F').
Qed.
Lemma sectors_listed im n c : consistent im -> sectors_of im n c -> In n (listing im).
Proof.
  intros C (k & i & D & F). destruct (consistent_view im C) as (k' & E & G & D' & _). rewrite (disk_k_det _ _ _ _ D D') in F.
  rewrite E. apply In_listing. destruct F as (H1 & H2 & H3 & _). exists i. auto.
Qed.
Lemma listed_sectors im n : consistent im -> In n (listing im) -> exists c, sectors_of im n c.
Proof.
  intros C L. destruct (consistent_view im C) as (k & E & G & D & _). rewrite E in L. apply In_listing in L.
  destruct (listed_file (a_hdr im) (a_bytes im) k D n L) as (i & c & F & _). exists c, k, i. auto.
Qed.

(** * What each operation does to the sectors of the files *)
Lemma write_sectors im n d im' : consistent im -> legal_write im n d -> write_file im n d = (im', Ok tt) ->
  forall m, m <> stored_name n -> forall c, sectors_of im' m c <-> sectors_of im m c.
Proof.
  intros C (Hv & Hd & Hdok & Hnl & H64) E0. pose proof C as C0. destruct (consistent_view im C) as (k & E & G & D & Hh). set (h := a_hdr im) in *. set (b := a_bytes im) in *.
  rewrite E in Hnl, H64, E0. rewrite In_listing in Hnl.
  destruct (Z_le_dec (sectors_needed (h_payload h) (zlen d)) (free_count (geom_of h) b)) as [Hs|Hs].
  2: { rewrite (write_file_refused_view h b k n d) in E0; try assumption; [discriminate| |lia]. destruct Hv as (B & _). revert B. apply Forall_impl. unfold is_byte. intros; lia. }
  destruct (write_file_view h b k n d G D Hv Hd Hdok Hnl H64 Hs) as (b' & k' & i & c & Ew & W). rewrite Ew in E0. injection E0 as <-.
  pose proof (we_disk _ _ _ _ _ _ _ _ _ W) as D'.
  assert (Fw : forall m cj, sectors_of im m cj -> sectors_of (view h b' k') m cj).
  { intros m cj (k0 & j & D0 & F). fold h b in D0, F. rewrite (disk_k_det _ _ _ _ D0 D) in F. exists k', j. cbn [view a_hdr a_bytes]. split; [exact D'|]. apply (we_old _ _ _ _ _ _ _ _ _ W). exact F. }
  intros m Nm cj. split; [|apply Fw]. intros S. pose proof S as (k0 & j & D0 & F). cbn [view a_hdr a_bytes] in D0, F.
  rewrite (disk_k_det _ _ _ _ D0 D') in F. assert (L : listed (geom_of h) b' k' m) by (destruct F as (H1 & H2 & H3 & _); exists j; auto).
  destruct (we_only _ _ _ _ _ _ _ _ _ W m L) as [X|X]; [contradiction|].
  destruct (listed_file h b k D m X) as (j1 & c1 & F1 & _). assert (S1 : sectors_of im m c1) by (exists k, j1; auto).
  rewrite <- (sectors_det _ _ _ _ (Fw _ _ S1) S). exact S1.
Qed.
Lemma delete_sectors im n im' : consistent im -> In n (listing im) -> delete_file im n = (im', Ok tt) ->
  forall m, m <> n -> forall c, sectors_of im' m c <-> sectors_of im m c.
Proof.
  intros C L E0. destruct (consistent_view im C) as (k & E & G & D & Hh). set (h := a_hdr im) in *. set (b := a_bytes im) in *.
  rewrite E in L. apply In_listing in L. destruct (listed_file h b k D n L) as (i & c & F & Hne & _).
  destruct (delete_file_view h b k n i c G D F) as (b' & Ed & W). rewrite E, Ed in E0. injection E0 as <-.
  pose proof (de_disk _ _ _ _ _ _ W) as D'. destruct F as (Hi & Li & Ni & _). destruct (de_slot _ _ _ _ _ _ W) as (_ & Dd & _).
  assert (Fw : forall m cj, m <> n -> sectors_of im m cj -> sectors_of (view h b' k) m cj).
  { intros m cj Nm (k0 & j & D0 & F). fold h b in D0, F. rewrite (disk_k_det _ _ _ _ D0 D) in F. exists k, j. cbn [view a_hdr a_bytes]. split; [exact D'|].
    apply (de_old _ _ _ _ _ _ W); [|exact F]. intros ->. destruct F as (_ & _ & X & _). congruence. }
  intros m Nm cj. split; [|apply Fw; exact Nm]. intros S. pose proof S as (k0 & j & D0 & F). cbn [view a_hdr a_bytes] in D0, F.
  rewrite (disk_k_det _ _ _ _ D0 D') in F. destruct F as (H1 & H2 & H3 & _). assert (Nj : j <> i) by (intros ->; contradiction).
  destruct (same_entry_live _ _ _ _ (de_slots _ _ _ _ _ _ W j H1 Nj)) as [E1 E2].
  destruct (listed_file h b k D m ltac:(exists j; rewrite <- E2; split; [exact H1|]; split; [apply E1; exact H2|exact H3])) as (j1 & c1 & F1 & _). assert (S1 : sectors_of im m c1) by (exists k, j1; auto).
  rewrite <- (sectors_det _ _ _ _ (Fw _ _ Nm S1) S). exact S1.
Qed.
Lemma shred_sectors im fill im' r : consistent im -> shred im fill = (im', r) ->
  (forall m c, sectors_of im' m c <-> sectors_of im m c) /\ (forall s, is_free_sector im' s <-> is_free_sector im s) /\ a_hdr im' = a_hdr im /\ free_sectors_of im' = free_sectors_of im.
Proof.
  intros C E0. destruct (consistent_view im C) as (k & E & G & D & Hh). set (h := a_hdr im) in *. set (b := a_bytes im) in *.
  destruct (shred_view h b k fill G D) as (b' & Es & W). rewrite E, Es in E0. injection E0 as <- _. pose proof (se_disk _ _ _ _ _ W) as D'. pose proof (dk_k _ _ _ D) as Hk.
  pose proof (num_slots_64 (geom_of h) ltac:(apply (dk_ss _ _ _ D))) as Hns.
  assert (Fw : forall m cj, sectors_of im m cj -> sectors_of (view h b' k) m cj).
  { intros m cj (k0 & j & D0 & F). fold h b in D0, F. rewrite (disk_k_det _ _ _ _ D0 D) in F. exists k, j. cbn [view a_hdr a_bytes]. split; [exact D'|]. apply (se_files _ _ _ _ _ W). exact F. }
  split.
  { intros m cj. split; [|apply Fw]. intros S. pose proof S as (k0 & j & D0 & F). cbn [view a_hdr a_bytes] in D0, F.
    rewrite (disk_k_det _ _ _ _ D0 D') in F. destruct F as (H1 & H2 & H3 & _). rewrite (se_slots _ _ _ _ _ W) in H2, H3 by lia.
    destruct (listed_file h b k D m ltac:(exists j; auto)) as (j1 & c1 & F1 & _). assert (S1 : sectors_of im m c1) by (exists k, j1; auto).
    rewrite <- (sectors_det _ _ _ _ (Fw _ _ S1) S). exact S1. }
  assert (B : forall s, free_bit (geom_of h) b' s = free_bit (geom_of h) b s).
  { intros s. unfold free_bit. f_equal. f_equal. rewrite (se_sector _ _ _ _ _ W) by (pose proof (dk_max _ _ _ D) as M; change (g_max (geom_of h)) with (h_max h) in M; lia).
    assert (X : is_free (geom_of h) b 360 = false); [|rewrite X; reflexivity].
    unfold is_free. destruct ((0 <=? 360) && (360 <? 720) && (free_bit (geom_of h) b 360 =? 1)) eqn:Q; [|exact Q]. exfalso.
    pose proof (dk_free _ _ _ D 360 ltac:(lia) ltac:(lia)) as X. unfold data_sector in X. lia. }
  split; [intros s; unfold is_free_sector; cbn [view a_hdr a_bytes]; fold h b; rewrite B; reflexivity|]. split; [reflexivity|].
  unfold free_sectors_of, free_count. cbn [view a_hdr a_bytes]. fold h b. f_equal. apply map_ext. exact B.
Qed.

Lemma write_owned im n d im' c : consistent im -> legal_write im n d -> write_file im n d = (im', Ok tt) -> write_result im im' n d c ->
  forall s, owned im' s <-> owned im s \/ In s c.
Proof.
  intros C L E W s. pose proof (write_sectors im n d im' C L E) as S. destruct L as (_ & _ & _ & Nl & _). split.
  - intros (m & c' & Sm & H). destruct (list_eq_dec Z.eq_dec m (stored_name n)) as [->|Nm].
    + right. rewrite (sectors_det _ _ _ _ (wr_sectors _ _ _ _ _ W) Sm). exact H.
    + left. exists m, c'. split; [apply S; assumption|exact H].
  - intros [(m & c' & Sm & H)|H].
    + exists m, c'. split; [|exact H]. apply S; [|exact Sm]. intros ->. apply Nl. exact (sectors_listed _ _ _ C Sm).
    + exists (stored_name n), c. split; [apply (wr_sectors _ _ _ _ _ W)|exact H].
Qed.
Lemma delete_owned im n im' c : consistent im -> In n (listing im) -> ~ In n (listing im') -> delete_file im n = (im', Ok tt) -> delete_result im im' n c ->
  forall s, owned im s <-> owned im' s \/ In s c.
Proof.
  intros C L Nl E W s. pose proof (delete_sectors im n im' C L E) as S. pose proof (dr_consistent _ _ _ _ W) as C'. split.
  - intros (m & c' & Sm & H). destruct (list_eq_dec Z.eq_dec m n) as [->|Nm].
    + right. rewrite (sectors_det _ _ _ _ (dr_sectors _ _ _ _ W) Sm). exact H.
    + left. exists m, c'. split; [apply S; assumption|exact H].
  - intros [(m & c' & Sm & H)|H].
    + exists m, c'. split; [|exact H]. apply S; [|exact Sm]. intros ->. apply Nl. exact (sectors_listed _ _ _ C' Sm).
    + exists n, c. split; [apply (dr_sectors _ _ _ _ W)|exact H].
Qed.

(** * The step of a session *)
Definition file_cost (im : aimg) (n : list Z) : Z :=
  match find_file im n with Ok d => sectors_needed (payload_of im) (zlen d) | Err _ => 0 end.
(** What the sizes of the listed files add up to, in sectors. *)
Definition spent (im : aimg) : Z := fold_right (fun n s => file_cost im n + s) 0 (listing im).
(** Every file occupies as few sectors as its contents need, among those of the map. *)
Definition compact (im : aimg) : Prop := forall n c d, sectors_of im n c -> find_file im n = Ok d ->
  zlen c = sectors_needed (payload_of im) (zlen d) /\ (forall s, In s c -> s < 720).

Lemma sum_app {A} (f : A -> Z) l1 l2 : fold_right (fun n s => f n + s) 0 (l1 ++ l2) = fold_right (fun n s => f n + s) 0 l1 + fold_right (fun n s => f n + s) 0 l2.
Proof. induction l1 as [|x l IH]; cbn [fold_right app]; [lia|rewrite IH; lia]. Qed.
Lemma sum_ext {A} (f g : A -> Z) l : (forall x, In x l -> f x = g x) -> fold_right (fun n s => f n + s) 0 l = fold_right (fun n s => g n + s) 0 l.
Proof. induction l as [|x l IH]; intros H; [reflexivity|]. cbn [fold_right]. rewrite (H x (or_introl eq_refl)), IH; [reflexivity|intros; apply H; right; assumption]. Qed.

Lemma removed_out (l1 l2 : list (list Z)) n : NoDup (l1 ++ n :: l2) -> ~ In n (l1 ++ l2).
Proof. apply NoDup_remove_2. Qed.
Lemma delete_unlists im n im' c : consistent im -> delete_result im im' n c -> ~ In n (listing im').
Proof.
  intros C W. destruct (dr_listing _ _ _ _ W) as (l1 & l2 & E1 & E2). rewrite E2. apply removed_out. rewrite <- E1. apply CliInst.listing_NoDup. exact C.
Qed.

Lemma step_accounted im o : consistent im -> strict_op im o ->
  consistent (fst (do_op im o)) /\ a_hdr (fst (do_op im o)) = a_hdr im /\ forall s, accounted (fst (do_op im o)) s <-> accounted im s.
Proof.
  intros C L. destruct o as [n d|n|f]; cbn [strict_op do_op] in *.
  - destruct (write_master im n d C L) as [(_ & im' & c & E & W)|(_ & E)]; rewrite E; cbn [fst]; [|tauto].
    split; [apply (wr_consistent _ _ _ _ _ W)|]. split; [apply (wr_hdr _ _ _ _ _ W)|].
    intros s. unfold accounted. rewrite (wr_free _ _ _ _ _ W), (write_owned im n d im' c C L E W). pose proof (wr_were_free _ _ _ _ _ W s) as F.
    destruct (in_dec Z.eq_dec s c) as [H|H]; [|tauto]. specialize (F H). pose proof F as [X _]. split; [tauto|]. intros _. right. split; [lia|tauto].
  - destruct (delete_master im n C L) as (im' & c & E & W). rewrite E. cbn [fst].
    split; [apply (dr_consistent _ _ _ _ W)|]. split; [apply (dr_hdr _ _ _ _ W)|].
    intros s. unfold accounted. rewrite (dr_free _ _ _ _ W), (delete_owned im n im' c C L (delete_unlists _ _ _ _ C W) E W). tauto.
  - destruct (shred_master im f C) as (im' & E & W). destruct (shred_sectors im f im' _ C E) as (S & F & H & _). rewrite E. cbn [fst].
    split; [apply (sr_consistent _ _ _ W)|]. split; [exact H|].
    intros s. unfold accounted. rewrite F. assert (O : owned im' s <-> owned im s); [|tauto].
    split; intros (m & c & Sm & Hs); exists m, c; (split; [apply S; exact Sm|exact Hs]).
Qed.
Lemma filter_all (f : Z -> bool) l : (forall x, In x l -> f x = true) -> filter f l = l.
Proof. induction l as [|x l IH]; intros H; [reflexivity|]. cbn [filter]. rewrite (H x (or_introl eq_refl)), IH; [reflexivity|intros; apply H; right; assumption]. Qed.
Lemma step_balance im o : consistent im -> compact im -> strict_op im o ->
  compact (fst (do_op im o)) /\ free_sectors_of (fst (do_op im o)) + spent (fst (do_op im o)) = free_sectors_of im + spent im.
Proof.
  intros C K L. destruct o as [n d|n|f]; cbn [strict_op do_op] in *.
  - destruct (write_master im n d C L) as [(_ & im' & c & E & W)|(_ & E)]; rewrite E; cbn [fst]; [|tauto].
    pose proof (write_sectors im n d im' C L E) as S. assert (P : payload_of im' = payload_of im) by (unfold payload_of; rewrite (wr_hdr _ _ _ _ _ W); reflexivity).
    split.
    + intros m c' d' Sm Fm. rewrite P. destruct (list_eq_dec Z.eq_dec m (stored_name n)) as [->|Nm].
      * rewrite (wr_read _ _ _ _ _ W) in Fm. injection Fm as <-. rewrite <- (sectors_det _ _ _ _ (wr_sectors _ _ _ _ _ W) Sm).
        split; [apply (wr_count _ _ _ _ _ W)|]. intros s Hs. destruct (wr_were_free _ _ _ _ _ W s Hs) as [X _]. lia.
      * rewrite (wr_others _ _ _ _ _ W m Nm) in Fm. apply S in Sm; [|exact Nm]. exact (K m c' d' Sm Fm).
    + destruct L as (_ & _ & _ & Nl & _). destruct (wr_listing _ _ _ _ _ W) as (l1 & l2 & E1 & E2). rewrite E1 in Nl. unfold spent. rewrite E1, E2, !sum_app. cbn [fold_right].
      assert (X : forall m, In m (l1 ++ l2) -> file_cost im' m = file_cost im m).
      { intros m Hm. unfold file_cost. rewrite P, (wr_others _ _ _ _ _ W); [reflexivity|]. intros ->. contradiction. }
      rewrite !(sum_ext (file_cost im') (file_cost im)) by (intros; apply X; apply in_or_app; auto). unfold file_cost at 2. rewrite (wr_read _ _ _ _ _ W), P, (wr_free_count _ _ _ _ _ W). lia.
  - destruct (delete_master im n C L) as (im' & c & E & W). rewrite E. cbn [fst].
    pose proof (delete_sectors im n im' C L E) as S. assert (P : payload_of im' = payload_of im) by (unfold payload_of; rewrite (dr_hdr _ _ _ _ W); reflexivity).
    pose proof (delete_unlists _ _ _ _ C W) as Nl. pose proof (dr_consistent _ _ _ _ W) as C'.
    split.
    + intros m c' d' Sm Fm. rewrite P. assert (Nm : m <> n) by (intros ->; apply Nl; exact (sectors_listed _ _ _ C' Sm)).
      rewrite (dr_others _ _ _ _ W m Nm) in Fm. apply S in Sm; [|exact Nm]. exact (K m c' d' Sm Fm).
    + destruct (dr_listing _ _ _ _ W) as (l1 & l2 & E1 & E2). rewrite E2 in Nl. unfold spent. rewrite E1, E2, !sum_app. cbn [fold_right].
      assert (X : forall m, In m (l1 ++ l2) -> file_cost im' m = file_cost im m).
      { intros m Hm. unfold file_cost. rewrite P, (dr_others _ _ _ _ W); [reflexivity|]. intros ->. contradiction. }
      rewrite !(sum_ext (file_cost im') (file_cost im)) by (intros; apply X; apply in_or_app; auto). rewrite (dr_free_count _ _ _ _ W).
      destruct (find_file im n) as [d'|e] eqn:Fn.
      * destruct (K n c d' (dr_sectors _ _ _ _ W) Fn) as [K1 K2]. rewrite filter_all by (intros s Hs; specialize (K2 s Hs); lia). unfold file_cost at 4. rewrite Fn. lia.
      * exfalso. destruct (consistent_view im C) as (k & Ev & G & D & _). pose proof L as L0. rewrite Ev in L0. apply In_listing in L0. destruct (listed_file _ _ _ D n L0) as (i & c0 & F0 & _).
        rewrite Ev, (find_of_file_in _ _ _ _ _ _ G D F0) in Fn. discriminate.
  - destruct (shred_master im f C) as (im' & E & W). destruct (shred_sectors im f im' _ C E) as (S & F & H & Fc). rewrite E. cbn [fst].
    assert (P : payload_of im' = payload_of im) by (unfold payload_of; rewrite H; reflexivity). split.
    + intros m c d Sm Fm. rewrite P. rewrite (sr_files _ _ _ W) in Fm. apply (K m); [apply S; exact Sm|exact Fm].
    + rewrite Fc. unfold spent. rewrite (sr_listing _ _ _ W). f_equal. apply sum_ext. intros m _. unfold file_cost. rewrite (sr_files _ _ _ W), P. reflexivity.
Qed.
