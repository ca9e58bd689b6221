(** C101: on an Atari DOS disk no sector is lost or invented. *)
From Coq Require Import Permutation.
From Verif Require Import Base BaseLemmas DiskModel DirLemmas AtariModel AtariSpec AtariGeom AtariDir AtariVtoc AtariChain AtariSectors AtariWrite AtariDelete AtariShred AtariOps AtariSession AtariMore AtariBlank AtariHeader AtariProps AtariDemo AtariBalance.
From Verif Require CliInst.

Lemma run_step ops : forall im m, consistent im -> all_ops strict_op im ops ->
  consistent (fst (run im m ops)) /\ a_hdr (fst (run im m ops)) = a_hdr im /\ (forall s, accounted (fst (run im m ops)) s <-> accounted im s) /\
  (compact im -> compact (fst (run im m ops)) /\ free_sectors_of (fst (run im m ops)) + spent (fst (run im m ops)) = free_sectors_of im + spent im).
Proof.
  induction ops as [|o r IH]; intros im m C L; [cbn [run fst]; tauto|]. cbn [all_ops] in L. destruct L as [L1 L2].
  destruct (step_accounted im o C L1) as (C1 & H1 & A1). pose proof (step_balance im o C) as B1. cbn [run].
  destruct (do_op im o) as [im1 res]. cbn [fst] in *. destruct (IH im1 (map_step m o res) C1 L2) as (C2 & H2 & A2 & B2).
  split; [exact C2|]. split; [congruence|]. split; [intros s; rewrite A2; apply A1|].
  intros K. destruct (B1 K L1) as [K1 E1]. destruct (B2 K1) as [K2 E2]. split; [exact K2|lia].
Qed.

Lemma unique_split {A} (x : A) : forall l1 l2 m1 m2, NoDup (l1 ++ x :: l2) -> l1 ++ x :: l2 = m1 ++ x :: m2 -> m1 ++ m2 = l1 ++ l2.
Proof.
  induction l1 as [|y l1 IH]; intros l2 m1 m2 N E; destruct m1 as [|z m1]; cbn [app] in *; inversion E; subst.
  - reflexivity.
  - exfalso. inversion N as [|? ? X _]. apply X, in_or_app. right. left. reflexivity.
  - exfalso. inversion N as [|? ? X _]. apply X, in_or_app. right. left. reflexivity.
  - f_equal. inversion N. eapply IH; eassumption.
Qed.
Lemma sum_bits h b : 0 <= fold_right Z.add 0 (map (free_bit (geom_of h) b) (zrange 0 720)).
Proof.
  generalize (zrange 0 720). intros l. induction l as [|s l IH]; cbn [map fold_right]; [lia|]. destruct (free_bit_bit h b s); lia.
Qed.

(** A sector is free or belongs to one file, never both. *)
Theorem C101_one_owner im s : consistent im ->
  (is_free_sector im s -> ~ owned im s) /\
  (forall m1 m2 c1 c2, sectors_of im m1 c1 -> sectors_of im m2 c2 -> In s c1 -> In s c2 -> m1 = m2).
Proof.
  intros C. split.
  - intros [Hs Fb] (m & c & (k & i & D & F) & H). destruct F as (Hi & Li & Ni & Ch). destruct (dk_files _ _ _ D i Hi Li) as (_ & _ & c' & Ch' & _ & A).
    rewrite (chain_det _ _ _ _ _ Ch _ Ch') in H. specialize (A s H ltac:(lia)). congruence.
  - intros m1 m2 c1 c2 (k & i & D & F) (k' & i' & D' & F') H H'. rewrite <- (disk_k_det _ _ _ _ D D') in F'.
    destruct F as (Hi & Li & Ni & Ch). destruct F' as (Hi' & Li' & Ni' & Ch'). subst m1 m2. f_equal. f_equal.
    destruct (Z.eq_dec i' i) as [->|Ne]; [reflexivity|]. exfalso. destruct (dk_files _ _ _ D i Hi Li) as (Ap & _).
    exact (Ap i' c1 c2 s Hi' Ne Li' Ch Ch' H H').
Qed.
Print Assumptions C101_one_owner.

(** Over any session of writes, deletes and shreds, the sectors that are free
    or belong to a listed file are the same ones before and after. *)
Theorem C101_none_lost im ops : consistent im -> all_ops strict_op im ops ->
  let im' := fst (run im (fs_of im) ops) in forall s, accounted im' s <-> accounted im s.
Proof. intros C L. apply (run_step ops im (fs_of im) C L). Qed.
Print Assumptions C101_none_lost.

(** When the files are all gone again, every sector is as free as it was on the
    empty disk, whatever happened in between. *)
Theorem C101_emptied im ops : consistent im -> listing im = [] -> all_ops strict_op im ops ->
  let im' := fst (run im (fs_of im) ops) in listing im' = [] -> forall s, is_free_sector im' s <-> is_free_sector im s.
Proof.
  intros C E L im' E' s. destruct (run_step ops im (fs_of im) C L) as (C' & _ & A & _). fold im' in C', A. specialize (A s). unfold accounted in A.
  assert (N : ~ owned im s) by (intros (m & c & S & _); apply (sectors_listed _ _ _ C) in S; rewrite E in S; exact S).
  assert (N' : ~ owned im' s) by (intros (m & c & S & _); apply (sectors_listed _ _ _ C') in S; rewrite E' in S; exact S).
  tauto.
Qed.
Print Assumptions C101_emptied.

(** On a disk whose files take as few sectors as they can, the number of free
    sectors and the sizes of the files always add up to the same number. *)
Theorem C101_balance im ops : consistent im -> compact im -> all_ops strict_op im ops ->
  let im' := fst (run im (fs_of im) ops) in compact im' /\ free_sectors_of im' + spent im' = free_sectors_of im + spent im.
Proof. intros C K L. exact (proj2 (proj2 (proj2 (run_step ops im (fs_of im) C L))) K). Qed.
Print Assumptions C101_balance.

(** So the room left on a formatted disk depends on the files it holds only. *)
Theorem C101_formatted ss nsec ops : 128 <= ss <= 256 -> ss mod 16 = 0 -> 368 <= nsec -> plain_size ss nsec ->
  exists im, open_image (fmt_disk ss nsec) = Ok im /\ compact im /\ spent im = 0 /\
    (all_ops strict_op im ops -> let im' := fst (run im (fs_of im) ops) in
     free_sectors_of im' = zlen (filter (usable nsec) (zrange 0 720)) - spent im').
Proof.
  intros H1 H2 H3 P. destruct (fmt_opens ss nsec H1 H2 H3 P) as (im & O & [C T] & E & B & H). exists im. split; [exact O|].
  assert (C0 : consistent im) by (destruct T as (k & D & _); split; [exact C|exists k; exact D]).
  assert (K : compact im) by (intros n c d S _; exfalso; apply (sectors_listed _ _ _ C0) in S; rewrite E in S; exact S).
  split; [exact K|]. assert (Z0 : spent im = 0) by (unfold spent; rewrite E; reflexivity). split; [exact Z0|].
  intros L im'. destruct (C101_balance im ops C0 K L) as [_ X]. fold im' in X. rewrite Z0 in X.
  assert (F : free_sectors_of im = zlen (filter (usable nsec) (zrange 0 720))) by (unfold free_sectors_of; rewrite B, H, fmt_geom_of, fmt_free_count by assumption; reflexivity).
  lia.
Qed.
Print Assumptions C101_formatted.

(** Writing a file and deleting it again leaves the listing, the contents of
    every file and the free sectors as they were. *)
Theorem C101_undone im n d im1 : consistent im -> legal_write im n d -> write_file im n d = (im1, Ok tt) ->
  exists im2, delete_file im1 (stored_name n) = (im2, Ok tt) /\ consistent im2 /\ listing im2 = listing im /\
    (forall m, find_file im2 m = find_file im m) /\ (forall s, is_free_sector im2 s <-> is_free_sector im s) /\
    (forall m c, sectors_of im2 m c <-> sectors_of im m c) /\ free_sectors_of im2 = free_sectors_of im.
Proof.
  intros C L E. destruct (write_master im n d C L) as [(_ & im' & c & E' & W)|(_ & E')]; rewrite E' in E; [injection E as <-|discriminate].
  pose proof (wr_consistent _ _ _ _ _ W) as C1. destruct (wr_listing _ _ _ _ _ W) as (l1 & l2 & E1 & E2).
  assert (L1 : In (stored_name n) (listing im')) by (rewrite E2; apply in_or_app; right; left; reflexivity).
  destruct (delete_master im' (stored_name n) C1 L1) as (im2 & c2 & Ed & D). exists im2. split; [exact Ed|]. split; [apply (dr_consistent _ _ _ _ D)|].
  pose proof (delete_unlists _ _ _ _ C1 D) as N2. destruct L as (Hv & Hd & Hdok & Hnl & H64).
  assert (Lw : legal_write im n d) by (unfold legal_write; auto).
  pose proof (sectors_det _ _ _ _ (wr_sectors _ _ _ _ _ W) (dr_sectors _ _ _ _ D)) as <-.
  assert (Ab : find_file im (stored_name n) = Err (EAtr FileNotFound)).
  { destruct (consistent_view im C) as (k & Ev & _). rewrite Ev. apply find_file_missing. rewrite <- In_listing, <- Ev. exact Hnl. }
  split.
  { destruct (dr_listing _ _ _ _ D) as (m1 & m2 & E3 & E4). rewrite E4, E1. pose proof (CliInst.listing_NoDup im' C1) as ND. rewrite E2 in E3. rewrite E2 in ND.
    apply (unique_split (stored_name n)); [exact ND|exact E3]. }
  split.
  { intros m. destruct (list_eq_dec Z.eq_dec m (stored_name n)) as [->|Nm]; [rewrite (dr_gone _ _ _ _ D), Ab; reflexivity|].
    rewrite (dr_others _ _ _ _ D m Nm). apply (wr_others _ _ _ _ _ W m Nm). }
  split.
  { intros s. rewrite (dr_free _ _ _ _ D), (wr_free _ _ _ _ _ W). pose proof (wr_were_free _ _ _ _ _ W s) as F. destruct (in_dec Z.eq_dec s c) as [H|H]; [|tauto].
    specialize (F H). pose proof F as [X _]. split; [tauto|]. intros _. right. split; [exact H|lia]. }
  split.
  { intros m cm. destruct (list_eq_dec Z.eq_dec m (stored_name n)) as [->|Nm].
    - split; intros S; exfalso; [apply N2; exact (sectors_listed _ _ _ (dr_consistent _ _ _ _ D) S)|apply Hnl; exact (sectors_listed _ _ _ C S)].
    - rewrite (delete_sectors im' _ im2 C1 L1 Ed m Nm). apply (write_sectors im n d im' C Lw E' m Nm). }
  rewrite (dr_free_count _ _ _ _ D), (wr_free_count _ _ _ _ _ W). rewrite filter_all.
  - rewrite (wr_count _ _ _ _ _ W). lia.
  - intros s Hs. destruct (wr_were_free _ _ _ _ _ W s Hs) as [X _]. lia.
Qed.
Print Assumptions C101_undone.

(** Writing several files, stopping at the first that is refused. *)
Fixpoint write_all (im : aimg) (jobs : list (list Z * list Z)) : aimg * res unit :=
  match jobs with
  | [] => (im, Ok tt)
  | (n, d) :: r => match write_file im n d with (im', Ok _) => write_all im' r | (im', Err e) => (im', Err e) end
  end.
Definition writable (im : aimg) (jobs : list (list Z * list Z)) : Prop :=
  (forall n d, In (n, d) jobs -> storable n /\ d <> [] /\ bytes_ok d) /\
  NoDup (listing im ++ map (fun j => stored_name (fst j)) jobs) /\ zlen (listing im) + zlen jobs <= 64.
Definition needed (im : aimg) (jobs : list (list Z * list Z)) : Z :=
  fold_right (fun j s => sectors_needed (payload_of im) (zlen (snd j)) + s) 0 jobs.
Definition put_all (m : fsmap) (jobs : list (list Z * list Z)) : fsmap :=
  fold_left (fun m j => fs_put m (stored_name (fst j)) (snd j)) jobs m.

Lemma writable_cons im n d r : writable im ((n, d) :: r) -> legal_write im n d /\
  forall im' c, write_result im im' n d c -> writable im' r /\ needed im' r = needed im r /\ Permutation (listing im') (stored_name n :: listing im).
Proof.
  intros (H1 & H2 & H3). cbn [map fst] in H2. rewrite zlen_cons in H3. pose proof (zlen_nonneg r). destruct (H1 n d (or_introl eq_refl)) as (A1 & A2 & A3). split.
  - split; [exact A1|]. split; [exact A2|]. split; [exact A3|]. split; [|rewrite listing_files; lia]. intros X. apply NoDup_remove_2 in H2. apply H2. apply in_or_app. left. exact X.
  - intros im' c W. destruct (wr_listing _ _ _ _ _ W) as (l1 & l2 & E1 & E2).
    assert (P : Permutation (listing im') (stored_name n :: listing im)) by (rewrite E1, E2; symmetry; apply Permutation_middle).
    split; [|split; [|exact P]].
    + split; [intros n0 d0 X; apply H1; right; exact X|]. split.
      * apply (Permutation_NoDup (l := listing im ++ stored_name n :: map (fun j => stored_name (fst j)) r)); [|exact H2].
        rewrite <- Permutation_middle. change (stored_name n :: listing im ++ map (fun j => stored_name (fst j)) r) with ((stored_name n :: listing im) ++ map (fun j => stored_name (fst j)) r). apply Permutation_app_tail. symmetry. exact P.
      * rewrite E1 in H3. rewrite E2. rewrite zlen_app in *. rewrite zlen_cons. lia.
    + unfold needed, payload_of. rewrite (wr_hdr _ _ _ _ _ W). reflexivity.
Qed.
Lemma needed_nonneg im jobs : consistent im -> 0 <= needed im jobs.
Proof.
  intros C. assert (P : 0 < payload_of im).
  { unfold payload_of. destruct (consistent_view im C) as (k & _ & G & D2 & _). pose proof (hg_pay _ _ G). pose proof (hg_ss _ _ G). lia. }
  unfold needed. induction jobs as [|j r IH]; cbn [fold_right]; [lia|].
  assert (0 <= sectors_needed (payload_of im) (zlen (snd j))); [|lia]. unfold sectors_needed. apply Z.div_pos; [|exact P]. pose proof (zlen_nonneg (snd j)). lia.
Qed.
Lemma put_all_ext jobs : forall m m', (forall x, m x = m' x) -> forall x, put_all m jobs x = put_all m' jobs x.
Proof.
  induction jobs as [|j r IH]; intros m m' H x; [apply H|]. cbn [put_all fold_left]. apply IH. intros y. unfold fs_put. destruct (zlist_eqb _ _); auto.
Qed.

(** Files fit together exactly when their sizes, each rounded up to whole
    sectors, add up to no more than the free sectors; then all of them are there
    and the free sectors are the difference. *)
Theorem C101_fit jobs : forall im, consistent im -> writable im jobs ->
  (snd (write_all im jobs) = Ok tt <-> needed im jobs <= free_sectors_of im) /\
  (forall im', write_all im jobs = (im', Ok tt) -> consistent im' /\ free_sectors_of im' = free_sectors_of im - needed im jobs /\
     (forall x, fs_of im' x = put_all (fs_of im) jobs x) /\ Permutation (listing im') (listing im ++ map (fun j => stored_name (fst j)) jobs)).
Proof.
  induction jobs as [|[n d] r IH]; intros im C Wr.
  { cbn [write_all snd needed fold_right]. split.
    - split; [intros _|reflexivity]. unfold free_sectors_of, free_count. apply sum_bits.
    - intros im' E. injection E as <-. cbn [needed fold_right map put_all fold_left]. rewrite app_nil_r. split; [exact C|]. split; [lia|]. split; [reflexivity|apply Permutation_refl]. }
  destruct (writable_cons im n d r Wr) as [L N]. cbn [write_all]. 
  assert (Nc : needed im ((n, d) :: r) = sectors_needed (payload_of im) (zlen d) + needed im r) by reflexivity. pose proof (needed_nonneg im r C) as Nn.
  destruct (write_master im n d C L) as [(Hs & im1 & c & E & W)|(Hs & E)]; rewrite E.
  - destruct (N im1 c W) as (Wr1 & N1 & P1). pose proof (wr_consistent _ _ _ _ _ W) as C1. destruct (IH im1 C1 Wr1) as [I1 I2]. pose proof (wr_free_count _ _ _ _ _ W) as Fc.
    split; [rewrite I1, N1; lia|]. intros im' E'. destruct (I2 im' E') as (C2 & F2 & S2 & P2). split; [exact C2|]. split; [lia|]. split.
    + intros x. rewrite S2. cbn [put_all fold_left fst snd]. apply put_all_ext. intros y. unfold fs_of, fs_put. destruct (zlist_eqb y (stored_name n)) eqn:Q.
      * apply zlist_eqb_eq in Q. subst y. rewrite (wr_read _ _ _ _ _ W). reflexivity.
      * rewrite (wr_others _ _ _ _ _ W); [reflexivity|]. intros ->. rewrite (proj2 (zlist_eqb_eq _ _) eq_refl) in Q. discriminate.
    + rewrite P2. cbn [map fst]. rewrite <- Permutation_middle. change (stored_name n :: listing im ++ map (fun j => stored_name (fst j)) r) with ((stored_name n :: listing im) ++ map (fun j => stored_name (fst j)) r). apply Permutation_app_tail. exact P1.
  - cbn [snd]. split; [split; [discriminate|intros; lia]|]. discriminate.
Qed.
Print Assumptions C101_fit.

Lemma put_other jobs : forall m x, ~ In x (map (fun j => stored_name (fst j)) jobs) -> put_all m jobs x = m x.
Proof.
  induction jobs as [|[n d] r IH]; intros m x H; [reflexivity|]. cbn [map fst In] in H. cbn [put_all fold_left fst snd]. change (put_all (fs_put m (stored_name n) d) r x = m x). rewrite IH by tauto.
  unfold fs_put. destruct (zlist_eqb x (stored_name n)) eqn:Q; [|reflexivity]. apply zlist_eqb_eq in Q. subst. tauto.
Qed.
Lemma put_one jobs : forall m n d, In (n, d) jobs -> NoDup (map (fun j => stored_name (fst j)) jobs) -> put_all m jobs (stored_name n) = Some d.
Proof.
  induction jobs as [|[n0 d0] r IH]; intros m n d H ND; [destruct H|]. cbn [map fst] in ND. inversion ND as [|? ? N1 N2]. subst.
  change (put_all (fs_put m (stored_name n0) d0) r (stored_name n) = Some d). destruct H as [H|H]; [|apply IH; assumption].
  injection H as -> ->. rewrite put_other by exact N1. unfold fs_put. rewrite (proj2 (zlist_eqb_eq _ _) eq_refl). reflexivity.
Qed.
Lemma put_perm m jobs jobs' x : Permutation jobs jobs' -> NoDup (map (fun j => stored_name (fst j)) jobs) -> put_all m jobs x = put_all m jobs' x.
Proof.
  intros P ND. assert (Pn : Permutation (map (fun j => stored_name (fst j)) jobs) (map (fun j => stored_name (fst j)) jobs')) by (apply Permutation_map; exact P).
  destruct (in_dec (list_eq_dec Z.eq_dec) x (map (fun j => stored_name (fst j)) jobs)) as [H|H].
  - apply in_map_iff in H. destruct H as ([n d] & <- & H). cbn [fst]. rewrite (put_one _ _ n d H ND). symmetry. apply put_one; [eapply Permutation_in; eassumption|eapply Permutation_NoDup; eassumption].
  - rewrite put_other by exact H. symmetry. apply put_other. intros X. apply H. eapply Permutation_in; [symmetry; exact Pn|exact X].
Qed.
Lemma needed_perm im jobs jobs' : Permutation jobs jobs' -> needed im jobs = needed im jobs'.
Proof. intros P. unfold needed. induction P; cbn [fold_right]; lia. Qed.
Lemma NoDup_app_r {A} (l1 l2 : list A) : NoDup (l1 ++ l2) -> NoDup l2.
Proof. induction l1 as [|x l IH]; [auto|]. cbn [app]. intros H. inversion H. auto. Qed.

(** Whether files fit, and what the disk holds then, does not depend on the
    order in which they are written. *)
Theorem C101_order im jobs jobs' im' : consistent im -> writable im jobs -> Permutation jobs jobs' -> write_all im jobs = (im', Ok tt) ->
  exists im'', write_all im jobs' = (im'', Ok tt) /\ (forall x, fs_of im'' x = fs_of im' x) /\ Permutation (listing im'') (listing im') /\ free_sectors_of im'' = free_sectors_of im'.
Proof.
  intros C Wr P E. assert (Pn : Permutation (map (fun j => stored_name (fst j)) jobs) (map (fun j => stored_name (fst j)) jobs')) by (apply Permutation_map; exact P).
  assert (Wr' : writable im jobs').
  { destruct Wr as (H1 & H2 & H3). split; [intros n d X; apply H1; eapply Permutation_in; [symmetry; exact P|exact X]|]. split.
    - eapply Permutation_NoDup; [|exact H2]. apply Permutation_app_head. exact Pn.
    - unfold zlen in *. rewrite <- (Permutation_length P). exact H3. }
  destruct (C101_fit jobs im C Wr) as [F1 F2]. destruct (C101_fit jobs' im C Wr') as [G1 G2].
  assert (Y : snd (write_all im jobs') = Ok tt) by (apply G1; rewrite <- (needed_perm im _ _ P); apply F1; rewrite E; reflexivity).
  destruct (write_all im jobs') as [im'' r] eqn:E'. cbn [snd] in Y. subst r. exists im''. split; [reflexivity|].
  destruct (F2 im' E) as (_ & Fa & Fb & Fc). destruct (G2 im'' eq_refl) as (_ & Ga & Gb & Gc).
  split; [intros x; rewrite Fb, Gb; symmetry; apply put_perm; [exact P|]; destruct Wr as (_ & H2 & _); exact (NoDup_app_r _ _ H2)|].
  split; [rewrite Gc, Fc; apply Permutation_app_head; symmetry; exact Pn|]. rewrite Fa, Ga, (needed_perm im _ _ P). reflexivity.
Qed.
Print Assumptions C101_order.

(** A session that meets the hypotheses: two files on a formatted disk, one
    deleted, the free sectors wiped; 707 sectors, 3 of them used in the end. *)
Definition demo_ops : list op := [OWrite hello text; OWrite other [7]; OShred 165; ODelete other].
Example C101_example : exists im, consistent im /\ compact im /\ listing im = [] /\ writable im [(hello, text); (other, [7])] /\
  all_ops strict_op im demo_ops /\ free_sectors_of im = 707 /\ spent (fst (run im (fs_of im) demo_ops)) = 3 /\
  free_sectors_of (fst (run im (fs_of im) demo_ops)) = 704.
Proof.
  destruct blank_image as (im & Ho & [C0 (k & D & _)] & L & F & P & _ & _). assert (C : consistent im) by (split; [exact C0|exists k; exact D]). exists im. split; [exact C|].
  assert (K : compact im) by (intros n c d S _; exfalso; apply (sectors_listed _ _ _ C) in S; rewrite L in S; exact S). split; [exact K|]. split; [exact L|].
  destruct (valid_stored hello hello_valid) as [Sh Eh]. destruct (valid_stored other other_valid) as [So Eo].
  assert (Wr : writable im [(hello, text); (other, [7])]).
  { split.
    - intros n d [X|[X|[]]]; injection X as <- <-; (split; [assumption|]; split; [discriminate|apply bytes_ok_b; reflexivity]).
    - cbn [map fst]. rewrite L, Eh, Eo. cbn [app]. split; [|cbn; lia]. constructor; [intros [X|[]]; discriminate|]. constructor; [intros []|constructor]. }
  split; [exact Wr|].
  destruct (writable_cons im hello text _ Wr) as [L1 N1].
  destruct (write_master im hello text C L1) as [(_ & im1 & c1 & E1 & W1)|(Hs & _)]. 2: { exfalso. rewrite P, F in Hs. vm_compute in Hs. discriminate. }
  destruct (N1 im1 c1 W1) as (Wr1 & _ & P1). destruct (writable_cons im1 other [7] _ Wr1) as [L2 N2]. pose proof (wr_consistent _ _ _ _ _ W1) as C1.
  assert (P' : payload_of im1 = 125) by (unfold payload_of; rewrite (wr_hdr _ _ _ _ _ W1); exact P). pose proof (wr_free_count _ _ _ _ _ W1) as F1. rewrite P, F in F1. change (sectors_needed 125 (zlen text)) with 3 in F1.
  destruct (write_master im1 other [7] C1 L2) as [(_ & im2 & c2 & E2 & W2)|(Hs & _)]. 2: { exfalso. rewrite P', F1 in Hs. vm_compute in Hs. discriminate. }
  pose proof (wr_consistent _ _ _ _ _ W2) as C2. destruct (N2 im2 c2 W2) as (_ & _ & P2).
  destruct (shred_master im2 165 C2) as (im3 & E3 & W3). pose proof (sr_consistent _ _ _ W3) as C3.
  assert (L3 : In other (listing im3)) by (rewrite (sr_listing _ _ _ W3); eapply Permutation_in; [symmetry; exact P2|]; rewrite Eo; left; reflexivity).
  destruct (delete_master im3 other C3 L3) as (im4 & c4 & E4 & W4).
  assert (A : all_ops strict_op im demo_ops).
  { unfold demo_ops. cbn [all_ops strict_op do_op]. split; [exact L1|]. rewrite E1. cbn [fst]. split; [exact L2|]. rewrite E2. cbn [fst]. split; [exact Logic.I|]. rewrite E3. cbn [fst]. split; [exact L3|exact Logic.I]. }
  split; [exact A|]. split; [exact F|]. pose proof (C101_balance im demo_ops C K A) as [_ B]. cbv zeta in B.
  assert (R : fst (run im (fs_of im) demo_ops) = im4) by (unfold demo_ops; cbn [run do_op]; rewrite E1, E2, E3, E4; reflexivity). rewrite R in *.
  assert (Z0 : spent im = 0) by (unfold spent; rewrite L; reflexivity). rewrite Z0, F in B.
  assert (S4 : spent im4 = 3); [|lia].
  assert (Q : listing im4 = [hello]).
  { destruct (wr_listing _ _ _ _ _ W1) as (l1 & l2 & Q1 & Q2). rewrite L in Q1. symmetry in Q1. apply app_eq_nil in Q1. destruct Q1 as [-> ->]. cbn [app] in Q2. rewrite Eh in Q2.
    rewrite Q2, Eo in P2. rewrite <- (sr_listing _ _ _ W3) in P2. destruct (dr_listing _ _ _ _ W4) as (m1 & m2 & Q3 & Q4). rewrite Q3 in P2. symmetry in P2. apply Permutation_cons_app_inv in P2. rewrite Q4. apply Permutation_length_1_inv. exact P2. }
  assert (Fi : find_file im4 hello = Ok text).
  { rewrite (dr_others _ _ _ _ W4) by discriminate. rewrite (sr_files _ _ _ W3). rewrite (wr_others _ _ _ _ _ W2) by (rewrite Eo; discriminate). rewrite <- Eh at 1. apply (wr_read _ _ _ _ _ W1). }
  unfold spent. rewrite Q. cbn [fold_right]. unfold file_cost. rewrite Fi.
  assert (P4 : payload_of im4 = 125).
  { unfold payload_of. rewrite (dr_hdr _ _ _ _ W4). destruct (shred_sectors im2 165 im3 _ C2 E3) as (_ & _ & H3 & _). rewrite H3, (wr_hdr _ _ _ _ _ W2). exact P'. }
  rewrite P4. reflexivity.
Qed.
