(** Extracting several files and adding several files, for any kind of image. *)
From Verif Require Import Base BaseLemmas DiskModel AtariModel AtariSpec SpartaModel Dos33Model CliModel CliProofs CliInst SdModel ExecModel DetectModel MainModel MainProofs.

(** * Paths *)
Lemma basename_app l : forall n acc, ~ In 47 n -> basename (l ++ 47 :: n) acc = n.
Proof.
  assert (P : forall n acc, ~ In 47 n -> basename n acc = rev acc ++ n).
  { induction n as [|c n IH]; intros acc H; [cbn; rewrite app_nil_r; reflexivity|]. cbn [basename].
    assert (Nc : c <> 47) by (intros ->; apply H; left; reflexivity). assert (Hn : ~ In 47 n) by (intros X; apply H; right; exact X).
    assert (E : (match c with 47 => basename n [] | _ => basename n (c :: acc) end) = basename n (c :: acc)).
    { destruct c as [|p|]; try reflexivity. do 6 (destruct p as [p|p|]; try reflexivity; try congruence). }
    rewrite E, IH by exact Hn. cbn [rev]. rewrite <- app_assoc. reflexivity. }
  induction l as [|c l IH]; intros n acc H; [cbn [app basename]; rewrite P by exact H; reflexivity|]. cbn [app basename].
  destruct c as [|p|]; try (apply IH; exact H). do 6 (destruct p as [p|p|]; try (apply IH; exact H)).
Qed.
Lemma basename_plain n : ~ In 47 n -> basename n [] = n.
Proof. intros H. change n with (tl (47 :: n)) at 1. pose proof (basename_app [] n [] H) as E. cbn [app basename] in E. exact E. Qed.
Lemma last_split {A} (l : list A) d : l <> [] -> l = removelast l ++ [last l d].
Proof. apply app_removelast_last. Qed.
(** The file extracted for a name without a slash has that base name. *)
Lemma out_path_base o n : o_lower o = false -> ~ In 47 n -> n <> [] -> basename (out_path o n) [] = n.
Proof.
  intros Lw H Nn. unfold out_path. rewrite Lw. destruct (o_dir o) as [dir|]; [|apply basename_plain, H]. unfold join. destruct n as [|c n]; [congruence|].
  assert (Nc : c <> 47) by (intros ->; apply H; left; reflexivity).
  assert (E : (match c :: n with 47 :: _ => c :: n | _ => match dir with [] => c :: n | _ => if last dir 0 =? 47 then dir ++ c :: n else dir ++ 47 :: c :: n end end) =
     match dir with [] => c :: n | _ => if last dir 0 =? 47 then dir ++ c :: n else dir ++ 47 :: c :: n end).
  { destruct c as [|p|]; try reflexivity. do 6 (destruct p as [p|p|]; try reflexivity; try congruence). }
  rewrite E. destruct dir as [|x dir]; [apply basename_plain, H|]. destruct (Z.eqb_spec (last (x :: dir) 0) 47) as [El|_]; [|apply basename_app, H].
  rewrite (last_split (x :: dir) 0) by discriminate. rewrite El, <- app_assoc. apply basename_app, H.
Qed.
Lemma out_path_inj o n n' : o_lower o = false -> ~ In 47 n -> n <> [] -> ~ In 47 n' -> n' <> [] -> out_path o n = out_path o n' -> n = n'.
Proof. intros Lw H1 H2 H3 H4 E. rewrite <- (out_path_base o n), <- (out_path_base o n') by assumption. rewrite E. reflexivity. Qed.

(** * Adding files that are not there *)
Lemma add_new force norm jobs : forall m, NoDup (map fst jobs) -> (forall n, In n (map fst jobs) -> force = true \/ m n = None) ->
  snd (add_spec force norm m jobs) = map (fun _ => true) jobs /\ forall n d, In (n, d) jobs -> fst (add_spec force norm m jobs) n = Some (norm d).
Proof.
  induction jobs as [|[n d] l IH]; intros m Nd Hm; [split; [reflexivity|intros ? ? []]|]. cbn [map fst] in Nd, Hm. inversion Nd as [|y r N1 N2]; subst y r.
  cbn [add_spec].
  assert (Em : (match m n, force with
     | Some _, false => let (m', l0) := add_spec force norm m l in (m', false :: l0)
     | _, _ => let (m', l0) := add_spec force norm (fs_put m n (norm d)) l in (m', true :: l0) end)
     = let (m', l0) := add_spec force norm (fs_put m n (norm d)) l in (m', true :: l0)).
  { destruct (Hm n (or_introl eq_refl)) as [-> | ->]; [destruct (m n)|]; reflexivity. }
  rewrite Em. clear Em.
  destruct (IH (fs_put m n (norm d)) N2) as [I1 I2].
  { intros q Hq. rewrite fs_put_neq by (intros ->; exact (N1 Hq)). apply Hm. right. exact Hq. }
  assert (K : fst (add_spec force norm (fs_put m n (norm d)) l) n = Some (norm d)) by (rewrite add_spec_other by exact N1; apply fs_put_eq).
  destruct (add_spec force norm (fs_put m n (norm d)) l) as [m' bs]. cbn [fst snd] in *. split; [cbn [map]; rewrite I1; reflexivity|].
  intros q e [H|H]; [injection H as <- <-; exact K|exact (I2 q e H)].
Qed.

Section Program.
Variables (A : api) (dflt : option (list Z)) (vtoc : p_img A -> res (list Z)).
Variable good : p_img A -> Prop.
Variable okname : list Z -> Prop.
Variable okdata : list Z -> list Z -> Prop.
Variable fits : p_img A -> Z -> Prop.
Variable norm : list Z -> list Z.
Variable refused : exn -> Prop.
Hypothesis law : lawful A good okname okdata fits norm refused.
Variable w : world.
Variable inj : p_img A -> image.
Hypothesis H_found : forall im, good im -> exists fd, find_diskimage (w_env w) (p_bytes A im) = Ok fd /\ f_image fd = inj im.
Hypothesis H_open : forall o f img im c, open_command w o f img (inj im) c = image_command A dflt vtoc w o f img im c.
Notation held := (holds A good).
Lemma main_add_many o f img m files jobs f' ms r : held f img m -> o_dry o = false -> files <> [] ->
  Forall2 (job okname okdata f (filetype A o)) files jobs -> (forall im, f img = Some (p_bytes A im) -> good im -> fits im (zlen jobs)) ->
  NoDup (map fst jobs) -> (forall n, In n (map fst jobs) -> o_force o = true \/ m n = None) ->
  main w o f img (KAdd files) = (f', ms, r) ->
  (r = Ok tt /\ (forall q, q <> img -> f' q = f q) /\ exists m', held f' img m' /\ (forall n d, In (n, d) jobs -> m' n = Some (norm d)) /\ (forall n, ~ In n (map fst jobs) -> m' n = m n)) \/
  (exists e, r = Err e /\ refused e /\ f' = f).
Proof.
  intros (N & im & F & G & L) D Ne J Ft Nd New E.
  rewrite (main_on A dflt vtoc good w inj H_found H_open o f img im (KAdd files) ltac:(split; [|split]; intros []) N F G) in E.
  assert (Er : run_command A o f img (CAdd files) = (f', ms, r)) by (unfold run_command; rewrite F, (lw_open _ _ _ _ _ _ _ law im G); exact E).
  destruct (add_command A o good okname okdata fits norm refused law f img im files jobs f' ms r D G F J (Ft im F G) Er) as [(-> & _ & im' & _ & G' & L' & Ef)|(e & Ee & Re & ->)]; [left|right; eauto].
  destruct (add_new (o_force o) norm jobs (look A im) Nd) as [S1 S2]; [intros n Hn; destruct (New n Hn) as [Q|Q]; [left; exact Q|right; rewrite L; exact Q]|].
  assert (La : last (snd (add_spec (o_force o) norm (look A im) jobs)) false = true).
  { rewrite S1. clear -J Ne. destruct J as [|p j ps js _ _]; [congruence|]. clear. revert j. induction js as [|z l IH]; intros j; [reflexivity|]. exact (IH z). }
  rewrite La in Ef. split; [reflexivity|]. split; [intros q Hq; rewrite Ef; apply fput_neq, Hq|]. exists (look A im'). split; [split; [exact N|]; exists im'; subst f'; rewrite fput_eq; auto|].
  split; [intros n d Hn; rewrite L'; exact (S2 n d Hn)|]. intros n Hn. rewrite L', add_spec_other by exact Hn. apply L.
Qed.
(** With [enough] room, new files are all written. *)
Variable enough : p_img A -> list (list Z * list Z) -> Prop.
Hypothesis H_enough : forall im n ft d l, good im -> okname n -> okdata ft d -> p_find A im n = None -> enough im ((n, d) :: l) ->
  exists im', p_write A im n ft d = (im', Ok tt) /\ enough im' l /\ good im' /\ forall q, q <> n -> look A im' q = look A im q.
Lemma add_loop_enough o f ft : o_dry o = false -> forall files jobs, Forall2 (job okname okdata f ft) files jobs ->
  forall im c, good im -> NoDup (map fst jobs) -> (forall n, In n (map fst jobs) -> look A im n = None) -> enough im jobs ->
  exists im' ms c', add_loop A o f im ft files c = (im', ms, Ok c').
Proof.
  intros D files jobs F. induction F as [|path [n d] files jobs (J1 & J2 & J3 & J4) F IH]; intros im c G Nd New En; cbn [add_loop]; [eauto|].
  cbn [fst snd map] in *. inversion Nd as [|y r N1 N2]; subst y r. rewrite J1, J2. unfold save_file. rewrite D.
  assert (Fn : p_find A im n = None).
  { destruct (lw_find _ _ _ _ _ _ _ law im n G) as [Q|(x & Q)]; [exact Q|]. rewrite (New n (or_introl eq_refl)) in Q. discriminate. }
  rewrite Fn. destruct (H_enough im n ft d jobs G J3 J4 Fn En) as (im1 & -> & En1 & G1 & L1). cbn [rbind].
  destruct (IH im1 true G1 N2) as (im' & ms & c' & E); [|exact En1|rewrite E; eauto].
  intros q Hq. rewrite L1 by (intros ->; exact (N1 Hq)). apply New. right. exact Hq.
Qed.
Lemma main_add_enough o f img m files jobs f' ms r : held f img m -> o_dry o = false ->
  Forall2 (job okname okdata f (filetype A o)) files jobs -> (forall im, f img = Some (p_bytes A im) -> good im -> enough im jobs) ->
  NoDup (map fst jobs) -> (forall n, In n (map fst jobs) -> m n = None) ->
  main w o f img (KAdd files) = (f', ms, r) -> r = Ok tt.
Proof.
  intros (N & im & F & G & L) D J En Nd New E.
  rewrite (main_on A dflt vtoc good w inj H_found H_open o f img im (KAdd files) ltac:(split; [|split]; intros []) N F G) in E. cbn [image_command] in E.
  unfold add_files, save_if in E.
  destruct (add_loop_enough o f (filetype A o) D files jobs J im false G Nd) as (im' & ms' & c' & El); [intros n Hn; rewrite L; apply New, Hn|apply En; assumption|].
  rewrite El in E. destruct c'; injection E as _ _ <-; reflexivity.
Qed.
Hypothesis H_in : forall im n d, p_find A im n = Some d -> In d (p_files A im).
Lemma main_extract_many o f img m files names f' ms r : held f img m -> o_dry o = false -> o_lower o = false -> o_text o = false ->
  (forall n, In n names <-> (o_all o = true \/ In n files) /\ m n <> None) ->
  (forall n, In n names -> n <> [] /\ ~ In 47 n) -> (o_force o = true \/ forall n, In n names -> f (out_path o n) = None) ->
  main w o f img (KExtract files) = (f', ms, r) ->
  r = Ok tt /\ (forall n, In n names -> f' (out_path o n) = m n) /\ (forall p, (forall n, In n names -> p <> out_path o n) -> f' p = f p).
Proof.
  intros (N & im & F & G & L) D Lw Tx Sel Nm Nw E.
  rewrite (main_on A dflt vtoc good w inj H_found H_open o f img im (KExtract files) ltac:(split; [|split]; intros []) N F G) in E.
  assert (Er : run_command A o f img (CExtract files) = (f', ms, r)) by (unfold run_command; rewrite F, (lw_open _ _ _ _ _ _ _ law im G); exact E).
  destruct (extract_command A o good okname okdata fits norm refused law f img im files f' ms r D G F Er) as [-> X]. split; [reflexivity|].
  assert (Wn : forall n, m n <> None -> (In n (wanted A o im files) <-> In n names)).
  { intros n Hn. unfold wanted. rewrite Sel. destruct (o_all o) eqn:Al; [|split; [auto|intros [[Q|Q] _]; [discriminate|exact Q]]]. split; [auto|]. intros _. rewrite <- L in Hn.
    unfold look in Hn. destruct (p_find A im n) as [d|] eqn:Fd; [|congruence]. apply in_map_iff. exists d. split; [exact (lw_name _ _ _ _ _ _ _ law im n d Fd)|exact (H_in im n d Fd)]. }
  assert (Ou : forall p x, In (p, x) (outputs A o im files) -> exists n, In n names /\ p = out_path o n /\ m n = Some x).
  { intros p x H. unfold outputs in H. apply in_flat_map in H. destruct H as (n & Hn & H). rewrite L in H. destruct (m n) as [d|] eqn:Mn; [|destruct H]. apply Wn in Hn; [|congruence].
    destruct H as [H|[]]. unfold converted in H. rewrite Tx in H. injection H as <- <-. exists n. auto. }
  assert (Wr : forall l n d, (forall p x, In (p, x) l -> In (p, x) (outputs A o im files)) -> In n names -> m n = Some d -> In (out_path o n, d) l -> written (out_path o n) l = Some d).
  { intros l n d Sub Hn Mn Hi. unfold written. destruct (find (fun w => zlist_eqb (fst w) (out_path o n)) l) as [[p x]|] eqn:Fd.
    - destruct (find_some _ _ Fd) as [Fi Fe]. cbn [fst] in Fe. apply zlist_eqb_eq in Fe. subst p. destruct (Ou _ _ (Sub _ _ Fi)) as (n' & Hn' & Ep & Mn').
      assert (n = n') by (apply (out_path_inj o); try assumption; try apply Nm; assumption). subst n'. cbn. congruence.
    - pose proof (find_none _ _ Fd _ Hi) as Q. cbn [fst] in Q. rewrite zlist_eqb_refl in Q. discriminate. }
  assert (Ad : forall n d, In n names -> m n = Some d -> In (out_path o n, d) (outputs A o im files)).
  { intros n d Hn Mn. unfold outputs. apply in_flat_map. exists n. split; [apply Wn; [congruence|exact Hn]|]. rewrite L, Mn. left. unfold converted. rewrite Tx. reflexivity. }
  split.
  - intros n Hn. assert (Mn : m n <> None) by (apply Sel, Hn). destruct (m n) as [d|] eqn:Em; [|congruence].
    rewrite X. destruct (o_force o) eqn:Fc.
    + rewrite (Wr (rev (outputs A o im files)) n d); try assumption; [reflexivity|intros p x; rewrite <- in_rev; auto|rewrite <- in_rev; exact (Ad n d Hn Em)].
    + destruct Nw as [Nw|Nw]; [discriminate|]. rewrite (Nw n Hn). apply Wr; auto.
  - intros p Hp. assert (Wp : forall l, (forall q x, In (q, x) l -> In (q, x) (outputs A o im files)) -> written p l = None).
    { intros l Sub. unfold written. destruct (find (fun w => zlist_eqb (fst w) p) l) as [[q x]|] eqn:Fd; [|reflexivity].
      destruct (find_some _ _ Fd) as [Fi Fe]. cbn [fst] in Fe. apply zlist_eqb_eq in Fe. subst q. destruct (Ou _ _ (Sub _ _ Fi)) as (n & Hn & -> & _). destruct (Hp n Hn eq_refl). }
    rewrite X. rewrite !Wp; [|auto|intros q x; rewrite <- in_rev; auto]. destruct (o_force o), (f p); reflexivity.
Qed.
End Program.

(** * From one image to another *)
Section Two.
Variables (A : api) (dfltA : option (list Z)) (vtocA : p_img A -> res (list Z)) (goodA : p_img A -> Prop) (oknameA : list Z -> Prop)
  (okdataA : list Z -> list Z -> Prop) (fitsA : p_img A -> Z -> Prop) (normA : list Z -> list Z) (refusedA : exn -> Prop).
Hypothesis lawA : lawful A goodA oknameA okdataA fitsA normA refusedA.
Variables (B : api) (dfltB : option (list Z)) (vtocB : p_img B -> res (list Z)) (goodB : p_img B -> Prop) (oknameB : list Z -> Prop)
  (okdataB : list Z -> list Z -> Prop) (fitsB : p_img B -> Z -> Prop) (normB : list Z -> list Z) (refusedB : exn -> Prop).
Hypothesis lawB : lawful B goodB oknameB okdataB fitsB normB refusedB.
Variables (w : world) (injA : p_img A -> image) (injB : p_img B -> image).
Hypothesis foundA : forall im, goodA im -> exists fd, find_diskimage (w_env w) (p_bytes A im) = Ok fd /\ f_image fd = injA im.
Hypothesis openA : forall o f img im c, open_command w o f img (injA im) c = image_command A dfltA vtocA w o f img im c.
Hypothesis inA : forall im n d, p_find A im n = Some d -> In d (p_files A im).
Hypothesis foundB : forall im, goodB im -> exists fd, find_diskimage (w_env w) (p_bytes B im) = Ok fd /\ f_image fd = injB im.
Hypothesis openB : forall o f img im c, open_command w o f img (injB im) c = image_command B dfltB vtocB w o f img im c.
Variable enoughB : p_img B -> list (list Z * list Z) -> Prop.
Hypothesis H_enoughB : forall im n ft d l, goodB im -> oknameB n -> okdataB ft d -> p_find B im n = None -> enoughB im ((n, d) :: l) ->
  exists im', p_write B im n ft d = (im', Ok tt) /\ enoughB im' l /\ goodB im' /\ forall q, q <> n -> look B im' q = look B im q.
Definition jobs_from (m : fsmap) (names : list (list Z)) := map (fun n => (n, match m n with Some d => d | None => [] end)) names.
Lemma copy_files o f src m files names o2 dst m2 f1 ms1 r1 f2 ms2 r2 :
  holds A goodA f src m -> holds B goodB f dst m2 -> src <> dst ->
  o_dry o = false -> o_lower o = false -> o_text o = false ->
  (forall n, In n names <-> (o_all o = true \/ In n files) /\ m n <> None) -> NoDup names -> names <> [] ->
  (forall n, In n names -> n <> [] /\ ~ In 47 n /\ (o_force o = true \/ f (out_path o n) = None) /\ out_path o n <> src /\ out_path o n <> dst) ->
  (forall n d, In n names -> m n = Some d -> oknameB n /\ okdataB (filetype B o2) d) ->
  (forall im, f dst = Some (p_bytes B im) -> goodB im -> fitsB im (zlen names)) ->
  o_dry o2 = false -> (forall n, In n names -> o_force o2 = true \/ m2 n = None) ->
  main w o f src (KExtract files) = (f1, ms1, r1) -> main w o2 f1 dst (KAdd (map (out_path o) names)) = (f2, ms2, r2) ->
  r1 = Ok tt /\ holds A goodA f2 src m /\
  ((r2 = Ok tt /\ exists m2', holds B goodB f2 dst m2' /\ forall n, m2' n = if existsb (zlist_eqb n) names then option_map normB (m n) else m2 n) \/
   (exists e, r2 = Err e /\ refusedB e /\ holds B goodB f2 dst m2)) /\
  ((forall n, In n names -> m2 n = None) -> (forall im, f dst = Some (p_bytes B im) -> goodB im -> enoughB im (jobs_from m names)) -> r2 = Ok tt) /\
  (forall p, p <> dst -> (forall n, In n names -> p <> out_path o n) -> f2 p = f p).
Proof.
  intros HA HB Ns D Lw Tx Sel Nd Ne Nm Ok2 Ft D2 New E1 E2.
  destruct (main_extract_many A dfltA vtocA goodA oknameA okdataA fitsA normA refusedA lawA w injA foundA openA inA o f src m files names f1 ms1 r1 HA D Lw Tx Sel) as (-> & X1 & X2); try assumption.
  { intros n Hn. destruct (Nm n Hn) as (P1 & P2 & _). auto. }
  { destruct (o_force o) eqn:Fc; [left; reflexivity|right]. intros n Hn. destruct (Nm n Hn) as (_ & _ & [Q|Q] & _); [discriminate|exact Q]. }
  split; [reflexivity|].
  assert (Fs : f1 src = f src) by (apply X2; intros n Hn Q; destruct (Nm n Hn) as (_ & _ & _ & P & _); congruence).
  assert (Fd : f1 dst = f dst) by (apply X2; intros n Hn Q; destruct (Nm n Hn) as (_ & _ & _ & _ & P); congruence).
  pose proof (holds_same A goodA f f1 src m Fs HA) as HA1. pose proof (holds_same B goodB f f1 dst m2 Fd HB) as HB1.
  set (jobs := jobs_from m names).
  assert (Jn : map fst jobs = names) by (unfold jobs, jobs_from; rewrite map_map; cbn [fst]; apply map_id).
  assert (J : Forall2 (job oknameB okdataB f1 (filetype B o2)) (map (out_path o) names) jobs).
  { unfold jobs, jobs_from. assert (Sub : forall n, In n names -> In n names) by auto. revert Sub. generalize names at 1 3 4. intros l. induction l as [|n l IH]; intros Sub; [constructor|]. cbn [map].
    constructor; [|apply IH; intros q Hq; apply Sub; right; exact Hq]. pose proof (Sub n (or_introl eq_refl)) as Hn. destruct (Nm n Hn) as (P1 & P2 & _).
    pose proof (proj2 (proj1 (Sel n) Hn)) as Mn. rewrite <- (X1 n Hn) in Mn. pose proof (Ok2 n) as Q. rewrite <- (X1 n Hn) in Q |- *.
    destruct (f1 (out_path o n)) as [d|] eqn:Fp; [|congruence]. destruct (Q d Hn eq_refl) as [Q1 Q2].
    split; [exact Fp|]. split; [cbn [fst]; apply out_path_base; assumption|]. split; assumption. }
  assert (Zj : zlen jobs = zlen names) by (unfold zlen; rewrite <- (map_length fst jobs), Jn; reflexivity).
  rewrite <- !and_assoc. split; [split|].
  2: { intros New0 En. apply (main_add_enough B dfltB vtocB goodB oknameB okdataB fitsB normB refusedB lawB w injB foundB openB enoughB H_enoughB o2 f1 dst m2 (map (out_path o) names) jobs f2 ms2 r2 HB1 D2 J); try assumption.
    - intros im F G. apply En; [rewrite <- Fd; exact F|exact G].
    - rewrite Jn. exact Nd.
    - rewrite Jn. exact New0. }
  2: { intros p Hp Hn. rewrite <- (X2 p Hn). destruct (main_add_many B dfltB vtocB goodB oknameB okdataB fitsB normB refusedB lawB w injB foundB openB o2 f1 dst m2 (map (out_path o) names) jobs f2 ms2 r2 HB1 D2) as [(_ & K & _)|(e & _ & _ & ->)]; try assumption; try reflexivity.
    - destruct names; [congruence|discriminate].
    - intros im F G. rewrite Zj. apply Ft; [rewrite <- Fd; exact F|exact G].
    - rewrite Jn. exact Nd.
    - rewrite Jn. exact New.
    - apply K, Hp. }
  destruct (main_add_many B dfltB vtocB goodB oknameB okdataB fitsB normB refusedB lawB w injB foundB openB o2 f1 dst m2 (map (out_path o) names) jobs f2 ms2 r2 HB1 D2) as [(-> & K & m2' & H2 & M1 & M2)|(e & -> & Re & ->)]; try assumption.
  - destruct names; [congruence|discriminate].
  - intros im F G. rewrite Zj. apply Ft; [rewrite <- Fd; exact F|exact G].
  - rewrite Jn. exact Nd.
  - rewrite Jn. exact New.
  - split; [exact (holds_same A goodA f1 f2 src m (K src Ns) HA1)|]. left. split; [reflexivity|]. exists m2'. split; [exact H2|]. intros n. destruct (existsb (zlist_eqb n) names) eqn:Ex.
    + apply existsb_exists in Ex. destruct Ex as (q & Hq & Eq). apply zlist_eqb_eq in Eq. subst q. pose proof (proj2 (proj1 (Sel n) Hq)) as Mn. destruct (m n) as [d|] eqn:Em; [|congruence]. cbn [option_map].
      apply M1. unfold jobs, jobs_from. apply in_map_iff. exists n. rewrite Em. auto.
    + apply M2. rewrite Jn. intros Hn. assert (X : existsb (zlist_eqb n) names = true) by (apply existsb_exists; exists n; split; [exact Hn|apply zlist_eqb_refl]). congruence.
  - split; [exact HA1|]. right. eauto.
Qed.
End Two.
