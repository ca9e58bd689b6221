(** C98: what --verbose prints. *)
From Coq Require Import String.
From Verif Require Import Base BaseLemmas DiskModel AtariModel SpartaModel Dos33Model ExecModel DetectModel DetectSpec DetectProofs CliModel TextModel TextSpec TextProofs TextOpen VerboseModel AtariDemo Properties_Detect Properties_Text.
From Verif Require CartModel Properties_Sparta2.
Import List.

(** * Specification *)
(** The mime types up to the one that was chosen *)
Fixpoint upto (m : mime) (ms : list mime) : list mime :=
  match ms with [] => [] | x :: r => x :: if zlist_eqb (mime_text x) (mime_text m) then [] else upto m r end.
(** The lines of a search that was successful *)
Definition found_lines (f : found) : list (list Z) :=
  map trying (upto (f_mime f) mime_parse_order) ++ [found_parser (f_class f)] ++
  match f_detail f with Some d => [magic_match d] | None => [] end.

(** * Verbose output changes nothing *)
Lemma search_result e : forall ms b, snd (search_lines e ms b) = search e ms b.
Proof.
  induction ms as [|m ms IH]; intros b; [reflexivity|]. cbn [search_lines search]. destruct (guess_for_mime e m b) as [[[p x]|]|y]; cbn [rbind]; [|specialize (IH b); destruct (search_lines e ms b); exact IH|reflexivity].
  destruct (guess_detail m b) as [d|y]; reflexivity.
Qed.
Theorem C98_changes_nothing (e : env) (img b : list Z) : snd (verbose_find e img b) = find_diskimage e b.
Proof.
  unfold verbose_find, data_lines, find_diskimage, iter_parsers. destruct (unpacked e b) as [r|x]; cbn [rbind]; [|reflexivity].
  destruct (guess_by_size e r) as [[[m [p x]]|]|y]; cbn [rbind]; [reflexivity| |reflexivity].
  pose proof (search_result e mime_parse_order r) as S0. destruct (search_lines e mime_parse_order r) as [l y]. cbn [snd] in *. subst y.
  destruct (search e mime_parse_order r) as [[f|]|x]; reflexivity.
Qed.
Print Assumptions C98_changes_nothing.

(** * The lines say what was tried *)
Lemma mime_text_inj a b : mime_text a = mime_text b -> a = b.
Proof. destruct a, b; try reflexivity; intros H; vm_compute in H; discriminate H. Qed.
Lemma detail_text_inj a b : detail_text a = detail_text b -> a = b.
Proof. destruct a, b; try reflexivity; intros H; vm_compute in H; discriminate H. Qed.

Lemma search_lines_found e : forall ms b f, NoDup ms -> snd (search_lines e ms b) = Ok (Some f) ->
  In (f_mime f) ms /\ fst (search_lines e ms b) = map trying (upto (f_mime f) ms) ++ [found_parser (f_class f)] ++ match f_detail f with Some d => [magic_match d] | None => [] end.
Proof.
  induction ms as [|m ms IH]; intros b f N H; [discriminate|]. cbn [search_lines] in *. inversion N as [|? ? N1 N2]; subst.
  destruct (guess_for_mime e m b) as [[[p x]|]|y] eqn:G; [| |discriminate].
  - destruct (guess_detail m b) as [d|y]; [|discriminate]. cbn [snd fst] in *. injection H as <-. cbn [f_mime f_class f_detail]. split; [left; reflexivity|].
    cbn [upto]. rewrite zlist_eqb_refl. reflexivity.
  - specialize (IH b f N2). destruct (search_lines e ms b) as [l y]. cbn [snd fst] in *. destruct (IH H) as (I0 & L). rewrite L. clear IH.
    split; [right; exact I0|]. cbn [upto]. destruct (zlist_eqb (mime_text m) (mime_text (f_mime f))) eqn:Q; [|reflexivity].
    apply zlist_eqb_eq, mime_text_inj in Q. subst m. contradiction.
Qed.
Lemma order_nodup : NoDup mime_parse_order.
Proof. unfold mime_parse_order. repeat (constructor; [cbn [In]; intuition discriminate|]). constructor. Qed.
Lemma search_lines_none e : forall ms b, snd (search_lines e ms b) = Ok None -> fst (search_lines e ms b) = map trying ms.
Proof.
  induction ms as [|m ms IH]; intros b H; [reflexivity|]. cbn [search_lines] in *. destruct (guess_for_mime e m b) as [[[p x]|]|y]; [| |discriminate].
  - destruct (guess_detail m b); discriminate.
  - specialize (IH b). destruct (search_lines e ms b) as [l y]. cbn [fst snd map] in *. rewrite (IH H). reflexivity.
Qed.

(** Data that are recognised: either a known game, and nothing is said; or the types up to the
    chosen one, its parser and the refinement are named. *)
Theorem C98_lines (e : env) (img b r : list Z) (f : found) : unpacked e b = Ok r -> find_diskimage e b = Ok f ->
  exists a, first_choice (attempt e r) (attempts e r) a /\ snd a = (f_mime f, f_class f) /\
    fst (verbose_find e img b) = loading img :: if fst a then found_lines f else [].
Proof.
  intros U F. pose proof (C98_changes_nothing e img b) as V. rewrite F in V. unfold verbose_find, data_lines in *. rewrite U in *.
  set (sl := match e_sig e r with None => [] | Some m => map (fun p => (false, (m, p))) (mime_parsers m) end).
  assert (EA : attempts e r = sl ++ map (pair true) documented_order) by reflexivity.
  assert (G : match guess_by_size e r with
    | Ok (Some (m, (p, x))) => first_choice (attempt e r) sl (false, (m, p))
    | Ok None => forall a, In a sl -> refuses (attempt e r a)
    | Err x => True
    end).
  { unfold guess_by_size, sl. destruct (e_sig e r) as [m|]; [|intros a []].
    pose proof (guess_spec (fun p => parse e false p r) (mime_parsers m)) as G.
    destruct (guess _ _) as [[[p x]|]|x]; cbn [rbind]; [| |exact Logic.I].
    - destruct G as (F0 & P). exact (first_choice_to_map (fun p => (false, (m, p))) (attempt e r) _ _ F0).
    - intros a Ha. apply in_map_iff in Ha. destruct Ha as (p & <- & Hp). exact (G p Hp). }
  destruct (guess_by_size e r) as [[[m [p x]]|]|y]; cbn [fst snd] in *; [| |discriminate V].
  - injection V as <-. exists (false, (m, p)). rewrite EA. split; [apply first_choice_pre, G|]. split; reflexivity.
  - pose proof (search_spec e mime_parse_order r) as S0. rewrite pairs_order in S0. rewrite <- search_result in S0.
    pose proof (search_lines_found e mime_parse_order r f order_nodup) as L.
    destruct (search_lines e mime_parse_order r) as [l y]. cbn [fst snd] in *. destruct y as [[f'|]|z]; [|discriminate V|discriminate V]. injection V as ->.
    destruct S0 as (F0 & _ & _). exists (true, (f_mime f, f_class f)). split; [|split; [reflexivity|]].
    + rewrite EA. apply first_choice_skip; [exact G|]. exact (first_choice_to_map (pair true) (attempt e r) _ _ F0).
    + cbn [fst]. f_equal. apply (L eq_refl).
Qed.
Print Assumptions C98_lines.
(** Data that no parser accepts: every type is named. *)
Theorem C98_refused_lines (e : env) (img b r : list Z) : unpacked e b = Ok r -> (forall a, In a (attempts e r) -> refuses (attempt e r a)) ->
  fst (verbose_find e img b) = loading img :: map trying mime_parse_order.
Proof.
  intros U N. pose proof (C98_changes_nothing e img b) as V. rewrite (C45_unrecognised e b r U N) in V. unfold verbose_find, data_lines in *. rewrite U in *.
  assert (G : guess_by_size e r = Ok None).
  { unfold guess_by_size, attempts in *. destruct (e_sig e r) as [m|]; [|reflexivity].
    assert (Q : forall ps, (forall p, In p ps -> refuses (parse e false p r)) -> guess (fun p => parse e false p r) ps = Ok None).
    { induction ps as [|p ps IH]; intros H; [reflexivity|]. cbn [guess]. rewrite (H p (or_introl eq_refl)). apply IH. intros q Hq. apply H. right. exact Hq. }
    rewrite Q; [reflexivity|]. intros p Hp. apply (N (false, (m, p))). apply in_or_app. left. apply (in_map (fun p => (false, (m, p)))). exact Hp. }
  rewrite G in *. pose proof (search_spec e mime_parse_order r) as S0. rewrite pairs_order in S0. rewrite <- search_result in S0.
  pose proof (search_lines_none e mime_parse_order r) as L.
  destruct (search_lines e mime_parse_order r) as [l y]. cbn [fst snd] in *. f_equal. apply L.
  assert (R : forall mp, In mp documented_order -> refuses (parse e true (snd mp) r)).
  { intros mp Hm. apply (N (true, mp)). apply in_or_app. right. apply in_map. exact Hm. }
  destruct y as [[f|]|x]; [|reflexivity|]; exfalso.
  - destruct S0 as (F0 & _). exact (first_choice_not_all _ _ _ F0 R).
  - destruct S0 as (m & p & F0 & _). exact (first_choice_not_all _ _ _ F0 R).
Qed.
Print Assumptions C98_refused_lines.

(** Whatever happens to the first type that is not refused - it is used, or it fails while it is
    read or refined - the types up to it have been named, and, once it was read, its parser. *)
Lemma search_lines_all e b : forall ms m p, NoDup ms -> first_choice (fun mp => parse e true (snd mp) b) (pairs ms) (m, p) ->
  In m ms /\
  fst (search_lines e ms b) = map trying (upto m ms) ++
    match parse e true p b with
    | Err _ => []
    | Ok _ => found_parser p :: match guess_detail m b with Ok (Some d) => [magic_match d] | _ => [] end
    end.
Proof.
  induction ms as [|m0 ms IH]; intros m p N F; [destruct F as ([|? ?] & ? & F & _); discriminate F|]. inversion N as [|? ? N1 N2]; subst.
  change (pairs (m0 :: ms)) with (map (pair m0) (mime_parsers m0) ++ pairs ms) in F. cbn [search_lines]. unfold guess_for_mime.
  pose proof (guess_spec (fun p => parse e true p b) (mime_parsers m0)) as G. destruct (guess _ (mime_parsers m0)) as [[[q x]|]|y].
  - destruct G as [F1 E]. pose proof (first_choice_unique _ _ _ _ F (first_choice_pre _ _ (pairs ms) _ (first_choice_to_map (pair m0) (fun mp => parse e true (snd mp) b) _ _ F1))) as X. injection X as -> ->.
    split; [left; reflexivity|]. cbn [upto]. rewrite zlist_eqb_refl, E. destruct (guess_detail m0 b) as [[d|]|y]; reflexivity.
  - assert (F1 : first_choice (fun mp => parse e true (snd mp) b) (pairs ms) (m, p)).
    { pose proof (search_spec e ms b) as S0. assert (L : forall mp, In mp (map (pair m0) (mime_parsers m0)) -> refuses (parse e true (snd mp) b)) by (intros mp Hin; apply in_map_iff in Hin; destruct Hin as (q & <- & Hin); exact (G q Hin)).
      destruct (search e ms b) as [[f|]|y].
      - destruct S0 as (F1 & _). rewrite (first_choice_unique _ _ _ _ F (first_choice_skip _ _ _ _ L F1)). exact F1.
      - exfalso. apply (first_choice_not_all _ _ _ F). intros q Hq. apply in_app_or in Hq. destruct Hq; auto.
      - destruct S0 as (m' & p' & F1 & _). rewrite (first_choice_unique _ _ _ _ F (first_choice_skip _ _ _ _ L F1)). exact F1. }
    destruct (IH m p N2 F1) as (I0 & L). destruct (search_lines e ms b) as [l y]. cbn [fst] in *. rewrite L. split; [right; exact I0|]. cbn [upto].
    destruct (zlist_eqb (mime_text m0) (mime_text m)) eqn:Q; [|reflexivity]. apply zlist_eqb_eq, mime_text_inj in Q. subst m0. contradiction.
  - destruct G as (q & F1 & E). pose proof (first_choice_unique _ _ _ _ F (first_choice_pre _ _ (pairs ms) _ (first_choice_to_map (pair m0) (fun mp => parse e true (snd mp) b) _ _ F1))) as X. injection X as -> ->.
    split; [left; reflexivity|]. cbn [upto]. rewrite zlist_eqb_refl, E. reflexivity.
Qed.
Theorem C98_failed_lines (e : env) (img b r : list Z) (m : mime) (p : pclass) : unpacked e b = Ok r -> e_sig e r = None ->
  first_choice (fun mp => parse e true (snd mp) r) documented_order (m, p) ->
  fst (verbose_find e img b) = loading img :: map trying (upto m mime_parse_order) ++
    match parse e true p r with
    | Err _ => []
    | Ok _ => found_parser p :: match guess_detail m r with Ok (Some d) => [magic_match d] | _ => [] end
    end.
Proof.
  intros U S F. unfold verbose_find, data_lines. rewrite U. unfold guess_by_size. rewrite S. rewrite <- pairs_order in F. destruct (search_lines_all e r mime_parse_order m p order_nodup F) as [_ L].
  destruct (search_lines e mime_parse_order r) as [l y]. cbn [fst] in *. rewrite L. reflexivity.
Qed.
Print Assumptions C98_failed_lines.

(** * The text tells the formats apart *)
Definition one_line (l : list Z) : Prop := ~ In 10 l.
Lemma one_lineb l : forallb (fun c => negb (c =? 10)) l = true -> one_line l.
Proof. intros H C. rewrite forallb_forall in H. specialize (H 10 C). discriminate H. Qed.
Lemma line_eq a a' r r' : one_line a -> one_line a' -> a ++ 10 :: r = a' ++ 10 :: r' -> a = a' /\ r = r'.
Proof.
  intros A A' E. assert (Q : forall l, one_line l -> Forall (fun c => c <> 10) l) by (intros l H; apply Forall_forall; intros x Hx ->; exact (H Hx)).
  destruct (span_eq (fun c => c <> 10) a a' 10 10 r r' (Q a A) (Q a' A') ltac:(auto) ltac:(auto) E) as (E1 & E2). injection E2 as E2. auto.
Qed.
Definition all_classes : list pclass := flat_map mime_parsers [M_atr; M_xex; M_cart8; M_cart52; M_2600; M_starpath; M_vectrex; M_mame; M_rom; M_dsk; M_bin].
Lemma menu_one_line p : In p all_classes -> one_line (found_parser p).
Proof.
  assert (B : forallb (fun p => forallb (fun c => negb (c =? 10)) (found_parser p)) all_classes = true) by (vm_compute; reflexivity).
  intros H. rewrite forallb_forall in B. apply one_lineb. exact (B p H).
Qed.
Lemma menu_inj p q : In p all_classes -> In q all_classes -> menu_name p = menu_name q -> p = q.
Proof.
  assert (N : NoDup (map menu_name all_classes)).
  { assert (B : forall l, (fix go (l : list (list Z)) := match l with [] => true | x :: r => negb (existsb (zlist_eqb x) r) && go r end) l = true -> NoDup l).
    { induction l as [|x l IH]; [constructor|]. intros H. apply andb_prop in H. destruct H as [H1 H2]. constructor; [|exact (IH H2)].
      intros C. apply negb_true_iff in H1. apply not_true_iff_false in H1. apply H1. apply existsb_exists. exists x. split; [exact C|apply zlist_eqb_refl]. }
    apply B. vm_compute. reflexivity. }
  intros Hp Hq E. generalize dependent all_classes. intros l N Hp Hq.
  induction l as [|x l IH]; [destruct Hp|]. cbn [map] in N. inversion N as [|? ? N1 N2]; subst. destruct Hp as [->|Hp], Hq as [->|Hq]; auto.
  - exfalso. apply N1. rewrite E. apply in_map. exact Hq.
  - exfalso. apply N1. rewrite <- E. apply in_map. exact Hp.
Qed.
(** Whether a text begins with a word *)
Fixpoint begins (w l : list Z) : bool :=
  match w, l with [], _ => true | c :: w', x :: l' => (c =? x) && begins w' l' | _, [] => false end.
Lemma begins_app w r : begins w (w ++ r) = true.
Proof. induction w as [|c w IH]; [reflexivity|]. cbn [app begins]. rewrite Z.eqb_refl. exact IH. Qed.
Lemma begins_short w l r : begins w (l ++ r) = true -> begins w l = false -> (length l < length w)%nat.
Proof.
  revert l. induction w as [|c w IH]; intros l H N; [discriminate N|]. destruct l as [|x l]; [cbn; lia|].
  cbn [app begins length] in *. destruct (c =? x); cbn [andb] in *; [|discriminate H]. specialize (IH l H N). lia.
Qed.
Definition trying_word : list Z := txt "Trying MIME type ".
Definition match_word : list Z := txt "Magic signature match: ".
(** A name with which the line about the image cannot be taken for a line of the search *)
Definition distinct_name (img : list Z) : Prop := begins trying_word (img ++ txt ": ") = false /\ begins match_word (img ++ txt ": ") = false.

Fixpoint colon_last (w : list Z) : bool :=
  match w with [] => true | c :: r => (if c =? 58 then zlist_eqb r [32] else true) && colon_last r end.
Lemma begins_name w : colon_last w = true -> forall img r, begins w (img ++ txt ": " ++ r) = true -> begins w (img ++ txt ": ") = true.
Proof.
  intros C. induction w as [|c w IH]; intros img r H; [reflexivity|]. cbn [colon_last] in C. apply andb_prop in C. destruct C as [C1 C2].
  destruct img as [|x img].
  - change (begins (c :: w) (58 :: 32 :: r) = true) in H. change (begins (c :: w) [58; 32] = true).
    cbn [begins] in H |- *. destruct (c =? 58); [|discriminate H]. cbn [andb] in *. apply zlist_eqb_eq in C1. subst w. reflexivity.
  - cbn [app begins] in H |- *. destruct (c =? x); [|discriminate H]. cbn [andb] in *. exact (IH C2 img r H).
Qed.
Lemma distinct_line img r : distinct_name img -> begins trying_word (img ++ txt ": " ++ r) = false /\ begins match_word (img ++ txt ": " ++ r) = false.
Proof.
  intros [N1 N2]. split; apply not_true_iff_false; intros C; apply begins_name in C; try (vm_compute; reflexivity); congruence.
Qed.

Lemma mime_one_line m : one_line (mime_text m).
Proof. apply one_lineb. destruct m; vm_compute; reflexivity. Qed.
Lemma detail_one_line d : one_line (detail_text d).
Proof. apply one_lineb. destruct d; vm_compute; reflexivity. Qed.
Lemma trying_one_line m : one_line (trying m).
Proof. apply one_lineb. destruct m; vm_compute; reflexivity. Qed.
Lemma match_one_line d : one_line (magic_match d).
Proof. apply one_lineb. destruct d; vm_compute; reflexivity. Qed.
Lemma trying_begins m r : begins trying_word (trying m ++ r) = true.
Proof. unfold trying. rewrite <- app_assoc. apply begins_app. Qed.
Lemma match_begins d r : begins match_word (magic_match d ++ r) = true.
Proof. unfold magic_match. rewrite <- app_assoc. apply begins_app. Qed.
Lemma found_begins p r : begins trying_word (found_parser p ++ r) = false.
Proof. reflexivity. Qed.
Lemma printed_cons l ls r : printed (l :: ls) ++ r = l ++ 10 :: printed ls ++ r.
Proof. unfold printed. cbn [flat_map]. rewrite <- !app_assoc. reflexivity. Qed.
Lemma printed_app a b : printed (a ++ b) = printed a ++ printed b.
Proof. apply flat_map_app. Qed.
Lemma tryings_eq : forall xs ys r s, begins trying_word r = false -> begins trying_word s = false ->
  printed (map trying xs) ++ r = printed (map trying ys) ++ s -> xs = ys /\ r = s.
Proof.
  induction xs as [|x xs IH]; intros ys r s Nr Ns E; destruct ys as [|y ys]; cbn [map] in E; rewrite ?printed_cons in E; cbn [printed flat_map app] in E.
  - auto.
  - exfalso. rewrite E in Nr. rewrite trying_begins in Nr. discriminate Nr.
  - exfalso. rewrite <- E in Ns. rewrite trying_begins in Ns. discriminate Ns.
  - apply line_eq in E; [|apply trying_one_line|apply trying_one_line]. destruct E as [E1 E2].
    destruct (IH ys r s Nr Ns E2) as [<- <-]. unfold trying in E1. apply app_inv_head in E1. apply mime_text_inj in E1. subst y. auto.
Qed.
Lemma upto_last m : forall ms, In m ms -> exists l, upto m ms = l ++ [m].
Proof.
  induction ms as [|x ms IH]; [intros []|]. intros H. cbn [upto]. destruct (zlist_eqb (mime_text x) (mime_text m)) eqn:E.
  - apply zlist_eqb_eq, mime_text_inj in E. subst x. exists []. reflexivity.
  - destruct H as [->|H]; [rewrite zlist_eqb_refl in E; discriminate E|]. destruct (IH H) as [l ->]. exists (x :: l). reflexivity.
Qed.
(** The lines of a search, followed by a text that cannot be taken for one of them, tell the
    type, the parser and the refinement. *)
Lemma found_lines_eq f1 f2 r s : In (f_mime f1) mime_parse_order -> In (f_mime f2) mime_parse_order -> In (f_class f1) all_classes -> In (f_class f2) all_classes ->
  begins match_word r = false -> begins match_word s = false ->
  printed (found_lines f1) ++ r = printed (found_lines f2) ++ s ->
  f_mime f1 = f_mime f2 /\ f_class f1 = f_class f2 /\ f_detail f1 = f_detail f2 /\ r = s.
Proof.
  intros I1 I2 C1 C2 Nr Ns E. unfold found_lines in E. rewrite !printed_app in E. rewrite <- !app_assoc in E.
  apply tryings_eq in E; [|reflexivity|reflexivity]. destruct E as [E1 E2].
  assert (M : f_mime f1 = f_mime f2).
  { destruct (upto_last _ _ I1) as [l1 Q1]. destruct (upto_last _ _ I2) as [l2 Q2].
    rewrite Q1, Q2 in E1. apply app_inj_tail in E1. apply E1. }
  split; [exact M|]. rewrite !printed_cons in E2. apply line_eq in E2; [|apply menu_one_line; assumption|apply menu_one_line; assumption].
  destruct E2 as [E2 E3]. unfold found_parser in E2. apply app_inv_head in E2. apply menu_inj in E2; [|assumption|assumption]. split; [exact E2|].
  destruct (f_detail f1) as [d1|], (f_detail f2) as [d2|]; rewrite ?printed_cons in E3; cbn [printed flat_map app] in E3.
  - apply line_eq in E3; [|apply match_one_line|apply match_one_line]. destruct E3 as [E3 E4]. unfold magic_match in E3. apply app_inv_head in E3. apply detail_text_inj in E3. subst d2. auto.
  - exfalso. rewrite <- E3 in Ns. rewrite match_begins in Ns. discriminate Ns.
  - exfalso. rewrite E3 in Nr. rewrite match_begins in Nr. discriminate Nr.
  - auto.
Qed.
Lemma class_known e r a : In a (attempts e r) -> In (snd (snd a)) all_classes.
Proof.
  assert (Q : forall m p, In p (mime_parsers m) -> In p all_classes).
  { intros m p H. unfold all_classes. apply in_flat_map. exists m. split; [|exact H]. destruct m; cbn; tauto. }
  unfold attempts. intros H. apply in_app_or in H. destruct H as [H|H].
  - destruct (e_sig e r) as [m|]; [|destruct H]. apply in_map_iff in H. destruct H as (p & <- & H). exact (Q m p H).
  - apply in_map_iff in H. destruct H as ((m & p) & <- & H). 
    rewrite <- pairs_order in H. apply in_flat_map in H. destruct H as (m' & Hm & H). apply in_map_iff in H. destruct H as (p' & [= -> ->] & H). exact (Q _ _ H).
Qed.
Lemma mime_known e r a : In a (attempts e r) -> fst a = true -> In (fst (snd a)) mime_parse_order.
Proof.
  unfold attempts. intros H T. apply in_app_or in H. destruct H as [H|H].
  - destruct (e_sig e r) as [m|]; [|destruct H]. apply in_map_iff in H. destruct H as (p & <- & H). discriminate T.
  - apply in_map_iff in H. destruct H as ((m & p) & <- & H). rewrite <- pairs_order in H.
    apply in_flat_map in H. destruct H as (m' & Hm & H). apply in_map_iff in H. destruct H as (p' & [= -> ->] & H). exact Hm.
Qed.
(** Two images of the same name with the same text were recognised as the same kind, by the
    same means, and what follows is the same too. *)
Theorem C98_tells (e : env) (img b1 b2 : list Z) (f1 f2 : found) (r s : list Z) : distinct_name img ->
  find_diskimage e b1 = Ok f1 -> find_diskimage e b2 = Ok f2 ->
  printed (fst (verbose_find e img b1)) ++ img ++ txt ": " ++ r = printed (fst (verbose_find e img b2)) ++ img ++ txt ": " ++ s ->
  r = s /\ ((fst (verbose_find e img b1) = [loading img] /\ fst (verbose_find e img b2) = [loading img]) \/
    (f_mime f1 = f_mime f2 /\ f_class f1 = f_class f2 /\ f_detail f1 = f_detail f2)).
Proof.
  intros D F1 F2 E.
  assert (U : forall b f, find_diskimage e b = Ok f -> exists x, unpacked e b = Ok x).
  { intros b f F. unfold find_diskimage, iter_parsers in F. destruct (unpacked e b) as [x|x]; [exists x; reflexivity|discriminate F]. }
  destruct (U _ _ F1) as [x1 U1]. destruct (U _ _ F2) as [x2 U2].
  destruct (C98_lines e img b1 x1 f1 U1 F1) as (a1 & A1 & P1 & L1). destruct (C98_lines e img b2 x2 f2 U2 F2) as (a2 & A2 & P2 & L2).
  assert (K1 : In (f_class f1) all_classes). { change (f_class f1) with (snd (f_mime f1, f_class f1)). rewrite <- P1. apply (class_known e x1). destruct A1 as (bf & af & -> & _). apply in_elt. }
  assert (K2 : In (f_class f2) all_classes). { change (f_class f2) with (snd (f_mime f2, f_class f2)). rewrite <- P2. apply (class_known e x2). destruct A2 as (bf & af & -> & _). apply in_elt. }
  assert (I1 : fst a1 = true -> In (f_mime f1) mime_parse_order). { intros T. change (f_mime f1) with (fst (f_mime f1, f_class f1)). rewrite <- P1. apply (mime_known e x1); [|exact T]. destruct A1 as (bf & af & -> & _). apply in_elt. }
  assert (I2 : fst a2 = true -> In (f_mime f2) mime_parse_order). { intros T. change (f_mime f2) with (fst (f_mime f2, f_class f2)). rewrite <- P2. apply (mime_known e x2); [|exact T]. destruct A2 as (bf & af & -> & _). apply in_elt. }
  rewrite L1, L2 in *. rewrite !printed_cons in E. apply app_inv_head in E. injection E as E.
  destruct (distinct_line img r D) as [T1 M1]. destruct (distinct_line img s D) as [T2 M2].
  assert (Q : forall f t u, In (f_mime f) mime_parse_order -> begins trying_word t = false -> printed (found_lines f) ++ u <> t).
  { intros f t u Hi N C. subst t. unfold found_lines in N. rewrite !printed_app, <- !app_assoc in N.
    destruct (upto (f_mime f) mime_parse_order) as [|m ms] eqn:Eu; [destruct (upto_last _ _ Hi) as [l Ql]; rewrite Eu in Ql; destruct l; discriminate Ql|].
    cbn [map] in N. rewrite printed_cons, trying_begins in N. discriminate N. }
  destruct (fst a1), (fst a2).
  - destruct (found_lines_eq f1 f2 _ _ (I1 eq_refl) (I2 eq_refl) K1 K2 M1 M2 E) as (Q1 & Q2 & Q3 & Q4). do 2 apply app_inv_head in Q4. auto.
  - exfalso. exact (Q f1 _ _ (I1 eq_refl) T2 E).
  - exfalso. exact (Q f2 _ _ (I2 eq_refl) T1 (eq_sym E)).
  - cbn [printed flat_map app] in E. apply app_inv_head in E. injection E as E. auto.
Qed.
Print Assumptions C98_tells.

(** * Listings *)
Lemma one_line_app a b : one_line (a ++ b) <-> one_line a /\ one_line b.
Proof. unfold one_line. rewrite in_app_iff. tauto. Qed.
Lemma dec_one_line n : one_line (dec n).
Proof. pose proof (dec_num n) as D. rewrite Forall_forall in D. intros C. specialize (D 10 C). revert D. apply not_num_b. reflexivity. Qed.
Ltac ol := repeat (apply one_line_app; split); try apply dec_one_line; try (apply one_lineb; reflexivity).
Lemma sizes_one_line a b c : one_line (sizes_text a b c).
Proof. unfold sizes_text. ol. Qed.
Lemma header_one_line h : one_line (header_text h).
Proof. unfold header_text. destruct (h_offset h =? 0); ol; apply sizes_one_line. Qed.
Lemma atari_one_line im : one_line (atari_head im).
Proof. unfold atari_head, format_text. ol. apply header_one_line. Qed.
Lemma sparta_one_line im : one_line (sparta_head im).
Proof. unfold sparta_head, format_text. ol. apply header_one_line. Qed.
Lemma dos33_one_line im : one_line (dos33_head im).
Proof. unfold dos33_head. ol. Qed.
Definition shown_type (f : found) : list Z := match f_detail f with Some d => detail_text d | None => mime_text (f_mime f) end.
Lemma shown_one_line f : one_line (shown_type f).
Proof. unfold shown_type. destruct (f_detail f); [apply detail_one_line|apply mime_one_line]. Qed.
Lemma shown_no_paren f : Forall (fun c => c <> 40) (rev (shown_type f)).
Proof.
  assert (B : forallb (fun c => negb (c =? 40)) (shown_type f) = true) by (unfold shown_type; destruct (f_detail f) as [[]|]; try destruct (f_mime f); vm_compute; reflexivity).
  apply Forall_forall. intros x Hx ->. apply in_rev in Hx. rewrite forallb_forall in B. specialize (B 40 Hx). discriminate B.
Qed.
(** The type at the end of the line can be read back *)
Theorem C98_kind_readable (h1 h2 t1 t2 : list Z) (f1 f2 : found) : one_line h1 -> one_line h2 ->
  (h1 ++ kind_text f1) ++ 10 :: t1 = (h2 ++ kind_text f2) ++ 10 :: t2 -> h1 = h2 /\ shown_type f1 = shown_type f2 /\ t1 = t2.
Proof.
  intros O1 O2 E. apply line_eq in E; [| |]; [|apply one_line_app; split; [assumption|]; unfold kind_text; repeat (apply one_line_app; split); try apply shown_one_line; apply one_lineb; reflexivity..].
  destruct E as [E Et]. assert (K : forall h f, rev (h ++ kind_text f) = 125 :: rev (shown_type f) ++ 40 :: 32 :: rev h).
  { intros h f. change (kind_text f) with ([32; 40] ++ shown_type f ++ [125]). rewrite !rev_app_distr, <- !app_assoc. reflexivity. }
  apply (f_equal (@rev Z)) in E. rewrite !K in E. injection E as E.
  destruct (span_eq (fun c => c <> 40) _ _ 40 40 _ _ (shown_no_paren f1) (shown_no_paren f2) ltac:(auto) ltac:(auto) E) as [E1 E2].
  injection E2 as E2. split; [|split; [|exact Et]]; [rewrite <- (rev_involutive h1), E2; apply rev_involutive|].
  rewrite <- (rev_involutive (shown_type f1)), E1. apply rev_involutive.
Qed.
Print Assumptions C98_kind_readable.

Section Lists.
Context {E1 E2 : Type}.
Variables (line1 name1 : E1 -> list Z) (read1 : E1 -> res (list Z)) (line2 name2 : E2 -> list Z) (read2 : E2 -> res (list Z)).
(** Two listings of images of the same name, under --verbose, with the same text: the images
    are of the same kind, and without --verbose the texts would be the same too. *)
Theorem C98_list (e : env) (crc : list Z -> Z) (img b1 b2 h1 h2 t : list Z) (f1 f2 : found) (show : bool) (files : list (list Z)) (d1 : list E1) (d2 : list E2) (x1 x2 : res unit) :
  distinct_name img -> one_line h1 -> one_line h2 -> find_diskimage e b1 = Ok f1 -> find_diskimage e b2 = Ok f2 ->
  verbose_list line1 name1 read1 crc (fst (verbose_find e img b1)) f1 img h1 show files d1 = (t, x1) ->
  verbose_list line2 name2 read2 crc (fst (verbose_find e img b2)) f2 img h2 show files d2 = (t, x2) ->
  shown_type f1 = shown_type f2 /\
  exists u, list_text E1 line1 name1 read1 crc img h1 show files d1 = (u, x1) /\ list_text E2 line2 name2 read2 crc img h2 show files d2 = (u, x2).
Proof.
  intros D O1 O2 F1 F2 T1 T2. unfold verbose_list, list_text in *.
  destruct (print_loop E1 _ _) as [p1 y1]. destruct (print_loop E2 _ _) as [p2 y2]. injection T1 as T1 ->. injection T2 as T2 ->. rewrite <- T2 in T1.
  apply (C98_tells e img b1 b2 f1 f2 _ _ D F1 F2) in T1. destruct T1 as [T1 _].
  apply C98_kind_readable in T1; [|assumption|assumption]. destruct T1 as (<- & K & <-). split; [exact K|]. eexists. split; reflexivity.
Qed.
End Lists.
Print Assumptions C98_list.
(** So the listings of C85 can be read back under --verbose too *)
Theorem C98_atari_list (e : env) crc img show files b1 b2 c1 c2 im1 im2 f1 f2 t : (forall x, 0 <= crc x < 2 ^ 32) -> distinct_name img ->
  bytes_ok c1 -> open_image c1 = Ok im1 -> bytes_ok c2 -> open_image c2 = Ok im2 -> find_diskimage e b1 = Ok f1 -> find_diskimage e b2 = Ok f2 ->
  verbose_list atari_line filename (AtariModel.get_file im1) crc (fst (verbose_find e img b1)) f1 img (atari_head im1) show files (a_files im1) = (t, Ok tt) ->
  verbose_list atari_line filename (AtariModel.get_file im2) crc (fst (verbose_find e img b2)) f2 img (atari_head im2) show files (a_files im2) = (t, Ok tt) ->
  let l1 := selected dirent filename files (a_files im1) in
  let l2 := selected dirent filename files (a_files im2) in
  shown_type f1 = shown_type f2 /\
  (header_view (a_hdr im1), a_total im1, a_free im1, zlen (a_files im1)) = (header_view (a_hdr im2), a_total im2, a_free im2, zlen (a_files im2)) /\
  map atari_view l1 = map atari_view l2 /\
  (show = true -> sums (AtariModel.get_file im1) crc l1 = sums (AtariModel.get_file im2) crc l2).
Proof.
  intros Hc D B1 O1 B2 O2 F1 F2 T1 T2. cbv zeta.
  destruct (C98_list _ _ _ _ _ _ e crc img b1 b2 _ _ t f1 f2 show files _ _ _ _ D (atari_one_line im1) (atari_one_line im2) F1 F2 T1 T2) as (K & u & U1 & U2).
  split; [exact K|]. exact (C85_atari_list crc img show files c1 c2 im1 im2 u Hc B1 O1 B2 O2 U1 U2).
Qed.
Print Assumptions C98_atari_list.
Theorem C98_dos33_list (e : env) crc img show files b1 b2 c1 c2 im1 im2 f1 f2 t : (forall x, 0 <= crc x < 2 ^ 32) -> distinct_name img ->
  bytes_ok c1 -> open33 c1 = Ok im1 -> bytes_ok c2 -> open33 c2 = Ok im2 -> find_diskimage e b1 = Ok f1 -> find_diskimage e b2 = Ok f2 ->
  verbose_list dos33_line (fun e => d3_name (snd e)) (fun e => get_file3 im1 (snd e)) crc (fst (verbose_find e img b1)) f1 img (dos33_head im1) show files (numbered im1) = (t, Ok tt) ->
  verbose_list dos33_line (fun e => d3_name (snd e)) (fun e => get_file3 im2 (snd e)) crc (fst (verbose_find e img b2)) f2 img (dos33_head im2) show files (numbered im2) = (t, Ok tt) ->
  let l1 := selected _ (fun e => d3_name (snd e)) files (numbered im1) in
  let l2 := selected _ (fun e => d3_name (snd e)) files (numbered im2) in
  shown_type f1 = shown_type f2 /\ map dos33_view l1 = map dos33_view l2 /\
  (show = true -> sums (fun e => get_file3 im1 (snd e)) crc l1 = sums (fun e => get_file3 im2 (snd e)) crc l2).
Proof.
  intros Hc D B1 O1 B2 O2 F1 F2 T1 T2. cbv zeta.
  destruct (C98_list _ _ _ _ _ _ e crc img b1 b2 _ _ t f1 f2 show files _ _ _ _ D (dos33_one_line im1) (dos33_one_line im2) F1 F2 T1 T2) as (K & u & U1 & U2).
  split; [exact K|]. exact (C85_dos33_list crc img show files c1 c2 im1 im2 u Hc B1 O1 B2 O2 U1 U2).
Qed.
Print Assumptions C98_dos33_list.
Theorem C98_sparta_list (e : env) crc img show files b1 b2 c1 c2 im1 im2 d1 d2 f1 f2 t : (forall x, 0 <= crc x < 2 ^ 32) -> distinct_name img ->
  bytes_ok c1 -> open_sparta c1 = Ok im1 -> stamps im1 = Ok d1 -> bytes_ok c2 -> open_sparta c2 = Ok im2 -> stamps im2 = Ok d2 ->
  find_diskimage e b1 = Ok f1 -> find_diskimage e b2 = Ok f2 ->
  verbose_list sparta_line (fun e => sfilename (fst e)) (fun e => sget_file im1 (fst e)) crc (fst (verbose_find e img b1)) f1 img (sparta_head im1) show files d1 = (t, Ok tt) ->
  verbose_list sparta_line (fun e => sfilename (fst e)) (fun e => sget_file im2 (fst e)) crc (fst (verbose_find e img b2)) f2 img (sparta_head im2) show files d2 = (t, Ok tt) ->
  let l1 := selected _ (fun e => sfilename (fst e)) files d1 in
  let l2 := selected _ (fun e => sfilename (fst e)) files d2 in
  shown_type f1 = shown_type f2 /\
  (header_view (s_hdr im1), s_total im1, s_free im1, zlen (s_files im1)) = (header_view (s_hdr im2), s_total im2, s_free im2, zlen (s_files im2)) /\
  map sparta_view l1 = map sparta_view l2 /\
  (show = true -> sums (fun e => sget_file im1 (fst e)) crc l1 = sums (fun e => sget_file im2 (fst e)) crc l2).
Proof.
  intros Hc D B1 O1 S1 B2 O2 S2 F1 F2 T1 T2. cbv zeta.
  destruct (C98_list _ _ _ _ _ _ e crc img b1 b2 _ _ t f1 f2 show files _ _ _ _ D (sparta_one_line im1) (sparta_one_line im2) F1 F2 T1 T2) as (K & u & U1 & U2).
  split; [exact K|]. apply (C85_sparta_list crc img show files c1 c2 im1 im2 d1 d2 u Hc B1 O1 S1 B2 O2 S2); unfold sparta_list; [rewrite S1; exact U1|rewrite S2; exact U2].
Qed.
Print Assumptions C98_sparta_list.

(** A SpartaDOS disk, an executable and data that are nothing. *)
Definition verbose_text : list Z :=
  txt "Loading file D.ATR" ++ 10 :: txt "Trying MIME type application/vnd.atari8bit.atr" ++ 10 :: txt "Found parser Sparta DOS Disk Image" ++ 10 ::
  txt "D.ATR: ATR Disk Image (size=1152 (9x128B), crc=0 flags=0 unused=0) Sparta DOS Format: 9 usable sectors (1 free), 2 files (application/vnd.atari8bit.atr}" ++ 10 ::
  txt "File #1  (..u.  005) A       TXT       200  1/2/90 12:30:0  000000c8" ++ 10 :: txt "File #2  (...d  008) B                  10  1/2/90 12:30:0  0000000a" ++ [10].
Definition verbose_check (img b : list Z) (text : list Z) : bool :=
  match find_diskimage env0 b, open_sparta b with
  | Ok f, Ok im => match stamps im with
                   | Ok d => match verbose_list sparta_line (fun e => sfilename (fst e)) (fun e => sget_file im (fst e)) sum8 (fst (verbose_find env0 img b)) f img (sparta_head im) true [] d with
                             | (t, Ok _) => zlist_eqb t text
                             | _ => false
                             end
                   | _ => false
                   end
  | _, _ => false
  end.
Lemma verbose_check_true img b text : verbose_check img b text = true -> exists f im d, find_diskimage env0 b = Ok f /\ open_sparta b = Ok im /\ stamps im = Ok d /\
  verbose_list sparta_line (fun e => sfilename (fst e)) (fun e => sget_file im (fst e)) sum8 (fst (verbose_find env0 img b)) f img (sparta_head im) true [] d = (text, Ok tt).
Proof.
  unfold verbose_check. intros H. destruct (find_diskimage env0 b) as [f|]; [|discriminate H]. destruct (open_sparta b) as [im|]; [|discriminate H].
  exists f, im. destruct (stamps im) as [d|]; [|discriminate H]. exists d. split; [reflexivity|]. split; [reflexivity|]. split; [reflexivity|].
  destruct (verbose_list _ _ _ _ _ _ _ _ _ _ _) as [t [[]|]]; [|discriminate H]. apply zlist_eqb_eq in H. subst t. reflexivity.
Qed.
Lemma demo_distinct : distinct_name (txt "D.ATR").
Proof. split; vm_compute; reflexivity. Qed.
Lemma demo_verbose : verbose_check (txt "D.ATR") Properties_Sparta2.demo_atr verbose_text = true.
Proof. vm_compute. reflexivity. Qed.
Example C98_example : distinct_name (txt "D.ATR") /\ exists f im d, find_diskimage env0 Properties_Sparta2.demo_atr = Ok f /\ open_sparta Properties_Sparta2.demo_atr = Ok im /\ stamps im = Ok d /\
  verbose_list sparta_line (fun e => sfilename (fst e)) (fun e => sget_file im (fst e)) sum8 (fst (verbose_find env0 (txt "D.ATR") Properties_Sparta2.demo_atr)) f (txt "D.ATR") (sparta_head im) true [] d = (verbose_text, Ok tt).
Proof. exact (conj demo_distinct (verbose_check_true _ _ _ demo_verbose)). Qed.
Example C98_xex_example : fst (verbose_find env0 (txt "A.XEX") [255; 255; 0; 6; 1; 6; 7; 8]) =
  [txt "Loading file A.XEX"; txt "Trying MIME type application/vnd.atari8bit.atr"; txt "Trying MIME type application/vnd.atari8bit.xex"; txt "Found parser XEX (Atari 8-bit executable)"].
Proof. vm_compute. reflexivity. Qed.
Example C98_refused_example : zlen (fst (verbose_find env0 (txt "X") [1; 2; 3; 4; 5; 6; 7])) = 9.
Proof. vm_compute. reflexivity. Qed.

(** A disk that starts like the Jumpman level tester, and is too short: the parser is announced,
    then the search for the refinement fails. *)
Definition short_tester : list Z := [0x96; 0x02; 0xd0; 0x05; 0x80; 0; 0; 0; 0; 0; 0; 0; 0; 0; 0; 0] ++ zrepeat 0 (3 * 128).
Example C98_failed_example : verbose_find env0 (txt "J") short_tester =
  ([txt "Loading file J"; txt "Trying MIME type application/vnd.atari8bit.atr"; txt "Found parser Atari Disk Image"], Err EIndex).
Proof. vm_compute. reflexivity. Qed.
