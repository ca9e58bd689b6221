(** C87: the command line. *)
From Coq Require Import String.
From Verif Require Import Base BaseLemmas DiskModel AtariModel CliInst DetectModel CliModel MainModel TextModel ArgModel ArgSpec ArgProofs Properties_Main.

(** * Meaning *)
Lemma seen_items k its : seen k (map event_of its) = map i_words (filter (has_key k) its).
Proof.
  unfold seen. induction its as [|i its IH]; [reflexivity|]. cbn [map filter]. change (key_eqb (fst (event_of i)) k) with (has_key k i).
  destruct (has_key k i); [cbn [map]; f_equal|]; exact IH.
Qed.
Lemma flag_items k its : flag k (map event_of its) = existsb (has_key k) its.
Proof.
  unfold flag. rewrite seen_items. induction its as [|i its IH]; [reflexivity|]. cbn [filter existsb]. destruct (has_key k i); [reflexivity|exact IH].
Qed.
Lemma has_key_eq k i : has_key k i = true -> i_key i = k.
Proof. unfold has_key. destruct (i_key i), k; cbn; congruence. Qed.
Lemma stored_items v k its : Forall (item_ok v) its -> takes k = A1 ->
  stored k (map event_of its) = List.last (flat_map i_words (filter (has_key k) its)) [].
Proof.
  intros F T. unfold stored. rewrite seen_items. induction F as [|i its Hi F IH]; [reflexivity|]. cbn [filter]. destruct (has_key k i) eqn:K; [|exact IH].
  apply has_key_eq in K. destruct Hi as [_ Hi]. rewrite K, T in Hi. destruct Hi as (a & E & _). cbn [map flat_map]. rewrite E in *. cbn [app].
  destruct (filter (has_key k) its) as [|j l] eqn:Ef; [reflexivity|].
  assert (J : exists b, i_words j = [b]).
  { assert (Hj : In j (filter (has_key k) its)) by (rewrite Ef; left; reflexivity). apply filter_In in Hj. destruct Hj as [Hj Kj]. apply has_key_eq in Kj. rewrite Forall_forall in F. destruct (F j Hj) as [_ H].
    rewrite Kj, T in H. destruct H as (b & H & _). exists b. exact H. }
  destruct J as (b & Eb). cbn [map flat_map] in *. rewrite Eb in *. cbn [app] in *. exact IH.
Qed.
Lemma firsts_items k its : (List.length (filter (has_key k) its) <= 1)%nat -> firsts k (map event_of its) = flat_map i_words (filter (has_key k) its).
Proof.
  intros H. unfold firsts. rewrite seen_items. destruct (filter (has_key k) its) as [|i [|j l]]; [reflexivity| |cbn in H; lia].
  cbn [map flat_map]. rewrite app_nil_r. reflexivity.
Qed.
Lemma seen_global k gs : seen k (map global_event gs) = map (fun _ => []) (filter (fun g => key_eqb (global_key g) k) gs).
Proof. unfold seen. induction gs as [|g gs IH]; [reflexivity|]. cbn [map filter global_event fst]. destruct (key_eqb (global_key g) k); [cbn [map]; f_equal|]; exact IH. Qed.
Lemma asked l : line_ok l -> once l ->
  options_of_events (map global_event (l_pre l ++ l_mid l)) (map event_of (items l)) = asked_opts l /\
  command_of (l_verb l) (map event_of (items l)) (l_files l) = asked_cmd l /\
  flag KyMeta (map event_of (items l)) = given KyMeta l /\ zlen (seen KyVerbose (map global_event (l_pre l ++ l_mid l))) = verbosity l.
Proof.
  intros (Hi & Hw & F & Fp & Fo & Out) O1. unfold options_of_events, asked_opts, given. rewrite !flag_items.
  assert (D : flag KyDry (map global_event (l_pre l ++ l_mid l)) = dry_asked l).
  { unfold flag, dry_asked. rewrite seen_global. induction (l_pre l ++ l_mid l) as [|g gs IH]; [reflexivity|]. cbn [filter existsb]. destruct g; [exact IH|reflexivity]. }
  rewrite D. rewrite !(stored_items (l_verb l)) by (exact F || reflexivity). repeat split.
  - unfold command_of, asked_cmd, given, all_words, last_word. rewrite !flag_items, !firsts_items by (apply O1; reflexivity). rewrite !(stored_items (l_verb l)) by (exact F || reflexivity).
    destruct (l_verb l); try reflexivity. cbn [files_ok] in Fo. destruct Fo as (t & ->). cbn [concat]. rewrite app_nil_r. reflexivity.
  - rewrite seen_global, zlen_map. unfold verbosity. clear D. induction (l_pre l ++ l_mid l) as [|g gs IH]; [reflexivity|]. cbn [filter]. destruct g; [|exact IH]. cbn [global_key key_eqb]. rewrite !zlen_cons. lia.
Qed.

Lemma no_dashes l : (forall a, In a l -> zlist_eqb (txt "--") a = false) -> existsb (zlist_eqb (txt "--")) l = false.
Proof. induction l as [|a l IH]; intros H; [reflexivity|]. cbn [existsb]. rewrite (H a (or_introl eq_refl)). apply IH. intros b Hb. apply H. right. exact Hb. Qed.
Lemma line_words l a : line_ok l -> In a (line_args l) -> is_help a = false /\ zlist_eqb (txt "--") a = false.
Proof.
  intros (Hi & Hw & F & Fp & Fo & Out) Ha. unfold items in F. apply Forall_app in F. destruct F as [F1 F2].
  assert (G : forall gs, In a (map global_arg gs) -> is_help a = false /\ zlist_eqb (txt "--") a = false) by (intros gs H; apply in_map_iff in H; destruct H as (g & <- & _); apply global_words).
  assert (J : forall its, Forall (item_ok (l_verb l)) its -> In a (flat_map item_args its) -> is_help a = false /\ zlist_eqb (txt "--") a = false).
  { intros its Fi H. apply in_flat_map in H. destruct H as (i & Hin & H). rewrite Forall_forall in Fi. apply (item_words _ i a (Fi i Hin) H). }
  unfold line_args in Ha. apply in_app_or in Ha. destruct Ha as [Ha|[<-|Ha]]; [apply (G _ Ha)|apply plain_words; exact Hi|].
  apply in_app_or in Ha. destruct Ha as [Ha|[<-|Ha]]; [apply (G _ Ha)|apply plain_words; apply (word_plain _ _ Hw)|].
  apply in_app_or in Ha. destruct Ha as [Ha|Ha]; [apply (J _ F1 Ha)|]. apply in_app_or in Ha. destruct Ha as [Ha|Ha]; [|apply (J _ F2 Ha)].
  rewrite Forall_forall in Fp. apply plain_words, Fp, Ha.
Qed.
Lemma command_line_cons args x : In x args -> existsb (zlist_eqb (txt "--")) args = false -> command_line args =
  match preprocess args with
      | Err e => OCrash e
      | Ok (img, args') =>
          match parse_args args' with
          | PHelp => OHelp
          | PError => OUsage
          | POk None => OCrash EKey
          | POk (Some (v, g, ev, fs)) =>
              match img with
              | None => OCrash EUnbound
              | Some img => ORun img (options_of_events g ev) (command_of v ev fs) (flag KyMeta ev) (zlen (seen KyVerbose g))
              end
          end
      end.
Proof. intros Hx H. unfold command_line. rewrite H. destruct args; [destruct Hx|]. reflexivity. Qed.

(** Every command line written as in the manual runs what it asks for: the image is the
    first word that is no option, global options come before or after it in any order, the
    command by any of its names, options of the command before or after the files, spelt
    short, long or with an equals sign.  An option that takes one word and is given twice
    counts with its last word.  What is missing: lists of source, data or object files given
    in several options. *)
Theorem C87_runs_partial l : line_ok l -> once l ->
  command_line (line_args l) = ORun (l_img l) (asked_opts l) (asked_cmd l) (given KyMeta l) (verbosity l).
Proof.
  intros Hl O1. pose proof Hl as (Hi & Hw & F & Fp & Fo & Out).
  rewrite (command_line_cons _ (l_img l)).
  2:{ unfold line_args. apply in_or_app. right. left. reflexivity. }
  2:{ apply no_dashes. intros a Ha. apply (line_words l a Hl Ha). }
  unfold line_args. set (rest := flat_map item_args (l_before l) ++ l_files l ++ flat_map item_args (l_after l)).
  rewrite preprocess_image; [|exact Hi|].
  2:{ intros a Ha. apply (line_words l a Hl). unfold line_args. apply in_or_app. right. right. exact Ha. }
  cbv zeta. replace (existsb _ (map global_arg (l_mid l) ++ txt (l_word l) :: rest)) with true.
  2:{ symmetry. apply existsb_exists. exists (txt (l_word l)). split; [apply in_or_app; right; left; reflexivity|]. rewrite (plain_dashed _ (proj1 (word_plain _ _ Hw))). reflexivity. }
  rewrite app_assoc, <- map_app. unfold items in F. apply Forall_app in F. destruct F as [F1 F2].
  rewrite (parse_line _ (l_verb l) _ _ (map event_of (items l)) (l_files l)).
  - destruct (asked l Hl O1) as (-> & -> & -> & ->). reflexivity.
  - exact Hw.
  - unfold rest. rewrite !Forall_app. split; [apply (quiet_main (l_verb l)); exact F1|]. split; [apply quiet_files; exact Fp|apply (quiet_main (l_verb l)); exact F2].
  - apply (run_sub_line l Hl).
Qed.
Print Assumptions C87_runs_partial.
Corollary C87_program l w f : line_ok l -> once l -> atrcopy w f (line_args l) = main w (asked_opts l) f (l_img l) (asked_cmd l).
Proof. intros Hl O1. unfold atrcopy. rewrite C87_runs_partial by assumption. reflexivity. Qed.
Print Assumptions C87_program.

(** Without a command the image is listed. *)
Theorem C87_default pre img mid : plain img ->
  command_line (map global_arg pre ++ img :: map global_arg mid) =
  command_line (map global_arg pre ++ img :: map global_arg mid ++ [txt "list"]) /\
  exists o n, command_line (map global_arg pre ++ img :: map global_arg mid) = ORun img o (KList false []) false n.
Proof.
  intros Hi.
  assert (H : command_line (map global_arg pre ++ img :: map global_arg mid ++ [txt "list"]) = ORun img (asked_opts (mkLine pre img mid VList "list" [] [] [])) (KList false []) false (verbosity (mkLine pre img mid VList "list" [] [] []))).
  { apply (C87_runs_partial (mkLine pre img mid VList "list" [] [] [])); [|intros k _; cbn; lia].
    split; [exact Hi|]. split; [left; reflexivity|]. split; [constructor|]. split; [constructor|]. split; [exact Logic.I|discriminate]. }
  assert (E : command_line (map global_arg pre ++ img :: map global_arg mid) = command_line (map global_arg pre ++ img :: map global_arg mid ++ [txt "list"])).
  { assert (G : forall gs a, In a (map global_arg gs) -> is_help a = false /\ zlist_eqb (txt "--") a = false) by (intros gs a K; apply in_map_iff in K; destruct K as (g & <- & _); apply global_words).
    rewrite (command_line_cons (map global_arg pre ++ img :: map global_arg mid) img); [|apply in_or_app; right; left; reflexivity|].
    2:{ apply no_dashes. intros a Ha. apply in_app_or in Ha. destruct Ha as [Ha|[<-|Ha]]; [apply (G _ _ Ha)|apply plain_words; exact Hi|apply (G _ _ Ha)]. }
    rewrite (command_line_cons (map global_arg pre ++ img :: map global_arg mid ++ [txt "list"]) img); [|apply in_or_app; right; left; reflexivity|].
    2:{ apply no_dashes. intros a Ha. apply in_app_or in Ha. destruct Ha as [Ha|[<-|Ha]]; [apply (G _ _ Ha)|apply plain_words; exact Hi|].
        apply in_app_or in Ha. destruct Ha as [Ha|[<-|[]]]; [apply (G _ _ Ha)|vm_compute; reflexivity]. }
    rewrite !preprocess_image; try exact Hi.
    - cbv zeta. replace (existsb _ (map global_arg mid)) with false.
      + replace (existsb _ (map global_arg mid ++ [txt "list"])) with true; [rewrite app_assoc; reflexivity|]. symmetry. apply existsb_exists. exists (txt "list"). split; [apply in_or_app; right; left; reflexivity|reflexivity].
      + clear H. induction mid as [|[[]|] mid IH]; [reflexivity|exact IH..].
    - intros a Ha. apply in_app_or in Ha. destruct Ha as [Ha|[<-|[]]]; [apply (G _ _ Ha)|reflexivity].
    - intros a Ha. apply (G _ _ Ha). }
  split; [exact E|]. rewrite E, H. eauto.
Qed.
Print Assumptions C87_default.

(** Of several -s, -d or -b options only the first one is used. *)
Theorem C87_repeated_refuted : exists l, line_ok l /\ asked_cmd l = KBoot [txt "a.s"; txt "b.s"] [] [] [] /\
  exists o m n, command_line (line_args l) = ORun (l_img l) o (KBoot [txt "a.s"] [] [] []) m n.
Proof.
  exists (mkLine [] (txt "D.ATR") [] VBoot "boot" [mkItem KyAsm SShort [txt "a.s"]; mkItem KyAsm SShort [txt "b.s"]] [] []). split.
  - assert (P : forall s, dashed (txt s) = false -> plain (txt s)) by (intros s; apply dashed_plain).
    split; [apply P; reflexivity|]. split; [left; reflexivity|]. split; [|split; [constructor|split; [reflexivity|discriminate]]].
    constructor; [|constructor; [|constructor]]; (split; [right; left; reflexivity|]; split; [constructor; [apply P; reflexivity|constructor]|discriminate]).
  - split; [vm_compute; reflexivity|]. eexists. eexists. eexists. vm_compute. reflexivity.
Qed.
Print Assumptions C87_repeated_refuted.

(** * Help *)
Lemma parse_help : parse_args [txt "--help"] = PHelp.
Proof. vm_compute. reflexivity. Qed.
Lemma lookup_in {A} a (l : list (list Z * A)) x : lookup a l = Some x -> In (a, x) l.
Proof. induction l as [|[b y] l IH]; [discriminate|]. cbn [lookup]. destruct (zlist_eqb a b) eqn:E; intros H; [injection H as ->; apply zlist_eqb_eq in E; subst; left; reflexivity|right; apply IH, H]. Qed.
Lemma parse_command_help a : is_command a = true -> parse_args [a; txt "--help"] = PHelp.
Proof.
  unfold is_command. destruct (lookup a reverse_aliases) as [v|] eqn:E; [|discriminate]. intros _. apply lookup_in in E.
  unfold reverse_aliases in E. cbn [In] in E. repeat (destruct E as [E|E]; [injection E as <- <-; vm_compute; reflexivity|]). destruct E.
Qed.
Lemma find_last_ge l : forall i f, (forall a, In a l -> is_help a = false) \/ i <= find_last i f l.
Proof.
  induction l as [|a l IH]; intros i f; [left; intros a []|]. cbn [find_last]. destruct (IH (i + 1) (if is_help a then i else f)) as [H|H]; [|right; lia].
  destruct (is_help a) eqn:E; [right; rewrite (find_last_none l H); lia|]. left. intros b [<-|Hb]; [exact E|apply H, Hb].
Qed.
Lemma find_plain_neg l : forall i, 0 <= i -> find_plain i l < 0 -> filter (fun a => negb (dashed a)) l = [].
Proof. induction l as [|a l IH]; intros i Hi H; [reflexivity|]. cbn [find_plain filter] in *. destruct (dashed a); [apply (IH (i + 1)); [lia|exact H]|lia]. Qed.
Lemma find_plain_pos l : forall i, 0 <= i -> 0 <= find_plain i l -> exists pre a post, l = pre ++ a :: post /\ find_plain i l = i + zlen pre /\ plain a /\ filter (fun a => negb (dashed a)) pre = [].
Proof.
  induction l as [|a l IH]; intros i Hi H; [cbn in H; lia|]. cbn [find_plain] in *. destruct (dashed a) eqn:E.
  - destruct (IH (i + 1) ltac:(lia) H) as (pre & b & post & -> & E2 & P & F). exists (a :: pre), b, post. rewrite zlen_cons. cbn [filter]. rewrite E. split; [reflexivity|]. split; [lia|]. split; [exact P|exact F].
  - exists [], a, l. split; [reflexivity|]. split; [unfold zlen; cbn; lia|]. split; [apply dashed_plain, E|reflexivity].
Qed.
(** The words that do not start with a dash *)
Definition plain_args (args : list (list Z)) : list (list Z) := filter (fun a => negb (dashed a)) args.
(** Asking for help runs no command: help is shown, unless an image name is the only other
    word. *)
Theorem C87_help_partial args h : In h args -> is_help h = true -> ~ In (txt "--") args ->
  command_line args = OHelp \/
  command_line args = OCrash EIndex /\ exists img, plain_args args = [img] /\ is_command img = false.
Proof.
  intros Hh He Nd. assert (Ed : existsb (zlist_eqb (txt "--")) args = false) by (apply no_dashes; intros a Ha; apply zlist_eqb_neq; intros <-; exact (Nd Ha)).
  rewrite (command_line_cons args h Hh Ed). unfold preprocess. destruct (find_last_ge args 0 (-1)) as [K|K]; [rewrite (K h Hh) in He; discriminate|].
  replace (0 <=? find_last 0 (-1) args) with true by lia. cbn [orb].
  destruct ((find_last 0 (-1) args =? 0) || (find_plain 0 args <? 0)) eqn:C; [left; rewrite parse_help; reflexivity|].
  apply Bool.orb_false_iff in C. destruct C as [C1 C2]. unfold plain_args. destruct (filter (fun a => negb (dashed a)) args) as [|a r] eqn:Ef.
  - exfalso. destruct (find_plain_pos args 0 ltac:(lia) ltac:(lia)) as (pre & a & post & -> & _ & P & F). rewrite filter_app, F in Ef. cbn [app filter] in Ef. rewrite (plain_dashed _ P) in Ef. discriminate.
  - destruct (is_command a) eqn:Ec; [left; rewrite parse_command_help by exact Ec; reflexivity|].
    destruct r as [|b r].
    + right. split; [reflexivity|]. exists a. split; [reflexivity|exact Ec].
    + left. destruct (is_command b) eqn:Eb; [rewrite parse_command_help by exact Eb|rewrite parse_help]; reflexivity.
Qed.
Print Assumptions C87_help_partial.
(** atrcopy D.ATR --help *)
Theorem C87_help_refuted : exists img, plain img /\ command_line [img; txt "--help"] = OCrash EIndex.
Proof. exists (txt "D.ATR"). split; [apply dashed_plain; reflexivity|vm_compute; reflexivity]. Qed.
Print Assumptions C87_help_refuted.

(** * Every command line *)
Lemma main_arity a n o e : classify main_options a = COpt n o e -> snd o = A0.
Proof.
  assert (L : forall b x, lookup b main_options = Some x -> snd x = A0).
  { intros b x H. apply lookup_in in H. unfold main_options, help_options, both in H. cbn [app In] in H. repeat (destruct H as [H|H]; [injection H as _ <-; reflexivity|]). destruct H. }
  assert (M : forall o1, In o1 main_options -> snd (snd o1) = A0).
  { intros o1 H. unfold main_options, help_options, both in H. cbn [app In] in H. repeat (destruct H as [<-|H]; [reflexivity|]). destruct H. }
  assert (Cd : forall c, In c (candidates main_options a) -> forall n o e, c = COpt n o e -> snd o = A0).
  { intros c Hc n0 o0 e0 ->. unfold candidates in Hc.
    assert (X : forall (g : option1 -> kind) (p : option1 -> bool), (forall x, exists e1, g x = COpt (fst x) (snd x) e1) -> In (COpt n0 o0 e0) (map g (filter p main_options)) -> snd o0 = A0).
    { intros g p Hg H. apply in_map_iff in H. destruct H as (x & Ex & Hx). apply filter_In in Hx. destruct (Hg x) as [e1 E1]. rewrite E1 in Ex. injection Ex as _ <- _. apply M, Hx. }
    revert Hc. repeat match goal with |- context [match ?x with _ => _ end] => destruct x end;
      apply X; intros x; try (destruct (zlist_eqb _ _)); eexists; reflexivity. }
  unfold classify. destruct (negb (dashed a)); [discriminate|]. destruct (lookup a main_options) as [x|] eqn:Ea; [intros H; injection H as _ <- _; apply (L a), Ea|].
  destruct (zlen a =? 1); [discriminate|]. unfold exact_eq. destruct (split_eq a) as [[b c]|].
  - destruct (lookup b main_options) as [x|] eqn:Eb; [intros H; injection H as _ <- _; apply (L b), Eb|].
    destruct (candidates main_options a) as [|c1 [|c2 cs]] eqn:Ec; [destruct (_ || _); discriminate|intros ->; apply (Cd _ (or_introl eq_refl) n o e eq_refl)|discriminate].
  - destruct (candidates main_options a) as [|c1 [|c2 cs]] eqn:Ec; [destruct (_ || _); discriminate|intros ->; apply (Cd _ (or_introl eq_refl) n o e eq_refl)|discriminate].
Qed.

Lemma lookup_main_arity b x : lookup b main_options = Some x -> snd x = A0.
Proof. intros H. apply lookup_in in H. unfold main_options, help_options, both in H. cbn [app In] in H. repeat (destruct H as [H|H]; [injection H as _ <-; reflexivity|]). destruct H. Qed.
Lemma take_words_main o r v r' : snd o = A0 -> take_words o r = POk (v, r') -> r' = r.
Proof. intros A. unfold take_words. rewrite A. destruct (fst o); intros H; try discriminate; injection H as _ <-; reflexivity. Qed.
Lemma take_explicit_main e : forall name o r vs r', snd o = A0 -> take_explicit main_options name o e r = POk (vs, r') -> r' = r.
Proof.
  induction e as [|c e IH]; intros name o r vs r' A H.
  - cbn [take_explicit] in H. rewrite A in H. exfalso. destruct name as [|x [|y name]]; try discriminate. destruct y as [|p|p]; try discriminate. do 6 (destruct p; try discriminate).
  - cbn [take_explicit] in H. rewrite A in H.
    assert (K : match lookup [45; c] main_options with
          | None => PError
          | Some o' => match (match e with
                     | [] => match take_words o' r with PHelp => PHelp | PError => PError | POk (v, r') => POk ([v], r') end
                     | _ => take_explicit main_options [45; c] o' e r end) with
              | POk (vs, r') => match fst o with KyHelp => PHelp | k => POk ((k, []) :: vs, r') end
              | PError => PError | PHelp => PHelp end end = POk (vs, r')).
    { destruct name as [|x [|y name]]; try exact H. destruct y as [|p|p]; try exact H. do 6 (destruct p; try exact H). discriminate H. }
    destruct (lookup [45; c] main_options) as [o'|] eqn:L; [|discriminate]. apply lookup_main_arity in L.
    assert (X : forall vs1 r1, (match e with [] => match take_words o' r with PHelp => PHelp | PError => PError | POk (v, r') => POk ([v], r') end | _ => take_explicit main_options [45; c] o' e r end) = POk (vs1, r1) -> r1 = r).
    { intros vs1 r1 E. destruct e as [|c2 e]; [|apply (IH _ _ _ _ _ L E)]. destruct (take_words o' r) as [| |[v1 r2]] eqn:T; try discriminate. injection E as _ <-. apply (take_words_main _ _ _ _ L T). }
    destruct (match e with [] => _ | _ => _ end) as [| |[vs1 r1]]; try discriminate. specialize (X vs1 r1 eq_refl). subst r1.
    destruct (fst o); try discriminate; injection K as _ <-; reflexivity.
Qed.
Lemma parse_main_command a l : forall fuel ev extra, In (a, CArg) l -> (forall b c, In (b, c) l -> c = classify main_options b) -> parse_main fuel l ev extra <> POk None.
Proof.
  induction l as [|[b c] l IH]; intros fuel ev extra Ha Hc; [destruct Ha|]. destruct fuel as [|fuel]; [discriminate|]. cbn [parse_main].
  destruct c as [|n o e| |].
  - destruct (lookup b reverse_aliases); [|discriminate]. destruct (run_sub v (map fst l)) as [| |[]]; try discriminate. destruct extra; discriminate.
  - assert (A : snd o = A0) by (apply (main_arity b n o e); symmetry; apply Hc; left; reflexivity).
    destruct (take_option main_options n o e l) as [| |[vs r']] eqn:T; try discriminate.
    assert (r' = l).
    { unfold take_option in T. destruct e as [e|]; [apply (take_explicit_main _ _ _ _ _ _ A T)|]. destruct (take_words o l) as [| |[v1 r2]] eqn:T2; try discriminate. injection T as _ <-. apply (take_words_main _ _ _ _ A T2). }
    subst r'. destruct Ha as [Ha|Ha]; [discriminate|]. apply IH; [exact Ha|intros; apply Hc; right; assumption].
  - destruct Ha as [Ha|Ha]; [discriminate|]. apply IH; [exact Ha|intros; apply Hc; right; assumption].
  - discriminate.
Qed.
Lemma parse_args_command a l : In a l -> plain a -> parse_args l <> POk None.
Proof.
  intros Ha P. unfold parse_args. destruct (ambiguous (classes main_options l)); [discriminate|]. apply (parse_main_command a).
  - unfold classes. apply in_map_iff. exists a. rewrite classify_plain by exact P. split; [reflexivity|exact Ha].
  - intros b c H. unfold classes in H. apply in_map_iff in H. destruct H as (x & E & _). injection E as -> <-. reflexivity.
Qed.
(** Whatever the words are: help or an error message, or a command is run on the first word
    that does not start with a dash.  The only exception is that of C87_help_refuted. *)
Theorem C87_every_line_partial args : ~ In (txt "--") args ->
  match command_line args with
  | ONothing => args = []
  | OHelp | OUsage => True
  | OCrash e => e = EIndex /\ (exists h, In h args /\ is_help h = true) /\ exists img, plain_args args = [img] /\ is_command img = false
  | ODashes => False
  | ORun img o c m n => hd [] (plain_args args) = img /\ plain img /\ forall h, In h args -> is_help h = false
  end.
Proof.
  intros Nd. assert (Ed : existsb (zlist_eqb (txt "--")) args = false) by (apply no_dashes; intros a Ha; apply zlist_eqb_neq; intros <-; exact (Nd Ha)).
  destruct args as [|x args']; [reflexivity|]. set (args := x :: args') in *.
  destruct (find_last_ge args 0 (-1)) as [K|K].
  - rewrite (command_line_cons args x (or_introl eq_refl) Ed). unfold preprocess. rewrite (find_last_none args K). change (0 <=? -1) with false. cbn [orb]. change (-1 =? 0) with false. cbn [orb].
    destruct (find_plain 0 args <? 0) eqn:C; [rewrite parse_help; exact Logic.I|].
    destruct (find_plain_pos args 0 ltac:(lia) ltac:(lia)) as (pre & a & post & E & Ep & P & F). rewrite Ep, Z.add_0_l. rewrite E.
    assert (En : nth (Z.to_nat (zlen pre)) (pre ++ a :: post) [] = a) by (unfold zlen; rewrite Nat2Z.id, app_nth2, Nat.sub_diag by lia; reflexivity). rewrite En.
    assert (Es : slice (pre ++ a :: post) 0 (zlen pre) ++ slice (pre ++ a :: post) (zlen pre + 1) (zlen (pre ++ a :: post)) = pre ++ post).
    { rewrite slice_app_full_l. f_equal. replace (pre ++ a :: post) with ((pre ++ [a]) ++ post) by (rewrite <- app_assoc; reflexivity).
      replace (zlen pre + 1) with (zlen (pre ++ [a])) by (rewrite zlen_app; reflexivity). apply slice_app_full_r. rewrite zlen_app. reflexivity. }
    rewrite Es. rewrite filter_app, F. cbn [app filter]. rewrite (plain_dashed _ P). cbn [negb]. rewrite zlen_cons.
    set (rest := if 1 + zlen (filter (fun a0 => negb (dashed a0)) post) =? 1 then (pre ++ post) ++ [txt "list"] else pre ++ post).
    assert (Q : parse_args rest <> POk None).
    { unfold rest. destruct (1 + zlen (filter (fun a0 => negb (dashed a0)) post) =? 1) eqn:Z1.
      - apply (parse_args_command (txt "list")); [apply in_or_app; right; left; reflexivity|apply dashed_plain; reflexivity].
      - destruct (filter (fun a0 => negb (dashed a0)) post) as [|b q] eqn:Ef; [discriminate Z1|].
        assert (Hb : In b (filter (fun a0 => negb (dashed a0)) post)) by (rewrite Ef; left; reflexivity). apply filter_In in Hb. destruct Hb as [Hb Db].
        apply (parse_args_command b); [apply in_or_app; right; exact Hb|apply dashed_plain; destruct (dashed b); [discriminate|reflexivity]]. }
    destruct (parse_args rest) as [| |[[[[v g] ev] fs]|]]; try exact Logic.I; [|congruence].
    split; [|split; [exact P|rewrite <- E; exact K]]. unfold plain_args. rewrite filter_app, F. cbn [app filter]. rewrite (plain_dashed _ P). reflexivity.
  - assert (Hh : exists h, In h args /\ is_help h = true).
    { destruct (existsb is_help args) eqn:X; [apply existsb_exists in X; exact X|]. exfalso. rewrite find_last_none in K; [lia|].
      intros a Ha. destruct (is_help a) eqn:Y; [|reflexivity]. assert (existsb is_help args = true) by (apply existsb_exists; exists a; auto). congruence. }
    destruct Hh as (h & Hh & He). destruct (C87_help_partial args h Hh He Nd) as [->|[-> H]]; [exact Logic.I|]. split; [reflexivity|]. split; [exists h; auto|exact H].
Qed.
Print Assumptions C87_every_line_partial.

(** * From the command line to the disk and back *)
Theorem C87_add_then_extract w f img m path d f1 ms1 f2 ms2 r :
  let n := basename path [] in
  plain img -> plain path -> plain n ->
  atari_disk w f img m -> f path = Some d -> atari_name n -> atari_data d -> room f img 1 -> m n = None ->
  atrcopy w f [img; txt "add"; path] = (f1, ms1, Ok tt) ->
  f1 n = None -> atrcopy w f1 [img; txt "extract"; n] = (f2, ms2, r) ->
  r = Ok tt /\ forall p, f2 p = if zlist_eqb p n then Some d else f1 p.
Proof.
  intros n Pi Pp Pn H Fp Hn Hd R Nw E1 Fn E2.
  assert (L1 : line_ok (mkLine [] img [] VAdd "add" [] [path] [])).
  { split; [exact Pi|]. split; [left; reflexivity|]. split; [constructor|]. split; [constructor; [exact Pp|constructor]|]. split; [discriminate|discriminate]. }
  assert (L2 : line_ok (mkLine [] img [] VExtract "extract" [] [n] [])).
  { split; [exact Pi|]. split; [left; reflexivity|]. split; [constructor|]. split; [constructor; [exact Pn|constructor]|]. split; [exact Logic.I|discriminate]. }
  pose proof (C87_program _ w f L1 ltac:(intros k _; cbn; lia)) as Q1. pose proof (C87_program _ w f1 L2 ltac:(intros k _; cbn; lia)) as Q2.
  change (line_args (mkLine [] img [] VAdd "add" [] [path] [])) with [img; txt "add"; path] in Q1. change (line_args (mkLine [] img [] VExtract "extract" [] [n] [])) with [img; txt "extract"; n] in Q2.
  rewrite Q1 in E1. rewrite Q2 in E2.
  exact (C74_add_then_extract_atari w (mkO false false false false false None []) f img m path d f1 ms1 [] (mkO false false false false false None []) f2 ms2 r H eq_refl Fp Hn Hd R (or_introl Nw) E1 Logic.I (fun x => x) eq_refl eq_refl (or_introl Fn) E2).
Qed.
Print Assumptions C87_add_then_extract.

(** A command line with everything in it *)
Definition demo_line : line :=
  mkLine [GVerbose true] (txt "D.ATR") [GDry; GVerbose false] VExtract "x" [mkItem KyDir SJoined [txt "-o=x"]; mkItem KyForce SShort []] [txt "A.B"; txt "C"] [mkItem KyLower SLong []; mkItem KyDir SShort [txt "out"]].
Example C87_example : line_ok demo_line /\ once demo_line /\
  line_args demo_line = map txt ["--verbose"; "D.ATR"; "--dry-run"; "-v"; "x"; "--dir=-o=x"; "-f"; "A.B"; "C"; "--lower"; "-d"; "out"]%string /\
  command_line (line_args demo_line) = ORun (txt "D.ATR") (mkO true true true false false (Some (txt "out")) []) (KExtract [txt "A.B"; txt "C"]) false 2.
Proof.
  assert (P : forall s, dashed (txt s) = false -> plain (txt s)) by (intros s; apply dashed_plain).
  split; [|split; [intros k T; destruct k; try discriminate T; cbn; lia|split; vm_compute; reflexivity]].
  split; [apply P; reflexivity|]. split; [right; left; reflexivity|]. split; [|split; [repeat (constructor; [apply P; reflexivity|]); constructor|split; [exact Logic.I|discriminate]]].
  repeat (constructor; [split; [cbn; auto 10|cbn [takes i_key]]|]); [..|constructor].
  - exists (txt "-o=x"). split; [reflexivity|]. intros K. destruct (K eq_refl).
  - split; [reflexivity|discriminate].
  - split; [reflexivity|discriminate].
  - exists (txt "out"). split; [reflexivity|]. intros _. apply P. reflexivity.
Qed.
(** Three options of the manual have no effect: the extension to be added by extract, the
    segments to be shown by list, and the force to delete locked files. *)
Theorem C87_no_effect_refuted img files : plain img -> Forall plain files -> files <> [] ->
  (forall x, plain x -> command_line (img :: txt "extract" :: txt "--ext" :: x :: files) = command_line (img :: txt "extract" :: files)) /\
  command_line (img :: txt "list" :: txt "--segments" :: files) = command_line (img :: txt "list" :: files) /\
  forall w f, atrcopy w f (img :: txt "delete" :: txt "--force" :: files) = atrcopy w f (img :: txt "delete" :: files).
Proof.
  intros Pi Pf Nf.
  assert (OK : forall v its, Forall (item_ok v) its -> v <> VAssemble -> files_ok v files -> line_ok (mkLine [] img [] v (hd ""%string (names_of v)) its files [])).
  { intros v its F Nv Fo. split; [exact Pi|]. split; [destruct v; left; reflexivity|]. unfold items. cbn [l_before l_after l_verb]. rewrite app_nil_r. split; [exact F|]. split; [exact Pf|]. split; [exact Fo|]. intros E. destruct (Nv E). }
  assert (R : forall l, line_ok l -> (List.length (items l) <= 1)%nat -> command_line (line_args l) = ORun (l_img l) (asked_opts l) (asked_cmd l) (given KyMeta l) (verbosity l)).
  { intros l Hl Hn. apply C87_runs_partial; [exact Hl|]. intros k _. assert (X : forall its, (List.length (filter (has_key k) its) <= List.length its)%nat) by (induction its as [|i its IH]; [cbn; lia|]; cbn [filter]; destruct (has_key k i); cbn [List.length]; lia). specialize (X (items l)). lia. }
  assert (A : forall v its, line_args (mkLine [] img [] v (hd ""%string (names_of v)) its files []) = img :: txt (hd ""%string (names_of v)) :: flat_map item_args its ++ files).
  { intros v its. unfold line_args. cbn [l_pre l_img l_mid l_word l_before l_files l_after map app flat_map]. rewrite app_nil_r. reflexivity. }
  split; [|split].
  - intros x Px.
    assert (F1 : Forall (item_ok VExtract) [mkItem KyExt SLong [x]]) by (constructor; [split; [right; right; left; reflexivity|exists x; split; [reflexivity|intros _; exact Px]]|constructor]).
    pose proof (R _ (OK VExtract _ F1 ltac:(discriminate) Logic.I) ltac:(cbn; lia)) as E1. pose proof (R _ (OK VExtract [] (Forall_nil _) ltac:(discriminate) Logic.I) ltac:(cbn; lia)) as E2.
    rewrite A in E1, E2. cbn [flat_map item_args i_spelling i_key i_words app] in E1, E2. etransitivity; [exact E1|symmetry; exact E2].
  - assert (F1 : Forall (item_ok VList) [mkItem KySegs SLong []]) by (constructor; [split; [left; reflexivity|split; [reflexivity|discriminate]]|constructor]).
    pose proof (R _ (OK VList _ F1 ltac:(discriminate) Logic.I) ltac:(cbn; lia)) as E1. pose proof (R _ (OK VList [] (Forall_nil _) ltac:(discriminate) Logic.I) ltac:(cbn; lia)) as E2.
    rewrite A in E1, E2. cbn [flat_map item_args i_spelling i_key i_words app] in E1, E2. etransitivity; [exact E1|symmetry; exact E2].
  - assert (F1 : Forall (item_ok VDelete) [mkItem KyForce SLong []]) by (constructor; [split; [left; reflexivity|split; [reflexivity|discriminate]]|constructor]).
    pose proof (R _ (OK VDelete _ F1 ltac:(discriminate) Nf) ltac:(cbn; lia)) as E1. pose proof (R _ (OK VDelete [] (Forall_nil _) ltac:(discriminate) Nf) ltac:(cbn; lia)) as E2.
    rewrite A in E1, E2. cbn [flat_map item_args i_spelling i_key i_words app] in E1, E2. intros w f. unfold atrcopy. change (txt "delete") with (txt (hd ""%string (names_of VDelete))). change (txt "--force") with (txt (long_of KyForce)). rewrite E1, E2.
    cbn [l_img asked_cmd l_verb l_files]. cbn [main]. unfold local_command. destruct (zlist_eqb img [46]); [reflexivity|]. destruct (f img); [|reflexivity].
    destruct (find_diskimage (w_env w) l) as [fd|e]; [|reflexivity]. destruct (f_image fd); reflexivity.
Qed.
Print Assumptions C87_no_effect_refuted.
