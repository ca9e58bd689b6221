(** Parsing command lines. *)
From Coq Require Import String.
From Verif Require Import Base BaseLemmas CliModel MainModel TextModel ArgModel ArgSpec.

(** * Single words *)
Lemma plain_dashed a : plain a -> dashed a = false.
Proof. intros H. destruct a as [|x a]; [reflexivity|]. cbn [dashed]. destruct (Z.eq_dec x 45) as [->|N]; [destruct (H a eq_refl)|]. destruct x as [|p|p]; try reflexivity. do 6 (destruct p; try reflexivity). congruence. Qed.
Lemma dashed_plain a : dashed a = false -> plain a.
Proof. intros H r ->. discriminate. Qed.
Lemma classify_plain opts a : plain a -> classify opts a = CArg.
Proof. intros H. unfold classify. rewrite (plain_dashed _ H). reflexivity. Qed.
Lemma classes_plain opts l : Forall plain l -> classes opts l = map (fun a => (a, CArg)) l.
Proof. induction 1 as [|a l H F IH]; [reflexivity|]. cbn [classes map]. rewrite (classify_plain opts a H). f_equal. exact IH. Qed.
Lemma classes_app opts a b : classes opts (a ++ b) = classes opts a ++ classes opts b.
Proof. apply map_app. Qed.
Lemma map_fst_classes opts l : map fst (classes opts l) = l.
Proof. unfold classes. rewrite map_map. cbn [fst]. apply map_id. Qed.

Lemma lookup_none {A} a (l : list (list Z * A)) : (forall o, In o l -> fst o <> a) -> lookup a l = None.
Proof.
  induction l as [|[x b] l IH]; intros H; [reflexivity|]. cbn [lookup]. rewrite (proj2 (zlist_eqb_neq a x)); [apply IH; intros o Ho; apply H; right; exact Ho|].
  intros ->. apply (H (x, b)); [left; reflexivity|reflexivity].
Qed.
Lemma split_eq_app a b : ~ In 61 a -> split_eq (a ++ 61 :: b) = Some (a, b).
Proof.
  induction a as [|x a IH]; intros H; [reflexivity|]. cbn [app].
  assert (N : x <> 61) by (intros ->; apply H; left; reflexivity).
  replace (split_eq (x :: a ++ 61 :: b)) with (match split_eq (a ++ 61 :: b) with Some (c, d) => Some (x :: c, d) | None => None end).
  - rewrite IH; [reflexivity|]. intros K. apply H. right. exact K.
  - cbn [split_eq]. destruct x as [|p|p]; try reflexivity. do 6 (destruct p; try reflexivity). congruence.
Qed.
Definition no_eq (opts : list option1) : bool := forallb (fun o => negb (zmem 61 (fst o))) opts.
Lemma no_eq_in opts o : no_eq opts = true -> In o opts -> ~ In 61 (fst o).
Proof.
  unfold no_eq. rewrite forallb_forall. intros H Ho K. specialize (H o Ho). assert (zmem 61 (fst o) = true); [|rewrite H0 in H; discriminate].
  unfold zmem. apply existsb_exists. exists 61. split; [exact K|reflexivity].
Qed.
Lemma lookup_joined opts a b : no_eq opts = true -> lookup (a ++ 61 :: b) opts = None.
Proof. intros H. apply lookup_none. intros o Ho E. apply (no_eq_in opts o H Ho). rewrite E. apply in_or_app. right. left. reflexivity. Qed.
Lemma no_eq_options v : no_eq (options_of v) = true.
Proof. destruct v; vm_compute; reflexivity. Qed.
Lemma no_eq_main : no_eq main_options = true.
Proof. vm_compute. reflexivity. Qed.
Lemma long_no_eq k : ~ In 61 (txt (long_of k)).
Proof. destruct k; vm_compute; intuition congruence. Qed.
Lemma long_dashed k b : dashed (txt (long_of k) ++ b) = true.
Proof. destruct k; reflexivity. Qed.
Lemma joined_len k b : zlen (txt (long_of k) ++ 61 :: b) =? 1 = false.
Proof. rewrite zlen_app, zlen_cons. pose proof (zlen_nonneg b). assert (1 <= zlen (txt (long_of k))) by (destruct k; vm_compute; discriminate). lia. Qed.

(** * Options in the parser of their command *)
Lemma classify_short v k : In k (allowed v) -> classify (options_of v) (txt (short_of k)) = COpt (txt (short_of k)) (k, takes k) None.
Proof. destruct v; cbn [allowed In]; intros H; repeat (destruct H as [<-|H]; [vm_compute; reflexivity|]); destruct H. Qed.
Lemma classify_long v k : In k (allowed v) -> classify (options_of v) (txt (long_of k)) = COpt (txt (long_of k)) (k, takes k) None.
Proof. destruct v; cbn [allowed In]; intros H; repeat (destruct H as [<-|H]; [vm_compute; reflexivity|]); destruct H. Qed.
Lemma lookup_long v k : In k (allowed v) -> lookup (txt (long_of k)) (options_of v) = Some (k, takes k).
Proof. destruct v; cbn [allowed In]; intros H; repeat (destruct H as [<-|H]; [vm_compute; reflexivity|]); destruct H. Qed.
Lemma classify_joined v k b : In k (allowed v) -> classify (options_of v) (txt (long_of k) ++ 61 :: b) = COpt (txt (long_of k)) (k, takes k) (Some b).
Proof.
  intros H. unfold classify. rewrite long_dashed. cbn [negb]. rewrite lookup_joined by apply no_eq_options. rewrite joined_len.
  unfold exact_eq. rewrite split_eq_app by apply long_no_eq. rewrite (lookup_long v k H). reflexivity.
Qed.

(** The same words in the main parser: unknown options, but not ambiguous ones *)
Definition quiet (c : kind) : bool := match c with CAmbiguous => false | _ => true end.
Lemma main_short v k : In k (allowed v) -> quiet (classify main_options (txt (short_of k))) = true.
Proof. destruct v; cbn [allowed In]; intros H; repeat (destruct H as [<-|H]; [vm_compute; reflexivity|]); destruct H. Qed.
Lemma main_long v k : In k (allowed v) -> quiet (classify main_options (txt (long_of k))) = true.
Proof. destruct v; cbn [allowed In]; intros H; repeat (destruct H as [<-|H]; [vm_compute; reflexivity|]); destruct H. Qed.
Lemma main_joined v k b : In k (allowed v) -> quiet (classify main_options (txt (long_of k) ++ 61 :: b)) = true.
Proof.
  intros H. unfold classify. rewrite long_dashed. cbn [negb]. rewrite lookup_joined by apply no_eq_main. rewrite joined_len.
  unfold exact_eq. rewrite split_eq_app by apply long_no_eq.
  assert (L : lookup (txt (long_of k)) main_options = None) by (destruct v; cbn [allowed In] in H; repeat (destruct H as [<-|H]; [vm_compute; reflexivity|]); destruct H).
  rewrite L. assert (C : candidates main_options (txt (long_of k) ++ 61 :: b) = []).
  { assert (E : exists r, txt (long_of k) ++ 61 :: b = 45 :: 45 :: r) by (destruct k; eexists; reflexivity). destruct E as [r E].
    unfold candidates. pose proof (split_eq_app (txt (long_of k)) b (long_no_eq k)) as K. rewrite E in K |- *. rewrite K.
    assert (F : filter (fun o : option1 => prefix (txt (long_of k)) (fst o)) main_options = []) by (destruct v; cbn [allowed In] in H; repeat (destruct H as [<-|H]; [vm_compute; reflexivity|]); destruct H).
    unfold option1 in F. rewrite F. reflexivity. }
  rewrite C. destruct (_ || _); reflexivity.
Qed.
Lemma quiet_plain opts a : plain a -> quiet (classify opts a) = true.
Proof. intros H. rewrite classify_plain by exact H. reflexivity. Qed.
Lemma ambiguous_quiet opts l : Forall (fun a => quiet (classify opts a) = true) l -> ambiguous (classes opts l) = false.
Proof. induction 1 as [|a l H F IH]; [reflexivity|]. change (ambiguous (classes opts (a :: l))) with (match classify opts a with CAmbiguous => true | _ => false end || ambiguous (classes opts l)). rewrite IH. destruct (classify opts a); try reflexivity. discriminate. Qed.

(** * Items *)
Definition event_of (i : item) : event := (i_key i, i_words i).
Definition starts (l : list (list Z * kind)) : Prop := match l with (_, CArg) :: _ => False | _ => True end.
Lemma args_run_plain l r : Forall plain l -> starts r -> args_run (map (fun a => (a, CArg)) l ++ r) = (l, r).
Proof.
  intros F. induction F as [|a l H F IH]; intros Hs; cbn [map app args_run].
  - destruct r as [|[a [| | |]] r]; try reflexivity. destruct Hs.
  - rewrite IH by exact Hs. reflexivity.
Qed.
(** One item *)
Lemma item_step v i : item_ok v i -> exists name o e ws, classes (options_of v) (item_args i) = (name, COpt o (i_key i, takes (i_key i)) e) :: map (fun a => (a, CArg)) ws /\
  Forall plain ws /\ (forall r, (starts r \/ takes (i_key i) <> AStar) -> take_option (options_of v) o (i_key i, takes (i_key i)) e (map (fun a => (a, CArg)) ws ++ r) = POk ([event_of i], r)).
Proof.
  intros [Hk H]. assert (Nh : i_key i <> KyHelp) by (intros E; rewrite E in Hk; destruct v; cbn [allowed In] in Hk; intuition discriminate).
  assert (Hw : i_spelling i <> SJoined -> Forall plain (i_words i)).
  { intros N. destruct (takes (i_key i)); [destruct H as [-> _]; constructor|destruct H as (a & -> & Ha); constructor; [exact (Ha N)|constructor]|apply H]. }
  assert (Step : forall r ws, ws = i_words i -> Forall plain ws -> (starts r \/ takes (i_key i) <> AStar) -> take_words (i_key i, takes (i_key i)) (map (fun a => (a, CArg)) ws ++ r) = POk (event_of i, r)).
  { intros r ws -> F Hs. unfold take_words, event_of. cbn [fst snd]. destruct (takes (i_key i)) eqn:T.
    - destruct H as [-> _]. cbn [map app]. destruct (i_key i); try reflexivity. congruence.
    - destruct H as (a & -> & _). reflexivity.
    - rewrite args_run_plain; [reflexivity|exact F|]. destruct Hs as [Hs|Hs]; [exact Hs|congruence]. }
  unfold item_args. destruct (i_spelling i) eqn:Sp.
  - exists (txt (short_of (i_key i))), (txt (short_of (i_key i))), None, (i_words i). specialize (Hw ltac:(congruence)). split; [|split; [exact Hw|]].
    + change (classes (options_of v) (?a :: ?l)) with ((a, classify (options_of v) a) :: classes (options_of v) l). rewrite classify_short, classes_plain by assumption. reflexivity.
    + intros r Hs. unfold take_option. rewrite (Step r _ eq_refl Hw Hs). reflexivity.
  - exists (txt (long_of (i_key i))), (txt (long_of (i_key i))), None, (i_words i). specialize (Hw ltac:(congruence)). split; [|split; [exact Hw|]].
    + change (classes (options_of v) (?a :: ?l)) with ((a, classify (options_of v) a) :: classes (options_of v) l). rewrite classify_long, classes_plain by assumption. reflexivity.
    + intros r Hs. unfold take_option. rewrite (Step r _ eq_refl Hw Hs). reflexivity.
  - exists (txt (long_of (i_key i)) ++ 61 :: concat (i_words i)), (txt (long_of (i_key i))), (Some (concat (i_words i))), []. split; [|split; [constructor|]].
    + cbn [classes map]. rewrite classify_joined by exact Hk. reflexivity.
    + intros r Hs. cbn [map app take_option]. destruct (takes (i_key i)) eqn:T; [destruct H; congruence| |destruct H; congruence].
      destruct H as (a & E & _). unfold event_of. rewrite E. cbn [concat]. rewrite app_nil_r. destruct a; reflexivity.
Qed.
Lemma starts_items v its r : Forall (item_ok v) its -> starts r -> starts (classes (options_of v) (flat_map item_args its) ++ r).
Proof.
  intros F Hr. destruct F as [|i its Hi F]; [exact Hr|]. cbn [flat_map]. rewrite classes_app. destruct (item_step v i Hi) as (n & o & e & ws & -> & _). exact Logic.I.
Qed.
Definition starred (v : verb) : bool := match v with VAssemble | VBoot => true | _ => false end.
Lemma not_starred v k : starred v = false -> In k (allowed v) -> takes k <> AStar.
Proof. destruct v; intros H Hk; try discriminate H; cbn [allowed In] in Hk; intuition (subst; discriminate). Qed.
Lemma sub_items v its : Forall (item_ok v) its -> forall r, (starts r \/ starred v = false) -> forall fuel p ev fs extra,
  (List.length (classes (options_of v) (flat_map item_args its) ++ r) < fuel)%nat ->
  exists fuel', (List.length r < fuel')%nat /\
    parse_sub fuel (options_of v) p (classes (options_of v) (flat_map item_args its) ++ r) ev fs extra = parse_sub fuel' (options_of v) p r (ev ++ map event_of its) fs extra.
Proof.
  induction 1 as [|i its Hi F IH]; intros r Hr fuel p ev fs extra Hf.
  - exists fuel. cbn [flat_map classes map app] in *. rewrite app_nil_r. split; [exact Hf|reflexivity].
  - cbn [flat_map] in *. rewrite classes_app, <- app_assoc in *. destruct (item_step v i Hi) as (n & o & e & ws & E & Fw & T). rewrite E in *.
    cbn [app] in *. destruct fuel as [|fuel]; [cbn in Hf; lia|]. cbn [parse_sub].
    rewrite T by (destruct Hr as [Hr|Hr]; [left; apply starts_items; assumption|right; apply (not_starred v); [exact Hr|apply Hi]]).
    cbn [List.length] in Hf. rewrite app_length in Hf.
    destruct (IH r Hr fuel p (ev ++ [event_of i]) fs extra ltac:(lia)) as (f' & Hf' & E'). exists f'. split; [exact Hf'|].
    rewrite E'. cbn [map]. rewrite <- app_assoc. reflexivity.
Qed.

(** * The parser of a command *)
Lemma quiet_items v its : Forall (item_ok v) its -> Forall (fun a => quiet (classify (options_of v) a) = true) (flat_map item_args its).
Proof.
  induction 1 as [|i its Hi F IH]; [constructor|]. cbn [flat_map]. apply Forall_app. split; [|exact IH].
  destruct (item_step v i Hi) as (n & o & e & ws & E & Fw & _). pose proof (map_fst_classes (options_of v) (item_args i)) as M.
  rewrite E in M. cbn [map fst] in M. rewrite map_map in M. cbn [fst] in M. rewrite map_id in M. rewrite <- M in E |- *. cbn [classes map] in E. injection E as E _.
  constructor; [rewrite E; reflexivity|]. rewrite Forall_forall in Fw |- *. intros a Ha. apply quiet_plain, Fw, Ha.
Qed.
Lemma quiet_files opts l : Forall plain l -> Forall (fun a => quiet (classify opts a) = true) l.
Proof. apply Forall_impl. intros a. apply quiet_plain. Qed.
Lemma files_starts v l r : files_ok v l -> starts r \/ starred v = false -> starts (map (fun a => (a, CArg)) l ++ r) \/ starred v = false.
Proof. intros H [Hr|Hr]; [|right; exact Hr]. destruct v; try (right; reflexivity); cbn [files_ok] in H; subst l; left; exact Hr. Qed.
Lemma seen_output ev : existsb (fun e => match fst e with KyOutput => true | _ => false end) ev = true <-> exists e : event, In e ev /\ fst e = KyOutput.
Proof.
  rewrite existsb_exists. split; intros (e & He & K); exists e; (split; [exact He|]); [destruct (fst e); congruence|rewrite K; reflexivity].
Qed.
Lemma run_sub_line l : line_ok l -> run_sub (l_verb l) (flat_map item_args (l_before l) ++ l_files l ++ flat_map item_args (l_after l)) = POk (map event_of (items l), l_files l).
Proof.
  intros (Hi & Hw & Fi & Fp & Fo & Out). unfold items in *. apply Forall_app in Fi. destruct Fi as [F1 F2]. set (v := l_verb l) in *. unfold run_sub.
  rewrite ambiguous_quiet by (rewrite !Forall_app; split; [apply quiet_items; exact F1|split; [apply quiet_files; exact Fp|apply quiet_items; exact F2]]).
  rewrite !classes_app, (classes_plain _ (l_files l)) by exact Fp.
  assert (S2 : starts (classes (options_of v) (flat_map item_args (l_after l)))) by (pose proof (starts_items v _ [] F2 Logic.I) as K; rewrite app_nil_r in K; exact K).
  pose proof (files_starts v (l_files l) _ Fo (or_introl S2)) as S1.
  assert (Hlen : (List.length (classes (options_of v) (flat_map item_args (l_before l)) ++ map (fun a => (a, CArg)) (l_files l) ++ classes (options_of v) (flat_map item_args (l_after l))) <
     S (List.length (flat_map item_args (l_before l) ++ l_files l ++ flat_map item_args (l_after l))))%nat).
  { rewrite !app_length. unfold classes. rewrite !map_length. lia. }
  destruct (sub_items v (l_before l) F1 _ S1 _ (places_of v) [] [] false Hlen) as (f1 & Hf1 & E1). rewrite E1. clear E1 Hlen. cbn [app].
  assert (Tail : forall f2 p fs, (List.length (classes (options_of v) (flat_map item_args (l_after l))) < f2)%nat ->
     (p = PNone \/ p = PStar) -> parse_sub f2 (options_of v) p (classes (options_of v) (flat_map item_args (l_after l))) (map event_of (l_before l)) fs false = POk (map event_of (l_before l ++ l_after l), fs)).
  { intros f2 p fs Hf Hp. pose proof (sub_items v (l_after l) F2 [] (or_introl Logic.I) f2 p (map event_of (l_before l)) fs false) as K. rewrite app_nil_r in K.
    destruct (K Hf) as (f3 & Hf3 & ->). destruct f3 as [|f3]; [cbn in Hf3; lia|]. cbn [parse_sub]. rewrite map_app. destruct Hp as [-> | ->]; reflexivity. }
  assert (Mid : parse_sub f1 (options_of v) (places_of v) (map (fun a => (a, CArg)) (l_files l) ++ classes (options_of v) (flat_map item_args (l_after l))) (map event_of (l_before l)) [] false =
     POk (map event_of (l_before l ++ l_after l), l_files l)).
  { destruct (l_files l) as [|a fl] eqn:Ef.
    - cbn [map app] in *. apply Tail; [exact Hf1|]. unfold v in *. destruct (l_verb l); cbn [places_of files_ok] in *; auto; try congruence. destruct Fo; discriminate.
    - destruct f1 as [|f1]; [cbn in Hf1; lia|]. pose proof (args_run_plain (a :: fl) _ Fp S2) as R. cbn [map app] in R |- *. cbn [parse_sub]. rewrite R.
      rewrite app_length in Hf1. cbn [map List.length] in Hf1.
      unfold v in *. destruct (l_verb l); cbn [places_of files_ok] in *; try discriminate Fo; try (apply Tail; [lia|left; reflexivity]).
      destruct Fo as (t & E). injection E as -> ->. apply Tail; [lia|left; reflexivity]. }
  rewrite Mid. unfold v in *. destruct (l_verb l) eqn:Ev; try reflexivity.
  rewrite (proj2 (seen_output (map event_of (l_before l ++ l_after l)))); [reflexivity|].
  destruct (Out eq_refl) as (i & Hin & Hk). exists (event_of i). split; [apply in_map; exact Hin|exact Hk].
Qed.

(** * The main parser *)
Definition global_key (g : global) : key := match g with GVerbose _ => KyVerbose | GDry => KyDry end.
Definition global_event (g : global) : event := (global_key g, []).
Lemma classify_global g : classify main_options (global_arg g) = COpt (global_arg g) (global_key g, A0) None.
Proof. destruct g as [[]|]; vm_compute; reflexivity. Qed.
Lemma classes_globals gs : classes main_options (map global_arg gs) = map (fun g => (global_arg g, COpt (global_arg g) (global_key g, A0) None)) gs.
Proof. induction gs as [|g gs IH]; [reflexivity|]. cbn [map classes]. rewrite classify_global. f_equal. exact IH. Qed.
Lemma main_globals gs : forall fuel r ev extra, parse_main (List.length gs + fuel) (map (fun g => (global_arg g, COpt (global_arg g) (global_key g, A0) None)) gs ++ r) ev extra =
  parse_main fuel r (ev ++ map global_event gs) extra.
Proof.
  induction gs as [|g gs IH]; intros fuel r ev extra; [cbn [map app List.length plus]; rewrite app_nil_r; reflexivity|].
  cbn [List.length plus map app parse_main]. unfold take_option, take_words. cbn [fst snd].
  destruct g as [b|]; cbn [global_key]; rewrite IH, <- app_assoc; reflexivity.
Qed.
Lemma word_plain v w : In w (names_of v) -> plain (txt w) /\ lookup (txt w) reverse_aliases = Some v.
Proof. destruct v; cbn [names_of In]; intros H; repeat (destruct H as [<-|H]; [split; [apply dashed_plain; reflexivity|vm_compute; reflexivity]|]); destruct H. Qed.
Lemma quiet_main v its : Forall (item_ok v) its -> Forall (fun a => quiet (classify main_options a) = true) (flat_map item_args its).
Proof.
  induction 1 as [|i its Hi F IH]; [constructor|]. cbn [flat_map]. apply Forall_app. split; [|exact IH]. destruct Hi as [Hk Hw].
  assert (Hp : i_spelling i <> SJoined -> Forall plain (i_words i)).
  { intros N. destruct (takes (i_key i)); [destruct Hw as [-> _]; constructor|destruct Hw as (a & -> & Ha); constructor; [exact (Ha N)|constructor]|apply Hw]. }
  unfold item_args. destruct (i_spelling i).
  - constructor; [apply (main_short v); exact Hk|]. apply quiet_files, Hp. discriminate.
  - constructor; [apply (main_long v); exact Hk|]. apply quiet_files, Hp. discriminate.
  - constructor; [apply (main_joined v); exact Hk|constructor].
Qed.
Lemma parse_line gs v word rest ev fs : In word (names_of v) -> Forall (fun a => quiet (classify main_options a) = true) rest -> run_sub v rest = POk (ev, fs) ->
  parse_args (map global_arg gs ++ txt word :: rest) = POk (Some (v, map global_event gs, ev, fs)).
Proof.
  intros Hw Hq Hr. destruct (word_plain v word Hw) as [Pw Lw]. unfold parse_args. rewrite ambiguous_quiet.
  - rewrite classes_app, classes_globals. change (classes main_options (txt word :: rest)) with ((txt word, classify main_options (txt word)) :: classes main_options rest).
    rewrite (classify_plain _ _ Pw), app_length, map_length. rewrite plus_n_Sm, main_globals. cbn [app parse_main]. rewrite Lw, map_fst_classes, Hr. reflexivity.
  - apply Forall_app. split; [|constructor; [apply quiet_plain; exact Pw|exact Hq]]. apply Forall_forall. intros a Ha. apply in_map_iff in Ha. destruct Ha as (g & <- & _). rewrite classify_global. reflexivity.
Qed.

(** * Finding the image *)
Lemma item_words v i a : item_ok v i -> In a (item_args i) -> is_help a = false /\ zlist_eqb (txt "--") a = false.
Proof.
  intros [Hk Hw] Ha.
  assert (Hp : forall x, plain x -> is_help x = false /\ zlist_eqb (txt "--") x = false).
  { intros x Hx. split; [unfold is_help; apply Bool.orb_false_iff; split|]; apply zlist_eqb_neq; intros E; (apply (Hx (tl x)); rewrite E || rewrite <- E; reflexivity). }
  assert (Hps : i_spelling i <> SJoined -> Forall plain (i_words i)).
  { intros N. destruct (takes (i_key i)); [destruct Hw as [-> _]; constructor|destruct Hw as (b & -> & Hb); constructor; [exact (Hb N)|constructor]|apply Hw]. }
  unfold item_args in Ha. destruct (i_spelling i).
  - destruct Ha as [<-|Ha]; [destruct v; cbn [allowed In] in Hk; repeat (destruct Hk as [<-|Hk]; [vm_compute; split; reflexivity|]); destruct Hk|].
    apply Hp. specialize (Hps ltac:(discriminate)). rewrite Forall_forall in Hps. apply Hps, Ha.
  - destruct Ha as [<-|Ha]; [destruct v; cbn [allowed In] in Hk; repeat (destruct Hk as [<-|Hk]; [vm_compute; split; reflexivity|]); destruct Hk|].
    apply Hp. specialize (Hps ltac:(discriminate)). rewrite Forall_forall in Hps. apply Hps, Ha.
  - destruct Ha as [<-|[]]. assert (N : forall s, ~ In 61 s -> s <> txt (long_of (i_key i)) ++ 61 :: concat (i_words i)).
    { intros s Hs ->. apply Hs, in_or_app. right. left. reflexivity. }
    split; [unfold is_help; apply Bool.orb_false_iff; split|]; apply zlist_eqb_neq; intros E; (apply N in E || (symmetry in E; apply N in E)); try exact E; vm_compute; intuition congruence.
Qed.
Lemma plain_words x : plain x -> is_help x = false /\ zlist_eqb (txt "--") x = false.
Proof. intros Hx. split; [unfold is_help; apply Bool.orb_false_iff; split|]; apply zlist_eqb_neq; intros E; (apply (Hx (tl x)); rewrite E || rewrite <- E; reflexivity). Qed.
Lemma global_words g : is_help (global_arg g) = false /\ zlist_eqb (txt "--") (global_arg g) = false.
Proof. destruct g as [[]|]; vm_compute; split; reflexivity. Qed.
Lemma find_last_none l : (forall a, In a l -> is_help a = false) -> forall i f, find_last i f l = f.
Proof. induction l as [|a l IH]; intros H i f; [reflexivity|]. cbn [find_last]. rewrite (H a (or_introl eq_refl)). apply IH. intros b Hb. apply H. right. exact Hb. Qed.
Lemma find_plain_globals gs img rest : plain img -> forall i, find_plain i (map global_arg gs ++ img :: rest) = i + zlen gs.
Proof.
  intros P. induction gs as [|g gs IH]; intros i.
  - cbn [map app find_plain]. rewrite (plain_dashed _ P). unfold zlen. cbn. lia.
  - cbn [map app find_plain]. replace (dashed (global_arg g)) with true by (destruct g as [[]|]; reflexivity). rewrite IH, zlen_cons. lia.
Qed.
Lemma filter_globals gs : filter (fun a => negb (dashed a)) (map global_arg gs) = [].
Proof. induction gs as [|g gs IH]; [reflexivity|]. cbn [map filter]. replace (dashed (global_arg g)) with true by (destruct g as [[]|]; reflexivity). exact IH. Qed.
Lemma preprocess_image gs img rest : plain img -> (forall a, In a rest -> is_help a = false) ->
  preprocess (map global_arg gs ++ img :: rest) =
  Ok (Some img, let r := map global_arg gs ++ rest in if existsb (fun a => negb (dashed a)) rest then r else r ++ [txt "list"]).
Proof.
  intros P H. unfold preprocess. rewrite find_last_none.
  2:{ intros a Ha. apply in_app_or in Ha. destruct Ha as [Ha|[<-|Ha]]; [|apply plain_words; exact P|apply H, Ha]. apply in_map_iff in Ha. destruct Ha as (g & <- & _). apply global_words. }
  rewrite find_plain_globals by exact P. pose proof (zlen_nonneg gs). change (0 <=? -1) with false. replace (0 + zlen gs <? 0) with false by lia. cbn [orb].
  f_equal. f_equal.
  - f_equal. rewrite app_nth2; rewrite map_length; unfold zlen; [|lia]. replace (_ - _)%nat with 0%nat by lia. reflexivity.
  - rewrite filter_app, filter_globals. cbn [app filter]. rewrite (plain_dashed _ P). cbn [negb]. rewrite zlen_cons.
    assert (E : slice (map global_arg gs ++ img :: rest) 0 (0 + zlen gs) ++ slice (map global_arg gs ++ img :: rest) (0 + zlen gs + 1) (zlen (map global_arg gs ++ img :: rest)) = map global_arg gs ++ rest).
    { replace (0 + zlen gs) with (zlen (map global_arg gs)) by (rewrite zlen_map; lia). f_equal.
      - rewrite slice_app_l by lia. apply slice_full; lia.
      - replace (map global_arg gs ++ img :: rest) with ((map global_arg gs ++ [img]) ++ rest) by (rewrite <- app_assoc; reflexivity).
        replace (zlen (map global_arg gs) + 1) with (zlen (map global_arg gs ++ [img])) by (rewrite zlen_app; reflexivity). apply slice_app_full_r. rewrite zlen_app. reflexivity. }
    rewrite E. cbv zeta. assert (X : forall l : list (list Z), (1 + zlen (filter (fun a => negb (dashed a)) l) =? 1) = negb (existsb (fun a => negb (dashed a)) l)).
    { induction l as [|a l IH]; [reflexivity|]. cbn [filter existsb]. destruct (negb (dashed a)); [|exact IH]. rewrite zlen_cons. pose proof (zlen_nonneg (filter (fun a => negb (dashed a)) l)). cbn [orb negb]. lia. }
    rewrite X. destruct (existsb _ rest); reflexivity.
Qed.
