(** Proofs about the search for a format. *)
From Verif Require Import Base BaseLemmas DiskModel AtariModel SpartaModel Dos33Model ExecModel DetectModel DetectSpec.
From Verif Require CartModel.

(** * Lists of parsers *)

Lemma guess_spec {P A} (f : P -> res A) ps :
  match guess f ps with
  | Ok (Some (p, x)) => first_choice f ps p /\ f p = Ok x
  | Ok None => forall p, In p ps -> refuses (f p)
  | Err e => exists p, first_choice f ps p /\ f p = Err e
  end.
Proof.
  assert (N : forall p r, first_choice f r p -> forall q, refuses (f q) -> first_choice f (q :: r) p).
  { intros p r (b & a & -> & Hb & Hp) q Hq. exists (q :: b), a. split; [reflexivity|]. split; [|exact Hp].
    intros q' [<-|Hin]; [exact Hq|exact (Hb q' Hin)]. }
  assert (H : forall p r, ~ refuses (f p) -> first_choice f (p :: r) p).
  { intros p r Hp. exists [], r. split; [reflexivity|]. split; [intros ? []|exact Hp]. }
  induction ps as [|p r IH]; cbn [guess]; [intros ? []|].
  destruct (f p) as [x|e] eqn:E.
  - split; [apply H; rewrite E; discriminate|exact E].
  - assert (D : e = EAtr InvalidSegmentParser \/ e <> EAtr InvalidSegmentParser).
    { destruct e as [a| | | | | | | | | | | |]; try (right; discriminate). destruct a; try (right; discriminate). left. reflexivity. }
    destruct D as [->|D].
    + destruct (guess f r) as [[[q x]|]|e].
      * destruct IH as [F Eq]. split; [apply N; [exact F|exact E]|exact Eq].
      * intros q [<-|Hin]; [exact E|exact (IH q Hin)].
      * destruct IH as (q & F & Eq). exists q. split; [apply N; [exact F|exact E]|exact Eq].
    + assert (G : (match e with EAtr InvalidSegmentParser => guess f r | _ => Err e end : res (option (P * A))) = Err e).
      { destruct e as [a| | | | | | | | | | | |]; try reflexivity. destruct a; try reflexivity. congruence. }
      rewrite G. exists p. split; [apply H; rewrite E; intros X; injection X; exact D|exact E].
Qed.

(** Two first choices of the same list agree. *)
Lemma first_choice_unique {P A} (f : P -> res A) ps p q :
  first_choice f ps p -> first_choice f ps q -> p = q.
Proof.
  intros (b & a & E & Hb & Hp) (b' & a' & E' & Hb' & Hq). subst ps. revert b' E' Hb'.
  induction b as [|x b IH]; intros [|y b'] E' Hb'; cbn in E'.
  - injection E' as -> _. reflexivity.
  - injection E' as -> _. exfalso. apply Hp. apply Hb'. left. reflexivity.
  - injection E' as -> _. exfalso. apply Hq. apply Hb. left. reflexivity.
  - injection E' as -> E'. apply (IH ltac:(intros; apply Hb; right; assumption) b' E').
    intros; apply Hb'; right; assumption.
Qed.
Lemma first_choice_not_all {P A} (f : P -> res A) ps p :
  first_choice f ps p -> (forall q, In q ps -> refuses (f q)) -> False.
Proof.
  intros (b & a & -> & _ & Hp) H. apply Hp. apply H. apply in_or_app. right. left. reflexivity.
Qed.
Lemma first_choice_skip {P A} (f : P -> res A) l ps p :
  (forall q, In q l -> refuses (f q)) -> first_choice f ps p -> first_choice f (l ++ ps) p.
Proof.
  intros Hl (b & a & -> & Hb & Hp). exists (l ++ b), a. split; [rewrite app_assoc; reflexivity|]. split; [|exact Hp].
  intros q Hq. apply in_app_or in Hq. destruct Hq; auto.
Qed.
Lemma first_choice_pre {P A} (f : P -> res A) l ps p :
  first_choice f l p -> first_choice f (l ++ ps) p.
Proof.
  intros (b & a & -> & Hb & Hp). exists b, (a ++ ps). split; [rewrite <- app_assoc; reflexivity|]. auto.
Qed.
Lemma first_choice_map {P Q A} (g : Q -> P) (f : P -> res A) qs p :
  first_choice f (map g qs) p -> exists q, p = g q /\ first_choice (fun q => f (g q)) qs q.
Proof.
  intros (b & a & E & Hb & Hp). apply map_eq_app in E. destruct E as (b' & a' & -> & <- & E).
  destruct a' as [|q a']; [discriminate|]. cbn in E. injection E as <- <-.
  exists q. split; [reflexivity|]. exists b', a'. split; [reflexivity|]. split; [|exact Hp].
  intros q' Hq'. apply (Hb (g q')). apply in_map. exact Hq'.
Qed.
Lemma first_choice_to_map {P Q A} (g : Q -> P) (f : P -> res A) qs q :
  first_choice (fun q => f (g q)) qs q -> first_choice f (map g qs) (g q).
Proof.
  intros (b & a & -> & Hb & Hp). exists (map g b), (map g a). split; [rewrite map_app; reflexivity|]. split; [|exact Hp].
  intros p Hin. apply in_map_iff in Hin. destruct Hin as (q' & <- & Hin). exact (Hb q' Hin).
Qed.

(** * The search over the mime types *)
Definition pairs (ms : list mime) : list (mime * pclass) :=
  flat_map (fun m => map (pair m) (mime_parsers m)) ms.
Lemma pairs_order : pairs mime_parse_order = documented_order.
Proof. reflexivity. Qed.

Lemma search_spec e ms b :
  match search e ms b with
  | Ok (Some f) =>
      first_choice (fun mp => parse e true (snd mp) b) (pairs ms) (f_mime f, f_class f) /\
      parse e true (f_class f) b = Ok (f_image f) /\ guess_detail (f_mime f) b = Ok (f_detail f)
  | Ok None => forall mp, In mp (pairs ms) -> refuses (parse e true (snd mp) b)
  | Err x => exists m p, first_choice (fun mp => parse e true (snd mp) b) (pairs ms) (m, p) /\
      (parse e true p b = Err x \/ (exists im, parse e true p b = Ok im) /\ guess_detail m b = Err x)
  end.
Proof.
  induction ms as [|m r IH]; cbn [search]; [intros ? []|].
  change (pairs (m :: r)) with (map (pair m) (mime_parsers m) ++ pairs r).
  unfold guess_for_mime. pose proof (guess_spec (fun p => parse e true p b) (mime_parsers m)) as G.
  destruct (guess _ (mime_parsers m)) as [[[p x]|]|y]; cbn [rbind].
  - destruct G as [F E].
    assert (F' : first_choice (fun mp : mime * pclass => parse e true (snd mp) b) (map (pair m) (mime_parsers m) ++ pairs r) (m, p)).
    { apply first_choice_pre. apply (first_choice_to_map (pair m) (fun mp => parse e true (snd mp) b)). exact F. }
    destruct (guess_detail m b) as [d|y] eqn:D; cbn [rbind f_mime f_class f_image f_detail].
    + auto.
    + exists m, p. split; [exact F'|]. right. split; [exists x; exact E|exact D].
  - assert (L : forall mp, In mp (map (pair m) (mime_parsers m)) -> refuses (parse e true (snd mp) b)).
    { intros mp Hin. apply in_map_iff in Hin. destruct Hin as (p & <- & Hin). exact (G p Hin). }
    destruct (search e r b) as [[f|]|y].
    + destruct IH as (F & E). split; [apply first_choice_skip; assumption|exact E].
    + intros mp Hin. apply in_app_or in Hin. destruct Hin; auto.
    + destruct IH as (m' & p & F & E). exists m', p. split; [apply first_choice_skip; assumption|exact E].
  - destruct G as (p & F & E). exists m, p. split; [|left; exact E].
    apply first_choice_pre. apply (first_choice_to_map (pair m) (fun mp => parse e true (snd mp) b)). exact F.
Qed.

(** Conversely. *)
Lemma search_of_first e ms b m p im d :
  first_choice (fun mp => parse e true (snd mp) b) (pairs ms) (m, p) ->
  parse e true p b = Ok im -> guess_detail m b = Ok d ->
  search e ms b = Ok (Some (mkFound m d p im)).
Proof.
  intros F E D. pose proof (search_spec e ms b) as S. destruct (search e ms b) as [[f|]|y].
  - destruct S as (F' & E' & D'). pose proof (first_choice_unique _ _ _ _ F F') as X. injection X as -> ->.
    destruct f as [fm fd fp fi]; cbn [f_mime f_class f_image f_detail] in *. congruence.
  - exfalso. exact (first_choice_not_all _ _ _ F S).
  - destruct S as (m' & p' & F' & E'). pose proof (first_choice_unique _ _ _ _ F F') as X. injection X as <- <-.
    destruct E' as [E'|[_ E']]; congruence.
Qed.
Lemma search_none e ms b :
  (forall mp, In mp (pairs ms) -> refuses (parse e true (snd mp) b)) -> search e ms b = Ok None.
Proof.
  intros H. pose proof (search_spec e ms b) as S. destruct (search e ms b) as [[f|]|y]; [exfalso|reflexivity|exfalso].
  - destruct S as (F & _). exact (first_choice_not_all _ _ _ F H).
  - destruct S as (m & p & F & _). exact (first_choice_not_all _ _ _ F H).
Qed.

(** * Containers *)
Lemma dcm_refuses b :
  ~ (2 <= zlen b /\ (getb b 0 = 0xf9 \/ getb b 0 = 0xfa) /\ getb b 1 mod 32 = 1 /\ (getb b 1 / 32) mod 4 <> 3) ->
  dcm_unpack b = Err (EAtr InvalidContainer).
Proof.
  intros H. pose proof (zlen_nonneg b). unfold dcm_unpack. destruct (zlen b =? 0) eqn:E0; [reflexivity|].
  destruct ((getb b 0 =? 0xf9) || (getb b 0 =? 0xfa)) eqn:E1; [|reflexivity].
  destruct (zlen b =? 1) eqn:E2; [reflexivity|]. destruct (Z.eqb_spec (getb b 1 mod 32) 1); cbn [negb]; [|reflexivity].
  destruct (Z.eqb_spec ((getb b 1 / 32) mod 4) 3); [reflexivity|]. exfalso. apply H. repeat (split; [lia|]). lia.
Qed.
Lemma dcm_never_unpacks b u : dcm_unpack b <> Ok u.
Proof.
  unfold dcm_unpack. repeat match goal with |- (if ?c then _ else _) <> _ => destruct c end; discriminate.
Qed.
Lemma not_container_none e b : not_container e b -> guess_container e b = Ok None.
Proof.
  intros (G & B & L & D). unfold guess_container, known_containers. cbn [unpack_with].
  rewrite G, B, L. cbn [of_unpack]. rewrite (dcm_refuses b D). reflexivity.
Qed.
Lemma unpacked_plain e b : not_container e b -> unpacked e b = Ok b.
Proof. intros H. unfold unpacked. rewrite (not_container_none e b H). reflexivity. Qed.
