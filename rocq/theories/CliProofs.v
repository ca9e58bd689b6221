(** The commands over any disk image whose operations act like a map from names to
    contents; number parsing. *)
From Verif Require Import Base BaseLemmas DiskModel AtariSpec CliModel.

(** * Numbers *)
Definition is_digit (base c : Z) : Prop := 0 <= digit_val c < base /\ c <> 95.
(** The value of a list of digits. *)
Definition number (base : Z) (ds : list Z) : Z := fold_left (fun a c => a * base + digit_val c) ds 0.

Lemma int_digits_ok base ds : Forall (is_digit base) ds -> forall acc last, (ds <> [] \/ last = true) ->
  int_digits base ds acc last = Ok (fold_left (fun a c => a * base + digit_val c) ds acc).
Proof.
  induction 1 as [|c r [Hc Hn] F IH]; intros acc last H; cbn [int_digits fold_left].
  - destruct H as [H| ->]; [congruence|reflexivity].
  - replace (c =? 95) with false by lia. replace (digit_val c <? base) with true by lia. apply IH. right. reflexivity.
Qed.
Lemma digit_range base c : base <= 36 -> is_digit base c -> (48 <= c <= 57 \/ 65 <= c <= 90 \/ 97 <= c <= 122) /\ py_space c = false.
Proof.
  intros Hb [[H1 H2] H3]. unfold digit_val in H2. unfold py_space.
  destruct (Z.leb_spec 48 c), (Z.leb_spec c 57), (Z.leb_spec 97 c), (Z.leb_spec c 122), (Z.leb_spec 65 c), (Z.leb_spec c 90); cbn [andb] in H2; try lia; split; lia.
Qed.
Lemma rstrip_digit base l : base <= 36 -> Forall (is_digit base) l -> rstripf py_space l = l.
Proof.
  intros Hb F. induction F as [|c r Hc F IH]; [reflexivity|]. cbn [rstripf]. rewrite IH. destruct r; [|reflexivity].
  destruct (digit_range base c Hb Hc) as [_ ->]. reflexivity.
Qed.
Lemma py_int_digits base ds : In base [2; 10; 16] -> Forall (is_digit base) ds -> ds <> [] -> py_int base ds = Ok (number base ds).
Proof.
  intros Hb F Ne. assert (B : base <= 36) by (cbn in Hb; lia). destruct ds as [|c r]; [congruence|]. inversion F as [|? ? Hc Fr]; subst.
  destruct (digit_range base c B Hc) as [Rc Sc]. unfold py_int.
  assert (L : lstripf py_space (c :: r) = c :: r) by (cbn [lstripf]; rewrite Sc; reflexivity). rewrite L, (rstrip_digit base) by assumption.
  assert (T : (match c :: r with 43 :: r' => (1, r') | 45 :: r' => (-1, r') | _ => (1, c :: r) end) = (1, c :: r)).
  { destruct (Z.eq_dec c 43) as [-> |]; [lia|]. destruct (Z.eq_dec c 45) as [-> |]; [lia|].
    destruct c as [|p|]; try reflexivity. do 6 (destruct p as [p|p|]; try reflexivity; try congruence). }
  rewrite T.
  assert (U : (match c :: r with
     | 48 :: x :: r0 => if (base =? 16) && ((x =? 120) || (x =? 88)) || (base =? 2) && ((x =? 98) || (x =? 66)) then match r0 with 95 :: r' => r' | _ => r0 end else c :: r
     | _ => c :: r end) = c :: r).
  { destruct (Z.eq_dec c 48) as [-> |N].
    - destruct r as [|x r0]; [reflexivity|]. inversion Fr as [|? ? [Hx Nx] _]; subst.
      destruct ((base =? 16) && ((x =? 120) || (x =? 88)) || (base =? 2) && ((x =? 98) || (x =? 66))) eqn:E; [|reflexivity].
      exfalso. apply orb_true_iff in E. destruct E as [E|E]; apply andb_true_iff in E; destruct E as [E1 E2]; apply Z.eqb_eq in E1; apply orb_true_iff in E2;
        destruct E2 as [E2|E2]; apply Z.eqb_eq in E2; subst; vm_compute in Hx; intuition congruence.
    - destruct c as [|p|]; try reflexivity. do 6 (destruct p as [p|p|]; try reflexivity; try congruence). }
  rewrite U. rewrite (int_digits_ok base (c :: r)) by (assumption || (left; congruence)). cbn [rbind]. unfold number. f_equal. lia.
Qed.

(** The digits among the characters: underscores may separate them. *)
Definition digits_of (s : list Z) : list Z := filter (fun c => negb (c =? 95)) s.
Lemma int_digits_inv base s : forall acc last v, int_digits base s acc last = Ok v ->
  Forall (is_digit base) (digits_of s) /\ v = fold_left (fun a c => a * base + digit_val c) (digits_of s) acc /\ (last = false -> digits_of s <> []).
Proof.
  induction s as [|c r IH]; intros acc last v E; cbn [int_digits] in E; unfold digits_of; cbn [filter].
  - destruct last; [|discriminate]. injection E as <-. split; [constructor|]. split; [reflexivity|discriminate].
  - destruct (c =? 95) eqn:Ec; cbn [negb].
    + destruct last; [|discriminate]. destruct (IH _ _ _ E) as (I1 & I2 & I3). split; [exact I1|]. split; [exact I2|discriminate].
    + destruct (digit_val c <? base) eqn:Ed; [|discriminate]. destruct (IH _ _ _ E) as (I1 & I2 & _). split; [constructor; [|exact I1]|].
      * split; [|lia]. split; [|lia]. unfold digit_val.
        destruct (Z.leb_spec 48 c), (Z.leb_spec c 57), (Z.leb_spec 97 c), (Z.leb_spec c 122), (Z.leb_spec 65 c), (Z.leb_spec c 90); cbn [andb]; lia.
      * split; [exact I2|intros _; discriminate].
Qed.
Lemma lstripf_inv f l : exists sp, l = sp ++ lstripf f l /\ Forall (fun c => f c = true) sp.
Proof.
  induction l as [|c l (sp & E & F)]; [exists []; split; [reflexivity|constructor]|]. cbn [lstripf]. destruct (f c) eqn:Fc.
  - exists (c :: sp). split; [cbn; congruence|constructor; assumption].
  - exists []. split; [reflexivity|constructor].
Qed.
Lemma rstripf_inv f l : exists sp, l = rstripf f l ++ sp /\ Forall (fun c => f c = true) sp.
Proof.
  induction l as [|c l (sp & E & F)]; [exists []; split; [reflexivity|constructor]|]. cbn [rstripf]. destruct (rstripf f l) as [|x y] eqn:R.
  - destruct (f c) eqn:Fc.
    + exists (c :: sp). split; [cbn in *; congruence|constructor; assumption].
    + exists sp. split; [cbn in *; congruence|exact F].
  - exists sp. split; [rewrite E at 1; reflexivity|exact F].
Qed.
(** What the parser of digits accepts: blanks, a sign, one more prefix, digits. *)
Record accepted (base : Z) (t : list Z) (v : Z) : Prop := mkAcc {
  ac_parts : exists sp1 sg pre body sp2 sign,
    t = sp1 ++ sg ++ pre ++ body ++ sp2 /\
    Forall (fun c => py_space c = true) (sp1 ++ sp2) /\
    ((sg = [] /\ sign = 1) \/ (sg = [43] /\ sign = 1) \/ (sg = [45] /\ sign = -1)) /\
    (pre = [] \/ exists x u, pre = 48 :: x :: u /\ (u = [] \/ u = [95]) /\
        ((base = 16 /\ (x = 120 \/ x = 88)) \/ (base = 2 /\ (x = 98 \/ x = 66)))) /\
    digits_of body <> [] /\ Forall (is_digit base) (digits_of body) /\
    v = sign * number base (digits_of body) }.
Lemma py_int_inv base t v : py_int base t = Ok v -> accepted base t v.
Proof.
  unfold py_int. destruct (lstripf_inv py_space t) as (sp1 & E1 & F1). destruct (rstripf_inv py_space (lstripf py_space t)) as (sp2 & E2 & F2).
  set (u := rstripf py_space (lstripf py_space t)) in *. clearbody u. intros E.
  assert (Sg : exists sg sign t1, (match u with 43 :: r => (1, r) | 45 :: r => (-1, r) | _ => (1, u) end) = (sign, t1) /\ u = sg ++ t1 /\
     ((sg = [] /\ sign = 1) \/ (sg = [43] /\ sign = 1) \/ (sg = [45] /\ sign = -1))).
  { destruct u as [|c r]; [exists [], 1, []; auto 10|]. destruct (Z.eq_dec c 43) as [-> |N1]; [exists [43], 1, r; auto 10|]. destruct (Z.eq_dec c 45) as [-> |N2]; [exists [45], (-1), r; auto 10|].
    exists [], 1, (c :: r). split; [|auto 10]. destruct c as [|p|]; try reflexivity. do 6 (destruct p as [p|p|]; try reflexivity; try congruence). }
  destruct Sg as (sg & sign & t1 & Es & Eu & Hs). rewrite Es in E.
  assert (Pr : exists pre body, (match t1 with
            | 48 :: x :: r => if ((base =? 16) && ((x =? 120) || (x =? 88))) || ((base =? 2) && ((x =? 98) || (x =? 66))) then match r with 95 :: r' => r' | _ => r end else t1
            | _ => t1 end) = body /\ t1 = pre ++ body /\
      (pre = [] \/ exists x u, pre = 48 :: x :: u /\ (u = [] \/ u = [95]) /\ ((base = 16 /\ (x = 120 \/ x = 88)) \/ (base = 2 /\ (x = 98 \/ x = 66))))).
  { destruct t1 as [|c r]; [exists [], []; auto 10|]. destruct (Z.eq_dec c 48) as [-> |N1].
    - destruct r as [|x r]; [exists [], [48]; auto 10|].
      destruct (((base =? 16) && ((x =? 120) || (x =? 88))) || ((base =? 2) && ((x =? 98) || (x =? 66)))) eqn:B; [|exists [], (48 :: x :: r); auto].
      assert (B' : (base = 16 /\ (x = 120 \/ x = 88)) \/ (base = 2 /\ (x = 98 \/ x = 66))) by lia.
      destruct r as [|y r']; [exists [48; x], []; split; [reflexivity|]; split; [reflexivity|]; right; exists x, []; auto 10|].
      destruct (Z.eq_dec y 95) as [-> |N2].
      + exists [48; x; 95], r'. split; [reflexivity|]. split; [reflexivity|]. right. exists x, [95]. auto 10.
      + exists [48; x], (y :: r'). split; [|split; [reflexivity|right; exists x, []; auto 10]].
        destruct y as [|p|]; try reflexivity. do 7 (destruct p as [p|p|]; try reflexivity; try congruence).
    - exists [], (c :: r). split; [|auto 10]. destruct c as [|p|]; try reflexivity. do 6 (destruct p as [p|p|]; try reflexivity; try congruence). }
  destruct Pr as (pre & body & Ep & Et & Hp). rewrite Ep in E.
  destruct (int_digits base body 0 false) as [w|e] eqn:Id; [|discriminate E]. cbn [rbind] in E. injection E as <-.
  destruct (int_digits_inv _ _ _ _ _ Id) as (D1 & D2 & D3). constructor. exists sp1, sg, pre, body, sp2, sign.
  split; [rewrite E1, E2, Eu, Et, <- !app_assoc; reflexivity|]. split; [apply Forall_app; auto 10|]. split; [exact Hs|]. split; [exact Hp|]. split; [auto|]. split; [exact D1|]. unfold number. congruence.
Qed.

(** * Writing into the file system *)
Lemma fput_eq f p d : fput f p d p = Some d.
Proof. unfold fput. replace (zlist_eqb p p) with true; [reflexivity|]. symmetry. apply zlist_eqb_eq. reflexivity. Qed.
Lemma fput_neq f p d q : q <> p -> fput f p d q = f q.
Proof. intros H. unfold fput. destruct (zlist_eqb q p) eqn:E; [apply zlist_eqb_eq in E; contradiction|reflexivity]. Qed.

(** * What a command may touch, whatever the image *)
Section Any.
Variable A : api.
Variable o : opts.
Lemma save_if_path f img x f' m r : save_if A f img x = (f', m, r) -> forall q, q <> img -> f' q = f q.
Proof. destruct x as [[im log] [[]|e]]; cbn [save_if]; intros E; injection E as <- <- <-; intros q Hq; try reflexivity. apply fput_neq, Hq. Qed.
Lemma save_if_err f img x f' m e : save_if A f img x = (f', m, Err e) -> f' = f.
Proof. destruct x as [[im log] [[]|e']]; cbn [save_if]; intros E; injection E as <-; try discriminate; reflexivity. Qed.

Lemma save_file_dry im name ft data im' m r : o_dry o = true -> save_file A o im name ft data = (im', m, Ok r) -> r = false.
Proof.
  intros D E. unfold save_file in E. rewrite D in E.
  destruct (p_find A im name); [|injection E as _ _ <-; reflexivity]. destruct (o_force o); [|injection E as _ _ <-; reflexivity].
  destruct (p_delete A im name) as [im2 [[]|e]]; [injection E as _ _ <-; reflexivity|].
  destruct e as [e| | | | | | | | | | | |]; try discriminate E. destruct e; try discriminate E. injection E as _ _ <-; reflexivity.
Qed.
Lemma add_loop_dry f ft : o_dry o = true -> forall files im c im' m r, add_loop A o f im ft files c = (im', m, Ok r) -> (c = false -> r = false) .
Proof.
  intros D. induction files as [|path l IH]; intros im c im' m r E Hc; cbn [add_loop] in E.
  - injection E as _ _ <-. exact Hc.
  - destruct (f path) as [data|]; [|discriminate E]. destruct (save_file A o im (basename path []) ft data) as [[im1 m1] [b|e]] eqn:S; [|discriminate E].
    destruct (add_loop A o f im1 ft l b) as [[im2 m2] x] eqn:L. injection E as _ _ ->. eapply IH; [exact L|]. eapply save_file_dry; eassumption.
Qed.
Lemma remove_loop_dry : o_dry o = true -> forall files im c im' m r, remove_loop A o im files c = (im', m, r) -> r = Ok c /\ im' = im.
Proof.
  intros D. induction files as [|n l IH]; intros im c im' m r E; cbn [remove_loop] in E.
  - injection E as <- _ <-. auto.
  - rewrite D in E. destruct (p_find A im n); destruct (remove_loop A o im l c) as [[im2 m2] x] eqn:L; injection E as <- _ <-; eapply IH; exact L.
Qed.
Lemma extract_dry im : o_dry o = true -> forall sel f f' m r, extract_loop A o f im sel = (f', m, r) -> f' = f /\ r = Ok tt.
Proof.
  intros D. induction sel as [|[n [d|]] l IH]; intros f f' m r E; cbn [extract_loop] in E.
  - injection E as <- _ <-. auto.
  - rewrite D in E. destruct (extract_loop A o f im l) as [[f2 m2] x] eqn:L. injection E as <- _ <-. eapply IH; exact L.
  - destruct (extract_loop A o f im l) as [[f2 m2] x] eqn:L. injection E as <- _ <-. eapply IH; exact L.
Qed.

Lemma run_dry f img c f' m r : o_dry o = true -> run_command A o f img c = (f', m, r) -> f' = f.
Proof.
  intros D E. unfold run_command in E. destruct (f img) as [b|]; [|injection E as <- _ _; reflexivity].
  destruct (p_open A b) as [im|e].
  - destruct c as [l|l|l| |l].
    + unfold add_files, save_if in E. destruct (add_loop A o f im (filetype A o) l false) as [[im2 m2] [[]|e]] eqn:L; injection E as <- _ _; try reflexivity.
      pose proof (add_loop_dry f _ D l im false im2 m2 true L eq_refl). discriminate.
    + unfold remove_files, save_if in E. destruct (remove_loop A o im l false) as [[im2 m2] x] eqn:L. destruct (remove_loop_dry D _ _ _ _ _ _ L) as [-> _]. injection E as <- _ _; reflexivity.
    + unfold extract_files in E. destruct (extract_dry im D _ _ _ _ _ E) as [-> _]. reflexivity.
    + unfold shred_image in E. rewrite D in E. injection E as <- _ _; reflexivity.
    + injection E as <- _ _; reflexivity.
  - destruct e as [e| | | | | | | | | | | |]; try (injection E as <- _ _; reflexivity). destruct e; injection E as <- _ _; reflexivity.
Qed.
(** Commands that change the image write no other path, and nothing if they fail. *)
Lemma run_frame f img c f' m r : run_command A o f img c = (f', m, r) -> match c with CExtract _ => False | _ => True end ->
  (forall q, q <> img -> f' q = f q) /\ (forall e, r = Err e -> f' = f).
Proof.
  intros E Hc. unfold run_command in E. destruct (f img) as [b|]; [|injection E as <- _ <-; split; [reflexivity|discriminate]].
  destruct (p_open A b) as [im|e].
  - destruct c as [l|l|l| |l]; [| |destruct Hc| |].
    + split; [eapply save_if_path; exact E|]. intros e ->. eapply save_if_err; exact E.
    + split; [eapply save_if_path; exact E|]. intros e ->. eapply save_if_err; exact E.
    + unfold shred_image in E. destruct (o_dry o); [injection E as <- _ <-; split; [reflexivity|discriminate]|].
      destruct (p_shred A im) as [im' [[]|e]]; injection E as <- _ <-; (split; [intros q Hq; try reflexivity; apply fput_neq, Hq|congruence || discriminate || reflexivity]).
    + injection E as <- _ <-. split; [reflexivity|discriminate].
  - assert (X : f' = f) by (destruct e as [e| | | | | | | | | | | |]; try (injection E as <- _ _; reflexivity); destruct e; injection E as <- _ _; reflexivity).
    subst f'. split; reflexivity.
Qed.

(** * Extraction *)
Definition writes (im : p_img A) (sel : list (list Z * option (p_ent A))) : list (list Z * list Z) :=
  flat_map (fun nd => match snd nd with
                      | Some d => match p_read A im d with Ok x => [(out_path o (p_name A d), converted o x)] | Err _ => [] end
                      | None => [] end) sel.
Definition written (p : list Z) (w : list (list Z * list Z)) : option (list Z) :=
  option_map snd (find (fun x => zlist_eqb (fst x) p) w).
Lemma written_app p a b : written p (a ++ b) = match written p a with Some x => Some x | None => written p b end.
Proof.
  unfold written. induction a as [|x a IH]; [reflexivity|]. cbn [app find]. destruct (zlist_eqb (fst x) p); [reflexivity|exact IH].
Qed.
Lemma extract_exact im sel : o_dry o = false -> forall f f' m, extract_loop A o f im sel = (f', m, Ok tt) ->
  (forall n d, In (n, Some d) sel -> exists x, p_read A im d = Ok x) /\
  forall p, f' p = if o_force o then match written p (rev (writes im sel)) with Some x => Some x | None => f p end
                   else match f p with Some x => Some x | None => written p (writes im sel) end.
Proof.
  intros D. induction sel as [|[n [d|]] l IH]; intros f f' m E; cbn [extract_loop] in E.
  - injection E as <- _. split; [intros ? ? []|]. intros p. cbn. destruct (o_force o), (f p); reflexivity.
  - rewrite D in E. destruct (p_read A im d) as [x|e] eqn:Rd; [|discriminate E].
    assert (Wc : writes im ((n, Some d) :: l) = (out_path o (p_name A d), converted o x) :: writes im l) by (unfold writes; cbn [flat_map snd]; rewrite Rd; reflexivity).
    set (out := out_path o (p_name A d)) in *.
    assert (Cases : (o_force o = false /\ f out <> None /\ exists m2, extract_loop A o f im l = (f', m2, Ok tt)) \/
                    ((o_force o = true \/ f out = None) /\ exists m2, extract_loop A o (fput f out (converted o x)) im l = (f', m2, Ok tt))).
    { destruct (f out) as [y|] eqn:Fo.
      - destruct (o_force o).
        + right. split; [left; reflexivity|]. destruct (extract_loop A o (fput f out (converted o x)) im l) as [[f2 m2] z]. injection E as <- _ ->. eauto.
        + left. split; [reflexivity|]. split; [discriminate|]. destruct (extract_loop A o f im l) as [[f2 m2] z]. injection E as <- _ ->. eauto.
      - right. split; [right; reflexivity|]. destruct (extract_loop A o (fput f out (converted o x)) im l) as [[f2 m2] z]. injection E as <- _ ->. eauto. }
    rewrite Wc. destruct Cases as [(Fo & Ex & m2 & L)|(Fo & m2 & L)]; destruct (IH _ _ _ L) as [I1 I2]; (split; [intros n' d' [H|H]; [injection H as _ <-; eauto|eapply I1; exact H]|]); intros p; rewrite I2.
    + rewrite Fo. destruct (f p) as [y|] eqn:Fp; [reflexivity|]. unfold written at 2. cbn [find fst].
      destruct (zlist_eqb out p) eqn:Ep; [apply zlist_eqb_eq in Ep; subst p; contradiction|reflexivity].
    + cbn [rev]. rewrite written_app. unfold written at 3 4. cbn [find fst]. unfold fput. destruct (o_force o) eqn:Fc.
      * fold (written p (rev (writes im l))). destruct (written p (rev (writes im l))); [reflexivity|]. destruct (zlist_eqb p out) eqn:Ep.
        -- apply zlist_eqb_eq in Ep. subst p. replace (zlist_eqb out out) with true by (symmetry; apply zlist_eqb_eq; reflexivity). reflexivity.
        -- destruct (zlist_eqb out p) eqn:Eq; [|reflexivity]. apply zlist_eqb_eq in Eq. subst p. assert (X : zlist_eqb out out = true) by (apply zlist_eqb_eq; reflexivity). congruence.
      * destruct Fo as [Fo|Fo]; [discriminate|]. destruct (zlist_eqb p out) eqn:Ep.
        -- apply zlist_eqb_eq in Ep. subst p. rewrite Fo. unfold written. cbn [find fst]. replace (zlist_eqb out out) with true by (symmetry; apply zlist_eqb_eq; reflexivity). reflexivity.
        -- destruct (f p); [reflexivity|]. unfold written. cbn [find fst]. destruct (zlist_eqb out p) eqn:Eq; [|reflexivity]. apply zlist_eqb_eq in Eq. subst p. assert (X : zlist_eqb out out = true) by (apply zlist_eqb_eq; reflexivity). congruence.
  - destruct (extract_loop A o f im l) as [[f2 m2] x] eqn:L. injection E as <- _ ->. destruct (IH _ _ _ L) as [I1 I2]. split; [|exact I2].
    intros n' d' [H|H]; [discriminate|]. eapply I1; exact H.
Qed.
(** Without --force nothing that exists changes, even if the command fails. *)
Lemma extract_keeps im sel : o_force o = false -> forall f f' m r, extract_loop A o f im sel = (f', m, r) ->
  forall p x, f p = Some x -> f' p = Some x.
Proof.
  intros Fc. induction sel as [|[n [d|]] l IH]; intros f f' m r E p x Hp; cbn [extract_loop] in E.
  - injection E as <- _ _. exact Hp.
  - destruct (o_dry o).
    + destruct (extract_loop A o f im l) as [[f2 m2] z] eqn:L. injection E as <- _ _. eapply IH; eassumption.
    + destruct (p_read A im d) as [y|e]; [|injection E as <- _ _; exact Hp]. rewrite Fc in E. destruct (f (out_path o (p_name A d))) as [w|] eqn:Fo.
      * destruct (extract_loop A o f im l) as [[f2 m2] z] eqn:L. injection E as <- _ _. eapply IH; eassumption.
      * destruct (extract_loop A o (fput f (out_path o (p_name A d)) (converted o y)) im l) as [[f2 m2] z] eqn:L. injection E as <- _ _.
        eapply IH; [exact L|]. rewrite fput_neq; [exact Hp|congruence].
  - destruct (extract_loop A o f im l) as [[f2 m2] z] eqn:L. injection E as <- _ _. eapply IH; eassumption.
Qed.
End Any.

(** * Images that act like a map *)
Definition look (A : api) (im : p_img A) (n : list Z) : option (list Z) :=
  match p_find A im n with
  | Some d => match p_read A im d with Ok x => Some x | Err _ => None end
  | None => None
  end.
Record lawful (A : api) (good : p_img A -> Prop) (okname : list Z -> Prop) (okdata : list Z -> list Z -> Prop)
    (fits : p_img A -> Z -> Prop) (norm : list Z -> list Z) (refused : exn -> Prop) : Prop := mkLaw {
  lw_open : forall im, good im -> p_open A (p_bytes A im) = Ok im;
  lw_find : forall im n, good im -> p_find A im n = None \/ exists x, look A im n = Some x;
  lw_write : forall im n ft d im', good im -> okname n -> okdata ft d -> fits im 1 -> p_find A im n = None ->
     p_write A im n ft d = (im', Ok tt) ->
     good im' /\ look A im' n = Some (norm d) /\ (forall m, m <> n -> look A im' m = look A im m) /\ (forall k, 0 <= k -> fits im (1 + k) -> fits im' k);
  lw_refuse : forall im n ft d im' e, good im -> okname n -> okdata ft d -> fits im 1 -> p_find A im n = None ->
     p_write A im n ft d = (im', Err e) -> refused e;
  lw_name : forall im n d, p_find A im n = Some d -> p_name A d = n;
  lw_files : forall im d, good im -> In d (p_files A im) -> p_find A im (p_name A d) = Some d;
  lw_delete : forall im n, good im -> p_find A im n <> None ->
     exists im', p_delete A im n = (im', Ok tt) /\ good im' /\ look A im' n = None /\
       (forall m, m <> n -> look A im' m = look A im m) /\ (forall k, fits im k -> fits im' k);
  lw_fits : forall im j k, 0 <= j <= k -> fits im k -> fits im j }.

(** What adding files to a map means: a name that is there is skipped unless --force. *)
Fixpoint add_spec (force : bool) (norm : list Z -> list Z) (m : fsmap) (jobs : list (list Z * list Z)) : fsmap * list bool :=
  match jobs with
  | [] => (m, [])
  | (n, d) :: r =>
      match m n, force with
      | Some _, false => let (m', l) := add_spec force norm m r in (m', false :: l)
      | _, _ => let (m', l) := add_spec force norm (fs_put m n (norm d)) r in (m', true :: l)
      end
  end.
Definition add_log (nd : list Z * list Z) (b : bool) : msg := if b then MCopying (fst nd) else MSkipping (fst nd).
Fixpoint zip_log (jobs : list (list Z * list Z)) (l : list bool) : list msg :=
  match jobs, l with j :: js, b :: bs => add_log j b :: zip_log js bs | _, _ => [] end.

Lemma add_spec_ext force norm jobs : forall m m', (forall n, m n = m' n) ->
  snd (add_spec force norm m jobs) = snd (add_spec force norm m' jobs) /\ forall n, fst (add_spec force norm m jobs) n = fst (add_spec force norm m' jobs) n.
Proof.
  induction jobs as [|[n d] r IH]; intros m m' E; cbn [add_spec]; [auto|]. rewrite <- (E n).
  assert (P : forall q, fs_put m n (norm d) q = fs_put m' n (norm d) q) by (intros q; unfold fs_put; destruct (zlist_eqb q n); [reflexivity|apply E]).
  destruct (m n) as [x|]; [destruct force|].
  - destruct (IH _ _ P) as [I1 I2]. destruct (add_spec true norm (fs_put m n (norm d)) r), (add_spec true norm (fs_put m' n (norm d)) r). cbn [fst snd] in *. split; [congruence|exact I2].
  - destruct (IH _ _ E) as [I1 I2]. destruct (add_spec false norm m r), (add_spec false norm m' r). cbn [fst snd] in *. split; [congruence|exact I2].
  - destruct (IH _ _ P) as [I1 I2]. destruct (add_spec force norm (fs_put m n (norm d)) r), (add_spec force norm (fs_put m' n (norm d)) r). cbn [fst snd] in *. split; [congruence|exact I2].
Qed.
Lemma add_spec_len force norm jobs : forall m, length (snd (add_spec force norm m jobs)) = length jobs.
Proof.
  induction jobs as [|[n d] r IH]; intros m; cbn [add_spec]; [reflexivity|].
  destruct (m n) as [x|]; [destruct force|]; [pose proof (IH (fs_put m n (norm d))) as H|pose proof (IH m) as H|pose proof (IH (fs_put m n (norm d))) as H];
    destruct (add_spec _ norm _ r); cbn [snd length] in *; lia.
Qed.
Lemma fs_put_eq m n d : fs_put m n d n = Some d.
Proof. unfold fs_put. replace (zlist_eqb n n) with true; [reflexivity|]. symmetry. apply zlist_eqb_eq. reflexivity. Qed.
Lemma fs_put_neq m n d q : q <> n -> fs_put m n d q = m q.
Proof. intros H. unfold fs_put. destruct (zlist_eqb q n) eqn:E; [apply zlist_eqb_eq in E; contradiction|reflexivity]. Qed.
(** Every name reported as copied is there with the contents of the last such file. *)
Lemma add_spec_present force norm jobs : forall m i, 0 <= i < zlen jobs ->
  nth (Z.to_nat i) (snd (add_spec force norm m jobs)) false = true ->
  exists j, i <= j < zlen jobs /\ fst (nth (Z.to_nat j) jobs ([], [])) = fst (nth (Z.to_nat i) jobs ([], [])) /\
    nth (Z.to_nat j) (snd (add_spec force norm m jobs)) false = true /\
    fst (add_spec force norm m jobs) (fst (nth (Z.to_nat i) jobs ([], []))) = Some (norm (snd (nth (Z.to_nat j) jobs ([], [])))) /\
    forall k, j < k < zlen jobs -> fst (nth (Z.to_nat k) jobs ([], [])) = fst (nth (Z.to_nat i) jobs ([], [])) -> nth (Z.to_nat k) (snd (add_spec force norm m jobs)) false = false.
Proof.
  (* first: what happens to a given name *)
  assert (Gen : forall jobs m n x, m n = Some x ->
     (fst (add_spec force norm m jobs) n = Some x /\ forall k, 0 <= k < zlen jobs -> fst (nth (Z.to_nat k) jobs ([], [])) = n -> nth (Z.to_nat k) (snd (add_spec force norm m jobs)) false = false) \/
     (exists j, 0 <= j < zlen jobs /\ fst (nth (Z.to_nat j) jobs ([], [])) = n /\ nth (Z.to_nat j) (snd (add_spec force norm m jobs)) false = true /\
        fst (add_spec force norm m jobs) n = Some (norm (snd (nth (Z.to_nat j) jobs ([], [])))) /\
        forall k, j < k < zlen jobs -> fst (nth (Z.to_nat k) jobs ([], [])) = n -> nth (Z.to_nat k) (snd (add_spec force norm m jobs)) false = false)).
  { clear. intros jobs. induction jobs as [|[n0 d0] r IH]; intros m n x Hm; cbn [add_spec]; [left; split; [exact Hm|intros k Hk; cbn in Hk; lia]|].
    assert (Up : forall m' b (S : add_spec force norm m ((n0, d0) :: r) = let (q, l) := add_spec force norm m' r in (q, b :: l)) y, m' n = Some y ->
       (n0 = n -> b = false \/ y = norm d0) -> (b = true -> n0 = n -> True) -> (b = false \/ n0 <> n -> y = x) -> 
       let (q, l) := add_spec force norm m' r in
       (q n = Some x /\ forall k, 0 <= k < zlen ((n0, d0) :: r) -> fst (nth (Z.to_nat k) ((n0, d0) :: r) ([], [])) = n -> nth (Z.to_nat k) (b :: l) false = false) \/
       (exists j, 0 <= j < zlen ((n0, d0) :: r) /\ fst (nth (Z.to_nat j) ((n0, d0) :: r) ([], [])) = n /\ nth (Z.to_nat j) (b :: l) false = true /\
          q n = Some (norm (snd (nth (Z.to_nat j) ((n0, d0) :: r) ([], [])))) /\
          forall k, j < k < zlen ((n0, d0) :: r) -> fst (nth (Z.to_nat k) ((n0, d0) :: r) ([], [])) = n -> nth (Z.to_nat k) (b :: l) false = false)).
    { intros m' b _ y Hy Hb _ Hx. specialize (IH m' n y Hy). destruct (add_spec force norm m' r) as [q l]. cbn [fst snd] in IH.
      assert (Sh : forall (T : Type) (l : list T) a d k, 1 <= k -> nth (Z.to_nat k) (a :: l) d = nth (Z.to_nat (k - 1)) l d)
        by (intros T l0 a d k Hk; replace (Z.to_nat k) with (S (Z.to_nat (k - 1))) by lia; reflexivity).
      assert (S0 : forall (T : Type) (l : list T) a d, nth (Z.to_nat 0) (a :: l) d = a) by reflexivity.
      destruct IH as [(I1 & I2)|(j & J1 & J2 & J3 & J4 & J5)].
      - destruct b.
        + destruct (list_eq_dec Z.eq_dec n0 n) as [Hn|Hn].
          * right. exists 0. rewrite zlen_cons. pose proof (zlen_nonneg r). split; [lia|]. rewrite !S0. cbn [fst snd]. split; [exact Hn|]. split; [reflexivity|].
            destruct (Hb Hn) as [X| ->]; [discriminate|]. split; [exact I1|]. intros k Hk Hkn. rewrite Sh in Hkn |- * by lia. apply I2; [lia|exact Hkn].
          * left. rewrite I1. split; [f_equal; apply Hx; right; exact Hn|]. intros k Hk Hkn. rewrite zlen_cons in Hk. destruct (Z.eq_dec k 0) as [-> |Nk]; [cbn in Hkn; contradiction|].
            rewrite Sh in Hkn |- * by lia. apply I2; [lia|exact Hkn].
        + left. rewrite I1. split; [f_equal; apply Hx; left; reflexivity|]. intros k Hk Hkn. rewrite zlen_cons in Hk. destruct (Z.eq_dec k 0) as [-> |Nk]; [reflexivity|].
          rewrite Sh in Hkn |- * by lia. apply I2; [lia|exact Hkn].
      - right. exists (1 + j). rewrite zlen_cons. split; [lia|]. rewrite !Sh by lia. replace (1 + j - 1) with j by lia. split; [exact J2|]. split; [exact J3|]. split; [exact J4|].
        intros k Hk Hkn. rewrite Sh in Hkn |- * by lia. apply J5; [lia|exact Hkn]. }
    destruct (m n0) as [z|] eqn:Z0; [destruct force eqn:Fc|].
    - pose proof (Up (fs_put m n0 (norm d0)) true) as U. cbn [add_spec] in U. rewrite Z0 in U.
      destruct (list_eq_dec Z.eq_dec n0 n) as [Hn|Hn].
      + specialize (U eq_refl (norm d0)). rewrite <- Hn in U at 1. specialize (U (fs_put_eq _ _ _) (fun _ => or_intror eq_refl) (fun _ _ => I)).
        destruct (add_spec true norm (fs_put m n0 (norm d0)) r) as [q l]. cbn [fst snd]. apply U. intros [X|X]; [discriminate|contradiction].
      + specialize (U eq_refl x). rewrite fs_put_neq in U by congruence. specialize (U Hm (fun e => False_ind _ (Hn e)) (fun _ _ => I) (fun _ => eq_refl)).
        destruct (add_spec true norm (fs_put m n0 (norm d0)) r) as [q l]. exact U.
    - pose proof (Up m false) as U. cbn [add_spec] in U. rewrite Z0 in U. specialize (U eq_refl x Hm (fun _ => or_introl eq_refl) (fun _ _ => I) (fun _ => eq_refl)).
      destruct (add_spec false norm m r) as [q l]. exact U.
    - assert (Hn : n0 <> n) by congruence. pose proof (Up (fs_put m n0 (norm d0)) true) as U. cbn [add_spec] in U. rewrite Z0 in U.
      specialize (U eq_refl x). rewrite fs_put_neq in U by congruence. specialize (U Hm (fun e => False_ind _ (Hn e)) (fun _ _ => I) (fun _ => eq_refl)).
      destruct (add_spec force norm (fs_put m n0 (norm d0)) r) as [q l]. exact U. }
  induction jobs as [|[n d] r IH]; intros m i Hi H; [cbn in Hi; lia|].
  assert (Sh : forall (T : Type) (l : list T) a dd k, 1 <= k -> nth (Z.to_nat k) (a :: l) dd = nth (Z.to_nat (k - 1)) l dd)
    by (intros T l0 a dd k Hk; replace (Z.to_nat k) with (S (Z.to_nat (k - 1))) by lia; reflexivity).
  assert (S0 : forall (T : Type) (l : list T) a d, nth (Z.to_nat 0) (a :: l) d = a) by reflexivity.
  rewrite zlen_cons in Hi |- *. cbn [add_spec] in H |- *.
  assert (Cs : exists m' b, (let (q, l) := add_spec force norm m' r in (q, b :: l)) =
       (match m n, force with | Some _, false => let (m', l) := add_spec force norm m r in (m', false :: l) | _, _ => let (m', l) := add_spec force norm (fs_put m n (norm d)) r in (m', true :: l) end)
       /\ (b = true -> m' n = Some (norm d))).
  { destruct (m n) as [z|]; [destruct force|]; [exists (fs_put m n (norm d)), true|exists m, false|exists (fs_put m n (norm d)), true]; (split; [reflexivity|]); try discriminate; intros _; apply fs_put_eq. }
  destruct Cs as (m' & b & Cs & Cb). rewrite <- Cs in H |- *. clear Cs.
  specialize (IH m'). specialize (Gen r m' n). destruct (add_spec force norm m' r) as [q l]. cbn [fst snd] in *.
  destruct (Z.eq_dec i 0) as [-> |Ni].
  - rewrite !S0 in H |- *. cbn [fst snd] in H |- *. subst b. destruct (Gen _ (Cb eq_refl)) as [(G1 & G2)|(j & J1 & J2 & J3 & J4 & J5)].
    + exists 0. split; [lia|]. rewrite !S0. cbn [fst snd]. split; [reflexivity|]. split; [reflexivity|]. split; [exact G1|]. intros k Hk Hkn. rewrite Sh in Hkn |- * by lia. apply G2; [lia|exact Hkn].
    + exists (1 + j). split; [lia|]. rewrite !Sh by lia. replace (1 + j - 1) with j by lia. split; [exact J2|]. split; [exact J3|]. split; [exact J4|].
      intros k Hk Hkn. rewrite Sh in Hkn |- * by lia. apply J5; [lia|exact Hkn].
  - rewrite Sh in H by lia. destruct (IH (i - 1) ltac:(lia) H) as (j & J1 & J2 & J3 & J4 & J5). exists (1 + j). split; [lia|].
    rewrite !(Sh _ _ _ _ i) by lia. rewrite !Sh by lia. replace (1 + j - 1) with j by lia. split; [exact J2|]. split; [exact J3|]. split; [exact J4|].
    intros k Hk Hkn. rewrite Sh in Hkn |- * by lia. apply J5; [lia|exact Hkn].
Qed.
(** Without --force nothing that is there changes. *)
Lemma add_spec_keeps norm jobs : forall m n x, m n = Some x -> fst (add_spec false norm m jobs) n = Some x.
Proof.
  induction jobs as [|[n0 d0] r IH]; intros m n x Hm; cbn [add_spec]; [exact Hm|]. destruct (m n0) as [z|] eqn:Z0.
  - specialize (IH m n x Hm). destruct (add_spec false norm m r). exact IH.
  - specialize (IH (fs_put m n0 (norm d0)) n x). rewrite fs_put_neq in IH by congruence. specialize (IH Hm). destruct (add_spec false norm (fs_put m n0 (norm d0)) r). exact IH.
Qed.
Lemma add_spec_other force norm jobs : forall m n, ~ In n (map fst jobs) -> fst (add_spec force norm m jobs) n = m n.
Proof.
  induction jobs as [|[n0 d0] r IH]; intros m n Hn; cbn [add_spec map fst In] in *; [reflexivity|].
  assert (N0 : n <> n0) by (intros ->; tauto). assert (Nr : ~ In n (map fst r)) by tauto.
  pose proof (IH m n Nr) as I1. pose proof (IH (fs_put m n0 (norm d0)) n Nr) as I2. rewrite fs_put_neq in I2 by exact N0.
  destruct (m n0) as [z|]; [destruct force|]; [destruct (add_spec true norm (fs_put m n0 (norm d0)) r)|destruct (add_spec false norm m r)|destruct (add_spec force norm (fs_put m n0 (norm d0)) r)]; assumption.
Qed.

Lemma last_cons' (T : Type) (l : list T) : forall b c, last (b :: l) c = last l b.
Proof. induction l as [|x l IH]; intros b c; [reflexivity|]. change (last (b :: x :: l) c) with (last (x :: l) c). rewrite !IH. reflexivity. Qed.

Section Lawful.
Variable A : api.
Variable o : opts.
Variable good : p_img A -> Prop.
Variable okname : list Z -> Prop.
Variable okdata : list Z -> list Z -> Prop.
Variable fits : p_img A -> Z -> Prop.
Variable norm : list Z -> list Z.
Variable refused : exn -> Prop.
Hypothesis law : lawful A good okname okdata fits norm refused.

Lemma find_look im n : good im -> (p_find A im n = None <-> look A im n = None).
Proof.
  intros G. split; intros H; [unfold look; rewrite H; reflexivity|]. destruct (lw_find _ _ _ _ _ _ _ law im n G) as [E|(x & E)]; [exact E|congruence].
Qed.

Definition job (f : fs) (ft path : list Z) (nd : list Z * list Z) : Prop :=
  f path = Some (snd nd) /\ basename path [] = fst nd /\ okname (fst nd) /\ okdata ft (snd nd).

Lemma add_loop_ok f ft : o_dry o = false -> forall files jobs, Forall2 (job f ft) files jobs ->
  forall im c im' m r, good im -> fits im (zlen jobs) -> add_loop A o f im ft files c = (im', m, Ok r) ->
  good im' /\ (forall n, look A im' n = fst (add_spec (o_force o) norm (look A im) jobs) n) /\
  m = zip_log jobs (snd (add_spec (o_force o) norm (look A im) jobs)) /\ r = last (snd (add_spec (o_force o) norm (look A im) jobs)) c.
Proof.
  intros D files jobs F. induction F as [|path [n d] files jobs (J1 & J2 & J3 & J4) F IH]; intros im c im' m r G Ft E; cbn [add_loop] in E.
  - injection E as <- <- <-. cbn. auto.
  - cbn [fst snd] in *. rewrite J1, J2 in E. destruct (save_file A o im n ft d) as [[im1 m1] [b|e]] eqn:S; [|discriminate E].
    destruct (add_loop A o f im1 ft files b) as [[im2 m2] x] eqn:L. injection E as <- <- ->.
    rewrite zlen_cons in Ft. pose proof (zlen_nonneg jobs) as Zj. assert (F1 : fits im 1) by (eapply (lw_fits _ _ _ _ _ _ _ law); [|exact Ft]; lia).
    (* one file *)
    assert (W : forall im0 imw, good im0 -> fits im0 (1 + zlen jobs) -> p_find A im0 n = None -> p_write A im0 n ft d = (imw, Ok tt) ->
       good imw /\ fits imw (zlen jobs) /\ forall q, look A imw q = fs_put (look A im0) n (norm d) q).
    { intros im0 imw G0 Ft0 Fn Ew. assert (F10 : fits im0 1) by (eapply (lw_fits _ _ _ _ _ _ _ law); [|exact Ft0]; lia).
      destruct (lw_write _ _ _ _ _ _ _ law im0 n ft d imw G0 J3 J4 F10 Fn Ew) as (G1 & L1 & L2 & L3). split; [exact G1|]. split; [apply L3; [exact Zj|exact Ft0]|].
      intros q. unfold fs_put. destruct (zlist_eqb q n) eqn:Eq; [apply zlist_eqb_eq in Eq; subst q; exact L1|apply L2; intros ->; assert (X : zlist_eqb n n = true) by (apply zlist_eqb_eq; reflexivity); congruence]. }
    assert (St : exists b0, good im1 /\ fits im1 (zlen jobs) /\ m1 = [add_log (n, d) b0] /\ b = b0 /\
       (if b0 then (match look A im n with Some _ => o_force o = true | None => True end) /\ forall q, look A im1 q = fs_put (look A im) n (norm d) q
        else o_force o = false /\ look A im n <> None /\ im1 = im)).
    { unfold save_file in S. rewrite D in S. destruct (p_find A im n) as [en|] eqn:Fn.
      - assert (Ln : look A im n <> None) by (intros X; apply (find_look im n G) in X; congruence).
        destruct (o_force o) eqn:Fc.
        + destruct (lw_delete _ _ _ _ _ _ _ law im n G ltac:(congruence)) as (imd & Ed & Gd & Ld & Lo & Lf). rewrite Ed in S.
          destruct (p_write A imd n ft d) as [imw [[]|e]] eqn:Ew; [|discriminate S]. injection S as <- <- <-.
          destruct (W imd imw Gd (Lf _ Ft) (proj2 (find_look imd n Gd) Ld) Ew) as (W1 & W2 & W3).
          exists true. split; [exact W1|]. split; [exact W2|]. split; [reflexivity|]. split; [reflexivity|]. split; [destruct (look A im n); auto|].
          intros q. rewrite W3. unfold fs_put. destruct (zlist_eqb q n) eqn:Eq; [reflexivity|]. apply Lo. intros ->. assert (X : zlist_eqb n n = true) by (apply zlist_eqb_eq; reflexivity). congruence.
        + injection S as <- <- <-. exists false. split; [exact G|]. split; [|split; [reflexivity|split; [reflexivity|split; [reflexivity|split; [exact Ln|reflexivity]]]]].
          eapply (lw_fits _ _ _ _ _ _ _ law); [|exact Ft]; lia.
      - destruct (p_write A im n ft d) as [imw [[]|e]] eqn:Ew; [|discriminate S]. injection S as <- <- <-.
        destruct (W im imw G Ft Fn Ew) as (W1 & W2 & W3). exists true. split; [exact W1|]. split; [exact W2|]. split; [reflexivity|]. split; [reflexivity|].
        apply (find_look im n G) in Fn. rewrite Fn. split; [exact Logic.I|exact W3]. }
    destruct St as (b0 & G1 & F1' & -> & -> & St). destruct (IH im1 b0 im2 m2 r G1 F1' L) as (I1 & I2 & I3 & I4). cbn [add_spec].
    destruct b0.
    + destruct St as [St1 St2]. destruct (add_spec_ext (o_force o) norm jobs _ _ St2) as [X1 X2].
      assert (Sp : (match look A im n, o_force o with
           | Some _, false => let (m', l) := add_spec (o_force o) norm (look A im) jobs in (m', false :: l)
           | _, _ => let (m', l) := add_spec (o_force o) norm (fs_put (look A im) n (norm d)) jobs in (m', true :: l) end)
         = let (m', l) := add_spec (o_force o) norm (fs_put (look A im) n (norm d)) jobs in (m', true :: l)).
      { destruct (look A im n) as [z|]; [rewrite St1; reflexivity|reflexivity]. }
      rewrite Sp. rewrite X1 in I3, I4. split; [exact I1|]. 
      assert (I2' : forall q, look A im2 q = fst (add_spec (o_force o) norm (fs_put (look A im) n (norm d)) jobs) q) by (intros q; rewrite I2; apply X2).
      destruct (add_spec (o_force o) norm (fs_put (look A im) n (norm d)) jobs) as [q l]. cbn [fst snd] in *. split; [exact I2'|]. split; [rewrite I3; reflexivity|].
      rewrite I4. symmetry. apply last_cons'.
    + destruct St as (St1 & St2 & ->). destruct (look A im n) as [z|]; [|congruence]. rewrite St1 in *. split; [exact I1|].
      destruct (add_spec false norm (look A im) jobs) as [q l]. cbn [fst snd] in *. split; [exact I2|]. split; [rewrite I3; reflexivity|].
      rewrite I4. symmetry. apply last_cons'.
Qed.

(** If the loop fails, it is for one of the documented reasons. *)
Lemma add_loop_refused f ft : o_dry o = false -> forall files jobs, Forall2 (job f ft) files jobs ->
  forall im c im' m e, good im -> fits im (zlen jobs) -> add_loop A o f im ft files c = (im', m, Err e) -> refused e.
Proof.
  intros D files jobs F. induction F as [|path [n d] files jobs (J1 & J2 & J3 & J4) F IH]; intros im c im' m e G Ft E; cbn [add_loop] in E; [discriminate|].
  cbn [fst snd] in *. rewrite J1, J2 in E. rewrite zlen_cons in Ft. pose proof (zlen_nonneg jobs) as Zj.
  assert (F1 : fits im 1) by (eapply (lw_fits _ _ _ _ _ _ _ law); [|exact Ft]; lia).
  destruct (save_file A o im n ft d) as [[im1 m1] [b|e1]] eqn:S.
  - destruct (add_loop A o f im1 ft files b) as [[im2 m2] x] eqn:L. injection E as _ _ ->.
    assert (One : good im1 /\ fits im1 (zlen jobs)).
    { unfold save_file in S. rewrite D in S. destruct (p_find A im n) as [en|] eqn:Fn.
      - destruct (o_force o).
        + destruct (lw_delete _ _ _ _ _ _ _ law im n G ltac:(congruence)) as (imd & Ed & Gd & Ld & Lo & Lf). rewrite Ed in S.
          destruct (p_write A imd n ft d) as [imw [[]|e']] eqn:Ew; [|discriminate S]. injection S as <- _ _.
          destruct (lw_write _ _ _ _ _ _ _ law imd n ft d imw Gd J3 J4 (Lf _ F1) (proj2 (find_look imd n Gd) Ld) Ew) as (W1 & _ & _ & W4). split; [exact W1|]. apply W4; [exact Zj|apply Lf; exact Ft].
        + injection S as <- _ _. split; [exact G|]. eapply (lw_fits _ _ _ _ _ _ _ law); [|exact Ft]; lia.
      - destruct (p_write A im n ft d) as [imw [[]|e']] eqn:Ew; [|discriminate S]. injection S as <- _ _.
        destruct (lw_write _ _ _ _ _ _ _ law im n ft d imw G J3 J4 F1 Fn Ew) as (W1 & _ & _ & W4). split; [exact W1|]. apply W4; [exact Zj|exact Ft]. }
    destruct One as [G1 Ft1]. eapply IH; eassumption.
  - injection E as _ _ <-. unfold save_file in S. rewrite D in S. destruct (p_find A im n) as [en|] eqn:Fn.
    + destruct (o_force o); [|discriminate S].
      destruct (lw_delete _ _ _ _ _ _ _ law im n G ltac:(congruence)) as (imd & Ed & Gd & Ld & Lo & Lf). rewrite Ed in S.
      destruct (p_write A imd n ft d) as [imw [[]|e']] eqn:Ew; [discriminate S|]. injection S as _ _ <-.
      exact (lw_refuse _ _ _ _ _ _ _ law imd n ft d imw e' Gd J3 J4 (Lf _ F1) (proj2 (find_look imd n Gd) Ld) Ew).
    + destruct (p_write A im n ft d) as [imw [[]|e']] eqn:Ew; [discriminate S|]. injection S as _ _ <-.
      exact (lw_refuse _ _ _ _ _ _ _ law im n ft d imw e' G J3 J4 F1 Fn Ew).
Qed.

(** The add command. *)
Lemma add_command f img im files jobs f' m r : o_dry o = false -> good im -> f img = Some (p_bytes A im) ->
  Forall2 (job f (filetype A o)) files jobs -> fits im (zlen jobs) ->
  run_command A o f img (CAdd files) = (f', m, r) ->
  (r = Ok tt /\
   m = zip_log jobs (snd (add_spec (o_force o) norm (look A im) jobs)) /\
   exists im', p_open A (p_bytes A im') = Ok im' /\ good im' /\
     (forall n, look A im' n = fst (add_spec (o_force o) norm (look A im) jobs) n) /\
     f' = if last (snd (add_spec (o_force o) norm (look A im) jobs)) false then fput f img (p_bytes A im') else f) \/
  (exists e, r = Err e /\ refused e /\ f' = f).
Proof.
  intros D G Fi F Ft E. unfold run_command in E. rewrite Fi, (lw_open _ _ _ _ _ _ _ law im G) in E. unfold add_files, save_if in E.
  destruct (add_loop A o f im (filetype A o) files false) as [[im2 m2] [b|e]] eqn:L.
  - left. destruct (add_loop_ok f (filetype A o) D files jobs F im false im2 m2 b G Ft L) as (G2 & L2 & -> & ->).
    pose proof (lw_open _ _ _ _ _ _ _ law im2 G2) as O2.
    destruct (last (snd (add_spec (o_force o) norm (look A im) jobs)) false); injection E as <- <- <-; (split; [reflexivity|]); (split; [reflexivity|]); exists im2; auto.
  - right. exists e. injection E as <- _ <-. split; [reflexivity|]. split; [|reflexivity]. eapply add_loop_refused; eassumption.
Qed.

(** Deleting: names that are there go, the others are reported. *)
Lemma remove_loop_ok : o_dry o = false -> forall files im c, good im ->
  exists im' m, remove_loop A o im files c = (im', m, Ok (c || existsb (fun n => match look A im n with Some _ => true | None => false end) files)) /\
    good im' /\ (forall n, look A im' n = if existsb (zlist_eqb n) files then None else look A im n).
Proof.
  intros D. induction files as [|n l IH]; intros im c G; cbn [remove_loop existsb].
  - exists im, []. rewrite orb_false_r. auto.
  - rewrite D. destruct (p_find A im n) as [en|] eqn:Fn.
    + destruct (lw_delete _ _ _ _ _ _ _ law im n G ltac:(congruence)) as (imd & Ed & Gd & Ld & Lo & Lf). rewrite Ed.
      destruct (IH imd true Gd) as (im' & m & E & G' & L). exists im'. eexists. rewrite E.
      assert (Ln : look A im n <> None) by (intros X; apply (find_look im n G) in X; congruence).
      split; [destruct (look A im n); [|congruence]; rewrite orb_true_r; reflexivity|]. split; [exact G'|]. intros q. rewrite L.
      destruct (zlist_eqb q n) eqn:Eq; cbn [orb]; [apply zlist_eqb_eq in Eq; subst q; rewrite Ld; destruct (existsb (zlist_eqb n) l); reflexivity|].
      destruct (existsb (zlist_eqb q) l); [reflexivity|]. apply Lo. intros ->. assert (X : zlist_eqb n n = true) by (apply zlist_eqb_eq; reflexivity). congruence.
    + destruct (IH im c G) as (im' & m & E & G' & L). exists im'. eexists. rewrite E. apply (find_look im n G) in Fn. rewrite Fn. split; [reflexivity|]. split; [exact G'|].
      intros q. rewrite L. destruct (zlist_eqb q n) eqn:Eq; cbn [orb]; [|reflexivity]. apply zlist_eqb_eq in Eq; subst q. rewrite Fn. destruct (existsb (zlist_eqb n) l); reflexivity.
Qed.
Lemma remove_command f img im files f' m r : o_dry o = false -> good im -> f img = Some (p_bytes A im) ->
  run_command A o f img (CDelete files) = (f', m, r) ->
  r = Ok tt /\ exists im', p_open A (p_bytes A im') = Ok im' /\ good im' /\
    (forall n, look A im' n = if existsb (zlist_eqb n) files then None else look A im n) /\
    f' = if existsb (fun n => match look A im n with Some _ => true | None => false end) files then fput f img (p_bytes A im') else f.
Proof.
  intros D G Fi E. unfold run_command in E. rewrite Fi, (lw_open _ _ _ _ _ _ _ law im G) in E. unfold remove_files, save_if in E.
  destruct (remove_loop_ok D files im false G) as (im' & m' & L & G' & Lk). rewrite L in E. cbn [orb] in E.
  pose proof (lw_open _ _ _ _ _ _ _ law im' G') as O'.
  destruct (existsb (fun n => match look A im n with Some _ => true | None => false end) files); injection E as <- _ <-; (split; [reflexivity|]); exists im'; auto.
Qed.

(** The extract command: what is to be written, in order. *)
Definition wanted (im : p_img A) (files : list (list Z)) : list (list Z) := if o_all o then map (p_name A) (p_files A im) else files.
Definition outputs (im : p_img A) (files : list (list Z)) : list (list Z * list Z) :=
  flat_map (fun n => match look A im n with Some x => [(out_path o n, converted o x)] | None => [] end) (wanted im files).
Lemma writes_outputs im files : good im -> writes A o im (selection A o im files) = outputs im files.
Proof.
  intros G. unfold outputs, selection, wanted. destruct (o_all o).
  - assert (Sub : forall d, In d (p_files A im) -> p_find A im (p_name A d) = Some d) by (intros d; apply (lw_files _ _ _ _ _ _ _ law im d G)).
    revert Sub. induction (p_files A im) as [|d l IH]; intros Sub; [reflexivity|]. unfold writes in *. cbn [map flat_map snd]. rewrite IH by (intros d' H; apply Sub; right; exact H). f_equal.
    unfold look. rewrite (Sub d (or_introl eq_refl)). destruct (p_read A im d); reflexivity.
  - induction files as [|n l IH]; [reflexivity|]. unfold writes in *. cbn [map flat_map snd]. rewrite IH. f_equal. unfold look.
    destruct (p_find A im n) as [d|] eqn:Fn; [|reflexivity]. rewrite (lw_name _ _ _ _ _ _ _ law im n d Fn). destruct (p_read A im d); reflexivity.
Qed.
Lemma extract_total im : good im -> (forall sel, (forall n d, In (n, Some d) sel -> p_find A im (p_name A d) = Some d) ->
   forall f, exists f' m, extract_loop A o f im sel = (f', m, Ok tt)).
Proof.
  intros G. induction sel as [|[n [d|]] l IH]; intros H f; cbn [extract_loop]; [eauto| |].
  - assert (H' : forall n d, In (n, Some d) l -> p_find A im (p_name A d) = Some d) by (intros n' d' X; apply (H n' d'); right; exact X).
    destruct (o_dry o); [destruct (IH H' f) as (f' & m & ->); eauto|].
    assert (Rd : exists x, p_read A im d = Ok x).
    { pose proof (H n d (or_introl eq_refl)) as Fd. destruct (lw_find _ _ _ _ _ _ _ law im (p_name A d) G) as [X|(x & X)]; [congruence|].
      unfold look in X. rewrite Fd in X. destruct (p_read A im d); [eauto|discriminate]. }
    destruct Rd as (x & ->). destruct (f (out_path o (p_name A d))); [destruct (o_force o)|];
      [destruct (IH H' (fput f (out_path o (p_name A d)) (converted o x))) as (f' & m & ->)|destruct (IH H' f) as (f' & m & ->)|destruct (IH H' (fput f (out_path o (p_name A d)) (converted o x))) as (f' & m & ->)]; eauto.
  - assert (H' : forall n d, In (n, Some d) l -> p_find A im (p_name A d) = Some d) by (intros n' d' X; apply (H n' d'); right; exact X).
    destruct (IH H' f) as (f' & m & ->); eauto.
Qed.
Lemma extract_command f img im files f' m r : o_dry o = false -> good im -> f img = Some (p_bytes A im) ->
  run_command A o f img (CExtract files) = (f', m, r) ->
  r = Ok tt /\
  forall p, f' p = if o_force o then match written p (rev (outputs im files)) with Some x => Some x | None => f p end
                   else match f p with Some x => Some x | None => written p (outputs im files) end.
Proof.
  intros D G Fi E. unfold run_command in E. rewrite Fi, (lw_open _ _ _ _ _ _ _ law im G) in E. unfold extract_files in E.
  assert (Sel : forall n d, In (n, Some d) (selection A o im files) -> p_find A im (p_name A d) = Some d).
  { intros n d H. unfold selection in H. destruct (o_all o); apply in_map_iff in H; destruct H as (x & H & Hx).
    - injection H as _ <-. apply (lw_files _ _ _ _ _ _ _ law im x G Hx).
    - injection H as <- H. rewrite (lw_name _ _ _ _ _ _ _ law im x d H). exact H. }
  destruct (extract_total im G _ Sel f) as (f2 & m2 & E2). rewrite E2 in E. injection E as <- _ <-. split; [reflexivity|].
  destruct (extract_exact A o im _ D f f2 m2 E2) as [_ X]. intros p. rewrite X, writes_outputs by exact G. reflexivity.
Qed.
End Lawful.
