(** What the assemble and boot commands put together. *)
From Verif Require Import Base BaseLemmas DiskModel AtariModel AtariSpec SpartaModel Dos33Model CliModel CliProofs CliInst SdModel DetectModel DetectSpec ObjModel ObjBytes MainModel MainProofs ExecModel ExecSpec ExecProofs ExecProofs2 Properties_Exec.

(** * The bytes of executables *)
Lemma bytes_put2 v : bytes_ok (put2 v).
Proof. unfold put2. repeat constructor; apply is_byte_u8. Qed.
Lemma bytes_xenc l : Forall (fun s => bytes_ok (i_data s)) l -> bytes_ok (flat_map xenc l).
Proof.
  intros H. induction H as [|s r H1 H2 IH]; [constructor|]. cbn [flat_map]. apply bytes_ok_app. split; [|exact IH].
  unfold xenc. apply bytes_ok_app. split; [apply bytes_put2|]. apply bytes_ok_app. split; [apply bytes_put2|exact H1].
Qed.
Lemma get_xex_bytes segs run x : Forall (fun s => bytes_ok (i_data s)) segs -> get_xex segs run = Ok x -> x <> [] /\ bytes_ok x.
Proof.
  intros H E. destruct (get_xex_spec _ _ _ E) as [[_ ->]|[_ (a & _ & ->)]].
  - split; [discriminate|]. apply bytes_ok_app. split; [repeat constructor; lia|apply bytes_xenc, H].
  - split; [discriminate|]. apply bytes_ok_app. split; [repeat constructor; lia|]. apply bytes_xenc. unfold with_run. constructor; [apply bytes_put2|exact H].
Qed.
Lemma setslice_some {A} (l : list A) p d : l <> [] -> setslice l p d <> [].
Proof.
  intros H E. unfold setslice in E. apply app_eq_nil in E. destruct E as [E1 E2]. apply app_eq_nil in E2. destruct E2 as [-> E2]. destruct l as [|a l]; [congruence|].
  destruct (Z.to_nat p); cbn in *; discriminate.
Qed.
Lemma bsave_fill_ok segs : forall o im, bytes_ok im -> Forall (fun s => bytes_ok (i_data s)) segs -> im <> [] ->
  bsave_fill segs o im <> [] /\ bytes_ok (bsave_fill segs o im).
Proof.
  induction segs as [|s r IH]; intros o im Hb H Hn; cbn [bsave_fill]; [auto|]. inversion H; subst. apply IH; [apply bytes_ok_setslice; assumption|assumption|].
  apply setslice_some, Hn.
Qed.
Lemma bsave_image_ok o l segs x : Forall (fun s => bytes_ok (i_data s)) segs -> bsave_image o l segs = Ok x -> x <> [] /\ bytes_ok x.
Proof.
  intros H E. unfold bsave_image in E. cbv zeta in E. destruct (l - o + 4 <? 0) eqn:E1; [discriminate|]. destruct (l - o <? 0) eqn:E2; [discriminate|]. injection E as <-.
  apply bsave_fill_ok; [|exact H|].
  - apply bytes_ok_setslice; [|apply bytes_put2]. apply bytes_ok_setslice; [|apply bytes_put2]. apply bytes_ok_zrepeat. unfold is_byte. lia.
  - apply setslice_some, setslice_some. intros X. assert (Y : zlen (zrepeat 0 (l - o + 4)) = 0) by (rewrite X; reflexivity). rewrite zlen_zrepeat in Y by lia. lia.
Qed.
Lemma get_bsave_bytes segs run x : Forall (fun s => bytes_ok (i_data s)) segs -> get_bsave segs run = Ok x -> x <> [] /\ bytes_ok x.
Proof.
  intros H E. unfold get_bsave in E. cbv zeta in E. destruct (truthy run) as [a|]; [|exact (bsave_image_ok _ _ _ _ H E)].
  destruct (a =? bsave_origin segs); [exact (bsave_image_ok _ _ _ _ H E)|]. destruct (has_addr segs a); [|discriminate].
  apply bsave_image_ok in E; [exact E|]. constructor; [|exact H]. cbn [i_data]. constructor; [unfold is_byte; lia|]. repeat constructor; apply is_byte_u8.
Qed.
Lemma create_bytes name segs run x ty : Forall (fun s => bytes_ok (i_data s)) segs -> create_executable name segs run = Ok (x, ty) ->
  x <> [] /\ bytes_ok x /\ (ty = t_XEX \/ ty = [66]).
Proof.
  intros H E. unfold create_executable in E. destruct (ends_with _ t_xex).
  - destruct (get_xex segs run) eqn:G; [|discriminate]. injection E as <- <-. destruct (get_xex_bytes _ _ _ H G). auto.
  - destruct (_ || _); [|discriminate]. destruct (get_bsave segs run) eqn:G; [|discriminate]. injection E as <- <-. destruct (get_bsave_bytes _ _ _ H G). auto.
Qed.
Lemma executable_bytes d name segs r x ty : Forall (fun s => bytes_ok (i_data s)) segs -> executable (Some d) name segs r = Ok (x, ty) ->
  x <> [] /\ bytes_ok x /\ (ty = t_XEX \/ ty = [66]).
Proof.
  intros H E. cbn [executable] in E. unfold create_executable_image in E. destruct (create_executable name segs (run_opt r)) as [[x1 t1]|e] eqn:C.
  - injection E as -> ->. exact (create_bytes _ _ _ _ _ H C).
  - destruct e as [a| | | | | | | | | | | |]; try discriminate. destruct a; try discriminate. exact (create_bytes _ _ _ _ _ H E).
Qed.

(** * The segments *)
(** Data, sources and what is unpacked are bytes. *)
Definition proper (w : world) (f : fs) (obj : list (list Z)) : Prop :=
  (forall p d, f p = Some d -> bytes_ok d) /\
  (forall asm n l, w_asm w = Some asm -> asm f n = Ok l -> Forall (fun s => bytes_ok (i_data s)) l) /\
  (forall p d, In p obj -> f p = Some d -> unpacks_bytes (w_env w) d).
Lemma source_bytes asm names l : (forall n l, asm n = Ok l -> Forall (fun s => bytes_ok (i_data s)) l) -> source_segs asm names = Ok l -> Forall (fun s => bytes_ok (i_data s)) l.
Proof.
  intros H. revert l. induction names as [|n r IH]; intros l E; cbn [source_segs] in E; [injection E as <-; constructor|].
  destruct (asm n) as [a|] eqn:A; [|discriminate]. cbn [rbind] in E. destruct (source_segs asm r) as [b|]; [|discriminate]. injection E as <-.
  apply Forall_app. split; [exact (H n a A)|apply IH; reflexivity].
Qed.
Lemma bytes_py_slice d s e : bytes_ok d -> bytes_ok (py_slice d s e).
Proof. intros H. unfold py_slice. repeat apply bytes_ok_slice. exact H. Qed.
Lemma data_bytes f args l : (forall p d, f p = Some d -> bytes_ok d) -> data_segs f args = Ok l -> Forall (fun s => bytes_ok (i_data s)) l.
Proof.
  intros H. revert l. induction args as [|a r IH]; intros l E; cbn [data_segs] in E; [injection E as <-; constructor|].
  destruct (data_segment f a) as [[first d]|] eqn:A; [|discriminate]. cbn [rbind] in E. destruct (data_segs f r) as [b|]; [|discriminate]. injection E as <-.
  constructor; [|apply IH; reflexivity]. cbn [i_data]. unfold data_segment in A. destruct (data_arg a) as [[[nm fi] [s e]]|]; [|discriminate]. cbn [rbind] in A.
  destruct (f nm) as [b0|] eqn:F; [|discriminate]. injection A as _ <-. apply bytes_py_slice. eapply H; exact F.
Qed.
Lemma take_bytes ss : forall run l run', (forall s, In s ss -> bytes_ok (x_data s)) -> take_segs ss run = Ok (l, run') -> Forall (fun s => bytes_ok (i_data s)) l.
Proof.
  induction ss as [|s r IH]; intros run l run' H E; cbn [take_segs] in E; [injection E as <- _; constructor|].
  assert (H' : forall s, In s r -> bytes_ok (x_data s)) by (intros; apply H; right; assumption).
  destruct (x_runad s).
  - destruct (run_address s) as [a|]; [|discriminate]. cbn [rbind] in E. eapply IH; [exact H'|exact E].
  - destruct (take_segs r run) as [[l1 r1]|] eqn:T; [|discriminate]. cbn [rbind] in E. injection E as <- _. specialize (IH _ _ _ H' T).
    destruct (0 <? x_origin s); [|exact IH]. constructor; [apply H; left; reflexivity|exact IH].
Qed.
Lemma obj_bytes w f obj : forall names run m l run', (forall p d, In p obj -> f p = Some d -> unpacks_bytes (w_env w) d) ->
  incl names obj -> obj_segs w f names run = (m, Ok (l, run')) -> Forall (fun s => bytes_ok (i_data s)) l.
Proof.
  induction names as [|n r IH]; intros run m l run' H I E; cbn [obj_segs] in E; [injection E as _ <- _; constructor|].
  assert (I' : incl r obj) by (intros x Hx; apply I; right; exact Hx).
  destruct (zlist_eqb n [46]); [discriminate|]. destruct (f n) as [b|] eqn:F; [|discriminate].
  destruct (find_diskimage (w_env w) b) as [fd|e] eqn:D.
  - destruct (parser_segs (w_env w) b fd) as [ss|] eqn:Q; [|discriminate]. cbn [rbind] in E. destruct (take_segs ss run) as [[l1 r1]|] eqn:T; [|discriminate].
    destruct (obj_segs w f r r1) as [m2 [[l2 r2]|]] eqn:O; [|discriminate]. cbn [rbind] in E. injection E as _ <- _.
    apply Forall_app. split; [eapply take_bytes; [|exact T]; rewrite <- Forall_forall; exact (object_bytes _ _ _ _ (H n b (I n (or_introl eq_refl)) F) D Q)|eapply IH; eassumption].
  - destruct e as [a| | | | | | | | | | | |]; try discriminate. destruct (obj_segs w f r run) as [m2 x] eqn:O. injection E as _ ->. eapply IH; eassumption.
Qed.
Lemma assemble_bytes w f src data obj run m segs r : proper w f obj -> assemble_segments w f src data obj run = (m, Ok (segs, r)) -> Forall (fun s => bytes_ok (i_data s)) segs.
Proof.
  intros (P1 & P2 & P3) E. unfold assemble_segments in E. destruct (all_source_segs w f src) as [a|] eqn:A; [|discriminate].
  destruct (data_segs f data) as [b|] eqn:B; [|discriminate]. destruct (obj_segs w f obj (RText run)) as [m1 [[c r1]|]] eqn:C; [|discriminate]. cbn [rbind] in E. injection E as _ <- _.
  apply Forall_app. split.
  - unfold all_source_segs in A. destruct src as [|n l]; [injection A as <-; constructor|]. destruct (w_asm w) as [asm|] eqn:W; [|discriminate].
    eapply source_bytes; [|exact A]. intros n0 l0 X. eapply P2; [reflexivity|exact X].
  - apply Forall_app. split; [eapply data_bytes; [exact P1|exact B]|]. eapply obj_bytes; [exact P3|apply incl_refl|exact C].
Qed.

(** * Object files *)
(** Segments of an object file that are used: not run addresses, not at address 0. *)
Definition used (ss : list xseg) : list iseg :=
  flat_map (fun s => if x_runad s || (x_origin s <=? 0) then [] else [mkI (x_origin s) (x_data s)]) ss.
(** The first address to run that is not 0. *)
Fixpoint start_of (ss : list xseg) : option Z :=
  match ss with
  | [] => None
  | s :: r => if x_runad s then
                match run_address s with Ok a => if a =? 0 then start_of r else Some a | Err _ => start_of r end
              else start_of r
  end.
(** Every run address segment holds a word. *)
Definition runs_whole (ss : list xseg) : Prop := forall s, In s ss -> x_runad s = true -> 2 <= zlen (x_data s).
(** A run address given on the command line is kept; otherwise the first of the object
    files is used. *)
Definition settles (run run' : run_arg) (o : option Z) : Prop :=
  if run_empty run then match o with Some a => run' = RNum a | None => run' = run \/ run' = RNum 0 end
  else run' = run.
Lemma run_address_ok s : 2 <= zlen (x_data s) -> exists a, run_address s = Ok a.
Proof. intros H. unfold run_address. replace (zlen (slice (x_data s) 0 2) <? 2) with false by (rewrite zlen_slice_min; lia). eauto. Qed.
Lemma start_nonzero ss a : start_of ss = Some a -> a <> 0.
Proof.
  induction ss as [|s r IH]; cbn [start_of]; [discriminate|]. destruct (x_runad s); [|exact IH]. destruct (run_address s) as [v|]; [|exact IH].
  destruct (v =? 0) eqn:E; [exact IH|]. intros [= <-]. lia.
Qed.
Lemma settles_trans ss1 ss2 r r1 r2 : settles r r1 (start_of ss1) -> settles r1 r2 (start_of ss2) -> settles r r2 (start_of (ss1 ++ ss2)).
Proof.
  assert (A : start_of (ss1 ++ ss2) = match start_of ss1 with Some a => Some a | None => start_of ss2 end).
  { induction ss1 as [|s l IH]; [reflexivity|]. cbn [app start_of]. rewrite IH. destruct (x_runad s); [|reflexivity]. destruct (run_address s) as [v|]; [|reflexivity]. destruct (v =? 0); reflexivity. }
  rewrite A. unfold settles. destruct (run_empty r) eqn:E.
  - destruct (start_of ss1) as [a|] eqn:S1.
    + intros ->. cbn [run_empty]. pose proof (start_nonzero _ _ S1). replace (a =? 0) with false by lia. auto.
    + intros [X|X] Y; subst r1; [rewrite E in Y; exact Y|]. cbn [run_empty Z.eqb] in Y. destruct (start_of ss2); [exact Y|]. destruct Y; right; assumption.
  - intros ->. rewrite E. auto.
Qed.
Lemma take_spec ss : forall run, runs_whole ss -> exists run', take_segs ss run = Ok (used ss, run') /\ settles run run' (start_of ss).
Proof.
  induction ss as [|s r IH]; intros run H; cbn [take_segs].
  - exists run. split; [reflexivity|]. unfold settles. cbn [start_of]. destruct (run_empty run); auto.
  - assert (H' : runs_whole r) by (intros x Hx; apply H; right; exact Hx). change (used (s :: r)) with ((if x_runad s || (x_origin s <=? 0) then [] else [mkI (x_origin s) (x_data s)]) ++ used r).
    change (s :: r) with ([s] ++ r). destruct (x_runad s) eqn:R.
    + destruct (run_address_ok s (H s (or_introl eq_refl) R)) as (a & A). rewrite A. cbn [rbind orb app].
      destruct (IH (if run_empty run then RNum a else run) H') as (run' & T & K). exists run'. split; [exact T|].
      eapply (settles_trans [s]); [|exact K]. unfold settles. cbn [start_of]. rewrite R, A. destruct (run_empty run); [|reflexivity].
      destruct (a =? 0) eqn:E; [right; f_equal; lia|reflexivity].
    + destruct (IH run H') as (run' & T & K). rewrite T. cbn [rbind orb]. exists run'. split.
      * destruct (0 <? x_origin s) eqn:O; [replace (x_origin s <=? 0) with false by lia|replace (x_origin s <=? 0) with true by lia]; reflexivity.
      * eapply (settles_trans [s]); [|exact K]. unfold settles. cbn [start_of]. rewrite R. destruct (run_empty run); auto.
Qed.
(** The segments found in a file *)
Definition segs_in (w : world) (f : fs) (n : list Z) (ss : list xseg) : Prop :=
  n <> [46] /\ exists b fd, f n = Some b /\ find_diskimage (w_env w) b = Ok fd /\ parser_segs (w_env w) b fd = Ok ss.
Lemma used_app a b : used (a ++ b) = used a ++ used b.
Proof. apply flat_map_app. Qed.
Lemma obj_spec w f names ss : Forall2 (segs_in w f) names ss -> runs_whole (concat ss) -> forall run,
  exists run', obj_segs w f names run = ([], Ok (used (concat ss), run')) /\ settles run run' (start_of (concat ss)).
Proof.
  intros F. induction F as [|n s ns ss (N & b & fd & F1 & F2 & F3) F IH]; intros H run; cbn [obj_segs concat].
  - exists run. split; [reflexivity|]. unfold settles. cbn. destruct (run_empty run); auto.
  - rewrite (not_dot _ N), F1, F2, F3. cbn [rbind]. cbn [concat] in H. destruct (take_spec s run) as (r1 & T & K1); [intros x Hx; apply H, in_or_app; left; exact Hx|].
    rewrite T. destruct (IH (fun x Hx => H x ltac:(apply in_or_app; right; exact Hx)) r1) as (r2 & O & K2). rewrite O. cbn [rbind].
    exists r2. rewrite used_app. split; [reflexivity|]. eapply settles_trans; eassumption.
Qed.
Lemma assemble_spec w f src a data args obj ss run : all_source_segs w f src = Ok a -> data_segs f args = Ok data -> Forall2 (segs_in w f) obj ss -> runs_whole (concat ss) ->
  exists run', assemble_segments w f src args obj run = ([], Ok (a ++ data ++ used (concat ss), run_value run')) /\ settles (RText run) run' (start_of (concat ss)).
Proof.
  intros A D F H. unfold assemble_segments. rewrite A, D. destruct (obj_spec w f obj ss F H (RText run)) as (r & O & K). rewrite O. cbn [rbind]. eauto.
Qed.
(** The address to run: the one asked for, as hexadecimal or else decimal number, or that
    of the object files. *)
Definition address_of (t : list Z) : option Z :=
  match text_to_int t with Ok v => Some v | Err _ => match py_int 10 t with Ok v => Some v | Err _ => None end end.
Definition chosen (run : list Z) (ss : list xseg) : option Z := match run with [] => start_of ss | _ => address_of run end.
Lemma settles_chosen run run' ss : settles (RText run) run' (start_of ss) -> truthy (run_opt (run_value run')) = truthy (chosen run ss).
Proof.
  unfold settles. destruct run as [|x l].
  - cbn [run_empty chosen]. change (zlen [] =? 0) with true. cbv iota. destruct (start_of ss) as [a|] eqn:S0.
    + intros ->. unfold run_value. destruct (run_empty (RNum a)); reflexivity.
    + intros [-> | ->]; reflexivity.
  - assert (Ne : run_empty (RText (x :: l)) = false) by (cbn [run_empty]; rewrite zlen_cons; pose proof (zlen_nonneg l); lia).
    rewrite Ne. intros ->. unfold run_value. rewrite Ne. cbn [chosen]. unfold address_of. destruct (text_to_int (x :: l)); [reflexivity|]. destruct (py_int 10 (x :: l)); reflexivity.
Qed.
Lemma get_xex_truthy segs r r' : truthy r = truthy r' -> get_xex segs r = get_xex segs r'.
Proof. intros E. unfold get_xex, xex_run. rewrite E. reflexivity. Qed.
Lemma get_bsave_truthy segs r r' : truthy r = truthy r' -> get_bsave segs r = get_bsave segs r'.
Proof. intros E. unfold get_bsave. rewrite E. reflexivity. Qed.
Lemma executable_atari output segs rn : ends_with (map lower output) t_bin = false -> ends_with (map lower output) t_bsave = false ->
  executable (Some t_XEX) output segs rn = let! d := get_xex segs (run_opt rn) in Ok (d, t_XEX).
Proof.
  intros H1 H2. cbn [executable]. unfold create_executable_image, create_executable. rewrite H1, H2. cbn [orb]. change (ends_with (map lower t_XEX) t_xex) with true. cbv iota.
  destruct (ends_with (map lower output) t_xex); [|reflexivity]. destruct (get_xex segs (run_opt rn)) as [d|e]; [reflexivity|]. cbn [rbind]. destruct e as [a| | | | | | | | | | | |]; try reflexivity. destruct a; reflexivity.
Qed.
Lemma executable_dos33 output segs rn : ends_with (map lower output) t_xex = false ->
  executable (Some t_BSAVE) output segs rn = let! d := get_bsave segs (run_opt rn) in Ok (d, [66]).
Proof.
  intros H1. cbn [executable]. unfold create_executable_image, create_executable. rewrite H1. change (ends_with (map lower t_BSAVE) t_xex) with false. change (ends_with (map lower t_BSAVE) t_bin || ends_with (map lower t_BSAVE) t_bsave) with true. cbv iota.
  destruct (ends_with (map lower output) t_bin || ends_with (map lower output) t_bsave); [|reflexivity]. destruct (get_bsave segs (run_opt rn)) as [d|e]; [reflexivity|]. cbn [rbind]. destruct e as [a| | | | | | | | | | | |]; try reflexivity. destruct a; reflexivity.
Qed.

(** * Executables as object files *)
Lemma used_seen rest : forall segs, map seen rest = map given segs -> Forall (fun s => x_name s = NoName /\ x_runad s = (x_origin s =? 0x2e0)) rest ->
  existsb (fun s => i_origin s =? 0x2e0) segs = false -> Forall (fun s => 0 < i_origin s) segs ->
  used rest = segs /\ start_of rest = None /\ forall s, In s rest -> x_runad s = false.
Proof.
  induction rest as [|s l IH]; intros segs M F N P; destruct segs as [|g gs]; try discriminate M; [repeat split; intros ? []|].
  cbn [map] in M. injection M as M1 M2 M3. inversion F as [|? ? [F1 F2] F3]; subst. cbn [existsb] in N. apply orb_false_iff in N. destruct N as [N1 N2]. inversion P; subst.
  destruct (IH gs M3 F3 N2 ltac:(assumption)) as (U & St & R). rewrite M1, N1 in F2. cbn [start_of used flat_map]. fold (used l). rewrite F2, M1, M2, U, St.
  replace (i_origin g <=? 0) with false by lia. cbn [orb app]. split; [destruct g; reflexivity|]. split; [reflexivity|]. intros x [<-|Hx]; [exact F2|apply R, Hx].
Qed.
Lemma reassemble segs run x : Forall seg_ok segs -> existsb (fun s => i_origin s =? 0x2e0) segs = false -> Forall (fun s => 0 < i_origin s) segs ->
  get_xex segs run = Ok x -> forall st, exists rep, snd (parse_xex x st) = Ok rep /\ used rep = segs /\ start_of rep = Some (wanted segs run) /\ runs_whole rep /\
  get_xex segs (Some (wanted segs run)) = Ok x.
Proof.
  intros Hs N P G st.
  destruct (C23_xex_round_trip_partial t_xex segs run x t_XEX st Hs eq_refl) as (rep & E & M & F).
  { unfold create_executable. change (ends_with (map lower t_xex) t_xex) with true. cbn iota. rewrite G. reflexivity. }
  destruct (C23_run_address_partial segs run x st Hs N G) as (r & rest & E' & R1 & R2). rewrite E in E'. injection E' as ->.
  rewrite N in M. cbn [app map] in M. injection M as M1 M2 M3. inversion F as [|? ? F1 F3]; subst.
  destruct (used_seen rest segs M3 F3 N P) as (U & St & R).
  assert (W : xex_run segs run = Ok (wanted segs run) /\ wanted segs run <> 0 /\ has_addr segs (wanted segs run) = true).
  { unfold get_xex in G. rewrite N in G. destruct (xex_run segs run) as [a|] eqn:X; [|discriminate G]. unfold xex_run, truthy in X. unfold wanted.
    assert (FS : forall a0, match segs with [] => Err EIndex | s :: _ => Ok (i_origin s) end = Ok a0 ->
       Ok a0 = Ok (i_origin (hd (mkI 0 []) segs)) /\ i_origin (hd (mkI 0 []) segs) <> 0 /\ has_addr segs (i_origin (hd (mkI 0 []) segs)) = true).
    { intros a0 Q. destruct segs as [|s l]; [discriminate|]. injection Q as <-. cbn [hd]. inversion P; subst. inversion Hs as [|? ? (S1 & S2 & _) ?]; subst. split; [reflexivity|]. split; [lia|].
      unfold has_addr. cbn [existsb]. replace (_ && _) with true by lia. reflexivity. }
    destruct run as [a0|]; [|exact (FS a X)]. destruct (a0 =? 0) eqn:A0; [exact (FS a X)|]. destruct (has_addr segs a0) eqn:HA; [|discriminate X]. injection X as <-. split; [reflexivity|]. split; [lia|first [exact HA|reflexivity]]. }
  destruct W as (W1 & W2 & W3). exists (r :: rest). split; [exact E|]. split.
  { cbn [used flat_map]. rewrite R1. cbn [orb app]. exact U. }
  split. { cbn [start_of]. rewrite R1, R2. replace (wanted segs run =? 0) with false by lia. reflexivity. }
  split. { intros s [<-|Hx] Hr; [rewrite M2, zlen_put2; lia|]. rewrite (R s Hx) in Hr. discriminate. }
  unfold get_xex in *. rewrite N in *. rewrite W1 in G. unfold xex_run, truthy. replace (wanted segs run =? 0) with false by lia. rewrite W3. exact G.
Qed.
