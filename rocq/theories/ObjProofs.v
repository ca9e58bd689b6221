(** Images as object files: which segments of a list are used. *)
From Coq Require Import String.
From Verif Require Import Base BaseLemmas DiskModel AtariModel AtariSpec AtariGeom SpartaModel ExecModel SegModel SegSpec SegProofs SegProofs2 TextModel DetectModel.
From Verif Require Import Dos33Model EditModel EditAtari SegListModel SegListSpec SegListProofs SegListAtari SegListExec SegSaveProofs SegListTotal ObjModel ObjBytes.
From Verif Require Import ExecModel ExecSpec ExecProofs MainModel MainProofs MainProofs2 Properties_SegList2.
From Verif Require CartModel SegProofs6 Properties_SegSave.

(** * From recognised data to its list of segments *)
Lemma opened_raw u h r : new_raw (mkHp [] []) u = (h, r) -> raw_ok h r /\ r_win r = WAll /\ read_data h r = u.
Proof. intros E. destruct (Properties_SegSave.fresh_raw _ _ _ _ E) as (A & B & _ & C & _). auto. Qed.
Lemma file_listed e b fd u : unpacked e b = Ok u -> bytes_ok u -> find_diskimage e b = Ok fd ->
  exists h0 r h l, new_raw (mkHp [] []) u = (h0, r) /\ image_segments h0 r (f_class fd) (f_image fd) = (h, Ok l) /\ file_segments e b fd = Ok (h, l).
Proof.
  intros U B F. destruct (found_parsed e b fd u U F) as (strict & P). destruct (new_raw (mkHp [] []) u) as [h0 r] eqn:N. destruct (opened_raw u h0 r N) as (R & W & Q).
  destruct (always_listed r W e strict _ h0 u _ B R Q P) as (h & l & E). exists h0, r, h, l. split; [reflexivity|]. split; [exact E|]. unfold file_segments. rewrite U. cbn [rbind]. rewrite N, E. reflexivity.
Qed.

(** * Which segments are used *)
(** In the order of the list, at their addresses, with the bytes they show *)
Definition loads (h : heap) (l : list seg) : list iseg :=
  flat_map (fun s => if 0 <? g_origin s then [mkI (g_origin s) (read_data h (g_raw s))] else []) l.
(** The same, of the lines of C88; [b] are the bytes of the image. *)
Definition line_loads (b : list Z) (es : list entry) : list iseg :=
  flat_map (fun e => if 0 <? n_origin e then [mkI (n_origin e) (map (getb b) (n_at e))] else []) es.
Lemma loads_lines h r b l es : read_data h r = b -> Forall2 (seg_is h r) l es -> loads h l = line_loads b es.
Proof.
  intros Rb. unfold loads, line_loads. induction 1 as [|s e l es X _ IH]; [reflexivity|]. cbn [flat_map]. rewrite IH, (si_origin _ _ _ _ X), (si_bytes _ _ _ _ X), Rb. reflexivity.
Qed.
Lemma loads_app h l1 l2 : loads h (l1 ++ l2) = loads h l1 ++ loads h l2. Proof. apply flat_map_app. Qed.

(** [s] is not a run address and can be used: it is a slice, or it has no positive address. *)
Definition flat (x : raw) : Prop := forall o, r_win x <> WOrder o.
Definition usable (s : seg) : Prop := (forall a b, g_kind s <> KRun a b) /\ (g_origin s <= 0 \/ flat (g_raw s)).
Lemma usable_objects h l : Forall usable l -> exists xs, object_segs h l = Ok xs /\ used xs = loads h l /\ start_of xs = None /\ (forall s, In s xs -> x_runad s = false) /\
  map x_data xs = map (fun s => read_data h (g_raw s)) l.
Proof.
  induction 1 as [|s l (K & U) F IH]; [exists []; repeat split; try reflexivity; intros s []|]. destruct IH as (xs & E & E1 & E2 & E3 & E4).
  assert (X : object_seg h s = Ok (mkX false NoName 0 0 (g_origin s) (read_data h (g_raw s)))).
  { unfold object_seg. cbv zeta. assert (Y : match r_win (g_raw s) with WOrder _ => if 0 <? g_origin s then Err EType else Ok (mkX false NoName 0 0 (g_origin s) (read_data h (g_raw s)))
      | _ => Ok (mkX false NoName 0 0 (g_origin s) (read_data h (g_raw s))) end = Ok (mkX false NoName 0 0 (g_origin s) (read_data h (g_raw s)))).
    { destruct (r_win (g_raw s)) as [| |o] eqn:Ew; try reflexivity. destruct U as [U|U]; [destruct (Z.ltb_spec 0 (g_origin s)); [lia|reflexivity]|destruct (U o Ew)]. }
    destruct (g_kind s) eqn:Ek; try exact Y. destruct (K meta start eq_refl). }
  cbn [object_segs]. rewrite X, E. cbn [rbind]. eexists. split; [reflexivity|]. split; [|split; [|split]].
  - unfold used, loads in *. cbn [flat_map x_runad x_origin x_data orb]. rewrite E1. destruct (Z.leb_spec (g_origin s) 0); destruct (Z.ltb_spec 0 (g_origin s)); try lia; reflexivity.
  - cbn [start_of x_runad]. exact E2.
  - intros x [<-|Hx]; [reflexivity|exact (E3 x Hx)].
  - cbn [map x_data]. rewrite E4. reflexivity.
Qed.
Lemma take_none ss : (forall s, In s ss -> x_runad s = false) -> forall run, take_segs ss run = Ok (used ss, run).
Proof.
  induction ss as [|s r IH]; intros H run; [reflexivity|]. cbn [take_segs]. rewrite (H s (or_introl eq_refl)). rewrite IH by (intros; apply H; right; assumption). cbn [rbind]. unfold used. cbn [flat_map].
  rewrite (H s (or_introl eq_refl)). cbn [orb]. destruct (Z.leb_spec (x_origin s) 0); destruct (Z.ltb_spec 0 (x_origin s)); try lia; reflexivity.
Qed.

(** * The lists of all formats but executables and DOS 3.3 *)
Lemma flat_slice h x a b : flat x -> flat (raw_slice h x a b).
Proof.
  intros Y o. unfold raw_slice. destruct (nslice _ a b). cbn [r_win]. destruct (r_win x) as [| |o'] eqn:E; try discriminate. destruct (Y o' E).
Qed.
Definition usables (m : heap * res (list seg)) : Prop := forall l, snd m = Ok l -> Forall usable l.
Lemma u_bind (m : heap * res (list seg)) k : usables m -> (forall h l, Forall usable l -> usables (k h l)) -> usables (hbind m k).
Proof. intros A B. destruct m as [h [l|e]]; cbn [hbind]; [apply B, A; reflexivity|intros l E; discriminate]. Qed.
Lemma u_any {A} (m : heap * res A) k : (forall h x, usables (k h x)) -> usables (hbind m k).
Proof. intros B. destruct m as [h [l|e]]; cbn [hbind]; [apply B|intros l E; discriminate]. Qed.
Lemma u_ok h l : Forall usable l -> usables (h, Ok l).
Proof. intros F l' E. injection E as <-. exact F. Qed.
Lemma usable_obj name a x : flat x -> usable (mkSeg KObj name a x). Proof. intros H. split; [discriminate|right; exact H]. Qed.
Lemma usable_zero k name x : (forall a b, k <> KRun a b) -> usable (mkSeg k name 0 x). Proof. intros H. split; [exact H|left; cbn; lia]. Qed.
Ltac one_usable := first [apply usable_obj; repeat apply flat_slice; assumption | apply usable_zero; discriminate].
Ltac all_usable := repeat (apply Forall_cons; [one_usable|]); try apply Forall_nil.
Lemma u_each {D} (name : D -> list Z) make r ds : (forall h d s, snd (make h d) = Ok s -> usable s) -> forall h, usables (each_file name make r h ds).
Proof.
  intros M. induction ds as [|d ds IH]; intros h; cbn [each_file]; [apply u_ok; constructor|]. pose proof (M h d) as X. destruct (make h d) as [h1 [s|e]]; cbn [snd] in X.
  - apply u_bind; [apply IH|]. intros h2 l F. apply u_ok. constructor; [exact (X s eq_refl)|exact F].
  - destruct (is_invalid_file e); [|intros l E; discriminate]. apply u_bind; [apply IH|]. intros h2 l F. apply u_ok. constructor; [apply usable_zero; discriminate|exact F].
Qed.
Section U.
  Variable r : raw.
  Hypothesis W : r_win r = WAll.
  Lemma flat_r : flat r. Proof. intros o. rewrite W. discriminate. Qed.
  Lemma u_head h hd : Forall usable (atari_head_segs h r hd).
  Proof. pose proof flat_r. unfold atari_head_segs, header_seg. destruct (0 <? _); cbn [app]; all_usable. Qed.
  Lemma u_boot h hd b rec n : usables (pure h (boot_segs h r hd b rec n)).
  Proof.
    pose proof flat_r. intros l. unfold pure, boot_segs. cbn [snd]. destruct (get_sectors _ _ _ _); cbn [rbind]; [|discriminate]. destruct (view_rec _ _); cbn [rbind]; [|discriminate].
    destruct (_ =? 0); [|intros E; injection E as <-; constructor]. destruct (get_sector_slice _ _ _) as [[x y]|]; cbn [rbind]; [|discriminate]. intros E. injection E as <-. all_usable.
  Qed.
  Lemma u_atari h im : usables (atari_parse_segments h r im).
  Proof.
    pose proof flat_r. unfold atari_parse_segments. cbv zeta. apply u_bind; [apply u_boot|]. intros h1 b Fb. apply u_bind.
    { unfold atari_vtoc_segs. apply u_any. intros h2 p. cbv zeta. apply u_any. intros h3 u. destruct (0 <? _); [|apply u_ok; all_usable]. apply u_any. intros h4 q. cbv zeta. apply u_any. intros h5 u'. apply u_ok; all_usable. }
    intros h2 c Fc. apply u_bind; [unfold atari_dir_segs; apply u_any; intros h3 p; cbv zeta; apply u_any; intros h4 u; apply u_ok; all_usable|]. intros h3 d Fd. apply u_bind.
    { apply u_each. intros h4 d0 s. unfold atari_file_seg, pure. cbn [snd]. destruct (file_segment _ _ _ _); cbn [rbind]; [|discriminate]. destruct (read_runs _ _ _ _ _ _ _) as [runs|]; cbn [rbind]; [|discriminate].
      destruct (run_positions runs); intros E; injection E as <-; apply usable_zero; discriminate. }
    intros h4 e Fe. apply u_ok. repeat (apply Forall_app; split; [assumption || apply u_head|]). exact Fe.
  Qed.
  Lemma sparta_file_usable im h dt s : snd (sparta_file_seg r im h dt) = Ok s -> g_origin s = 0 /\ forall a b, g_kind s <> KRun a b.
  Proof.
    destruct dt as [d t]. unfold sparta_file_seg, pure. cbn [snd]. destruct (sfile_runs _ _ _ _) as [runs|]; cbn [rbind]; [|discriminate]. destruct (run_positions runs).
    - intros E. injection E as <-. split; [reflexivity|discriminate].
    - destruct (raw_indexed _ _ _); cbn [rbind]; [|discriminate]. intros E. injection E as <-. split; [reflexivity|discriminate].
  Qed.
  Lemma u_sparta h im : usables (sparta_parse_segments h r im).
  Proof.
    pose proof flat_r. unfold sparta_parse_segments. cbv zeta. apply u_bind.
    { intros l. unfold pure, sparta_boot_segs. cbn [snd]. destruct (get_sector_slice _ _ _) as [[x y]|]; cbn [rbind]; [|discriminate]. intros E. injection E as <-. apply Forall_cons; [one_usable|]. destruct (0 <? _); all_usable. }
    intros h1 b Fb. apply u_bind.
    { intros l. unfold pure, sparta_vtoc_segs. cbn [snd]. destruct (sbitmap_bounds im) as [[x y]|]; cbn [rbind]; [|discriminate]. intros E. injection E as <-. all_usable. }
    intros h2 c Fc. apply u_bind.
    { unfold sparta_dir_segs. destruct (s_rootd im) as [d|]; [|intros l E; discriminate]. pose proof (sparta_file_usable im h2 (d, root_stamp im d)) as X.
      destruct (sparta_file_seg r im h2 (d, root_stamp im d)) as [h3 [s|e]]; cbn [hbind snd] in *; [|intros l E; discriminate]. destruct (X s eq_refl) as (X1 & X2). apply u_ok. constructor; [|constructor].
      split; [exact X2|left; apply Z.eq_le_incl; exact X1]. }
    intros h3 d Fd. apply u_any. intros h4 l. apply u_bind.
    { apply u_each. intros h5 dt s E. destruct (sparta_file_usable im h5 dt s E). split; [assumption|left; lia]. }
    intros h5 e Fe. apply u_ok. repeat (apply Forall_app; split; [assumption || apply u_head|]). exact Fe.
  Qed.
  Lemma u_banks h c : forall banks n, Forall usable (bank_segs h r c n banks).
  Proof. pose proof flat_r. induction banks as [|o banks IH]; intros n; cbn [bank_segs]; [constructor|]. cbv zeta. constructor; [one_usable|apply IH]. Qed.
  Lemma u_mame h x : flat x -> forall l off, Forall usable (mame_segs h x off l).
  Proof. intros F. induction l as [|z l IH]; intros off; cbn [mame_segs]; [constructor|]. constructor; [split; [discriminate|right; apply flat_slice, F]|apply IH]. Qed.

  Definition plain_image (i : image) : Prop := match i with IXex _ | IBin _ | IDos33 _ => False | _ => True end.
  Lemma u_image h p i : plain_image i -> usables (image_segments h r p i).
  Proof.
    intros C. pose proof flat_r as Fl. unfold image_segments, with_whole. apply u_bind; [|intros h1 l F; apply u_ok; constructor; [unfold whole_seg; one_usable|exact F]].
    destruct i as [k|a|a|hd b|hd b|x|c|l|b|a|x]; cbn [plain_image parse_segments] in *; try destruct C.
    - unfold kboot_parse_segments. apply u_ok. apply Forall_app. split; [apply u_head|]. all_usable.
    - apply u_sparta.
    - apply u_atari.
    - unfold boot_parse_segments. apply u_bind; [apply u_boot|]. intros h1 l F. apply u_ok. apply Forall_app. split; [apply u_head|exact F].
    - apply u_ok, u_head.
    - unfold cart_parse_segments. cbv zeta. apply u_ok. apply Forall_app. split; [destruct (0 <? _); all_usable|]. constructor; [one_usable|apply u_banks].
    - unfold mame_parse_segments. destruct (new_raw h _) as [h1 x] eqn:N. apply u_ok, u_mame. unfold new_raw in N. injection N as _ <-. intros o. discriminate.
    - unfold rom_parse_segments. apply u_ok. all_usable.
  Qed.
End U.
