(** Editing a file of a DOS 3.3 disk in place: only data sectors of the file change. *)
From Verif Require Import Base BaseLemmas DiskModel DirLemmas AtariSpec AtariMore SegModel SegSpec SegProofs SegProofs2 EditModel EditSpec EditProofs EditAtari.
From Verif Require Import Dos33Model Dos33Spec Dos33Geom Dos33Vtoc Dos33Dir Dos33Files Dos33Update Dos33Alloc Dos33Write Dos33Delete Dos33Shred Dos33Ops.

(** The places of a file's bytes in the image. *)
Definition order3 (dl : list Z) : list Z := flat_map (fun n => zrange (n * 256) (n * 256 + 256)) dl.

Lemma run_positions3 dl : run_positions (map (fun n => (n * 256, 256)) dl) = order3 dl.
Proof. unfold run_positions, order3. rewrite !flat_map_concat_map, map_map. reflexivity. Qed.
Lemma In_order3 dl p : In p (order3 dl) <-> exists n, In n dl /\ n * 256 <= p < n * 256 + 256.
Proof. unfold order3. rewrite in_flat_map. split; intros (n & Hn & Hp); exists n; (split; [exact Hn|]); apply In_zrange; exact Hp. Qed.
Lemma order3_ok dl : Forall (fun n => 0 <= n < 560) dl -> NoDup dl -> order_ok 143360 (order3 dl).
Proof.
  intros F N. split.
  - clear F. induction N as [|n dl Hn N IH]; [constructor|]. cbn [order3 flat_map]. apply NoDup_join; [apply NoDup_zseq_nat|exact IH|].
    intros p Hp Hq. apply In_zrange in Hp. apply (In_order3 dl) in Hq. destruct Hq as (m & Hm & Hq). assert (n = m) as -> by lia. exact (Hn Hm).
  - apply Forall_forall. intros p Hp. apply In_order3 in Hp. destruct Hp as (n & Hn & Hp). rewrite Forall_forall in F. specialize (F n Hn). lia.
Qed.
Lemma contents_order3 b dl : zlen b = 143360 -> Forall (fun n => 0 <= n < 560) dl -> contents3 b dl = map (getb b) (order3 dl).
Proof.
  intros Hb. induction dl as [|n dl IH]; intros F; [reflexivity|]. inversion F as [|? ? F1 F2]; subst. cbn [contents3 order3 flat_map].
  rewrite map_app. fold (contents3 b dl) (order3 dl). rewrite (IH F2). f_equal. unfold sec. rewrite slice_map_range by lia. f_equal. f_equal; lia.
Qed.

Section Frame.
  Variables (b cat : list Z) (k : Z) (name : list Z) (i : Z) (tl dl : list Z).
  Hypothesis D : dos33_disk b cat k.
  Hypothesis F : file_in3 b cat k name i tl dl.

  Lemma e3_file : dl <> [] /\ NoDup (tl ++ dl) /\ forall n, In n (tl ++ dl) -> data_sector3 cat n /\ free_bit3 b n = 0.
  Proof.
    destruct F as (Hi & L & _ & A). destruct (k3_files _ _ _ D i Hi L) as (_ & _ & tl' & dl' & A' & Q). destruct (file_at_det _ _ _ _ _ _ A A') as [<- <-]. exact Q.
  Qed.
  Lemma e3_range : Forall (fun n => 0 <= n < 560) dl.
  Proof.
    apply Forall_forall. intros n Hn. destruct e3_file as (_ & _ & Q). destruct (Q n) as ((R & _) & _); [apply in_or_app; right; exact Hn|]. lia.
  Qed.

  Variable b' : list Z.
  Hypothesis Hl : zlen b' = zlen b.
  Hypothesis Ho : bytes_ok b'.
  Hypothesis Hsame : forall p, 0 <= p < zlen b -> ~ In p (order3 dl) -> getb b' p = getb b p.

  Lemma e3_sec n : 0 <= n < 560 -> ~ In n dl -> sec b' n = sec b n.
  Proof.
    intros Hn Hd. pose proof (k3_size _ _ _ D) as Hb. apply list_ext_getb; [unfold sec; rewrite !zlen_slice by lia; reflexivity|].
    intros j Hj. unfold sec in Hj |- *. rewrite zlen_slice in Hj by lia. rewrite !getb_slice by lia. apply Hsame; [lia|].
    intros Hin. apply In_order3 in Hin. destruct Hin as (m & Hm & Hp). assert (n = m) as -> by lia. exact (Hd Hm).
  Qed.
  Lemma e3_system n : 0 <= n < 560 -> ~ data_sector3 cat n -> sec b' n = sec b n.
  Proof.
    intros Hn Hs. apply e3_sec; [exact Hn|]. intros Hin. destruct e3_file as (_ & _ & Q). apply Hs. apply Q. apply in_or_app. right. exact Hin.
  Qed.
  Lemma e3_vtoc : vtoc b' = vtoc b.
  Proof. apply e3_system; [lia|]. unfold data_sector3. lia. Qed.
  Lemma e3_cat n : In n cat -> sec b' n = sec b n.
  Proof.
    intros Hn. pose proof (links_in _ _ _ (k3_cat _ _ _ D)) as R. rewrite Forall_forall in R. specialize (R n Hn). apply e3_system; [lia|]. intros (_ & _ & X). exact (X Hn).
  Qed.
  Lemma e3_slot j : slot3 b' cat j = slot3 b cat j.
  Proof. unfold slot3, catalog. f_equal. apply flat_map_ext_in. intros n Hn. rewrite e3_cat by exact Hn. reflexivity. Qed.
  Lemma e3_free n : free_bit3 b' n = free_bit3 b n.
  Proof. unfold free_bit3. rewrite e3_vtoc. reflexivity. Qed.
  (** The list sectors of every file, and the data of every other file, are kept. *)
  Lemma e3_keep j tl' dl' n : 0 <= j < k -> x_live (slot3 b cat j) -> file_at b (slot3 b cat j) tl' dl' ->
    In n tl' \/ (j <> i /\ In n dl') -> sec b' n = sec b n.
  Proof.
    intros Hj L A Hn. pose proof F as (Hi & Li & _ & Ai). destruct (k3_files _ _ _ D j Hj L) as (_ & _ & tl0 & dl0 & A0 & _ & N0 & Q0).
    destruct (file_at_det _ _ _ _ _ _ A A0) as [<- <-].
    assert (Hin : In n (tl' ++ dl')) by (apply in_or_app; destruct Hn as [Hn|[_ Hn]]; auto). destruct (Q0 n Hin) as ((R & _) & _).
    apply e3_sec; [lia|]. intros Hd. assert (Eij : j = i) by (apply (k3_own _ _ _ D j i tl' dl' tl dl n); auto; apply in_or_app; auto).
    subst j. destruct Hn as [Hn|[X _]]; [|congruence]. destruct (file_at_det _ _ _ _ _ _ A Ai) as [<- <-]. exact (NoDup_app_disj _ _ _ N0 Hn Hd).
  Qed.
  Lemma e3_at j tl' dl' : 0 <= j < k -> x_live (slot3 b cat j) -> (file_at b' (slot3 b' cat j) tl' dl' <-> file_at b (slot3 b cat j) tl' dl').
  Proof.
    intros Hj L. rewrite e3_slot.
    assert (K : forall tl0 dl0, file_at b (slot3 b cat j) tl0 dl0 -> file_at b' (slot3 b cat j) tl0 dl0).
    { intros tl0 dl0 A. apply (file_at_keep b b' (slot3 b cat j)); try reflexivity; [|exact A]. intros n Hn. apply (e3_keep j tl0 dl0 n Hj L A). auto. }
    split; [|apply K]. intros A. destruct (k3_files _ _ _ D j Hj L) as (_ & _ & tl0 & dl0 & A0 & _). destruct (file_at_det _ _ _ _ _ _ A (K _ _ A0)) as [-> ->]. exact A0.
  Qed.
  Lemma e3_disk : dos33_disk b' cat k.
  Proof.
    constructor.
    - exact Ho.
    - rewrite Hl. apply (k3_size _ _ _ D).
    - replace (slice b' 0 4) with (slice (sec b' 0) 0 4) by (unfold sec; rewrite slice_slice by lia; reflexivity).
      rewrite e3_system by (unfold data_sector3; lia). unfold sec. rewrite slice_slice by lia. exact (k3_boot _ _ _ D).
    - rewrite e3_vtoc. exact (k3_release _ _ _ D).
    - rewrite e3_vtoc. exact (k3_pairs _ _ _ D).
    - rewrite e3_vtoc. exact (k3_geom _ _ _ D).
    - rewrite e3_vtoc. apply (links_ext b); [|exact (k3_cat _ _ _ D)]. intros n Hn. rewrite e3_cat by exact Hn. reflexivity.
    - exact (k3_cat_vtoc _ _ _ D).
    - intros n Hn. rewrite e3_free. apply (k3_free _ _ _ D). exact Hn.
    - exact (k3_k _ _ _ D).
    - intros j Hj. rewrite e3_slot. apply (k3_used _ _ _ D). exact Hj.
    - intros j Hj. rewrite e3_slot. apply (k3_unused _ _ _ D). exact Hj.
    - intros x y Hxy Hy. rewrite !e3_slot. apply (k3_names _ _ _ D); assumption.
    - intros j Hj L. rewrite e3_slot in L. destruct (k3_files _ _ _ D j Hj L) as (T0 & T1 & tl0 & dl0 & A & Ne & N & Q).
      pose proof (proj2 (e3_at j tl0 dl0 Hj L) A) as A'. rewrite e3_slot in A' |- *. split; [exact T0|]. split; [exact T1|]. exists tl0, dl0.
      split; [exact A'|]. split; [exact Ne|]. split; [exact N|]. intros n Hn. rewrite e3_free. apply Q. exact Hn.
    - intros x y tx dx ty dy n Hx Lx Ax Nx Hy Ly Ay Ny. rewrite e3_slot in Lx, Ly. apply (e3_at x tx dx Hx Lx) in Ax. apply (e3_at y ty dy Hy Ly) in Ay.
      exact (k3_own _ _ _ D x y tx dx ty dy n Hx Lx Ax Nx Hy Ly Ay Ny).
  Qed.
  Lemma e3_fdir : fdir3 b' = fdir3 b.
  Proof. unfold fdir3. rewrite e3_vtoc. reflexivity. Qed.
  Lemma e3_view : view3 b' cat k = with_bytes3 (view3 b cat k) b'.
  Proof. unfold view3. rewrite e3_fdir, (files3_ext b b') by (first [exact e3_cat|exact e3_fdir]). reflexivity. Qed.
  Lemma e3_file_in n j t d : file_in3 b' cat k n j t d <-> file_in3 b cat k n j t d.
  Proof.
    unfold file_in3. split; intros (Hj & L & N & A).
    - rewrite e3_slot in L, N. split; [exact Hj|]. split; [exact L|]. split; [exact N|]. apply (e3_at j t d Hj L). exact A.
    - apply (e3_at j t d Hj L) in A. rewrite e3_slot in A |- *. auto.
  Qed.
  Lemma e3_contents : contents3 b' dl = map (getb b') (order3 dl).
  Proof. apply contents_order3; [rewrite Hl; apply (k3_size _ _ _ D)|exact e3_range]. Qed.
  Lemma e3_contents_other j t d : j <> i -> 0 <= j < k -> x_live (slot3 b cat j) -> file_at b (slot3 b cat j) t d -> contents3 b' d = contents3 b d.
  Proof. intros Hj Hr L A. unfold contents3. apply flat_map_ext_in. intros n Hn. apply (e3_keep j t d n Hr L A). auto. Qed.
End Frame.

(** * The file's segment *)
(** Only styles change when a segment is made. *)
Definition styled (h : heap) (r : raw) (h1 : heap) : Prop :=
  (forall n, n <> r_style r -> arr h1 n = arr h n) /\ hp_ext h1 = hp_ext h /\
  forall x, raw_ok h x -> raw_ok h1 x /\ shows h1 x = shows h x /\ raw_len h1 x = raw_len h x.
Lemma styled_refl h r : styled h r h.
Proof. split; [reflexivity|]. split; [reflexivity|]. auto. Qed.
Lemma styled_mark h r seg : raw_ok h seg -> r_style seg = r_style r -> styled h r (mark_four h seg).
Proof.
  intros R Es. unfold mark_four, upd_style. rewrite (win_slice_shows h seg _ _ R).
  set (a := update _ _ _). assert (Za : zlen a = zlen (arr h (r_style seg))).
  { apply zlen_update. destruct R as (R1 & R2 & R3 & R4 & R5 & R6). rewrite R5. apply pyslice_Forall, shows_range. repeat split; assumption. }
  split; [intros n Hn; apply arr_set_neq; congruence|]. split; [reflexivity|]. intros x X. split; [apply raw_ok_set_arr; assumption|].
  assert (Z : forall m, zlen (arr (set_arr h (r_style seg) a) m) = zlen (arr h m)).
  { intros m. destruct (Nat.eq_dec (r_style seg) m) as [<- |N]; [|rewrite arr_set_neq by exact N; reflexivity].
    destruct R as (_ & R2 & _). rewrite arr_set_eq by exact R2. exact Za. }
  split; [apply shows_same, Z|unfold raw_len; rewrite Z; reflexivity].
Qed.
Lemma file_segment3_spec h r im b cat k i tl dl seg : dos33_disk b cat k -> i_hdr im = H3 (fdir3 b) -> i_bytes im = b ->
  0 <= i < k -> x_live (slot3 b cat i) -> file_at b (slot3 b cat i) tl dl -> raw_indexed h r (to_numpy_list (order3 dl)) = Ok seg -> raw_ok h seg -> r_style seg = r_style r ->
  exists h1, file_segment3 h r im (parse_ent (H3 (fdir3 b)) (slot3 b cat i)) = (h1, Ok seg) /\ styled h r h1.
Proof.
  intros D Eh Eb Hi L A Es Rs Hst. pose proof (k3_size _ _ _ D) as Hb. unfold file_segment3. rewrite (sane_entry b cat k D) by assumption. cbn [negb]. rewrite Eh, Eb.
  rewrite (get_tslist_spec (fdir3 b) b (slot3 b cat i) _ tl dl Hb A);
    [|apply d3_start_parse; intros C; destruct L; contradiction|reflexivity].
  destruct (k3_files _ _ _ D i Hi L) as (_ & _ & tl' & dl' & A' & Ne & _ & Q). destruct (file_at_det _ _ _ _ _ _ A A') as [<- <-].
  assert (Hr : Forall (fun n => 0 <= n < 560) dl).
  { apply Forall_forall. intros n Hn. destruct (Q n) as [[? _] _]; [apply in_or_app; right; assumption|lia]. }
  destruct dl as [|n0 dl]; [congruence|]. rewrite read_map_spec by assumption. rewrite run_positions3.
  destruct (order3 (n0 :: dl)) as [|p o] eqn:E0.
  { exfalso. assert (X : In (n0 * 256) (order3 (n0 :: dl))) by (apply In_order3; exists n0; split; [left; reflexivity|lia]). rewrite E0 in X. destruct X. }
  rewrite Es. inversion Hr; subst. destruct (d3_type _ =? 4); [|exists h; split; [reflexivity|apply styled_refl]].
  rewrite get_raw3_in by assumption. rewrite zlen_sec by assumption. cbn [Z.ltb Z.compare Pos.compare Pos.compare_cont].
  eexists. split; [reflexivity|]. destruct (0 <? _); [apply styled_mark; assumption|apply styled_refl].
Qed.

Lemma file_segment3_styled h r h1 im d : raw_ok h r -> styled h r h1 -> snd (file_segment3 h1 r im d) = snd (file_segment3 h r im d).
Proof.
  intros R (_ & _ & St). destruct (St r R) as (_ & _ & Ln). unfold file_segment3. destruct (negb (d3_sane d)); [reflexivity|].
  destruct (get_tslist _ _ _ _) as [[t [|n0 m]]|]; try reflexivity. destruct (read_map _ _ _) as [runs|]; [|reflexivity].
  destruct (run_positions runs) as [|p o]; [reflexivity|].
  replace (raw_indexed h1 r (to_numpy_list (p :: o))) with (raw_indexed h r (to_numpy_list (p :: o))) by (unfold raw_indexed; rewrite Ln; reflexivity).
  destruct (raw_indexed _ _ _) as [seg|]; [|reflexivity]. destruct (d3_type d =? 4); [|reflexivity].
  destruct (get_raw3 _ _ _) as [[x y]|]; [|reflexivity]. destruct (zlen x <? 2); reflexivity.
Qed.

Record file_edit3 (h : heap) (r : raw) (im : img33) (n data : list Z) (seg : raw) (q vals : list Z) (h' : heap) (im' : img33) : Prop := mkFE3 {
  f3_raw : image_raw h' r (i_bytes im');
  f3_consistent : consistent3 im';
  f3_files : i_files im' = i_files im;
  f3_read : find_file3 im' n = Ok (patch data q vals);
  f3_others : forall m, m <> n -> find_file3 im' m = find_file3 im m;
  f3_sectors : forall m t d, sectors_of3 im' m t d <-> sectors_of3 im m t d;
  f3_free : forall s, is_free3 im' s <-> is_free3 im s;
  f3_segment : read_data h' seg = patch data q vals;
  f3_held : forall m d, find_name3 m (i_files im) = Some d -> snd (file_segment3 h' r im' d) = snd (file_segment3 h r im d);
  f3_bytes : forall t d p, sectors_of3 im n t d -> 0 <= p -> ~ In (p / 256) d -> getb (i_bytes im') p = getb (i_bytes im) p;
  f3_styles : forall a, a <> r_data r -> arr h' a = arr h a
}.

Lemma find_name3_listed b cat k m d : dos33_disk b cat k -> find_name3 m (files3 b cat k) = Some d ->
  exists i, 0 <= i < k /\ x_live (slot3 b cat i) /\ x_name (slot3 b cat i) = m /\ d = parse_ent (H3 (fdir3 b)) (slot3 b cat i).
Proof.
  intros D E. destruct (live_or_not b cat k m D) as [(i & Hi & L & N)|H].
  - exists i. rewrite <- N, (find_name3_view b cat k i D Hi L) in E. injection E as <-. auto.
  - exfalso. rewrite find_name3_none in E; [discriminate|]. intros x Hx. apply (in_files3 b cat k D) in Hx. destruct Hx as (j & Hj & Lj & ->). rewrite d3_name_parse. apply H; assumption.
Qed.

Lemma file_edit3_ok h r im n d data : consistent3 im -> image_raw h r (i_bytes im) ->
  find_name3 n (i_files im) = Some d -> find_file3 im n = Ok data ->
  exists h1 seg, file_segment3 h r im d = (h1, Ok seg) /\ styled h r h1 /\ image_raw h1 r (i_bytes im) /\ raw_ok h1 seg /\ read_data h1 seg = data /\
    forall c ps e, Forall sel_ok c -> choose_all (zrange 0 (zlen data)) c = Some ps -> how_ok ps e ->
    exists h', assign_in h1 seg c e = (h', Ok tt) /\
      file_edit3 h1 r im n data seg (targets ps e) (values e) h' (with_bytes3 im (read_data h' r)).
Proof.
  intros Co Ir Ed Ef. destruct (consistent3_view im Co) as (cat & k & Ei & D). pose proof (image_raw_len _ _ _ Ir) as Hlen.
  set (b := i_bytes im) in *. pose proof (k3_size _ _ _ D) as Hb. rewrite Ei in Ed, Ef. cbn [view3 i_files] in Ed.
  destruct (find_name3_listed b cat k n d D Ed) as (i & Hi & L & N & Ed'). destruct (k3_files _ _ _ D i Hi L) as (_ & _ & tl & dl & A & Ne & Nd' & Q).
  assert (F : file_in3 b cat k n i tl dl) by (split; [exact Hi|]; auto).
  destruct (find_of_file_in3 b cat k n i tl dl D F) as (Ef' & _). rewrite Ef in Ef'. injection Ef' as Edata.
  pose proof (e3_range b cat k n i tl dl D F) as Rg. pose proof (order3_ok dl Rg (NoDup_app_right _ _ Nd')) as Oc. pose proof (contents_order3 b dl Hb Rg) as Ec.
  set (o := order3 dl) in *.
  assert (Oc0 : order_ok (raw_len h r) o) by (rewrite <- Hlen, Hb; exact Oc). pose proof Ir as (R0 & N0 & L0 & B0).
  destruct (order_segment h r o R0 L0 Oc0) as (seg & Es & Rs0 & Ss0 & D1 & D2 & D3 & Rd0).
  assert (Eh : i_hdr im = H3 (fdir3 b)) by (rewrite Ei; reflexivity).
  destruct (file_segment3_spec h r im b cat k i tl dl seg D Eh eq_refl Hi L A Es Rs0 D2) as (h1 & E1 & St).
  destruct St as (St1 & St2 & St3). destruct (St3 r R0) as (R & Sh & Ln). destruct (St3 seg Rs0) as (Rs & Ss & _).
  assert (Ed1 : arr h1 (r_data r) = arr h (r_data r)) by (apply St1; apply R0).
  assert (Rb : read_data h1 r = b) by (unfold read_data; rewrite Ed1; exact B0).
  rewrite <- Sh in N0. rewrite <- Ln in L0, Hlen, Oc0. rewrite Ss0, <- Sh in Ss.
  assert (Es1 : raw_indexed h1 r (to_numpy_list o) = Ok seg) by (unfold raw_indexed in Es |- *; rewrite Ln; exact Es).
  assert (Zd : zlen data = zlen o) by (rewrite Edata, Ec, zlen_map; reflexivity).
  assert (Hrd : read_data h1 seg = data) by (unfold read_data in Rd0 |- *; rewrite D1 in Rd0 |- *; rewrite Ed1, Rd0; fold (read_data h r); rewrite B0, Edata, Ec; reflexivity).
  exists h1, seg. split; [rewrite Ed'; exact E1|]. split; [split; [exact St1|]; auto|]. split; [split; [exact R|]; auto|]. split; [exact Rs|]. split; [exact Hrd|].
  intros w ps e Hw Hps He. rewrite Zd in Hps. destruct (edit_window h1 r o seg w ps e R N0 L0 Oc0 Es1 Hw Hps He) as (h' & Ea & W).
  exists h'. split; [exact Ea|]. set (q := targets ps e) in *. set (b' := read_data h' r).
  assert (Hq : Forall (fun x => 0 <= x < zlen o) q).
  { apply Forall_forall. intros x Hx. apply (targets_in ps e He) in Hx. apply (choose_all_in _ _ _ Hps) in Hx. apply In_zrange in Hx. exact Hx. }
  assert (Hl' : zlen b' = zlen b) by (unfold b'; rewrite (ed_len _ _ _ _ _ _ W), Rb; reflexivity).
  assert (Hb' : bytes_ok b').
  { apply (edited_bytes_ok h1 r o q (values e) h' R W); [rewrite Rb; exact (k3_bytes _ _ _ D)|apply He]. }
  assert (Hsame : forall p, 0 <= p < zlen b -> ~ In p o -> getb b' p = getb b p).
  { intros p Hp Hn. unfold b'. rewrite (edited_other h1 r o q _ h' p W Hq) by (try assumption; lia). rewrite Rb. reflexivity. }
  assert (Hpatch : map (getb b') o = patch data q (values e)).
  { unfold b'. rewrite (edited_bytes h1 r o q _ h' R Oc0 W Hq). rewrite Rb, <- Ec, <- Edata. reflexivity. }
  pose proof (e3_disk b cat k n i tl dl D F b' Hl' Hb' Hsame) as D'.
  pose proof (e3_view b cat k n i tl dl D F b' Hl' Hsame) as Ev. rewrite <- Ei in Ev.
  pose proof (e3_contents b cat k n i tl dl D F b' Hl') as Ec'. fold o in Ec'.
  pose proof (fun m j t l => e3_file_in b cat k n i tl dl D F b' Hl' Hsame m j t l) as Fin.
  pose proof (fun j => e3_slot b cat k n i tl dl D F b' Hl' Hsame j) as Sl.
  constructor.
  - cbn [with_bytes3 i_bytes]. split; [exact (ed_ok _ _ _ _ _ _ W)|]. split; [rewrite (ed_shows _ _ _ _ _ _ W); exact N0|].
    split; [destruct (ed_raws _ _ _ _ _ _ W r R) as (_ & _ & ->); exact L0|reflexivity].
  - fold b'. rewrite <- Ev. apply view3_consistent; assumption.
  - reflexivity.
  - fold b'. rewrite <- Ev. destruct (find_of_file_in3 b' cat k n i tl dl D') as (-> & _); [apply Fin; exact F|]. rewrite Ec', Hpatch. reflexivity.
  - intros m Hm. fold b'. rewrite <- Ev. rewrite Ei.
    destruct (live_or_not b cat k m D) as [(j & Hj & Lj & Nj)|H].
    + destruct (k3_files _ _ _ D j Hj Lj) as (_ & _ & t & l & Aj & _). assert (Fj : file_in3 b cat k m j t l) by (split; [exact Hj|]; auto).
      destruct (find_of_file_in3 b cat k m j t l D Fj) as (-> & _). destruct (find_of_file_in3 b' cat k m j t l D') as (-> & _); [apply Fin; exact Fj|]. f_equal.
      apply (e3_contents_other b cat k n i tl dl D F b' Hl' Hsame j t l); try assumption. intros ->. apply Hm. congruence.
    + rewrite !find_file3_none; try assumption; [reflexivity|]. intros j Hj. rewrite Sl. apply H. exact Hj.
  - intros m t l. unfold sectors_of3. cbn [with_bytes3 i_bytes]. fold b b'. split; intros (cat1 & k1 & j & K1 & K2); exists cat, k, j.
    + destruct (disk_det _ _ _ _ _ K1 D') as [-> ->]. split; [exact D|]. apply Fin. exact K2.
    + destruct (disk_det _ _ _ _ _ K1 D) as [-> ->]. split; [exact D'|]. apply Fin. exact K2.
  - intros s. unfold is_free3. cbn [with_bytes3 i_bytes]. fold b b'. rewrite (e3_free b cat k n i tl dl D F b' Hl' Hsame). reflexivity.
  - destruct (ed_raws _ _ _ _ _ _ W seg Rs) as (Rs' & Ss' & _). rewrite (read_data_shows h' seg Rs'), Ss', Ss, D1.
    rewrite <- Hpatch. unfold b'. rewrite (read_data_shows h' r (ed_ok _ _ _ _ _ _ W)), (ed_shows _ _ _ _ _ _ W), map_map. apply map_ext_in. intros p Hp.
    destruct Oc0 as (_ & Oc0). rewrite Forall_forall in Oc0. rewrite getb_map by (rewrite zlen_shows by exact R; apply Oc0; exact Hp). reflexivity.
  - intros m d0 Hd0. rewrite Ei in Hd0. destruct (find_name3_listed b cat k m d0 D Hd0) as (j & Hj & Lj & Nj & ->).
    destruct (k3_files _ _ _ D j Hj Lj) as (_ & _ & t & l & Aj & _ & Nl & Ql).
    assert (Rl : Forall (fun n => 0 <= n < 560) l).
    { apply Forall_forall. intros x Hx. destruct (Ql x) as [[? _] _]; [apply in_or_app; right; assumption|lia]. }
    pose proof (order3_ok l Rl (NoDup_app_right _ _ Nl)) as Ol. rewrite <- Hb, Hlen in Ol.
    destruct (order_segment h1 r (order3 l) R L0 Ol) as (sj & Ej & Rj & _ & _ & Dj & _).
    destruct (file_segment3_spec h1 r im b cat k j t l sj D Eh eq_refl Hj Lj Aj Ej Rj Dj) as (h2 & -> & _).
    assert (Ej' : raw_indexed h' r (to_numpy_list (order3 l)) = Ok sj).
    { unfold raw_indexed in Ej |- *. destruct (ed_raws _ _ _ _ _ _ W r R) as (_ & _ & ->). exact Ej. }
    pose proof (e3_fdir b cat k n i tl dl D F b' Hl' Hsame) as Fd. pose proof (Sl j) as Slj.
    pose proof (proj2 (e3_at b cat k n i tl dl D F b' Hl' Hsame j t l Hj Lj) Aj) as Aj'. 
    destruct (file_segment3_spec h' r (with_bytes3 im b') b' cat k j t l sj D') as (h3 & E3 & _);
      [cbn [with_bytes3 i_hdr]; rewrite Eh, Fd; reflexivity|reflexivity|exact Hj|rewrite Slj; exact Lj|exact Aj'|exact Ej'|apply (ed_raws _ _ _ _ _ _ W sj Rj)|exact Dj|].
    rewrite Fd, Slj in E3. fold b'. rewrite E3. reflexivity.
  - intros t l p (cat1 & k1 & j & K1 & K2) Hp Hn. cbn [with_bytes3 i_bytes]. fold b b' in K1, K2 |- *. destruct (disk_det _ _ _ _ _ K1 D) as [-> ->].
    destruct K2 as (Hj & Lj & Nj & Aj). assert (j = i) as -> by (apply (live_names b cat k D); auto; congruence). destruct (file_at_det _ _ _ _ _ _ Aj A) as [-> ->].
    destruct (Z_lt_dec p (zlen b)) as [Lp|Lp]; [|unfold getb; rewrite !nth_overflow by (unfold zlen in *; lia); reflexivity].
    apply Hsame; [lia|]. intros Hin. apply In_order3 in Hin. destruct Hin as (m & Hm & Hpm). apply Hn. replace (p / 256) with m by (Z.to_euclidean_division_equations; lia). exact Hm.
  - exact (ed_arr _ _ _ _ _ _ W).
Qed.
