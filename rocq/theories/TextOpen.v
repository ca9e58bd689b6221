(** The entries of opened images, listings, checksum lists and sector maps. *)
From Coq Require Import String.
From Verif Require Import Base BaseLemmas DiskModel AtariModel SpartaModel Dos33Model CliModel CliProofs TextModel TextSpec TextProofs.

(** * What opening guarantees of the entries *)
Lemma trim_rstrip l : trim32 (rstrip l) = rstrip l.
Proof.
  unfold trim32, rstrip. destruct (rstripf_decomp (Z.eqb 32) (rstripf is_space l)) as (t & E & F).
  destruct t as [|x t]; [rewrite app_nil_r in E; congruence|]. exfalso.
  assert (G : forallb is_space (x :: t) = true).
  { rewrite forallb_forall in F. apply forallb_forall. intros y Hy. specialize (F y Hy). unfold is_space. lia. }
  pose proof (rstripf_idem is_space l) as I0. rewrite E in I0. rewrite rstripf_app_all in I0 by exact G.
  assert (zlen (rstripf is_space (rstripf (Z.eqb 32) (rstripf is_space l))) <= zlen (rstripf (Z.eqb 32) (rstripf is_space l))) by apply zlen_rstripf.
  rewrite I0 in H. rewrite zlen_app, zlen_cons in H. pose proof (zlen_nonneg t). lia.
Qed.
Lemma name_field l a b : 0 <= a -> a <= b -> zlen (rstrip (rstrip0 (slice l a b))) <= b - a /\ trim32 (rstrip (rstrip0 (slice l a b))) = rstrip (rstrip0 (slice l a b)).
Proof.
  intros H1 H2. split; [|apply trim_rstrip].
  pose proof (zlen_rstripf is_space (rstrip0 (slice l a b))). pose proof (zlen_rstripf (Z.eqb 0) (slice l a b)). pose proof (zlen_slice_le l a b). unfold rstrip, rstrip0 in *. lia.
Qed.
Lemma parse_line_ok h num b : bytes_ok b -> 0 <= num -> line_ok (parse_dirent h num b).
Proof.
  intros Hb Hn. unfold parse_dirent. constructor; cbn [d_num d_start d_count d_base d_ext]; [exact Hn|..].
  - apply (le2_range (getb b 3) (getb b 4)); apply bytes_ok_getb; assumption.
  - apply (le2_range (getb b 1) (getb b 2)); apply bytes_ok_getb; assumption.
  - apply (name_field b 5 13); lia.
  - apply (name_field b 13 16); lia.
Qed.
Lemma parse_dirents_ok f h : forall num b, bytes_ok b -> 0 <= num -> Forall line_ok (fst (parse_dirents f h num b)).
Proof.
  induction f as [|f IH]; intros num b Hb Hn; destruct b as [|x b]; cbn [parse_dirents]; try (constructor; fail).
  destruct (negb (zlen (slice (x :: b) 0 16) =? 16)); [constructor|].
  destruct (negb (d_inuse (parse_dirent h num (slice (x :: b) 0 16))) && (d_flag (parse_dirent h num (slice (x :: b) 0 16)) =? 0)); [constructor|].
  specialize (IH (num + 1) (slice (x :: b) 16 (zlen (x :: b)))). destruct (parse_dirents f h (num + 1) (slice (x :: b) 16 (zlen (x :: b)))) as [ds err]. cbn [fst] in *.
  constructor; [apply parse_line_ok; [apply bytes_ok_slice; exact Hb|exact Hn]|apply IH; [apply bytes_ok_slice; exact Hb|lia]].
Qed.
Lemma sectors_ok h b s e d : bytes_ok b -> get_sectors h b s e = Ok d -> bytes_ok d.
Proof.
  intros Hb. unfold get_sectors. destruct (get_sector_slice h s e) as [[x y]|]; cbn [rbind]; [|discriminate]. intros E. injection E as <-. apply bytes_ok_slice. exact Hb.
Qed.
Lemma get_vtoc_bytes im : a_bytes (fst (get_vtoc im)) = a_bytes im.
Proof.
  unfold get_vtoc. cbv zeta. repeat match goal with
  | |- context [match ?x with _ => _ end] => destruct x; cbn [fst a_bytes]; try reflexivity
  | |- context [if ?x then _ else _] => destruct x; cbn [fst a_bytes]; try reflexivity
  end.
Qed.
Lemma open_lines b im : bytes_ok b -> open_image b = Ok im -> Forall line_ok (a_files im).
Proof.
  intros Hb. unfold open_image. cbv zeta. destruct (check_size (read_header b) (zlen b - h_offset (read_header b))) as [h|]; cbn [rbind]; [|discriminate].
  unfold get_metadata. pose proof (get_vtoc_bytes (mkA b h 0 0 [] true 360 1 0)) as Ev. destruct (get_vtoc (mkA b h 0 0 [] true 360 1 0)) as [im1 [u|e]]; [|discriminate].
  cbn [fst a_bytes] in Ev. unfold get_directory. rewrite Ev. destruct (get_sectors (a_hdr im1) b 361 368) as [db|] eqn:Ed; [|discriminate].
  pose proof (parse_dirents_ok (List.length db) (a_hdr im1) 0 db (sectors_ok _ _ _ _ _ Hb Ed)) as F.
  destruct (parse_dirents (List.length db) (a_hdr im1) 0 db) as [ds [e|]]; cbn [fst] in F; [discriminate|]. cbn [a_sane].
  destruct (a_sane im1 && forallb (fun d => negb (d_inuse d) || d_sane d) ds); [|discriminate]. intros E. injection E as <-. cbn [a_files].
  apply Forall_forall. intros d Hd. apply filter_In in Hd. specialize (F ltac:(lia)). rewrite Forall_forall in F. apply F, Hd.
Qed.

Lemma parse_ent_ok h b : bytes_ok b -> 0 <= d3_count (parse_ent h b) /\ 0 <= d3_track (parse_ent h b) /\ 0 <= d3_sector (parse_ent h b) /\ zlen (d3_name (parse_ent h b)) <= 30.
Proof.
  intros Hb. unfold parse_ent. cbn [d3_count d3_track d3_sector d3_name].
  assert (G : forall i, 0 <= getb b i) by (intros i; pose proof (bytes_ok_getb b i Hb) as H; unfold is_byte in H; lia).
  split; [apply (le2_range (getb b 33) (getb b 34)); apply bytes_ok_getb; assumption|]. split; [destruct (getb b 0 =? 255); apply G|]. split; [apply G|].
  unfold ascii_ignore. assert (F : forall (p : Z -> bool) l, zlen (filter p l) <= zlen l).
  { intros p l. induction l as [|x l IH]; [cbn; lia|]. cbn [filter]. destruct (p x); rewrite ?zlen_cons; lia. }
  etransitivity; [apply F|]. unfold rstrip. etransitivity; [apply zlen_rstripf|]. rewrite zlen_map. pose proof (zlen_slice_le b 3 32). lia.
Qed.
Definition ent_ok (d : ent) : Prop := 0 <= d3_count d /\ 0 <= d3_track d /\ 0 <= d3_sector d /\ zlen (d3_name d) <= 30.
Lemma sector_ents_ok h raw n : bytes_ok raw -> forall i, Forall ent_ok (sector_ents h raw i n).
Proof.
  intros Hb. induction n as [|n IH]; intros i; cbn [sector_ents]; [constructor|]. destruct (flag3 (parse_ent h (slice raw i (i + 35))) =? 0); [constructor|].
  constructor; [apply parse_ent_ok, bytes_ok_slice, Hb|apply IH].
Qed.
Lemma raw3_ok h b s d p : bytes_ok b -> get_raw3 h b s = Ok (d, p) -> bytes_ok d.
Proof.
  intros Hb. unfold get_raw3. destruct (get_pos3 h s) as [[x y]|]; cbn [rbind]; [|discriminate]. intros E. injection E as <- <-. apply bytes_ok_slice. exact Hb.
Qed.
Lemma cat_loop_ok f h b : bytes_ok b -> forall s, Forall ent_ok (fst (cat_loop f h b s)).
Proof.
  intros Hb. induction f as [|f IH]; intros s; cbn [cat_loop].
  - destruct (0 <? s); constructor.
  - destruct (0 <? s); [|constructor]. destruct (assert_valid3 h s); [|constructor].
    destruct (get_raw3 h b s) as [[raw p]|] eqn:Er; cbn [rbind]; [|constructor]. destruct (link_of raw) as [next|]; cbn [rbind]; [|constructor].
    specialize (IH next). destruct (cat_loop f h b next) as [ds err]. cbn [fst] in *. apply Forall_app. split; [|exact IH]. apply sector_ents_ok. apply (raw3_ok _ _ _ _ _ Hb Er).
Qed.
Lemma numbered_ok im : bytes_ok (i_bytes im) -> Forall line3_ok (numbered im).
Proof.
  intros Hb. unfold numbered. pose proof (cat_loop_ok (fuel33 (i_hdr im)) (i_hdr im) (i_bytes im) Hb (h_fdir (i_hdr im))) as F.
  set (ds := fst (cat_loop (fuel33 (i_hdr im)) (i_hdr im) (i_bytes im) (h_fdir (i_hdr im)))) in *. clearbody ds.
  apply Forall_forall. intros [n d] H. apply filter_In in H. destruct H as [H1 H2]. cbn [snd] in H2. apply andb_true_iff in H2.
  assert (Hd : ent_ok d) by (rewrite Forall_forall in F; apply F; apply (in_combine_r _ _ _ _ H1)). destruct Hd as (h1 & h2 & h3 & h4).
  apply in_combine_l in H1. apply In_zrange in H1. constructor; cbn [fst snd]; try assumption; [lia|]. destruct (d3_del d); [destruct H2; discriminate|reflexivity].
Qed.
Lemma filter_combine {A B} (p : B -> bool) (l : list A) (m : list B) : List.length l = List.length m ->
  map snd (filter (fun e => p (snd e)) (combine l m)) = filter p m.
Proof.
  revert m. induction l as [|x l IH]; intros [|y m] H; cbn [List.length] in H; try discriminate; [reflexivity|]. cbn [combine filter snd].
  destruct (p y); cbn [map snd]; rewrite IH by lia; reflexivity.
Qed.
(** The numbered entries are the files of the image. *)
Lemma numbered_files b im : open33 b = Ok im -> i_bytes im = b /\ map snd (numbered im) = i_files im.
Proof.
  unfold open33. destruct (negb (zlen b =? 143360)); [discriminate|]. unfold get_metadata3.
  destruct (boot_info (mkI b hdr33_0 [] true)); [|discriminate]. unfold get_vtoc3. cbn [i_hdr i_bytes].
  destruct (get_raw3 hdr33_0 b 272) as [[v p]|]; [|discriminate].
  set (h := mkH33 (from_ts (getb v 1) (getb v 2)) (getb v 0x34 * getb v 0x35) (getb v 0x27)). cbv zeta. destruct (assert_valid3 h (h_fdir h)); [|discriminate].
  unfold get_directory3, get_directory_fuel. cbn [i_hdr i_bytes i_files i_sane].
  destruct (cat_loop (fuel33 h) h b (h_fdir h)) as [ds [e|]] eqn:Ec; [discriminate|]. cbn [i_sane].
  destruct (true && forallb d3_sane ds); [|discriminate]. intros E. injection E as <-. split; [reflexivity|]. unfold numbered. cbn [i_hdr i_bytes i_files]. rewrite Ec. cbn [fst].
  apply (filter_combine (fun d => d3_sane d && negb (d3_del d))). pose proof (zlen_nonneg ds); pose proof (zlen_zrange 0 (zlen ds)) as L. unfold zlen in *. lia.
Qed.

Lemma parse_sdirent_ok h num b d t : bytes_ok b -> parse_sdirent h num b = Ok d -> lines_ok (d, t).
Proof.
  intros Hb. unfold parse_sdirent. destruct (zlen b =? 0); [discriminate|]. destruct (negb (zlen b =? 23)); [discriminate|]. intros E. injection E as <-.
  constructor; cbn [fst sd_start sd_base sd_ext].
  - apply (le2_range (getb b 1) (getb b 2)); apply bytes_ok_getb; assumption.
  - apply (name_field b 6 14); lia.
  - destruct (flag_bit (getb b 0) 32); [split; [cbn; lia|reflexivity]|]. apply (name_field b 14 17); lia.
Qed.
Lemma indexed_ok b runs d : bytes_ok b -> indexed_bytes b runs = Ok d -> bytes_ok d.
Proof.
  intros Hb. unfold indexed_bytes. destruct (forallb _ runs); [|discriminate]. intros E. injection E as <-.
  induction runs as [|r runs IH]; cbn [flat_map]; [constructor|]. apply Forall_app. split; [apply bytes_ok_slice; exact Hb|exact IH].
Qed.
Lemma sget_ok f h b d c : bytes_ok b -> sget_bytes f h b d = Ok c -> bytes_ok c.
Proof.
  intros Hb. unfold sget_bytes. destruct (sfile_runs f h b d) as [runs|]; cbn [rbind]; [|discriminate].
  destruct (forallb (fun r => snd r =? 0) runs); [intros E; injection E as <-; exact Hb|]. apply indexed_ok. exact Hb.
Qed.
Lemma sentries_ok n h s : bytes_ok s -> forall num i ds, sentries n h num s i = Ok ds -> forall t, Forall (fun d => lines_ok (d, t)) ds.
Proof.
  intros Hb. induction n as [|n IH]; intros num i ds; cbn [sentries].
  - intros E t. injection E as <-. constructor.
  - destruct (parse_sdirent h num (slice s i (i + 23))) as [d|] eqn:Ed; cbn [rbind]; [|discriminate].
    destruct (sentries n h (num + 1) s (i + 23)) as [r|] eqn:Er; cbn [rbind]; [|discriminate]. intros E t. injection E as <-.
    constructor; [apply (parse_sdirent_ok _ _ _ _ t (bytes_ok_slice _ _ _ Hb) Ed)|apply (IH _ _ _ Er)].
Qed.
Lemma open_slines b im ds : bytes_ok b -> open_sparta b = Ok im -> stamps im = Ok ds -> Forall lines_ok ds.
Proof.
  intros Hb Ho Hs.
  assert (F : forall t, Forall (fun d => lines_ok (d, t)) (s_files im)).
  { unfold open_sparta, open_sparta_fuel in Ho. cbv zeta in Ho. destruct (check_size _ _) as [h|]; cbn [rbind] in Ho; [|discriminate].
    destruct (boot_sector_info b h) as [im0|] eqn:Eb; cbn [rbind] in Ho; [|discriminate].
    assert (B0 : s_bytes im0 = b /\ s_files im0 = []).
    { unfold boot_sector_info in Eb. destruct (get_sectors h b 1 1) as [r|]; cbn [rbind] in Eb; [|discriminate].
      repeat match type of Eb with context [if ?x then _ else _] => destruct x; try discriminate end; injection Eb as <-; split; reflexivity. }
    destruct B0 as [B0 B1]. unfold sget_directory in Ho. cbv zeta in Ho. rewrite B0 in Ho.
    destruct (sector_map _ _ _ _) as [[[|sector m]|]|]; cbn [rbind] in Ho; try discriminate.
    destruct (sector =? 0); [injection Ho as <-; intros t; constructor|].
    destruct (get_raw_bytes _ _ _) as [[[raw p] q]|]; cbn [rbind] in Ho; [|discriminate].
    destruct (parse_sdirent _ 0 _) as [d0|]; cbn [rbind] in Ho; [|discriminate].
    destruct (sget_bytes _ _ _ _) as [s|] eqn:Es; cbn [rbind] in Ho; [|discriminate].
    destruct (sentries _ _ 1 s 23) as [ds0|] eqn:Ee; cbn [rbind] in Ho; [|discriminate]. injection Ho as <-. cbn [with_dir s_files].
    apply (sentries_ok _ _ _ (sget_ok _ _ _ _ _ Hb Es) _ _ _ Ee). }
  unfold stamps in Hs. destruct (s_rootd im) as [r|].
  - destruct (sget_file im r) as [c|]; cbn [rbind] in Hs; [|discriminate]. injection Hs as <-. apply Forall_forall. intros e He. apply in_map_iff in He.
    destruct He as (d & <- & Hd). specialize (F (slice c (23 * sd_num d + 17) (23 * sd_num d + 23))). rewrite Forall_forall in F. apply F. exact Hd.
  - injection Hs as <-. apply Forall_forall. intros e He. apply in_map_iff in He. destruct He as (d & <- & Hd). specialize (F []). rewrite Forall_forall in F. apply F. exact Hd.
Qed.

(** * Two listings with the same text *)
Section Same.
Context {E V : Type} (P : E -> Prop) (line : E -> list Z) (view : E -> V).
Hypothesis Hcode : forall show, code (fun e : E * Z => P (fst e) /\ 0 <= snd e) (fun e => line (fst e) ++ shown_tail show (snd e) ++ [10])
  (fun e => (view (fst e), if show then snd e else 0)).
Lemma map_combine_views (f : E -> V) (l : list E) : forall cs : list Z, List.length l = List.length cs -> map (fun e => f (fst e)) (combine l cs) = map f l.
Proof. induction l as [|x l IH]; intros [|c cs] H; cbn [List.length] in H; try discriminate; [reflexivity|]. cbn [combine map fst]. rewrite IH by lia. reflexivity. Qed.
Lemma map_combine_snd (l : list E) : forall cs : list Z, List.length l = List.length cs -> map snd (combine l cs) = cs.
Proof. induction l as [|x l IH]; intros [|c cs] H; cbn [List.length] in H; try discriminate; [reflexivity|]. cbn [combine map snd]. rewrite IH by lia. reflexivity. Qed.
Lemma Forall2_len {A B} (R : A -> B -> Prop) l m : Forall2 R l m -> List.length l = List.length m.
Proof. induction 1; cbn; congruence. Qed.
Lemma lines_same show (l1 l2 : list E) (c1 c2 : list Z) : Forall P l1 -> Forall P l2 -> Forall (fun c => 0 <= c) c1 -> Forall (fun c => 0 <= c) c2 ->
  List.length l1 = List.length c1 -> List.length l2 = List.length c2 ->
  flat_map (fun e => line (fst e) ++ shown_tail show (snd e) ++ [10]) (combine l1 c1) = flat_map (fun e => line (fst e) ++ shown_tail show (snd e) ++ [10]) (combine l2 c2) ->
  map view l1 = map view l2 /\ (show = true -> c1 = c2).
Proof.
  intros P1 P2 C1 C2 L1 L2 E0.
  assert (F : forall l c, Forall P l -> Forall (fun c => 0 <= c) c -> Forall (fun e : E * Z => P (fst e) /\ 0 <= snd e) (combine l c)).
  { intros l c Hl Hc. rewrite Forall_forall in Hl, Hc. apply Forall_forall. intros [x y] H. split; [apply Hl; apply (in_combine_l _ _ _ _ H)|apply Hc; apply (in_combine_r _ _ _ _ H)]. }
  pose proof (code_list _ _ _ (Hcode show) ltac:(intros a _ H; destruct (app_eq_nil _ _ H) as [_ H2]; destruct (app_eq_nil _ _ H2); discriminate) _ _ (F l1 c1 P1 C1) (F l2 c2 P2 C2) E0) as M.
  assert (M1 : map fst (map (fun e : E * Z => (view (fst e), if show then snd e else 0)) (combine l1 c1)) = map fst (map (fun e : E * Z => (view (fst e), if show then snd e else 0)) (combine l2 c2))) by (rewrite M; reflexivity).
  assert (M2 : map snd (map (fun e : E * Z => (view (fst e), if show then snd e else 0)) (combine l1 c1)) = map snd (map (fun e : E * Z => (view (fst e), if show then snd e else 0)) (combine l2 c2))) by (rewrite M; reflexivity).
  rewrite !map_map in M1, M2. cbn [fst snd] in M1, M2. rewrite !map_combine_views in M1 by assumption. split; [exact M1|]. intros ->.
  assert (M3 : map snd (combine l1 c1) = map snd (combine l2 c2)) by exact M2. rewrite !map_combine_snd in M3 by assumption. exact M3.
Qed.
End Same.
Lemma has_crc_nonneg {E} (read : E -> res (list Z)) crc show ds cs : (forall x, 0 <= crc x < 2 ^ 32) -> Forall2 (has_crc read crc show) ds cs -> Forall (fun c => 0 <= c) cs.
Proof.
  intros H F. induction F as [|d c l m Hc F IH]; [constructor|]. constructor; [|exact IH]. unfold has_crc in Hc. destruct show; [destruct Hc as (x & _ & <-); apply H|lia].
Qed.
Lemma has_crc_sums {E} (read : E -> res (list Z)) crc ds cs : Forall2 (has_crc read crc true) ds cs -> sums read crc ds = map Some cs.
Proof. induction 1 as [|d c l m Hc F IH]; [reflexivity|]. unfold sums in *. cbn [map]. rewrite IH. destruct Hc as (x & -> & <-). reflexivity. Qed.
Lemma Forall_selected {E} (P : E -> Prop) name files ds : Forall P ds -> Forall P (selected E name files ds).
Proof. rewrite !Forall_forall. intros H x Hx. apply H. apply filter_In in Hx. apply Hx. Qed.

(** * Checksum lists *)
Lemma crc_lines {E} name (read : E -> res (list Z)) crc files ds t : crc_text E name read crc files ds = (t, Ok tt) ->
  exists cs, Forall2 (has_crc read crc true) (selected E name files ds) cs /\
    t = flat_map (fun e => name (fst e) ++ txt ": " ++ hex8 (snd e) ++ [10]) (combine (selected E name files ds) cs).
Proof.
  unfold crc_text. intros Ep. destruct (print_loop_ok _ _ _ Ep) as (ts & F & ->). clear Ep. induction F as [|d x l ts Hd F IH].
  - exists []. split; [constructor|reflexivity].
  - destruct IH as (cs & F2 & Et). unfold crc_one in Hd. destruct (read d) as [y|] eqn:Er; [|discriminate]. cbn [rbind] in Hd. injection Hd as <-.
    exists (crc y :: cs). split; [constructor; [exists y; auto|exact F2]|]. cbn [combine flat_map fst snd]. rewrite Et, <- !app_assoc. reflexivity.
Qed.
Lemma hex8_len c : 0 <= c < 2 ^ 32 -> zlen (hex8 c) = 8.
Proof.
  intros H. unfold hex8, pad0. assert (L : zlen (nat_text 16 c) <= 8).
  { assert (G : forall f k n, 0 <= n < 16 ^ Z.of_nat k -> (0 < k)%nat -> zlen (digits f 16 n) <= Z.of_nat k).
    { induction f as [|f IH]; intros k n Hn Hk; cbn [digits]; [cbn; lia|]. destruct (Z.ltb_spec n 16); [cbn; lia|].
      destruct k as [|[|k]]; [lia|change (16 ^ Z.of_nat 1) with 16 in Hn; lia|]. rewrite zlen_app. change (zlen [dchar (n mod 16)]) with 1.
      assert (zlen (digits f 16 (n / 16)) <= Z.of_nat (S k)); [|lia]. apply IH; [|lia]. rewrite (Nat2Z.inj_succ (S k)), Z.pow_succ_r in Hn by lia.
      split; [apply Z.div_pos; lia|]. apply Z.div_lt_upper_bound; lia. }
    apply (G _ 8%nat); [exact H|lia]. }
  rewrite zlen_app, zlen_zrepeat by lia. lia.
Qed.
Lemma code_crc {E} (name : E -> list Z) : code (fun e : E * Z => ~ In 10 (name (fst e)) /\ 0 <= snd e < 2 ^ 32)
  (fun e => name (fst e) ++ txt ": " ++ hex8 (snd e) ++ [10]) (fun e => (name (fst e), snd e)).
Proof.
  intros [a c] [b c'] r s [Na Ca] [Nb Cb] E0. cbn [fst snd] in *. rewrite <- !app_assoc in E0.
  assert (D : forall x, 0 <= x -> Forall (fun z => z <> 10) (hex8 x)).
  { intros x Hx. destruct (nat_text_spec 16 x) as (F & _); [lia..|]. eapply Forall_impl; [|apply (zeros_digits 16 8 _ ltac:(lia) F)]. intros z Hz ->. destruct Hz as [[_ Hz] _]. revert Hz. vm_compute. congruence. }
  assert (F : forall x y, ~ In 10 x -> 0 <= y -> Forall (fun z => z <> 10) (x ++ txt ": " ++ hex8 y)).
  { intros x y Hx Hy. apply Forall_app. split; [apply Forall_forall; intros z Hz ->; contradiction|]. apply Forall_app. split; [repeat constructor; discriminate|apply D; exact Hy]. }
  assert (E1 : (name a ++ txt ": " ++ hex8 c) ++ 10 :: r = (name b ++ txt ": " ++ hex8 c') ++ 10 :: s) by (rewrite <- !app_assoc; exact E0).
  apply (span_eq (fun z => z <> 10)) in E1; [|apply F; [assumption|lia]|apply F; [assumption|lia]|congruence|congruence]. destruct E1 as [E1 E2]. split; [|congruence].
  pose proof (hex8_len c Ca). pose proof (hex8_len c' Cb).
  assert (L : List.length (name a) = List.length (name b)).
  { apply (f_equal (@List.length Z)) in E1. rewrite !app_length in E1. unfold zlen in *. lia. }
  assert (En : name a = name b /\ txt ": " ++ hex8 c = txt ": " ++ hex8 c').
  { revert E1 L. generalize (name a) (name b) (txt ": " ++ hex8 c) (txt ": " ++ hex8 c'). clear. induction l as [|x l IH]; intros [|y m] u v E L; cbn in *; try discriminate; [auto|].
    injection E as -> E. injection L as L. destruct (IH _ _ _ E L) as [-> ->]. auto. }
  destruct En as [En Ec]. apply app_inv_head in Ec. rewrite En. f_equal.
  destruct (nat_text_spec 16 c) as (_ & V1 & _); [lia..|]. destruct (nat_text_spec 16 c') as (_ & V2 & _); [lia..|].
  unfold hex8 in Ec. rewrite <- V1, <- V2, <- (number_zeros 16 8), Ec. apply number_zeros.
Qed.

(** * Sector maps *)
Lemma zlen_row l : l <> [] -> zlen (row_text l) = 2 * zlen l - 1.
Proof.
  induction l as [|x [|y l] IH]; [congruence|reflexivity|]. intros _. change (row_text (x :: y :: l)) with (48 + x :: 32 :: row_text (y :: l)).
  rewrite !zlen_cons in *. rewrite IH by discriminate. lia.
Qed.
Lemma getb_row l : forall s, 0 <= s < zlen l -> getb (row_text l) (2 * s) = 48 + getb l s.
Proof.
  induction l as [|x [|y l] IH]; intros s Hs; [cbn in Hs; lia|change (zlen [x]) with 1 in Hs; replace s with 0 by lia; reflexivity|].
  change (row_text (x :: y :: l)) with (48 + x :: 32 :: row_text (y :: l)). destruct (Z.eq_dec s 0) as [->|]; [reflexivity|].
  rewrite zlen_cons in Hs. rewrite getb_consS by lia. rewrite getb_consS by lia. replace (2 * s - 1 - 1) with (2 * (s - 1)) by lia. rewrite IH by lia. rewrite (getb_consS x) by lia. reflexivity.
Qed.
Lemma track_len i : 0 <= i < 100 -> zlen (txt "track " ++ pad0 2 (dec i) ++ txt ": " ++ pick (i =? 0) "[[" " [") = 12.
Proof.
  intros H. rewrite !zlen_app. assert (L : zlen (pad0 2 (dec i)) = 2).
  { assert (forallb (fun i => zlen (pad0 2 (dec i)) =? 2) (zrange 0 100) = true) as G by (vm_compute; reflexivity). rewrite forallb_forall in G. specialize (G i). rewrite In_zrange in G. specialize (G H). lia. }
  rewrite L. unfold pick. destruct (i =? 0); reflexivity.
Qed.
Lemma rows_spec w n : 0 < w -> forall i m, 0 <= i -> i + Z.of_nat n <= 100 -> zlen m = Z.of_nat n * w ->
  zlen (rows_text n i w m) = Z.of_nat n * (2 * w + 13) /\
  forall t s, 0 <= t < Z.of_nat n -> 0 <= s < w -> getb (rows_text n i w m) ((2 * w + 13) * t + 12 + 2 * s) = 48 + getb m (w * t + s).
Proof.
  intros Hw. induction n as [|n IH]; intros i m Hi Hn Hm; [split; [reflexivity|lia]|].
  rewrite Nat2Z.inj_succ in Hn, Hm.
  assert (Hr : zlen (slice m 0 w) = w) by (rewrite zlen_slice; nia).
  assert (Hne : slice m 0 w <> []) by (intros E; rewrite E in Hr; cbn in Hr; lia).
  pose proof (zlen_row _ Hne) as Lr. rewrite Hr in Lr. pose proof (track_len i ltac:(lia)) as Lh.
  assert (Hdr : forall rest s, 0 <= s < w -> getb (txt "track " ++ pad0 2 (dec i) ++ txt ": " ++ pick (i =? 0) "[[" " [" ++ row_text (slice m 0 w) ++ rest) (12 + 2 * s) = 48 + getb m s).
  { intros rest s Hs. replace (txt "track " ++ pad0 2 (dec i) ++ txt ": " ++ pick (i =? 0) "[[" " [" ++ row_text (slice m 0 w) ++ rest)
      with ((txt "track " ++ pad0 2 (dec i) ++ txt ": " ++ pick (i =? 0) "[[" " [") ++ row_text (slice m 0 w) ++ rest) by (rewrite <- !app_assoc; reflexivity).
    rewrite getb_app_r by lia. rewrite Lh. replace (12 + 2 * s - 12) with (2 * s) by lia. rewrite getb_app_l by lia. rewrite getb_row by lia. rewrite getb_slice by lia. (f_equal; f_equal; lia). }
  assert (Len : forall rest, zlen (txt "track " ++ pad0 2 (dec i) ++ txt ": " ++ pick (i =? 0) "[[" " [" ++ row_text (slice m 0 w) ++ rest) = 11 + 2 * w + zlen rest).
  { intros rest. rewrite !zlen_app in *. lia. }
  assert (Nxt : forall rest j, 0 <= j -> getb (txt "track " ++ pad0 2 (dec i) ++ txt ": " ++ pick (i =? 0) "[[" " [" ++ row_text (slice m 0 w) ++ rest) (11 + 2 * w + j) = getb rest j).
  { intros rest j Hj. replace (txt "track " ++ pad0 2 (dec i) ++ txt ": " ++ pick (i =? 0) "[[" " [" ++ row_text (slice m 0 w) ++ rest)
      with (((txt "track " ++ pad0 2 (dec i) ++ txt ": " ++ pick (i =? 0) "[[" " [") ++ row_text (slice m 0 w)) ++ rest) by (rewrite <- !app_assoc; reflexivity).
    rewrite getb_app_r by (rewrite zlen_app; lia). f_equal. rewrite zlen_app. lia. }
  destruct n as [|n].
  - cbn [rows_text]. split; [rewrite Len; change (zlen (txt "]]")) with 2; change (Z.of_nat 1) with 1; lia|]. intros t s Ht Hs. replace t with 0 by lia. replace ((2 * w + 13) * 0 + 12 + 2 * s) with (12 + 2 * s) by lia.
    rewrite Hdr by lia. (f_equal; f_equal; lia).
  - change (rows_text (S (S n)) i w m) with (txt "track " ++ pad0 2 (dec i) ++ txt ": " ++ pick (i =? 0) "[[" " [" ++ row_text (slice m 0 w) ++ txt "]" ++ 10 :: rows_text (S n) (i + 1) w (slice m w (zlen m))).
    destruct (IH (i + 1) (slice m w (zlen m))) as [IHl IHg]; [lia|lia|rewrite zlen_slice; lia|]. rewrite Nat2Z.inj_succ. split.
    + rewrite Len. rewrite zlen_app, zlen_cons, IHl. change (zlen (txt "]")) with 1. lia.
    + intros t s Ht Hs. destruct (Z.eq_dec t 0) as [->|].
      * replace ((2 * w + 13) * 0 + 12 + 2 * s) with (12 + 2 * s) by lia. rewrite Hdr by lia. (f_equal; f_equal; lia).
      * replace ((2 * w + 13) * t + 12 + 2 * s) with (11 + 2 * w + (2 + ((2 * w + 13) * (t - 1) + 12 + 2 * s))) by lia. rewrite Nxt by nia.
        change (txt "]" ++ 10 :: rows_text (S n) (i + 1) w (slice m w (zlen m))) with (93 :: 10 :: rows_text (S n) (i + 1) w (slice m w (zlen m))).
        rewrite getb_consS by nia. rewrite getb_consS by nia. replace (2 + ((2 * w + 13) * (t - 1) + 12 + 2 * s) - 1 - 1) with ((2 * w + 13) * (t - 1) + 12 + 2 * s) by lia.
        rewrite IHg by lia. f_equal. rewrite getb_slice by nia. (f_equal; lia).
Qed.
Lemma vtoc_text_spec tracks spt label m : 0 < spt -> 0 < tracks <= 100 -> 0 <= label -> tracks * spt + label <= zlen m ->
  (forall t s, 0 <= t < tracks -> 0 <= s < spt -> getb (vtoc_text tracks spt label m) ((2 * spt + 13) * t + 12 + 2 * s) = 48 + getb m (spt * t + s + label)) /\
  slice (vtoc_text tracks spt label m) (tracks * (2 * spt + 13)) (zlen (vtoc_text tracks spt label m)) = 10 :: txt " (" ++ dec (count_ones m) ++ txt " free)".
Proof.
  intros Hs Ht Hl Hm. unfold vtoc_text.
  destruct (rows_spec spt (Z.to_nat tracks) Hs 0 (slice m label (tracks * spt + label))) as [L G]; [lia|lia|rewrite zlen_slice; nia|]. rewrite Z2Nat.id in L, G by lia. split.
  - intros t s Ht' Hs'. rewrite getb_app_l by nia. rewrite G by assumption. f_equal. rewrite getb_slice by nia. (f_equal; lia).
  - set (u := 10 :: txt " (" ++ dec (count_ones m) ++ txt " free)"). rewrite <- L. rewrite zlen_app. apply slice_app_full_r. reflexivity.
Qed.
