(** The position of the sectors in the file does not matter: an image with 16 bytes in front
    behaves like the one without. *)
From Verif Require Import Base BaseLemmas DiskModel AtariModel AtariHeader AtariGeom AtariSession.

Definition up_hdr (h : hdr) : hdr :=
  mkH 16 (h_image_size h) (h_ssize h) (h_isize h) (h_ninit h) (h_payload h) (h_max h) (h_crc h) (h_unused h) (h_flags h).
Section Up.
Variable H : list Z.
Hypothesis H16 : zlen H = 16.
Definition up (im : aimg) : aimg :=
  mkA (H ++ a_bytes im) (up_hdr (a_hdr im)) (a_total im) (a_free im) (a_files im) (a_sane im) (a_fvtoc im) (a_nvtoc im) (a_vtoc2 im).
(** Headers of files without a header, and where the sector map begins. *)
Definition bare (h : hdr) : Prop := h_offset h = 0 /\ 0 < h_ssize h /\ 0 <= h_max h /\ (h_ninit h = 0 \/ (h_ninit h = 3 /\ h_isize h = 128)).
Definition ok (im : aimg) : Prop := bare (a_hdr im) /\ Z.even (a_fvtoc im) = true.

Lemma slice_up {A} (X l : list A) a b : zlen X = 16 -> 0 <= a -> slice (X ++ l) (a + 16) (b + 16) = slice l a b.
Proof. intros E Ha. rewrite slice_app_r by lia. rewrite E. f_equal; lia. Qed.
Lemma setslice_up {A} (X l : list A) p d : zlen X = 16 -> 0 <= p -> setslice (X ++ l) (p + 16) d = X ++ setslice l p d.
Proof.
  intros E Hp. unfold setslice, zlen in *. replace (Z.to_nat (p + 16)) with (length X + Z.to_nat p)%nat by lia.
  rewrite firstn_app_2, <- app_assoc. f_equal. f_equal. f_equal. replace (length X + Z.to_nat p + length d)%nat with (length X + (Z.to_nat p + length d))%nat by lia.
  rewrite skipn_app, skipn_all2 by lia. cbn [app]. f_equal. lia.
Qed.
Lemma get_pos_up h n : bare h -> get_pos (up_hdr h) n = match get_pos h n with Ok (p, s) => Ok (p + 16, s) | Err e => Err e end.
Proof.
  intros (Ho & _). unfold get_pos, sector_valid, up_hdr. cbn [h_max h_ninit h_offset h_isize h_ssize]. rewrite Ho.
  destruct (negb _); [reflexivity|]. destruct (n <=? h_ninit h); f_equal; f_equal; lia.
Qed.
Lemma pos_nonneg h n p s : bare h -> get_pos h n = Ok (p, s) -> 0 <= p /\ 1 <= n.
Proof.
  intros (Ho & Hs & Hm & Hn) E. unfold get_pos, sector_valid in E. destruct (negb _) eqn:V; [discriminate E|].
  assert (1 <= n) by lia. destruct (n <=? h_ninit h) eqn:L; injection E as <- <-; rewrite Ho; split; try assumption; destruct Hn as [N|[N I]]; rewrite N in *; try rewrite I in *; nia.
Qed.
Lemma more_up h k : bare h -> forall n, more_sectors (up_hdr h) k n = more_sectors h k n.
Proof.
  intros B. induction k as [|k IH]; intros n; [reflexivity|]. cbn [more_sectors]. rewrite get_pos_up by exact B. destruct (get_pos h (n + 1)) as [[p s]|e]; [|reflexivity]. cbn [rbind]. rewrite IH. reflexivity.
Qed.
Lemma get_sectors_up h b s e : bare h -> get_sectors (up_hdr h) (H ++ b) s e = get_sectors h b s e.
Proof.
  intros B. unfold get_sectors, get_sector_slice. rewrite get_pos_up by exact B. destruct (get_pos h s) as [[p z]|x] eqn:E; [|reflexivity]. cbn [rbind]. rewrite more_up by exact B.
  destruct (more_sectors h _ s) as [m|x]; [|reflexivity]. cbn [rbind]. replace (p + 16 + (z + m)) with (p + (z + m) + 16) by lia. rewrite slice_up; [reflexivity|exact H16|]. apply (pos_nonneg h s p z B E).
Qed.
Lemma raw_up h b n : bare h -> get_raw_bytes (up_hdr h) (H ++ b) n = match get_raw_bytes h b n with Ok (r, p, s) => Ok (r, p + 16, s) | Err e => Err e end.
Proof.
  intros B. unfold get_raw_bytes. rewrite get_pos_up by exact B. destruct (get_pos h n) as [[p s]|e] eqn:E; [|reflexivity]. cbn [rbind].
  replace (p + 16 + s) with (p + s + 16) by lia. rewrite slice_up; [reflexivity|exact H16|]. apply (pos_nonneg h n p s B E).
Qed.
Lemma raw_pos h b n r p s : bare h -> get_raw_bytes h b n = Ok (r, p, s) -> 0 <= p.
Proof. intros B E. unfold get_raw_bytes in E. destruct (get_pos h n) as [[p' s']|e] eqn:G; [|discriminate E]. cbn [rbind] in E. injection E as _ <- <-. apply (pos_nonneg h n p' s' B G). Qed.

(** * Opening *)
Lemma parse_up h f : forall n b, parse_dirents f (up_hdr h) n b = parse_dirents f h n b.
Proof. induction f as [|f IH]; intros n b; [reflexivity|]. cbn [parse_dirents]. destruct b; [reflexivity|]. rewrite IH. reflexivity. Qed.
Lemma vtoc_up im : ok im -> get_vtoc (up im) = (up (fst (get_vtoc im)), snd (get_vtoc im)) /\ ok (fst (get_vtoc im)).
Proof.
  intros [B E]. unfold get_vtoc. change (a_bytes (up im)) with (H ++ a_bytes im). change (a_hdr (up im)) with (up_hdr (a_hdr im)). rewrite !get_sectors_up by exact B.
  destruct (get_sectors (a_hdr im) (a_bytes im) 360 360) as [data|e]; [|split; [reflexivity|split; assumption]].
  destruct (zlen data <? 5); [split; [reflexivity|split; assumption]|]. cbv zeta.
  set (num := if _ || _ then 1 else _). assert (Ev : Z.even (360 - num + 1) = true).
  { unfold num. destruct (_ || _); [reflexivity|]. replace (360 - (getb data 0 * 2 - 3) + 1) with (2 * (182 - getb data 0)) by lia. apply Z.even_spec. eexists. reflexivity. }
  clearbody num. change (sector_valid (up_hdr (a_hdr im))) with (sector_valid (a_hdr im)).
  destruct (negb (sector_valid (a_hdr im) (360 - num + 1))); [split; [reflexivity|split; assumption]|].
  match goal with |- context [calc_vtoc_code ?x <? num] => change (calc_vtoc_code x) with (calc_vtoc_code (mkA (a_bytes im) (a_hdr im) (a_total im) (a_free im) (a_files im) (a_sane im) (360 - num + 1) num (a_vtoc2 im))) end.
  destruct (_ || _); [split; [reflexivity|split; assumption]|]. change (h_image_size (up_hdr (a_hdr im))) with (h_image_size (a_hdr im)).
  destruct (h_image_size (a_hdr im) =? 133120); [|split; [reflexivity|split; assumption]].
  destruct (get_sectors (a_hdr im) (a_bytes im) 1024 1024) as [data2|e]; [|split; [reflexivity|split; assumption]].
  destruct (zlen data2 <? 124); split; try reflexivity; split; assumption.
Qed.
Lemma directory_up im : ok im -> get_directory (up im) = (up (fst (get_directory im)), snd (get_directory im)) /\ ok (fst (get_directory im)).
Proof.
  intros [B E]. unfold get_directory. change (a_bytes (up im)) with (H ++ a_bytes im). change (a_hdr (up im)) with (up_hdr (a_hdr im)). rewrite get_sectors_up by exact B.
  destruct (get_sectors (a_hdr im) (a_bytes im) 361 368) as [db|e]; [|split; [reflexivity|split; assumption]]. rewrite parse_up. destruct (parse_dirents (length db) (a_hdr im) 0 db) as [ds [e|]]; split; try reflexivity; split; assumption.
Qed.
Lemma metadata_up im : ok im -> get_metadata (up im) = (up (fst (get_metadata im)), snd (get_metadata im)) /\ ok (fst (get_metadata im)).
Proof.
  intros O. unfold get_metadata. destruct (vtoc_up im O) as [V O1]. rewrite V. destruct (get_vtoc im) as [im1 [u|e]]; cbn [fst snd] in *; [|split; [reflexivity|exact O1]].
  destruct (directory_up im1 O1) as [D O2]. rewrite D. destruct (get_directory im1) as [im2 [ds|e]]; cbn [fst snd] in *; [|split; [reflexivity|exact O2]].
  change (a_sane (up im2)) with (a_sane im2). destruct (a_sane im2); split; try reflexivity; exact O2.
Qed.

(** * Reading *)
Definition lift_pos (r : res (list (Z * Z))) : res (list (Z * Z)) := match r with Ok l => Ok (map (fun r => (fst r + 16, snd r)) l) | Err e => Err e end.
Lemma read_sector_up h b my f c seen : bare h -> read_sector (up_hdr h) (H ++ b) my f c seen =
  match read_sector h b my f c seen with Ok (n, s, p, k) => Ok (n, s, p + 16, k) | Err e => Err e end.
Proof.
  intros B. unfold read_sector. rewrite raw_up by exact B. destruct (get_raw_bytes h b c) as [[[r p] s]|e]; [|reflexivity]. cbn [rbind].
  destruct (zlen r <? 3); [reflexivity|]. destruct my; [reflexivity|]. destruct (negb _); [reflexivity|]. destruct (zmem _ _); reflexivity.
Qed.
Lemma runs_up h b my f fuel : bare h -> forall c seen, read_runs fuel (up_hdr h) (H ++ b) my f c seen = lift_pos (read_runs fuel h b my f c seen).
Proof.
  intros B. induction fuel as [|k IH]; intros c seen; [reflexivity|]. cbn [read_runs]. rewrite read_sector_up by exact B.
  destruct (read_sector h b my f c seen) as [[[[n s] p] w]|e]; [|reflexivity]. cbn [rbind]. destruct (n =? 0); [reflexivity|]. rewrite IH. destruct (read_runs k h b my f n s) as [l|e]; reflexivity.
Qed.
Lemma nums_up h b my f fuel : bare h -> forall c seen, read_nums fuel (up_hdr h) (H ++ b) my f c seen = read_nums fuel h b my f c seen.
Proof.
  intros B. induction fuel as [|k IH]; intros c seen; [reflexivity|]. cbn [read_nums]. rewrite read_sector_up by exact B.
  destruct (read_sector h b my f c seen) as [[[[n s] p] w]|e]; [|reflexivity]. cbn [rbind]. destruct (n =? 0); [reflexivity|]. rewrite IH. reflexivity.
Qed.
Lemma runs_pos h b my f fuel : bare h -> forall c seen l, read_runs fuel h b my f c seen = Ok l -> Forall (fun r => 0 <= fst r) l.
Proof.
  intros B. induction fuel as [|k IH]; intros c seen l E; [discriminate E|]. cbn [read_runs] in E.
  destruct (read_sector h b my f c seen) as [[[[n s] p] w]|e] eqn:R; [|discriminate E]. cbn [rbind] in E.
  assert (Hp : 0 <= p).
  { unfold read_sector in R. destruct (get_raw_bytes h b c) as [[[r p'] s']|x] eqn:G; [|discriminate R]. cbn [rbind] in R. pose proof (raw_pos h b c r p' s' B G).
    destruct (zlen r <? 3); [discriminate R|]. destruct my; [injection R as _ _ <- _; assumption|]. destruct (negb _); [discriminate R|]. destruct (zmem _ _); [discriminate R|]. injection R as _ _ <- _. assumption. }
  destruct (n =? 0); [injection E as <-; constructor; [exact Hp|constructor]|]. destruct (read_runs k h b my f n s) as [l'|x] eqn:R'; [|discriminate E]. cbn [rbind] in E. injection E as <-. constructor; [exact Hp|]. apply (IH _ _ _ R').
Qed.
Lemma indexed_up b l : Forall (fun r => 0 <= fst r) l -> indexed_bytes (H ++ b) (map (fun r => (fst r + 16, snd r)) l) = indexed_bytes b l.
Proof.
  intros F. unfold indexed_bytes. rewrite zlen_app, H16.
  assert (E1 : forallb (fun r => (snd r =? 0) || (fst r + snd r <=? 16 + zlen b)) (map (fun r => (fst r + 16, snd r)) l) = forallb (fun r => (snd r =? 0) || (fst r + snd r <=? zlen b)) l).
  { clear F. induction l as [|r l IH]; [reflexivity|]. cbn [map forallb fst snd]. rewrite IH. f_equal. f_equal. lia. }
  rewrite E1. destruct (forallb _ l); [|reflexivity]. f_equal. clear E1. induction F as [|r l Hr _ IH]; [reflexivity|]. cbn [map flat_map fst snd]. rewrite IH. f_equal.
  replace (fst r + 16 + snd r) with (fst r + snd r + 16) by lia. apply slice_up; assumption.
Qed.
(** The same bytes; or the whole file, if the file on the disk is empty. *)
Lemma get_file_up im d : ok im -> get_file (up im) d = get_file im d \/ (get_file im d = Ok (a_bytes im) /\ get_file (up im) d = Ok (H ++ a_bytes im)).
Proof.
  intros [B _]. unfold get_file, get_file_fuel. change (chain_fuel (a_hdr (up im))) with (chain_fuel (a_hdr im)). change (a_hdr (up im)) with (up_hdr (a_hdr im)). change (a_bytes (up im)) with (H ++ a_bytes im).
  destruct (start_read d) as [u|e]; [|left; reflexivity]. cbn [rbind]. rewrite runs_up by exact B. destruct (read_runs _ (a_hdr im) (a_bytes im) _ _ _ _) as [l|e] eqn:R; [|left; reflexivity]. cbn [rbind lift_pos].
  replace (forallb (fun r => snd r =? 0) (map (fun r => (fst r + 16, snd r)) l)) with (forallb (fun r : Z * Z => snd r =? 0) l) by (clear; induction l as [|r l IH]; [reflexivity|]; cbn [map forallb snd]; rewrite IH; reflexivity).
  destruct (forallb _ l); [right; split; reflexivity|]. left. apply indexed_up. apply (runs_pos _ _ _ _ _ B _ _ _ R).
Qed.
Lemma find_file_up im n : ok im -> find_file (up im) n = find_file im n \/ (find_file im n = Ok (a_bytes im) /\ find_file (up im) n = Ok (H ++ a_bytes im)).
Proof. intros O. unfold find_file. change (a_files (up im)) with (a_files im). destruct (find_name n (a_files im)) as [d|]; [apply get_file_up; exact O|left; reflexivity]. Qed.

(** * Changing *)
Lemma contig_up h ns : bare h -> forall s c, 0 < s -> contig_loop (up_hdr h) ns (s + 16) c = match contig_loop h ns s c with Ok (p, k) => Ok (p + 16, k) | Err e => Err e end.
Proof.
  intros B. induction ns as [|n r IH]; intros s c Hs; [reflexivity|]. cbn [contig_loop]. rewrite get_pos_up by exact B. destruct (get_pos h n) as [[p z]|e]; [|reflexivity]. cbn [rbind].
  replace (s + 16 =? 0) with false by lia. replace (s =? 0) with false by lia. apply IH. exact Hs.
Qed.
Lemma contig_pos h ns : forall s c p k, 0 < s -> contig_loop h ns s c = Ok (p, k) -> p = s.
Proof.
  induction ns as [|n r IH]; intros s c p k Hs E; cbn [contig_loop] in E; [congruence|]. destruct (get_pos h n) as [[q z]|e]; [|discriminate E]. cbn [rbind] in E. replace (s =? 0) with false in E by lia. apply (IH _ _ _ _ Hs E).
Qed.
Lemma even_pos h n p s : bare h -> Z.even n = true -> get_pos h n = Ok (p, s) -> 0 < p.
Proof.
  intros (Ho & Hs & Hm & Hn) Ev E. apply Z.even_spec in Ev. destruct Ev as [k Ek]. unfold get_pos, sector_valid in E. destruct (negb _) eqn:V; [discriminate E|].
  assert (2 <= n) by lia. destruct (n <=? h_ninit h) eqn:L; injection E as <- <-; rewrite Ho; destruct Hn as [N|[N I]]; rewrite N in *; try rewrite I in *; try lia.
  - assert (0 < (n - 1 - 0) * h_ssize h) by (apply Z.mul_pos_pos; lia). lia.
  - assert (0 <= (n - 1 - 3) * h_ssize h) by (apply Z.mul_nonneg_nonneg; lia). lia.
Qed.
Lemma slice_self {A} (l : list A) a : slice l a (a + 0) = [].
Proof. apply slice_empty. lia. Qed.
Lemma vtoc_object_up im : ok im -> get_vtoc_object (up im) = match get_vtoc_object im with Ok (s, c, m) => Ok (s + 16, c, m) | Err e => Err e end /\
  forall s c m, get_vtoc_object im = Ok (s, c, m) -> 0 <= s.
Proof.
  intros [B Ev]. unfold get_vtoc_object, vtoc_bounds, get_contiguous. change (a_hdr (up im)) with (up_hdr (a_hdr im)). change (a_bytes (up im)) with (H ++ a_bytes im).
  change (a_fvtoc (up im)) with (a_fvtoc im). change (a_nvtoc (up im)) with (a_nvtoc im). change (a_vtoc2 (up im)) with (a_vtoc2 im).
  assert (V2 : is_ok (contig_loop (up_hdr (a_hdr im)) (zrange (a_vtoc2 im) (a_vtoc2 im + 1)) 0 0) = is_ok (contig_loop (a_hdr im) (zrange (a_vtoc2 im) (a_vtoc2 im + 1)) 0 0) /\
    forall e, contig_loop (up_hdr (a_hdr im)) (zrange (a_vtoc2 im) (a_vtoc2 im + 1)) 0 0 = Err e -> contig_loop (a_hdr im) (zrange (a_vtoc2 im) (a_vtoc2 im + 1)) 0 0 = Err e).
  { unfold zrange. replace (Z.to_nat (a_vtoc2 im + 1 - a_vtoc2 im)) with 1%nat by lia. cbn [zseq_nat contig_loop]. rewrite get_pos_up by exact B. destruct (get_pos (a_hdr im) (a_vtoc2 im)) as [[p s]|e]; split; try reflexivity; intros x Hx; [discriminate Hx|exact Hx]. }
  unfold zrange at 1 3 5. destruct (Z.to_nat (a_fvtoc im + a_nvtoc im - a_fvtoc im)) as [|k].
  - cbn [zseq_nat contig_loop rbind].
    assert (Pn : forall l : list Z, parse_vtoc (slice l 0 (0 + 0)) = Err EValue) by (intros l; rewrite slice_self; reflexivity).
    destruct (0 <? a_vtoc2 im); [|cbn [rbind]; rewrite !Pn; split; [reflexivity|intros; discriminate]].
    destruct (contig_loop (up_hdr (a_hdr im)) _ 0 0) as [[p s]|e]; destruct (contig_loop (a_hdr im) _ 0 0) as [[p' s']|e']; destruct V2 as [V V']; try discriminate V; cbn [rbind]; [rewrite !Pn; split; [reflexivity|intros; discriminate]|]. specialize (V' e eq_refl). split; [congruence|intros; discriminate].
  - cbn [zseq_nat contig_loop]. rewrite get_pos_up by exact B. destruct (get_pos (a_hdr im) (a_fvtoc im)) as [[p z]|e] eqn:G; [|split; [reflexivity|intros; discriminate]]. cbn [rbind].
    pose proof (even_pos _ _ _ _ B Ev G) as Hp. change (0 =? 0) with true. cbv iota. rewrite contig_up by assumption. destruct (contig_loop (a_hdr im) (zseq_nat (a_fvtoc im + 1) k) p (0 + z)) as [[q c]|e] eqn:Q; [|split; [reflexivity|intros; discriminate]]. cbn [rbind].
    assert (q = p) by (apply (contig_pos _ _ _ _ _ _ Hp Q)). subst q.
    assert (Pq : parse_vtoc (slice (H ++ a_bytes im) (p + 16) (p + 16 + c)) = parse_vtoc (slice (a_bytes im) p (p + c))) by (replace (p + 16 + c) with (p + c + 16) by lia; rewrite slice_up by (assumption || lia); reflexivity).
    destruct (0 <? a_vtoc2 im).
    + destruct (contig_loop (up_hdr (a_hdr im)) (zrange _ _) 0 0) as [[p1 s]|e]; destruct (contig_loop (a_hdr im) (zrange _ _) 0 0) as [[p' s']|e']; destruct V2 as [V V']; try discriminate V; cbn [rbind].
      * rewrite Pq. clear Pq. destruct (parse_vtoc (slice (a_bytes im) p (p + c))) as [m|x]; (split; [reflexivity|]); intros ? ? ? X; [injection X as <- _ _; lia|discriminate X].
      * specialize (V' e eq_refl). split; [congruence|intros; discriminate].
    + cbn [rbind]. rewrite Pq. clear Pq. destruct (parse_vtoc (slice (a_bytes im) p (p + c))) as [m|x]; (split; [reflexivity|]); intros ? ? ? X; [injection X as <- _ _; lia|discriminate X].
Qed.
Lemma bitmap_up ss b s c m : 0 <= s -> calc_bitmap ss (H ++ b) (s + 16) c m = (H ++ fst (calc_bitmap ss b s c m), snd (calc_bitmap ss b s c m)).
Proof.
  intros Hs. unfold calc_bitmap. replace (s + 16 + 10) with (s + 10 + 16) by lia. rewrite setslice_up by (assumption || lia). replace (s + 16 + c) with (s + c + 16) by lia. rewrite slice_up by assumption. reflexivity.
Qed.
Lemma write_up h l : bare h -> forall b, write_sectors (get_pos (up_hdr h)) l (H ++ b) = (H ++ fst (write_sectors (get_pos h) l b), snd (write_sectors (get_pos h) l b)).
Proof.
  intros B. induction l as [|s l IH]; intros b; [reflexivity|]. cbn [write_sectors]. rewrite get_pos_up by exact B. destruct (get_pos h (s_num s)) as [[p z]|e] eqn:G; [|reflexivity].
  unfold np_assign. replace (p + 16 + z) with (p + z + 16) by lia. pose proof (proj1 (pos_nonneg _ _ _ _ B G)) as Hp. rewrite slice_up, setslice_up by assumption. destruct (_ =? _); [apply IH|reflexivity].
Qed.
Lemma shred_up h m f : bare h -> forall n i b, shred_loop n (up_hdr h) m f i (H ++ b) = (H ++ fst (shred_loop n h m f i b), snd (shred_loop n h m f i b)).
Proof.
  intros B. induction n as [|n IH]; intros i b; [reflexivity|]. cbn [shred_loop]. rewrite get_pos_up by exact B. destruct (get_pos h i) as [[p z]|e] eqn:G; [|reflexivity].
  destruct (zlen m <=? i); [reflexivity|]. pose proof (proj1 (pos_nonneg _ _ _ _ B G)) as Hp. replace (p + 16 + z) with (p + z + 16) by lia. rewrite slice_up, setslice_up by assumption. destruct (getb m i =? 1); apply IH.
Qed.
Definition same {A} (x y : aimg * res A) : Prop := x = (up (fst y), snd y) /\ ok (fst y).
Lemma same_here {A} im (r : res A) : ok im -> same (up im, r) (im, r).
Proof. intros O. split; [reflexivity|exact O]. Qed.
Lemma with_up im b : with_bytes (up im) (H ++ b) = up (with_bytes im b).
Proof. reflexivity. Qed.
Lemma with_ok im b : ok im -> ok (with_bytes im b).
Proof. intros O. exact O. Qed.
Lemma write_body_up im n d : ok im -> same (write_body (up im) n d) (write_body im n d).
Proof.
  intros O. unfold write_body. destruct (directory_up im O) as [D O1]. rewrite D. destruct (get_directory im) as [im0 [ds|e]]; cbn [fst snd] in *; [|apply same_here; exact O1]. cbv zeta.
  change (a_hdr (up im0)) with (up_hdr (a_hdr im0)). change (h_ssize (up_hdr (a_hdr im0))) with (h_ssize (a_hdr im0)). change (h_payload (up_hdr (a_hdr im0))) with (h_payload (a_hdr im0)).
  destruct (new_dirent n _) as [d0|e]; cbn [lift_st]; [|apply same_here; exact O1].
  destruct (build_sectors _ _ _ d) as [secs|e]; cbn [lift_st]; [|apply same_here; exact O1].
  destruct (vtoc_object_up im0 O1) as [V Vs]. rewrite V. destruct (get_vtoc_object im0) as [[[s c] m]|e]; cbn [lift_st]; [|apply same_here; exact O1]. specialize (Vs s c m eq_refl).
  destruct (reserve (length secs) m) as [[order m']|]; [|apply same_here; exact O1].
  change (a_bytes (up im0)) with (H ++ a_bytes im0). rewrite bitmap_up by exact Vs. destruct (calc_bitmap (h_ssize (a_hdr im0)) (a_bytes im0) s c m') as [b1 vsec]. cbn [fst snd]. rewrite with_up.
  destruct (atari_dir_sectors _ _) as [dsecs|e]; cbn [lift_st]; [|apply same_here; exact O1].
  pose proof (proj1 O1) as B. rewrite write_up by exact B. destruct (write_sectors (get_pos (a_hdr im0)) _ b1) as [b2 [u|e]]; cbn [fst snd lift_st]; rewrite ?with_up; [|apply same_here; exact O1].
  rewrite write_up by exact B. destruct (write_sectors (get_pos (a_hdr im0)) _ b2) as [b3 [u3|e]]; cbn [fst snd lift_st]; rewrite ?with_up; [|apply same_here; exact O1].
  rewrite write_up by exact B. destruct (write_sectors (get_pos (a_hdr im0)) _ b3) as [b4 r4]; cbn [fst snd lift_st]; rewrite ?with_up. apply same_here. exact O1.
Qed.
Lemma delete_body_up im n : ok im -> same (delete_body (up im) n) (delete_body im n).
Proof.
  intros O. unfold delete_body. destruct (directory_up im O) as [D O1]. rewrite D. destruct (get_directory im) as [im0 [ds|e]]; cbn [fst snd] in *; [|apply same_here; exact O1]. cbv zeta.
  destruct (find_index n ds 0) as [[i d]|]; [|apply same_here; exact O1]. pose proof (proj1 O1) as B.
  change (a_hdr (up im0)) with (up_hdr (a_hdr im0)). change (h_ssize (up_hdr (a_hdr im0))) with (h_ssize (a_hdr im0)). change (chain_fuel (up_hdr (a_hdr im0))) with (chain_fuel (a_hdr im0)).
  change (a_bytes (up im0)) with (H ++ a_bytes im0). rewrite nums_up by exact B.
  destruct (let! _ := start_read d in read_nums _ _ _ _ _ _ _) as [nums|e]; cbn [lift_st]; [|apply same_here; exact O1].
  destruct (vtoc_object_up im0 O1) as [V Vs]. rewrite V. destruct (get_vtoc_object im0) as [[[s c] m]|e]; cbn [lift_st]; [|apply same_here; exact O1]. specialize (Vs s c m eq_refl).
  destruct (free_sectors nums m) as [m'|e]; cbn [lift_st]; [|apply same_here; exact O1].
  rewrite bitmap_up by exact Vs. destruct (calc_bitmap (h_ssize (a_hdr im0)) (a_bytes im0) s c m') as [b1 vsec]. cbn [fst snd]. rewrite with_up.
  destruct (atari_dir_sectors _ _) as [dsecs|e]; cbn [lift_st]; [|apply same_here; exact O1].
  rewrite write_up by exact B. destruct (write_sectors (get_pos (a_hdr im0)) _ b1) as [b2 [u|e]]; cbn [fst snd lift_st]; rewrite ?with_up; [|apply same_here; exact O1].
  rewrite write_up by exact B. destruct (write_sectors (get_pos (a_hdr im0)) _ b2) as [b3 r3]; cbn [fst snd lift_st]; rewrite ?with_up. apply same_here. exact O1.
Qed.
Lemma shred_body_up im f : ok im -> same (shred_body (up im) f) (shred_body im f).
Proof.
  intros O. unfold shred_body. destruct (vtoc_object_up im O) as [V Vs]. rewrite V. destruct (get_vtoc_object im) as [[[s c] m]|e]; cbn [lift_st]; [|apply same_here; exact O].
  change (a_hdr (up im)) with (up_hdr (a_hdr im)). change (a_bytes (up im)) with (H ++ a_bytes im). change (h_max (up_hdr (a_hdr im))) with (h_max (a_hdr im)). rewrite shred_up by exact (proj1 O).
  destruct (shred_loop _ (a_hdr im) m f 1 (a_bytes im)) as [b r]. cbn [fst snd]. rewrite with_up. apply same_here. exact O.
Qed.
Lemma transact_up im f g : ok im -> same (f (up im)) (g im) -> same (transact (up im) f) (transact im g).
Proof.
  intros O [E O1]. unfold transact, begin_transaction. rewrite E. destruct (g im) as [im1 r]. cbn [fst snd] in *.
  assert (G : same (get_metadata (up im1)) (get_metadata im1)) by (apply metadata_up; exact O1).
  assert (W : with_bytes im1 (a_bytes im1) = im1) by (destruct im1; reflexivity).
  assert (W' : with_bytes (up im1) (a_bytes (up im1)) = up im1) by (destruct im1; reflexivity).
  replace (match r with Err e => if is_atr e then rollback (up im1) SelfView else up im1 | Ok _ => up im1 end) with (up im1) by (cbn [rollback]; rewrite W'; destruct r as [u|e]; [reflexivity|]; destruct (is_atr e); reflexivity).
  replace (match r with Err e => if is_atr e then rollback im1 SelfView else im1 | Ok _ => im1 end) with im1 by (cbn [rollback]; rewrite W; destruct r as [u|e]; [reflexivity|]; destruct (is_atr e); reflexivity).
  destruct G as [G G1]. rewrite G. destruct (get_metadata im1) as [im3 [u|e]]; cbn [fst snd] in *; apply same_here; exact G1.
Qed.
Lemma do_op_up im o : ok im -> same (do_op (up im) o) (do_op im o).
Proof. intros O. destruct o as [n d|n|f]; apply transact_up; try exact O; [apply write_body_up|apply delete_body_up|apply shred_body_up]; exact O. Qed.

(** Operations one after the other, and how each of them ended. *)
Fixpoint outcomes (im : aimg) (ops : list op) : aimg * list (res unit) :=
  match ops with
  | [] => (im, [])
  | o :: l => let (im1, r) := do_op im o in let (im2, rs) := outcomes im1 l in (im2, r :: rs)
  end.
Lemma outcomes_up ops : forall im, ok im -> outcomes (up im) ops = (up (fst (outcomes im ops)), snd (outcomes im ops)) /\ ok (fst (outcomes im ops)).
Proof.
  induction ops as [|o l IH]; intros im O; [split; [reflexivity|exact O]|]. cbn [outcomes]. destruct (do_op_up im o O) as [E O1]. rewrite E. destruct (do_op im o) as [im1 r]. cbn [fst snd] in *.
  destruct (IH im1 O1) as [E2 O2]. rewrite E2. destruct (outcomes im1 l) as [im2 rs]. cbn [fst snd] in *. split; [reflexivity|exact O2].
Qed.
End Up.
