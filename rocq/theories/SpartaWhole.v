(** SpartaDOS disks as the program meets them: how they are recognised, and what the
    commands do with them. *)
From Verif Require Import Base BaseLemmas DiskModel AtariModel AtariSpec AtariGeom AtariHeader SpartaModel SpartaSpec SpartaProofs SpartaProofs2 SpartaLoops.
From Verif Require Import ExecModel CliModel CliProofs SdModel DetectModel DetectSpec DetectProofs MainModel Properties_Detect Properties_Detect2.
From Verif Require Properties_Sparta.

(** * Specification *)

(** A disk of which everything can be read: [secs i] are the sectors of entry [i] of the
    root directory.  Entries of deleted files are among them. *)
Record whole (g : geom) (b dir : list Z) (k : Z) (secs : Z -> list Z) : Prop := mkWhole {
  wh_disk : sparta_disk g b dir k;
  wh_file : forall i, 1 <= i <= k ->
    is_file g b (se_start (s_entry dir i)) (secs i) /\ secs i <> [] /\ 0 < se_len (s_entry dir i) < 8388608;
  wh_bitmap : 1 <= boot_word g b 16 /\ boot_word g b 16 + boot_byte g b 15 <= g_max g + 1 }.

(** A file with an ATR header, or of one of the sizes that are accepted without. *)
Definition accepted_size (h : hdr) (b : list Z) : Prop :=
  h_offset h = 16 \/ In (zlen b) [92160; 133120; 183936; 184320].

(** The bytes 9 to 11 of the disk, which a boot disk for one program has the size of the
    program in, say that a program starts at sector 4 and ends in the last 128 bytes. *)
Definition boot_size (g : geom) (b : list Z) : Z := boot_byte g b 9 + 256 * boot_byte g b 10 + 65536 * boot_byte g b 11.
Definition like_boot_disk (g : geom) (b : list Z) : Prop :=
  4 <= g_max g /\ zlen b - 128 <= spos g 4 + boot_size g b <= zlen b.

(** The entry with a name that is meant: the first one. *)
Definition entry_named (dir : list Z) (k : Z) (n : list Z) : option Z :=
  find (fun i => zlist_eqb n (se_name (s_entry dir i))) (zrange 1 (k + 1)).
Definition contents (g : geom) (b dir : list Z) (secs : Z -> list Z) (i : Z) : list Z :=
  file_bytes g b (se_len (s_entry dir i)) (secs i).
(** What extracting is to write, in order. *)
Definition sparta_outputs (o : opts) (g : geom) (b dir : list Z) (k : Z) (secs : Z -> list Z) (files : list (list Z)) : list (list Z * list Z) :=
  map (fun i => (out_path o (se_name (s_entry dir i)), converted o (contents g b dir secs i)))
    (if o_all o then zrange 1 (k + 1)
     else flat_map (fun n => match entry_named dir k n with Some i => [i] | None => [] end) files).

(** * Proofs *)
Section Whole.
Variables (b : list Z) (h : hdr) (dir : list Z) (k : Z) (secs : Z -> list Z).
Hypothesis Hh : hdr_of b = Ok h.
Let g := geom_of h.
Hypothesis W : whole g b dir k secs.

(** The opened image: its entries are those of the directory and can be read. *)
Definition reads (im : simg) (i : Z) (d : sdirent) : Prop :=
  sfilename d = se_name (s_entry dir i) /\ sget_file im d = Ok (contents g b dir secs i).
Lemma whole_open : exists im, open_sparta b = Ok im /\ s_bytes im = b /\ s_hdr im = h /\
  s_bitmap im = boot_word g b 16 /\ s_nbitmap im = boot_byte g b 15 /\
  (exists d, s_rootd im = Some d /\ exists x, sget_file im d = Ok x) /\
  Forall2 (reads im) (zrange 1 (k + 1)) (s_files im).
Proof.
  pose proof (wh_disk _ _ _ _ _ W) as D.
  destruct (open_disk b h dir k Hh D) as (im & O & I1 & I2 & I3 & I4 & I5 & I6 & I7 & _ & _ & (rd & R1 & R2 & R3 & R4) & I8).
  exists im. split; [exact O|]. split; [exact I1|]. split; [exact I2|]. split; [exact I6|]. split; [exact I7|]. split.
  - exists rd. split; [exact R1|]. destruct (sk_root _ _ _ _ D) as (ds & F & Hne & _). exists (file_bytes g b (sd_length rd) ds).
    destruct (sk_ss _ _ _ _ D) as [S1 S2]. unfold sget_file. rewrite I1, I2. fold g in S1, S2.
    apply sget_bytes_spec; try assumption; try (fold g; lia).
    + exact (sk_bytes _ _ _ _ D).
    + rewrite R2. exact F.
    + rewrite R3, (sk_dir _ _ _ _ D). pose proof (sk_k _ _ _ _ D). lia.
  - pose proof (sk_k _ _ _ _ D) as Hk. assert (Lz : length (zrange 1 (k + 1)) = Z.to_nat k).
    { unfold zrange. rewrite length_zseq_nat. lia. }
    apply Properties_Sparta.forall2_nth; [rewrite Lz, I3; reflexivity|].
    intros n x y Nx Ny. assert (Hn : (n < Z.to_nat k)%nat) by (rewrite <- Lz; apply nth_error_Some; congruence).
    rewrite Properties_Sparta.nth_error_zrange in Nx by exact Hn. injection Nx as <-. set (i := 1 + Z.of_nat n) in *.
    destruct (Properties_Sparta.C41_read_partial b h dir k Hh D) as (im' & O' & RD). rewrite O in O'. injection O' as <-.
    destruct (wh_file _ _ _ _ _ W i ltac:(lia)) as (F & Hne & Hl).
    destruct (RD i (secs i) ltac:(lia) F Hne Hl) as (d & Nd & Sh & G & _).
    replace (Z.to_nat (i - 1)) with n in Nd by lia. rewrite Ny in Nd. injection Nd as <-. split; [exact (sh_name _ _ Sh)|exact G].
Qed.

Lemma contig_ok : forall ns s c, (forall n, In n ns -> 1 <= n <= h_max h) -> exists x, contig_loop h ns s c = Ok x.
Proof.
  destruct (hdr_of_facts b h (sk_bytes _ _ _ _ (wh_disk _ _ _ _ _ W)) Hh) as (_ & _ & F3 & _).
  induction ns as [|n ns IH]; intros s c H; cbn [contig_loop]; [eauto|].
  destruct (proj1 (get_pos_valid h n F3) (H n (or_introl eq_refl))) as (p & z & ->). cbn [rbind]. apply IH. intros m Hm. apply H. right. exact Hm.
Qed.
Lemma segments_ok im : open_sparta b = Ok im -> sparta_segments im = Ok tt.
Proof.
  intros O. destruct whole_open as (im' & O' & I1 & I2 & I3 & I4 & (rd & R1 & x & R2) & F). rewrite O in O'. injection O' as <-.
  pose proof (wh_disk _ _ _ _ _ W) as D. pose proof (sk_max _ _ _ _ D) as Hm. pose proof (sk_bytes _ _ _ _ D) as Hb.
  destruct (hdr_of_facts b h Hb Hh) as (_ & _ & F3 & _).
  unfold sparta_segments. rewrite I2, R1. unfold get_sector_slice.
  change (g_max g) with (h_max h) in Hm.
  destruct (proj1 (get_pos_valid h 1 F3) ltac:(lia)) as (p & z & ->). cbn [rbind].
  assert (E0 : Z.to_nat (Z.min (s_numboot im) 1 - 1) = 0%nat) by lia. rewrite E0. cbn [more_sectors rbind].
  unfold sbitmap_bounds. rewrite I2, I3, I4. destruct (wh_bitmap _ _ _ _ _ W) as [B1 B2]. change (g_max g) with (h_max h) in B2.
  assert (Bb : 0 <= boot_byte g b 15) by (pose proof (bytes_ok_getb b (g_off g + 15) Hb) as Q; unfold is_byte in Q; unfold boot_byte; lia).
  assert (Hmax : h_max h < 65536).
  { pose proof (sk_total _ _ _ _ D) as T. change (g_max g) with (h_max h) in T. rewrite <- T. unfold boot_word.
    apply (le2_range _ _ (bytes_ok_getb b _ Hb) (bytes_ok_getb b _ Hb)). }
  destruct (contig_ok (zrange (boot_word g b 16) (u16 (boot_word g b 16 + boot_byte g b 15))) 0 0) as (y & ->).
  { intros n Hn. apply In_zrange in Hn. unfold u16 in Hn. pose proof (Z.mod_le (boot_word g b 16 + boot_byte g b 15) 65536 ltac:(lia) ltac:(lia)). lia. }
  cbn [rbind]. rewrite R2. cbn [rbind]. clear - F. induction F as [|i d l r (N & G) _ IH]; [reflexivity|]. cbn [file_segments]. rewrite G. exact IH.
Qed.

Lemma strict_ok : accepted_size h b -> atr_strict h (zlen b) = Ok tt.
Proof.
  intros A. unfold atr_strict. destruct A as [->|A]; [reflexivity|]. apply zmem_In in A. rewrite A, orb_true_r. reflexivity.
Qed.
Lemma sparta_parses e im : accepted_size h b -> open_sparta b = Ok im -> parse e true PSparta b = Ok (ISparta im).
Proof.
  intros A O. unfold parse. cbn [parse_image]. rewrite O. cbn [rbind].
  destruct whole_open as (im' & O' & _ & I2 & _). rewrite O in O'. injection O' as <-. rewrite I2, (strict_ok A). cbn [checked rbind].
  rewrite (segments_ok im O). reflexivity.
Qed.
Lemma kboot_answer : (like_boot_disk g b -> exists x, kboot_open b = Ok (mkK h b (spos g 4) x)) /\
  (~ like_boot_disk g b -> kboot_open b = Err (EAtr InvalidDiskImage) \/ kboot_open b = Err (EAtr ByteNotInFile166)).
Proof.
  pose proof (wh_disk _ _ _ _ _ W) as D. pose proof (sk_bytes _ _ _ _ D) as Hb.
  destruct (hdr_of_facts b h Hb Hh) as (_ & F2 & F3 & _).
  destruct (boot_record b h dir k Hh D) as (_ & _ & _ & L & _). fold g in L.
  unfold kboot_open. fold (hdr_of b). rewrite Hh. cbn [rbind].
  destruct (Z.le_gt_cases 4 (h_max h)) as [M|M].
  - rewrite (pos_usable b h Hb Hh 4); [|split; [change (g_max (geom_of h)) with (h_max h); lia|right; lia]]. cbn [rbind]. fold g.
    change (h_offset h) with (g_off g). replace (zlen b <=? g_off g + 9 + 2) with false by lia.
    replace (getb b (g_off g + 9) + 256 * getb b (g_off g + 9 + 1) + 256 * 256 * getb b (g_off g + 9 + 2)) with (boot_size g b).
    2:{ unfold boot_size, boot_byte. rewrite <- !Z.add_assoc. reflexivity. }
    unfold like_boot_disk. change (g_max g) with (h_max h). split; intros Q.
    + replace ((zlen b <? spos g 4 + boot_size g b) || (spos g 4 + boot_size g b <? zlen b - 128)) with false by lia. eauto.
    + replace ((zlen b <? spos g 4 + boot_size g b) || (spos g 4 + boot_size g b <? zlen b - 128)) with true by lia. auto.
  - rewrite (proj2 (get_pos_valid h 4 F3) ltac:(lia)). cbn [rbind]. split; [|auto]. intros [Q _]. change (g_max g) with (h_max h) in Q. lia.
Qed.

Lemma sfind_entry im n : Forall2 (reads im) (zrange 1 (k + 1)) (s_files im) ->
  match entry_named dir k n with
  | Some i => exists d, MainModel.sfind n (s_files im) = Some d /\ sfilename d = se_name (s_entry dir i) /\ sget_file im d = Ok (contents g b dir secs i)
  | None => MainModel.sfind n (s_files im) = None
  end.
Proof.
  unfold entry_named. induction 1 as [|i d l r (N & G) _ IH]; cbn [find MainModel.sfind]; [reflexivity|]. rewrite N.
  destruct (zlist_eqb n (se_name (s_entry dir i))); [eauto|exact IH].
Qed.
Lemma sparta_writes o im files : Forall2 (reads im) (zrange 1 (k + 1)) (s_files im) ->
  writes sparta_api o im (selection sparta_api o im files) = sparta_outputs o g b dir k secs files.
Proof.
  intros F. unfold selection, sparta_outputs. destruct (o_all o).
  - change (p_files sparta_api im) with (s_files im). change (p_name sparta_api) with sfilename. clear W.
    induction F as [|i d l r (N & G) _ IH]; [reflexivity|]. cbn [map]. unfold writes in *. cbn [flat_map snd]. change (p_read sparta_api im d) with (sget_file im d).
    change (p_name sparta_api d) with (sfilename d). rewrite G, N, IH. reflexivity.
  - induction files as [|n l IH]; [reflexivity|]. cbn [map flat_map]. unfold writes in *. cbn [flat_map snd]. rewrite map_app, IH. f_equal.
    pose proof (sfind_entry im n F) as Q. change (p_find sparta_api im n) with (MainModel.sfind n (s_files im)).
    destruct (entry_named dir k n) as [i|]; [|rewrite Q; reflexivity]. destruct Q as (d & -> & N & G).
    change (p_read sparta_api im d) with (sget_file im d). change (p_name sparta_api d) with (sfilename d). rewrite G, N. reflexivity.
Qed.
Lemma sparta_total o im : Forall2 (reads im) (zrange 1 (k + 1)) (s_files im) ->
  forall sel, (forall n d, In (n, Some d) sel -> In d (s_files im)) -> forall f, exists f' m, extract_loop sparta_api o f im sel = (f', m, Ok tt).
Proof.
  intros F. assert (R : forall d, In d (s_files im) -> exists x, sget_file im d = Ok x).
  { clear - F. intros d Hd. induction F as [|i d' l r (N & G) _ IH]; [destruct Hd|]. destruct Hd as [<-|Hd]; eauto. }
  induction sel as [|[n [d|]] l IH]; intros H f; cbn [extract_loop]; [eauto| |].
  - assert (H' : forall n d, In (n, Some d) l -> In d (s_files im)) by (intros n' d' X; apply (H n' d'); right; exact X).
    destruct (o_dry o); [destruct (IH H' f) as (f' & m & ->); eauto|].
    destruct (R d (H n d (or_introl eq_refl))) as (x & Rx). change (p_read sparta_api im d) with (sget_file im d). rewrite Rx.
    destruct (f (out_path o (p_name sparta_api d))); [destruct (o_force o)|];
      [destruct (IH H' (fput f (out_path o (p_name sparta_api d)) (converted o x))) as (f' & m & ->)|destruct (IH H' f) as (f' & m & ->)|destruct (IH H' (fput f (out_path o (p_name sparta_api d)) (converted o x))) as (f' & m & ->)]; eauto.
  - assert (H' : forall n d, In (n, Some d) l -> In d (s_files im)) by (intros n' d' X; apply (H n' d'); right; exact X).
    destruct (IH H' f) as (f' & m & ->). eauto.
Qed.
Lemma sfind_in n : forall ds d, MainModel.sfind n ds = Some d -> In d ds.
Proof.
  induction ds as [|x r IH]; intros d E; cbn [MainModel.sfind] in E; [discriminate|]. destruct (zlist_eqb n (sfilename x)); [injection E as <-; left; reflexivity|right; auto].
Qed.
Lemma sparta_extract o im f files f' m r : Forall2 (reads im) (zrange 1 (k + 1)) (s_files im) -> o_dry o = false ->
  extract_files sparta_api o f im files = (f', m, r) ->
  r = Ok tt /\ forall p, f' p = if o_force o
     then match written p (rev (sparta_outputs o g b dir k secs files)) with Some x => Some x | None => f p end
     else match f p with Some x => Some x | None => written p (sparta_outputs o g b dir k secs files) end.
Proof.
  intros F D E. unfold extract_files in E.
  assert (Sel : forall n d, In (n, Some d) (selection sparta_api o im files) -> In d (s_files im)).
  { intros n d H. unfold selection in H. destruct (o_all o); apply in_map_iff in H; destruct H as (x & H & Hx).
    - injection H as _ <-. exact Hx.
    - injection H as <- H. exact (sfind_in _ _ _ H). }
  destruct (sparta_total o im F _ Sel f) as (f2 & m2 & E2). rewrite E2 in E. injection E as <- _ <-. split; [reflexivity|].
  destruct (extract_exact sparta_api o im _ D f f2 m2 E2) as [_ X]. intros p. rewrite X, (sparta_writes o im files F). reflexivity.
Qed.
Lemma sparta_listed im files : Forall2 (reads im) (zrange 1 (k + 1)) (s_files im) ->
  Forall2 (reads im) (filter (fun i => match files with [] => true | _ => existsb (zlist_eqb (se_name (s_entry dir i))) files end) (zrange 1 (k + 1)))
    (listed_names sparta_api im files).
Proof.
  intros F. unfold listed_names. change (p_files sparta_api im) with (s_files im). change (p_name sparta_api) with sfilename.
  apply Properties_Sparta.forall2_filter; [|exact F]. intros i d (N & _). rewrite N. reflexivity.
Qed.
End Whole.

(** The size of a file: its sectors, and less than one sector and 16 bytes more. *)
Lemma size_of_file b h : bytes_ok b -> hdr_of b = Ok h -> let g := geom_of h in
  exists t, 0 <= t < g_ss g + 16 /\ zlen b = g_off g + h_max h * g_ss g - g_skew g + t.
Proof.
  intros Hb E g. destruct (read_header_facts b Hb) as (Hi & Hn & Hs & Ho). exists (zlen b - (g_off g + h_max h * g_ss g - g_skew g)). split; [|lia].
  unfold g, geom_of. cbn [g_off g_ss g_skew]. unfold hdr_of, check_size in E. set (sz := zlen b - h_offset (read_header b)) in *.
  rewrite Hi, Hn in E. assert (Hz : zlen b = h_offset (read_header b) + sz) by (unfold sz; lia). rewrite Hz.
  assert (Hsz : 0 <= sz) by (unfold sz; pose proof (zlen_nonneg b); lia). clearbody sz. clear Hz Ho.
  destruct ((sz =? 92160) || (sz =? 92176)) eqn:E1;
  [|destruct ((sz =? 184320) || (sz =? 184336)) eqn:E2;
  [|destruct ((sz =? 183936) || (sz =? 183952)) eqn:E3]].
  - cbn in E. injection E as <-. cbn [h_ssize h_max h_ninit h_isize h_offset]. lia.
  - cbn in E. injection E as <-. cbn [h_ssize h_max h_ninit h_isize h_offset]. lia.
  - cbn in E. injection E as <-. cbn [h_ssize h_max h_ninit h_isize h_offset]. lia.
  - destruct (Z.eqb_spec (h_ssize (read_header b)) 0); [discriminate|]. injection E as <-. cbn [h_ssize h_max h_ninit h_isize h_offset].
    rewrite ?Z.mul_0_l, ?Z.sub_0_r, ?Z.add_0_r. pose proof (Z.div_mod sz (h_ssize (read_header b)) ltac:(lia)) as Q.
    pose proof (Z.mod_pos_bound sz (h_ssize (read_header b)) ltac:(lia)). lia.
Qed.
(** Whether a disk looks like a boot disk, for the usual sector sizes. *)
Lemma usual_not_boot b h dir k : hdr_of b = Ok h -> sparta_disk (geom_of h) b dir k ->
  (h_ssize h = 128 /\ h_max h <= 40000 /\ h_max h mod 513 <> 0) \/ (h_ssize h = 256 /\ h_max h mod 257 <> 0) ->
  ~ like_boot_disk (geom_of h) b.
Proof.
  intros Hh D U (M & L1 & L2). set (g := geom_of h) in *. pose proof (sk_bytes _ _ _ _ D) as Hb.
  pose proof (bytes_ok_getb b (g_off g + 9) Hb) as B9. pose proof (bytes_ok_getb b (g_off g + 10) Hb) as B10.
  pose proof (bytes_ok_getb b (g_off g + 11) Hb) as B11. pose proof (bytes_ok_getb b (g_off g + 12) Hb) as B12. unfold is_byte in *.
  pose proof (sk_total _ _ _ _ D) as T. unfold boot_word, boot_byte, le2 in T. change (g_off g + (11 + 1)) with (g_off g + 12) in T.
  assert (R : boot_word g b 9 <= h_max h).
  { destruct (sk_root _ _ _ _ D) as (ds & (cs & m & C & _) & _). inversion C as [n [V _] _|n c1 m1 [V _] _ _]; subst; exact (proj2 V). }
  unfold boot_word, boot_byte, le2 in R. change (g_off g + (9 + 1)) with (g_off g + 10) in R.
  unfold boot_size, boot_byte in L1, L2. change (g_max g) with (h_max h) in *.
  set (r9 := getb b (g_off g + 9)) in *. set (r10 := getb b (g_off g + 10)) in *. set (r := getb b (g_off g + 11)) in *. set (q := getb b (g_off g + 12)) in *.
  destruct (size_of_file b h Hb Hh) as (t & Ht & Lb). fold g in Ht, Lb. rewrite Lb in L1, L2. unfold spos in L1, L2. change (g_ss g) with (h_ssize h) in *.
  rewrite <- T in *. clearbody r9 r10 r q. clear - U Ht L1 L2 R B9 B10 B11 B12.
  destruct U as [(U0 & U1 & U2)|(U0 & U1)]; rewrite U0 in *.
  - assert (N : q <> 2 * r). { intros ->. apply U2. replace (r + 256 * (2 * r)) with (r * 513) by lia. apply Z.mod_mul. lia. } lia.
  - assert (N : q <> r). { intros ->. apply U1. replace (r + 256 * r) with (r * 257) by lia. apply Z.mod_mul. lia. } lia.
Qed.
