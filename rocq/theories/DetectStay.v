(** An Atari DOS disk is detected as one, and stays detected after changes. *)
From Verif Require Import Base BaseLemmas DiskModel DirLemmas AtariModel AtariSpec AtariGeom AtariHeader AtariDir AtariVtoc AtariChain AtariOps AtariProps AtariBlank SpartaModel ExecModel DetectModel DetectSpec DetectProofs DetectErrors DetectErrors2.
From Verif Require CartModel.

Lemma consistent_files im d : consistent im -> In d (a_files im) -> exists x, get_file im d = Ok x.
Proof.
  intros C Hin. destruct (consistent_view im C) as (k & E & G & D & Hh).
  set (h := a_hdr im) in *. set (b := a_bytes im) in *. rewrite E in *. cbn [view a_files] in Hin.
  apply filter_In in Hin. destruct Hin as [Hin Hu]. unfold entries in Hin. apply in_map_iff in Hin. destruct Hin as (i & <- & Hi).
  apply In_zrange in Hi. assert (Hl : e_live (slot (geom_of h) b i)) by (apply d_inuse_live in Hu; exact Hu).
  destruct (dk_files _ _ _ D i Hi Hl) as (_ & _ & c & Hc & Hne & _). exists (contents (geom_of h) b c).
  destruct (disk_meta h b k G D) as (_ & _ & _ & _ & _ & Sane).
  apply (get_file_chain h b G (dk_bytes _ _ _ D) _ _ (owner (slot (geom_of h) b i) i)); try reflexivity; try assumption.
  - pose proof (sane_forallb h b k Sane) as S0. rewrite forallb_forall in S0.
    specialize (S0 (parse_dirent h i (slot (geom_of h) b i))). rewrite Hu in S0. apply S0. unfold entries. apply in_map_iff. exists i. split; [reflexivity|].
    apply In_zrange; lia.
  - apply asks_owner. lia.
Qed.

Lemma pos_ok h n : 0 <= h_max h -> 1 <= n <= h_max h -> exists p s, get_pos h n = Ok (p, s).
Proof. intros M Hn. apply (proj1 (get_pos_valid h n M) Hn). Qed.
Lemma more_ok h k n : 0 <= h_max h -> 0 <= n -> n + Z.of_nat k <= h_max h -> exists x, more_sectors h k n = Ok x.
Proof.
  intros M. revert n. induction k as [|k IH]; intros n Hn L; cbn [more_sectors]; [exists 0; reflexivity|].
  destruct (pos_ok h (n + 1) M ltac:(lia)) as (p & s & ->). cbn [rbind]. destruct (IH (n + 1) ltac:(lia) ltac:(lia)) as [x ->].
  exists (s + x). reflexivity.
Qed.
Lemma contig_ok h l : 0 <= h_max h -> (forall n, In n l -> 1 <= n <= h_max h) -> forall s c, exists x, contig_loop h l s c = Ok x.
Proof.
  intros M. induction l as [|n l IH]; intros H s c; cbn [contig_loop]; [eexists; reflexivity|].
  destruct (pos_ok h n M (H n (or_introl eq_refl))) as (p & z & ->). cbn [rbind]. apply IH. intros m Hm. apply H. right. exact Hm.
Qed.

(** Images that the strict check of the header lets through *)
Definition disk_file (b : list Z) : Prop := has_atr_header b \/ In (zlen b) [92160; 133120; 183936; 184320].
Lemma atr_offset b h : hdr_of b = Ok h -> has_atr_header b -> h_offset h = 16.
Proof.
  intros E (L & A0 & A1). unfold hdr_of in E. assert (O : h_offset (read_header b) = 16).
  { unfold read_header, atr_header. rewrite (zlen_slice b 0 16) by lia. cbn [Z.eqb]. change (16 - 0 =? 16) with true. cbv zeta.
    rewrite !getb_slice by lia. cbn [Z.add]. rewrite A0, A1. reflexivity. }
  unfold check_size in E. repeat match type of E with context [if ?c then _ else _] => destruct c end; try discriminate; injection E as <-; exact O.
Qed.
Lemma strict_ok b h : hdr_of b = Ok h -> disk_file b -> atr_strict h (zlen b) = Ok tt.
Proof.
  intros E [A|A]; unfold atr_strict.
  - rewrite (atr_offset b h E A). reflexivity.
  - replace (zmem (zlen b) _) with true by (symmetry; apply zmem_In; exact A). rewrite orb_true_r. reflexivity.
Qed.

Lemma consistent_segments im : consistent im -> atari_segments im = Ok tt.
Proof.
  intros C. pose proof (fun d => consistent_files im d C) as F. destruct (consistent_view im C) as (k & E & G & D & Hh).
  unfold atari_segments. set (h := a_hdr im) in *. set (b := a_bytes im) in *.
  pose proof (hg_max _ _ G) as M. pose proof (hg_ss _ _ G) as SS.
  assert (B : boot_segments h b 360 20 = Ok tt).
  { unfold boot_segments. rewrite (get_sectors_in h b 360 360 G) by lia. cbn [rbind].
    pose proof (spos_bounds h b G 360 ltac:(lia)) as P. rewrite (spos_diff _ 360 (360 + 1)). change (g_ss (geom_of h)) with (h_ssize h).
    set (s := slice b _ _). assert (L : zlen s = h_ssize h) by (unfold s; rewrite zlen_slice; lia).
    unfold view_rec. rewrite (zlen_slice s 0 20) by lia. change (20 - 0 =? 0) with false. change (20 - 0 =? 20) with true. cbn [rbind].
    destruct (getb (slice s 0 20) 0 =? 0); [|reflexivity]. rewrite (getb_slice s 0 20 1) by lia.
    assert (Y : is_byte (getb s (0 + 1))). { apply bytes_ok_getb. unfold s. apply bytes_ok_slice. exact (dk_bytes _ _ _ D). }
    unfold is_byte in Y. unfold get_sector_slice. destruct (pos_ok h 1 ltac:(lia) ltac:(lia)) as (p & z & ->). cbn [rbind].
    destruct (more_ok h (Z.to_nat (getb s (0 + 1) - 1)) 1 ltac:(lia) ltac:(lia) ltac:(lia)) as [x ->]. reflexivity. }
  rewrite B. cbn [rbind].
  assert (V : exists x, vtoc_bounds im = Ok x).
  { rewrite E. unfold vtoc_bounds, view. cbn [a_hdr a_fvtoc a_nvtoc a_vtoc2]. fold h. unfold get_contiguous.
    destruct (contig_ok h (zrange 360 (360 + 1)) ltac:(lia)) with (s := 0) (c := 0) as [[p c] ->].
    { intros n Hn. apply In_zrange in Hn. lia. }
    cbn [rbind]. pose proof (hg_ed _ _ G) as ED. destruct (h_image_size h =? 133120) eqn:I0.
    - change (0 <? 1024) with true. cbv beta iota. specialize (ED ltac:(lia)).
      destruct (contig_ok h (zrange 1024 (1024 + 1)) ltac:(lia)) with (s := 0) (c := 0) as [[p2 c2] ->].
      { intros n Hn. apply In_zrange in Hn. lia. }
      cbn [rbind]. eexists. reflexivity.
    - eexists. reflexivity. }
  destruct V as [x ->]. cbn [rbind]. unfold get_contiguous.
  destruct (contig_ok h (zrange 361 (361 + 8)) ltac:(lia)) with (s := 0) (c := 0) as [y ->].
  { intros n Hn. apply In_zrange in Hn. lia. }
  cbn [rbind]. apply file_segments_ok. intros d e Hin G0. destruct (F d Hin) as [z Z]. congruence.
Qed.

Lemma consistent_parses e s im : consistent im -> atr_strict (a_hdr im) (zlen (a_bytes im)) = Ok tt ->
  parse e s PAtariDos (a_bytes im) = Ok (IAtariDos im).
Proof.
  intros C A. unfold parse. cbn [parse_image]. rewrite (proj1 C). cbn [rbind]. rewrite A.
  replace (checked s (Ok tt)) with (@Ok unit tt) by (destruct s; reflexivity). cbn [rbind].
  rewrite (consistent_segments im C). reflexivity.
Qed.

(** The parsers tried before look only at the header, at the first bytes of the
    first sector and at the length. *)
Section Same.
  Variables (b b' : list Z) (h : hdr).
  Hypothesis Hh : hdr_of b = Ok h.
  Hypothesis Hh' : hdr_of b' = Ok h.
  Hypothesis Hl : zlen b' = zlen b.
  Hypothesis Hx : forall p, 0 <= p < h_offset h + 33 -> getb b' p = getb b p.
  Hypothesis Ho : 0 <= h_offset h.

  Lemma kboot_same x : kboot_open b = Err x -> kboot_open b' = Err x.
  Proof.
    unfold kboot_open. unfold hdr_of in Hh, Hh'. cbv zeta in *. rewrite Hh, Hh'. cbn [rbind].
    destruct (get_pos h 4) as [[p s]|y]; cbn [rbind]; [|auto]. rewrite Hl. destruct (_ <=? _); [auto|].
    rewrite !Hx by lia. destruct (_ || _); [auto|discriminate].
  Qed.
  Lemma kboot_parse_same e : refuses (parse e true PKBoot b) -> refuses (parse e true PKBoot b').
  Proof.
    unfold refuses, parse. cbn [parse_image]. destruct (kboot_open b) as [k|x] eqn:K; cbn [rbind].
    - (* the strict check refused *)
      intros H. assert (EK : k_hdr k = h).
      { revert K. unfold kboot_open. unfold hdr_of in Hh. cbv zeta in *. rewrite Hh. cbn [rbind].
        destruct (get_pos h 4) as [[p s]|y]; cbn [rbind]; [|discriminate]. destruct (_ <=? _); [discriminate|]. destruct (_ || _); [discriminate|].
        intros X. injection X as <-. reflexivity. }
      assert (K' : exists k', kboot_open b' = Ok k' /\ k_hdr k' = h).
      { revert K. unfold kboot_open. unfold hdr_of in Hh, Hh'. cbv zeta in *. rewrite Hh, Hh'. cbn [rbind].
        destruct (get_pos h 4) as [[p s]|y]; cbn [rbind]; [|discriminate]. rewrite Hl. destruct (_ <=? _) eqn:Q; [discriminate|].
        rewrite !Hx by lia. destruct (_ || _); [discriminate|]. intros _. eexists. split; reflexivity. }
      destruct K' as (k' & -> & EK'). cbn [rbind]. rewrite EK', Hl. rewrite EK in H.
      destruct (checked true (atr_strict h (zlen b))); cbn [rbind as_parser] in *; [discriminate|exact H].
    - rewrite (kboot_same x K). cbn [rbind]. auto.
  Qed.
  Lemma boot_info_same x : boot_sector_info b h = Err x -> boot_sector_info b' h = Err x.
  Proof.
    unfold boot_sector_info. unfold get_sectors, get_sector_slice.
    destruct (get_pos h 1) as [[p s]|y] eqn:P; cbn [rbind]; [|auto]. replace (Z.to_nat (1 - 1)) with 0%nat by reflexivity. cbn [more_sectors rbind].
    assert (EP : p = h_offset h).
    { unfold get_pos in P. destruct (negb _); [discriminate|]. destruct (1 <=? h_ninit h) eqn:N; injection P as <- <-; [lia|].
      assert (h_ninit h = 0 \/ h_ninit h < 0) by lia.
      assert (N0 : h_ninit h = 0).
      { clear - Hh N. unfold hdr_of, check_size in Hh. cbv zeta in Hh.
        assert (R : h_ninit (read_header b) = 0).
        { unfold read_header, atr_header. repeat match goal with |- context [if ?c then _ else _] => destruct c end; reflexivity. }
        repeat match type of Hh with context [if ?c then _ else _] => destruct c end; try discriminate; injection Hh as <-; cbn [h_ninit] in *; lia. }
      rewrite N0. ring. }
    subst p. set (r := slice (slice b (h_offset h) (h_offset h + (s + 0))) 0 33).
    assert (R : slice (slice b' (h_offset h) (h_offset h + (s + 0))) 0 33 = r).
    { unfold r. apply list_ext_getb.
      - assert (zlen (slice b' (h_offset h) (h_offset h + (s + 0))) = zlen (slice b (h_offset h) (h_offset h + (s + 0)))) as EL.
        { rewrite !zlen_slice_min by lia. rewrite Hl. reflexivity. }
        rewrite !zlen_slice_min by lia. rewrite Hl. reflexivity.
      - intros i Hi. assert (L1 : i < 33). { revert Hi. rewrite zlen_slice_min by lia. lia. }
        assert (L2 : i < s + 0). { revert Hi. rewrite zlen_slice_min by lia. rewrite zlen_slice_min by lia. lia. }
        rewrite !(getb_slice _ 0 33 i) by lia. rewrite !getb_slice by lia. apply Hx. lia. }
    rewrite R. destruct (zlen r =? 0); [auto|]. destruct (negb _); [auto|]. cbv zeta.
    match goal with |- context [if ?c then _ else _] => destruct c end; [discriminate|auto].
  Qed.
  Lemma sparta_parse_same e : ~ sparta_boot_record b -> refuses (parse e true PSparta b) -> refuses (parse e true PSparta b').
  Proof.
    intros N. unfold refuses, parse. cbn [parse_image]. unfold open_sparta, open_sparta_fuel.
    unfold hdr_of in Hh, Hh'. cbv zeta in *. rewrite Hh, Hh'. cbn [rbind].
    destruct (boot_sector_info b h) as [im|x] eqn:B.
    - exfalso. apply N. exists h, im. auto.
    - rewrite (boot_info_same x B). cbn [rbind]. auto.
  Qed.
  Lemma no_record_same : ~ sparta_boot_record b -> ~ sparta_boot_record b'.
  Proof.
    intros N (h' & im & E & B). assert (h' = h) by (unfold hdr_of in Hh'; unfold atari_header in E; congruence). subst h'.
    destruct (boot_sector_info b h) as [im0|x] eqn:B0; [apply N; exists h, im0; auto|].
    rewrite (boot_info_same x B0) in B. discriminate.
  Qed.
End Same.
