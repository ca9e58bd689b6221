(** C69: a detected Atari DOS disk stays one after files are written, deleted or
    free space is wiped. *)
From Verif Require Import Base BaseLemmas DiskModel DirLemmas AtariModel AtariSpec AtariGeom AtariHeader AtariWrite AtariOps AtariProps AtariSession AtariBlank AtariDemo SpartaModel ExecModel DetectModel DetectSpec DetectProofs DetectErrors DetectErrors2 DetectStay Properties_Atari Properties_Detect.
From Verif Require CartModel.

(** Detection opens the bytes of the image as that same Atari DOS image. *)
Definition detected (e : env) (im : aimg) : Prop :=
  exists d, find_diskimage e (a_bytes im) = Ok (mkFound M_atr d PAtariDos (IAtariDos im)).
(** Neither a container nor a known signature. *)
Definition unclaimed (e : env) (b : list Z) : Prop := not_container e b /\ e_sig e b = None.

Lemma big_image im : consistent im -> 0x85c < zlen (a_bytes im).
Proof.
  intros C. destruct (consistent_view im C) as (k & E & G & D & Hh).
  pose proof (hg_max _ _ G). pose proof (hg_ss _ _ G). pose proof (hg_first _ _ G) as F. pose proof (hg_fit _ _ G) as FT.
  rewrite (spos_diff _ 4 (h_max (a_hdr im))) in FT. change (g_ss (geom_of (a_hdr im))) with (h_ssize (a_hdr im)) in FT. nia.
Qed.
Lemma attempts_plain e b : e_sig e b = None -> attempts e b = map (pair true) documented_order.
Proof. intros E. unfold attempts. rewrite E. reflexivity. Qed.
Lemma detect_atari e im : consistent im -> unclaimed e (a_bytes im) ->
  refuses (parse e true PKBoot (a_bytes im)) -> refuses (parse e true PSparta (a_bytes im)) ->
  atr_strict (a_hdr im) (zlen (a_bytes im)) = Ok tt -> detected e im.
Proof.
  intros C [NC NS] K S0 A. destruct (detail_ok M_atr (a_bytes im)) as [d Hd].
  { intros [L _]. pose proof (big_image im C). lia. }
  exists d. apply (C45_first_wins e (a_bytes im) (a_bytes im) (true, (M_atr, PAtariDos)) (IAtariDos im) d); [apply unpacked_plain; exact NC| |apply consistent_parses; assumption|exact Hd].
  rewrite (attempts_plain _ _ NS). exists [(true, (M_atr, PKBoot)); (true, (M_atr, PSparta))]. eexists. split; [reflexivity|]. split.
  - intros q [<-|[<-|[]]]; assumption.
  - unfold attempt. cbn [fst snd]. rewrite consistent_parses by assumption. discriminate.
Qed.
(** The classes are pairwise different. *)
Definition class_code (p : pclass) : Z :=
  match p with
  | PKBoot => -1 | PSparta => -2 | PAtariDos => -3 | PBoot => -4 | PUnidentified => -5 | PXex => -6
  | PCart8 t => 2 * t | PCart52 t => 2 * t + 1 | P2600 => -7 | PStarpath => -8 | PVectrex => -9
  | PMame => -10 | PRom => -11 | PDos33 => -12 | PProdos => -13 | PBin => -14
  end.
Lemma detected_inv e im : detected e im -> unclaimed e (a_bytes im) ->
  refuses (parse e true PKBoot (a_bytes im)) /\ refuses (parse e true PSparta (a_bytes im)) /\
  parse e true PAtariDos (a_bytes im) = Ok (IAtariDos im).
Proof.
  intros [d F] [NC NS]. pose proof (C45_first_accepting e _ _ (unpacked_plain _ _ NC)) as S0. rewrite F in S0.
  destruct S0 as (a & FC & E & P & _). cbn [f_mime f_class f_image] in *. rewrite (attempts_plain _ _ NS) in FC.
  destruct a as [s mp]. cbn [snd] in E. subst mp. unfold attempt in P. cbn [fst snd] in P.
  destruct FC as (bf & af & EQ & R & _).
  assert (s = true).
  { assert (I0 : In (s, (M_atr, PAtariDos)) (map (pair true) documented_order)) by (rewrite EQ; apply in_or_app; right; left; reflexivity).
    apply in_map_iff in I0. destruct I0 as (x & X & _). congruence. }
  subst s.
  assert (Q : bf = [(true, (M_atr, PKBoot)); (true, (M_atr, PSparta))]).
  { assert (N : NoDup (map (pair true) documented_order)).
    { apply FinFun.Injective_map_NoDup; [intros x y X; congruence|]. clear.
      assert (X : NoDup (map (fun mp => class_code (snd mp)) documented_order)).
      { vm_compute. repeat (constructor; [cbn; intuition discriminate|]). constructor. }
      exact (NoDup_map_inv _ _ X). }
    change (map (pair true) documented_order) with ([(true, (M_atr, PKBoot)); (true, (M_atr, PSparta))] ++ (true, (M_atr, PAtariDos)) :: skipn 3 (map (pair true) documented_order)) in EQ.
    change (map (pair true) documented_order) with ([(true, (M_atr, PKBoot)); (true, (M_atr, PSparta))] ++ (true, (M_atr, PAtariDos)) :: skipn 3 (map (pair true) documented_order)) in N.
    revert EQ N. generalize (skipn 3 (map (pair true) documented_order)). intros rest EQ N.
    destruct bf as [|x1 [|x2 [|x3 bf]]]; cbn [app] in EQ; [discriminate|discriminate|injection EQ as <- <- _; reflexivity|].
    exfalso. injection EQ as <- <- <- EQ. cbn [app] in N. apply NoDup_cons_iff in N. destruct N as [_ N]. apply NoDup_cons_iff in N. destruct N as [_ N].
    apply NoDup_cons_iff in N. destruct N as [N _]. apply N. rewrite EQ. apply in_or_app. right. left. reflexivity. }
  subst bf. split; [exact (R _ (or_introl eq_refl))|]. split; [exact (R _ (or_intror (or_introl eq_refl)))|exact P].
Qed.

Lemma stays e im im' : consistent im -> consistent im' -> zlen (a_bytes im') = zlen (a_bytes im) ->
  (forall p, 0 <= p < spos (geom_of (a_hdr im)) 4 -> getb (a_bytes im') p = getb (a_bytes im) p) ->
  unclaimed e (a_bytes im) -> unclaimed e (a_bytes im') -> ~ sparta_boot_record (a_bytes im) ->
  detected e im -> detected e im' /\ ~ sparta_boot_record (a_bytes im').
Proof.
  intros C C' L X U U' N Dt. destruct (detected_inv e im Dt U) as (K & S0 & P).
  destruct (consistent_view im C) as (k & E & G & D & Hh). destruct (consistent_view im' C') as (k' & E' & G' & D' & Hh').
  pose proof (hg_first _ _ G) as F. set (h := a_hdr im) in *.
  assert (HH : hdr_of (a_bytes im') = Ok h).
  { rewrite <- Hh. unfold hdr_of, read_header. rewrite L. replace (slice (a_bytes im') 0 16) with (slice (a_bytes im) 0 16); [reflexivity|].
    apply list_ext_getb.
    - rewrite !zlen_slice_min by lia. rewrite L. reflexivity.
    - intros i Hi. assert (i < 16). { revert Hi. rewrite zlen_slice_min by lia. lia. } rewrite !getb_slice by lia. symmetry. apply X. lia. }
  assert (HE : a_hdr im' = h) by congruence.
  destruct (hdr_of_facts _ _ (dk_bytes _ _ _ D) Hh) as (Q1 & Q2 & Q3 & Q4 & Q5).
  assert (B : h_offset h + 33 <= spos (geom_of h) 4).
  { unfold spos, geom_of. cbn [g_off g_ss g_skew]. pose proof (hg_ss _ _ G) as SS. fold h in SS.
    destruct Q5 as [(A1 & A2 & A3 & _)|(A1 & _)]; rewrite A1; [rewrite A2|]; lia. }
  assert (X' : forall p, 0 <= p < h_offset h + 33 -> getb (a_bytes im') p = getb (a_bytes im) p) by (intros; apply X; lia).
  split.
  - apply detect_atari; try assumption.
    + exact (kboot_parse_same _ _ h Hh HH L X' Q2 e K).
    + exact (sparta_parse_same _ _ h Hh HH L X' Q2 e N S0).
    + rewrite HE, L. unfold parse in P. cbn [parse_image] in P. rewrite (proj1 C) in P. cbn [rbind] in P. fold h in P.
      destruct (atr_strict h (zlen (a_bytes im))) as [[]|y] eqn:A; [reflexivity|exfalso].
      assert (y = EAtr InvalidDiskImage) by (unfold atr_strict in A; destruct (_ || _); congruence). subst y. discriminate P.
  - exact (no_record_same _ _ h Hh HH L X' Q2 N).
Qed.
Lemma in_sector_high h b s p : hgeo h b -> 4 <= s -> in_sector (geom_of h) s p -> spos (geom_of h) 4 <= p.
Proof.
  intros G Hs [A _]. rewrite (spos_diff _ 4 s) in A. change (g_ss (geom_of h)) with (h_ssize h) in A. pose proof (hg_ss _ _ G). nia.
Qed.
Lemma free_high im s : consistent im -> is_free_sector im s -> 4 <= s.
Proof.
  intros C [Hs F]. destruct (consistent_view im C) as (k & E & G & D & Hh). destruct (dk_free _ _ _ D s Hs F) as (A & _). lia.
Qed.

(** Writing a file *)
Theorem C69_detected_after_write_partial (e : env) (im im' : aimg) (n d : list Z) :
  consistent im -> detected e im -> ~ sparta_boot_record (a_bytes im) ->
  legal_write im n d -> write_file im n d = (im', Ok tt) ->
  unclaimed e (a_bytes im) -> unclaimed e (a_bytes im') ->
  detected e im' /\ ~ sparta_boot_record (a_bytes im').
Proof.
  intros C Dt N LW W U U'. destruct (write_master im n d C LW) as [(_ & im2 & c & E2 & R)|(_ & E2)]; [|congruence].
  rewrite W in E2. injection E2 as <-. destruct (consistent_view im C) as (k & E & G & D & Hh).
  apply (stays e im im' C (wr_consistent _ _ _ _ _ R) (wr_len _ _ _ _ _ R)); try assumption.
  intros p Hp. apply (wr_bytes _ _ _ _ _ R); [lia|]. intros s Hs I0.
  assert (4 <= s) by (destruct Hs as [Hs|Hs]; [apply (free_high im s C), (wr_were_free _ _ _ _ _ R), Hs|lia]).
  pose proof (in_sector_high _ _ s p G ltac:(assumption) I0). lia.
Qed.
Print Assumptions C69_detected_after_write_partial.
(** Deleting one *)
Theorem C69_detected_after_delete_partial (e : env) (im im' : aimg) (n : list Z) :
  consistent im -> detected e im -> ~ sparta_boot_record (a_bytes im) ->
  In n (listing im) -> delete_file im n = (im', Ok tt) ->
  unclaimed e (a_bytes im) -> unclaimed e (a_bytes im') ->
  detected e im' /\ ~ sparta_boot_record (a_bytes im').
Proof.
  intros C Dt N I0 W U U'. destruct (delete_master im n C I0) as (im2 & c & E2 & R).
  rewrite W in E2. injection E2 as <-. destruct (consistent_view im C) as (k & E & G & D & Hh).
  apply (stays e im im' C (dr_consistent _ _ _ _ R) (dr_len _ _ _ _ R)); try assumption.
  intros p Hp. apply (dr_bytes _ _ _ _ R); [lia|]. intros s Hs I1. pose proof (in_sector_high _ _ s p G ltac:(lia) I1). lia.
Qed.
Print Assumptions C69_detected_after_delete_partial.
(** Wiping the free sectors *)
Theorem C69_detected_after_shred_partial (e : env) (im im' : aimg) (fill : Z) :
  consistent im -> detected e im -> ~ sparta_boot_record (a_bytes im) ->
  fst (shred im fill) = im' ->
  unclaimed e (a_bytes im) -> unclaimed e (a_bytes im') ->
  detected e im' /\ ~ sparta_boot_record (a_bytes im').
Proof.
  intros C Dt N W U U'. destruct (shred_master im fill C) as (im2 & E2 & R).
  rewrite E2 in W. cbn [fst] in W. subst im2. destruct (consistent_view im C) as (k & E & G & D & Hh).
  apply (stays e im im' C (sr_consistent _ _ _ R) (sr_len _ _ _ R)); try assumption.
  intros p Hp. apply (sr_kept _ _ _ R); [lia|]. intros s Hs I1. pose proof (in_sector_high _ _ s p G (free_high im s C Hs) I1). lia.
Qed.
Print Assumptions C69_detected_after_shred_partial.

(** Every freshly formatted disk in an ATR file is detected as what it is. *)
Theorem C69_formatted_detected (e : env) (ss nsec : Z) :
  128 <= ss <= 256 -> ss mod 16 = 0 -> 368 <= nsec -> plain_size ss nsec -> unclaimed e (fmt_disk ss nsec) ->
  exists im, a_bytes im = fmt_disk ss nsec /\ consistent im /\ detected e im /\ ~ sparta_boot_record (a_bytes im).
Proof.
  intros Hs H16 Hn P U. destruct (fmt_opens ss nsec Hs H16 Hn P) as (im & Ho & C & L & B & Hd). exists im.
  pose proof (tidy_consistent _ C) as C0. split; [exact B|]. split; [exact C0|].
  destruct (consistent_view im C0) as (k & E & G & D & Hh). rewrite Hd in Hh.
  assert (Z0 : forall p, 16 <= p < 16 + 359 * ss -> getb (fmt_disk ss nsec) p = 0).
  { intros p Hp. unfold fmt_disk. assert (LH : zlen (fmt_header ss nsec) = 16) by reflexivity.
    rewrite getb_app_r by lia. rewrite getb_app_l by (rewrite ?zlen_zrepeat; lia). apply getb_zrepeat. lia. }
  assert (LB : 16 + 368 * ss <= zlen (fmt_disk ss nsec)).
  { rewrite <- B. pose proof (hg_fit _ _ G) as FT. rewrite Hd in FT. unfold spos, geom_of, fmt_hdr in FT. cbn [g_off g_ss g_skew h_offset h_ssize h_ninit h_isize h_max] in FT. nia. }
  assert (SB : ~ sparta_boot_record (a_bytes im)).
  { rewrite B in *. intros (h' & s & E' & BI). assert (h' = fmt_hdr ss nsec) by (unfold hdr_of in Hh; unfold atari_header in E'; congruence). subst h'.
    unfold boot_sector_info, get_sectors, get_sector_slice in BI. unfold get_pos, sector_valid in BI. cbn [fmt_hdr h_max h_ninit h_offset h_isize h_ssize] in BI.
    replace (negb _) with false in BI by lia. change (1 <=? 0) with false in BI. cbv beta iota in BI. cbn [rbind] in BI.
    change (Z.to_nat (1 - 1)) with 0%nat in BI. cbn [more_sectors rbind] in BI. cbv zeta in BI.
    destruct (zlen _ =? 0); [discriminate|]. destruct (negb _); [discriminate|].
    rewrite !getb_slice in BI by lia. rewrite !Z0 in BI by lia. change (zmem 0 [17; 32; 33]) with false in BI.
    rewrite andb_false_r in BI. discriminate. }
  split; [|exact SB]. rewrite <- B in U.
  assert (US : usual_sectors (a_bytes im)).
  { intros _. right. rewrite B. change (getb (fmt_disk ss nsec) 4) with (u8 ss). change (getb (fmt_disk ss nsec) 5) with (u8 (ss / 256)).
    replace (le2 (u8 ss) (u8 (ss / 256))) with ss by (unfold le2, u8; Z.to_euclidean_division_equations; lia).
    split; [lia|]. rewrite (Z.div_mod ss 16) by lia. rewrite H16, Z.add_0_r. replace (16 * (ss / 16)) with ((8 * (ss / 16)) * 2) by ring. apply Z.mod_mul. lia. }
  apply detect_atari; try assumption.
  - unfold refuses, parse. cbn [parse_image]. unfold kboot_open. unfold hdr_of in Hh. cbv zeta in *. rewrite Hh. cbn [rbind].
    unfold get_pos, sector_valid. cbn [fmt_hdr h_max h_ninit h_offset h_isize h_ssize]. replace (negb _) with false by lia. change (4 <=? 0) with false. cbv beta iota. cbn [rbind].
    rewrite B in *. replace (zlen (fmt_disk ss nsec) <=? 16 + 9 + 2) with false by lia. rewrite !Z0 by lia.
    replace (_ || _) with true by lia. reflexivity.
  - apply sparta_refuses; [exact (dk_bytes _ _ _ D)|exact US|exact SB].
  - rewrite Hd. reflexivity.
Qed.
Print Assumptions C69_formatted_detected.
(** A formatted disk with a file written to it *)
Lemma env0_unclaimed b : getb b 0 = 0x96 -> unclaimed env0 b.
Proof. intros E. split; [|reflexivity]. split; [reflexivity|]. split; [reflexivity|]. split; [reflexivity|]. rewrite E. intros (_ & [X|X] & _); discriminate. Qed.
Example C69_example : exists im im', consistent im /\ detected env0 im /\ ~ sparta_boot_record (a_bytes im) /\
  legal_write im hello text /\ write_file im hello text = (im', Ok tt) /\ detected env0 im' /\ In hello (listing im').
Proof.
  assert (PS : plain_size 128 720) by (unfold plain_size; split; [cbn [In]; lia|lia]).
  destruct blank_image as (im & Ho & C & L & F & P & M & B).
  destruct (C69_formatted_detected env0 128 720) as (im0 & B0 & C0 & D0 & S0); [lia|reflexivity|lia|exact PS|apply env0_unclaimed; reflexivity|].
  assert (im0 = im). { destruct C0 as [O _]. rewrite B0 in O. congruence. } subst im0.
  assert (LW : legal_write im hello text).
  { split; [apply valid_stored; exact hello_valid|]. rewrite (proj2 (valid_stored _ hello_valid)). split; [discriminate|]. split; [apply bytes_ok_b; reflexivity|].
    rewrite listing_files, L. split; [intros []|cbn; lia]. }
  destruct (write_master im hello text C0 LW) as [(Hs & im' & c & Ew & W)|(Hs & _)].
  2: { exfalso. revert Hs. rewrite P, F. intros Hs. vm_compute in Hs. congruence. }
  exists im, im'. repeat (split; [assumption|]).
  destruct (consistent_view im C0) as (k & E & G & D & Hh).
  assert (G0 : getb (a_bytes im') 0 = 0x96).
  { rewrite (wr_bytes _ _ _ _ _ W); [rewrite B; reflexivity|lia|]. intros s Hs' I0.
    assert (4 <= s) by (destruct Hs' as [Hs'|Hs']; [apply (free_high im s C0), (wr_were_free _ _ _ _ _ W), Hs'|lia]).
    pose proof (in_sector_high _ _ s 0 G ltac:(assumption) I0). pose proof (hg_first _ _ G). lia. }
  split.
  - apply (C69_detected_after_write_partial env0 im im' hello text C0 D0 S0 LW Ew); apply env0_unclaimed; [rewrite B; reflexivity|exact G0].
  - destruct (wr_listing _ _ _ _ _ W) as (l1 & l2 & _ & ->). apply in_or_app. right. left. symmetry. apply (proj2 (valid_stored _ hello_valid)).
Qed.
