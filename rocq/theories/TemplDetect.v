(** The Atari template images are disks the program recognises. *)
From Verif Require Import Base BaseLemmas DiskModel DirLemmas AtariModel AtariSpec AtariGeom AtariHeader AtariVtoc AtariChain AtariWrite AtariOps AtariProps AtariSession SpartaModel ExecModel DetectModel DetectSpec DetectProofs DetectErrors DetectErrors2 DetectErrors3 DetectStay Properties_Detect Properties_Detect2 MainModel MainProofs MainInst TemplAtari TemplData.

(** The header under which an image with 16 header bytes [hd] and [size] others is read. *)
Definition header_for (hd : list Z) (size : Z) : res hdr := let! h0 := atr_header hd in check_size h0 size.
(** The count of bytes a KBoot disk has in its first sector. *)
Definition kboot_count (boot : list Z) : Z := getb boot 9 + 256 * getb boot 10 + 256 * 256 * getb boot 11.
Definition recognised_ok (ss mx : Z) (boot : list Z) : bool :=
  let n := 400 + ss * (mx - 3) in
  negb (zmem (getb boot 32) [0x11; 0x20; 0x21]) && ((n <? 400 + kboot_count boot) || (400 + kboot_count boot <? n - 128)).

Section Templ.
  Variables ss skew mx : Z.
  Variables hd boot : list Z.
  Variable t : tab.
  Variable cs : list (list Z).
  Variable h : hdr.
  Hypothesis Hss : 128 <= ss <= 256.
  Hypothesis H16 : ss mod 16 = 0.
  Hypothesis Hskew : 3 * ss - skew = 384.
  Hypothesis Hmx : 368 <= mx.
  Hypothesis Lh : zlen hd = 16.
  Hypothesis Lb : zlen boot = 384.
  Hypothesis Bh : forallb is_byte_b hd = true.
  Hypothesis Bb : forallb is_byte_b boot = true.
  Hypothesis OK : disk_ok ss mx t cs = true.
  Hypothesis Hhd : header_for hd (384 + ss * (mx - 3)) = Ok h.
  Hypothesis Hg : geom_of h = mkG 16 ss skew mx.
  Hypothesis Hp1 : get_pos h 1 = Ok (16, 128).
  Hypothesis Hp4 : get_pos h 4 = Ok (400, ss).
  Hypothesis Hed : h_image_size h = 133120 -> 1024 <= mx.
  Hypothesis Hle : le2 (getb hd 4) (getb hd 5) = ss.
  Hypothesis Hrec : recognised_ok ss mx boot = true.

  Let b := atr_image ss mx hd boot t.
  Let im := view h b (zlen cs).

  Lemma templ_disk : dos2_disk (geom_of h) b (zlen cs).
  Proof. rewrite Hg. apply disk_ok_sound; assumption. Qed.
  Lemma templ_zlen : zlen b = 400 + ss * (mx - 3).
  Proof. apply (zlen_t ss mx hd boot t cs); assumption. Qed.
  Lemma templ_head : slice b 0 16 = hd.
  Proof. unfold b, atr_image. rewrite slice_app_l by lia. apply slice_all. lia. Qed.
  Lemma templ_boot i : 0 <= i < 384 -> getb b (16 + i) = getb boot i.
  Proof.
    intros Hi. unfold b, atr_image. rewrite getb_app_r by lia. rewrite Lh. rewrite getb_app_l by lia. f_equal. lia.
  Qed.
  Lemma templ_hdr : hdr_of b = Ok h.
  Proof.
    unfold hdr_of, read_header. rewrite templ_head. unfold header_for in Hhd. destruct (atr_header hd) as [h0|] eqn:E; [|discriminate]. cbn [rbind] in Hhd.
    assert (O : h_offset h0 = 16).
    { unfold atr_header in E. rewrite Lh in E. cbn [Z.eqb Pos.eqb] in E. destruct (negb _); [discriminate|]. injection E as <-. reflexivity. }
    rewrite O, templ_zlen. replace (400 + ss * (mx - 3) - 16) with (384 + ss * (mx - 3)) by ring. exact Hhd.
  Qed.
  Lemma templ_ssize : h_ssize h = ss.
  Proof. change (h_ssize h) with (g_ss (geom_of h)). rewrite Hg. reflexivity. Qed.
  Lemma templ_max : h_max h = mx.
  Proof. change (h_max h) with (g_max (geom_of h)). rewrite Hg. reflexivity. Qed.
  Lemma templ_offset : h_offset h = 16.
  Proof. change (h_offset h) with (g_off (geom_of h)). rewrite Hg. reflexivity. Qed.
  Lemma templ_hgeo : hgeo h b.
  Proof.
    apply hdr_of_hgeo; [exact templ_hdr| | | |]; rewrite ?templ_ssize, ?templ_max; assumption.
  Qed.
  Lemma templ_consistent : consistent im.
  Proof. apply view_consistent; [exact templ_hgeo|exact templ_disk|exact templ_hdr]. Qed.
  Lemma templ_sparta : ~ sparta_boot_record b.
  Proof.
    intros (h' & s & E' & BI). assert (h' = h) by (pose proof templ_hdr as Hh; unfold hdr_of in Hh; unfold atari_header in E'; congruence). subst h'.
    unfold boot_sector_info, get_sectors, get_sector_slice in BI. rewrite Hp1 in BI. cbn [rbind] in BI. change (Z.to_nat (1 - 1)) with 0%nat in BI. cbn [more_sectors rbind] in BI. cbv zeta in BI.
    destruct (zlen _ =? 0); [discriminate|]. destruct (negb (_ =? 33)); [discriminate|].
    rewrite (slice_slice b) in BI by lia. rewrite (getb_slice b (16 + 0) (16 + 33) 32) in BI by lia. change (16 + 0 + 32) with (16 + 32) in BI. rewrite (templ_boot 32) in BI by lia.
    unfold recognised_ok in Hrec. cbv zeta in Hrec. apply andb_prop in Hrec. destruct Hrec as [R _]. apply negb_true_iff in R. rewrite R in BI.
    rewrite andb_false_r in BI. discriminate.
  Qed.
  Lemma templ_kboot e : refuses (parse e true PKBoot b).
  Proof.
    unfold refuses, parse. cbn [parse_image]. unfold kboot_open. pose proof templ_hdr as Hh. unfold hdr_of in Hh. cbv zeta in *. rewrite Hh. cbn [rbind].
    rewrite Hp4. cbn [rbind]. rewrite templ_offset, templ_zlen. replace (_ <=? 16 + 9 + 2) with false by nia.
    change (16 + 9 + 1) with (16 + 10). change (16 + 9 + 2) with (16 + 11). rewrite !templ_boot by lia.
    unfold recognised_ok in Hrec. cbv zeta in Hrec. apply andb_prop in Hrec. destruct Hrec as [_ R]. unfold kboot_count in R. rewrite R. reflexivity.
  Qed.
  Lemma templ_usual : usual_sectors b.
  Proof.
    intros _. right. assert (G : forall i, 0 <= i < 16 -> getb b i = getb hd i) by (intros i Hi; unfold b, atr_image; apply getb_app_l; lia).
    rewrite !G by lia. rewrite Hle. split; [lia|]. Z.to_euclidean_division_equations; lia.
  Qed.
  Lemma templ_recognised e : settled e b -> disk e im.
  Proof.
    intros U. split; [exact templ_consistent|]. split; [|split; [exact templ_sparta|exact U]].
    apply detect_atari; [exact templ_consistent|apply U; [reflexivity|reflexivity]|exact (templ_kboot e)| |].
    - apply sparta_refuses; [exact (dk_bytes _ _ _ templ_disk)|exact templ_usual|exact templ_sparta].
    - unfold atr_strict. cbn [im view a_hdr]. rewrite templ_offset. reflexivity.
  Qed.
  Lemma templ_listing : zlen cs <= 64 ->
    listing im = map (fun i => e_name (tslot ss t i)) (filter (fun i => flag_bit (e_flag (tslot ss t i)) 64) (zrange 0 (zlen cs))).
  Proof.
    intros L. unfold im. rewrite listing_view. unfold live_slots. rewrite Hg.
    assert (S0 : forall i, In i (zrange 0 (zlen cs)) -> slot (mkG 16 ss skew mx) b i = tslot ss t i).
    { intros i Hi. apply In_zrange in Hi. apply (slot_t ss skew mx hd boot t cs); try assumption. Z.to_euclidean_division_equations; lia. }
    induction (zrange 0 (zlen cs)) as [|i l IH]; [reflexivity|]. cbn [filter map]. rewrite (S0 i) by (left; reflexivity).
    destruct (flag_bit _ _); cbn [map]; rewrite IH by (intros j Hj; apply S0; right; exact Hj); [|reflexivity]. rewrite (S0 i) by (left; reflexivity). reflexivity.
  Qed.
  Lemma templ_file i : 0 <= i < zlen cs -> has_b (tslot ss t i) 64 = true ->
    find_file im (e_name (tslot ss t i)) = Ok (flat_map (fun n => let s := tsec ss t n in slice s 0 (link_used s)) (nth (Z.to_nat i) cs [])).
  Proof.
    intros Hi Lv. pose proof OK as K. unfold disk_ok in K. cbv zeta in K. apply andb_prop in K; destruct K as [K Kf]. do 3 (apply andb_prop in K; destruct K as [K _]). apply andb_prop in K; destruct K as [_ Kk].
    rewrite forallb_forall in Kf. specialize (Kf i (proj2 (In_zrange i _ _) Hi)). unfold file_ok in Kf. rewrite Lv in Kf. cbn [negb orb] in Kf.
    apply andb_prop in Kf; destruct Kf as [Kf _]. apply andb_prop in Kf; destruct Kf as [K1 K3]. apply andb_prop in K1; destruct K1 as [K1 _].
    assert (F0 : 0 <= i) by lia.
    pose proof (chain_t ss skew mx hd boot t cs Hss H16 Hskew Hmx Lh Lb Bh Bb OK i F0 (nth (Z.to_nat i) cs []) _ K3) as [CH _].
    assert (S0 : slot (mkG 16 ss skew mx) b i = tslot ss t i) by (apply (slot_t ss skew mx hd boot t cs); try assumption; Z.to_euclidean_division_equations; lia).
    rewrite (find_of_file_in h b (zlen cs) _ i (nth (Z.to_nat i) cs []) templ_hgeo templ_disk).
    - rewrite Hg. f_equal. apply (contents_t ss skew mx hd boot t cs Hss H16 Hskew Hmx Lh Lb Bh Bb OK i _ _ F0 K3).
    - rewrite Hg. unfold file_in. rewrite S0. split; [exact Hi|]. split; [unfold e_live, flag_has; unfold has_b in Lv; lia|]. split; [reflexivity|]. unfold slot_chain. rewrite S0, owner_dos2; [exact CH|]. unfold flag_has. unfold has_b in K1. lia.
  Qed.
End Templ.
