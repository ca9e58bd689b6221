(** C86 for SpartaDOS disks: what `vtoc` prints. *)
From Verif Require Import Base BaseLemmas DiskModel AtariModel AtariSpec AtariGeom AtariHeader AtariBlank AtariProps SpartaModel SpartaSpec SpartaProofs SpartaProofs2 SpartaWhole CliModel MainModel TextModel TextOpen DetectModel DetectSpec Properties_Sparta2 Properties_Main.
From Verif Require Properties_Sparta Properties_Atari Properties_Text.
From Coq Require Import String.
Local Open Scope string_scope.
Local Open Scope Z_scope.

(** __init__.py 616-618 with utils.py 306-307: the text `vtoc` prints.  The VTOC class is
    inherited from Atari DOS (ataridos.py 469-471), and so are tracks and sectors. *)
Definition sparta_vtoc_text (im : simg) : res (list Z) :=
  let! m := sparta_vtoc im in Ok (vtoc_text 40 18 1 m).

Section Bitmap.
  Variables (b : list Z) (h : hdr).
  Hypothesis Hb : bytes_ok b.
  Hypothesis Hh : hdr_of b = Ok h.
  Let g := geom_of h.
  Lemma more_bits m : forall n start count, start <> 0 -> (forall i, n <= i < n + Z.of_nat m -> usable g i) ->
    contig_loop h (zrange n (n + Z.of_nat m)) start count = Ok (start, count + Z.of_nat m * g_ss g).
  Proof.
    induction m as [|m IH]; intros n start count S0 U.
    - rewrite zrange_nil by lia. cbn [contig_loop]. do 2 f_equal. lia.
    - rewrite zrange_cons by lia. cbn [contig_loop]. assert (P : get_pos h n = Ok (spos g n, g_ss g)) by (apply (pos_usable b h Hb Hh n); apply U; lia). rewrite P. cbn [rbind].
      replace (start =? 0) with false by lia. replace (n + Z.of_nat (S m)) with (n + 1 + Z.of_nat m) by lia. rewrite IH; [do 2 f_equal; rewrite Nat2Z.inj_succ; ring|exact S0|]. intros i Hi. apply U. lia.
  Qed.
  Lemma bits_at first num : 0 < spos g first -> 0 < num -> (forall i, first <= i < first + num -> usable g i) ->
    contig_loop h (zrange first (first + num)) 0 0 = Ok (spos g first, num * g_ss g).
  Proof.
    intros S0 N U. rewrite zrange_cons by lia. cbn [contig_loop]. assert (P : get_pos h first = Ok (spos g first, g_ss g)) by (apply (pos_usable b h Hb Hh first); apply U; lia). rewrite P. cbn [rbind Z.eqb].
    replace (first + num) with (first + 1 + Z.of_nat (Z.to_nat (num - 1))) by lia. rewrite more_bits; [do 2 f_equal; rewrite Z2Nat.id by lia; ring|lia|]. intros i Hi. apply U. lia.
  Qed.
End Bitmap.

(** The bitmap of a disk: in sectors of the disk after the first, of 128 bytes or more. *)
Record has_bitmap (g : geom) (b : list Z) : Prop := mkBitmap {
  hb_ss : 128 <= g_ss g;
  hb_first : 2 <= boot_word g b 16;
  hb_num : 1 <= boot_byte g b 15;
  hb_on : forall n, boot_word g b 16 <= n < boot_word g b 16 + boot_byte g b 15 -> usable g n;
  hb_last : boot_word g b 16 + boot_byte g b 15 < 65536;
  hb_in : 0 < spos g (boot_word g b 16) /\ spos g (boot_word g b 16) + 100 <= zlen b }.

Lemma sparta_map b h im : bytes_ok b -> hdr_of b = Ok h -> s_bytes im = b -> s_hdr im = h -> s_bitmap im = boot_word (geom_of h) b 16 -> s_nbitmap im = boot_byte (geom_of h) b 15 ->
  has_bitmap (geom_of h) b ->
  exists m, sparta_vtoc im = Ok m /\ zlen m = 1280 /\
    (forall n, 0 <= n < 720 -> getb m n = s_free_bit (geom_of h) b (n + 80)) /\ (forall n, 720 <= n -> getb m n = 0).
Proof.
  intros Hb Hh I1 I2 I3 I4 [B1 B2 B3 B4 Sm [B5 B6]]. unfold sparta_vtoc, sbitmap_bounds. rewrite I1, I2, I3, I4. unfold u16. rewrite Z.mod_small by lia.
  rewrite (bits_at b h Hb Hh) by (assumption || lia). cbn [rbind]. set (p := spos (geom_of h) (boot_word (geom_of h) b 16)) in *. set (c := boot_byte (geom_of h) b 15 * g_ss (geom_of h)).
  assert (Hc : 128 <= c) by (unfold c; nia). set (v := slice b p (p + c)).
  assert (Gv : forall i, 0 <= i < 100 -> getb v i = getb b (p + i)) by (intros i Hi; unfold v; apply getb_slice; lia).
  assert (Bv : bytes_ok v) by (apply bytes_ok_slice; exact Hb).
  destruct (parse_vtoc v) as [m|e] eqn:P.
  - destruct (Properties_Atari.C14_atari_bitmap_decode v m P Bv) as (_ & M1 & M2 & M3). exists m. split; [reflexivity|]. split; [exact M1|]. split; [|exact M3].
    intros n Hn. rewrite M2 by exact Hn. assert (n / 8 < 90) by (apply Z.div_lt_upper_bound; lia). assert (0 <= n / 8) by (apply Z.div_pos; lia). rewrite Gv by lia. unfold s_free_bit. fold p.
    replace ((n + 80) / 8) with (10 + n / 8) by (replace (n + 80) with (n + 10 * 8) by lia; rewrite Z.div_add by lia; lia).
    replace ((n + 80) mod 8) with (n mod 8) by (replace (n + 80) with (n + 10 * 8) by lia; rewrite Z.mod_add by lia; reflexivity). reflexivity.
  - exfalso. unfold parse_vtoc in P. destruct (zlen (unpackbits (slice v 0x0a 0x64)) =? 720) eqn:Q; [discriminate|]. apply Z.eqb_neq in Q. apply Q.
    rewrite zlen_unpackbits. rewrite zlen_slice_min by lia. unfold v. rewrite zlen_slice_min by lia. lia.
Qed.

Lemma filter_none {A} (f : A -> bool) l : (forall x, In x l -> f x = false) -> filter f l = [].
Proof. induction l as [|x l IH]; intros H; [reflexivity|]. cbn [filter]. rewrite H by (left; reflexivity). apply IH. intros y Hy. apply H. right. exact Hy. Qed.
(** For every sector [n] of the first 719 a digit is printed, at a place that depends on [n]
    only; but it tells whether sector [n + 80] is free.  The image is not changed. *)
Theorem C86_sparta_partial w o f img h b dir k secs : sparta_at w f img h b dir k secs -> has_bitmap (geom_of h) b ->
  main w o f img (KVtoc false) = (f, [], Ok tt) /\
  exists im t, open_sparta b = Ok im /\ sparta_vtoc_text im = Ok t /\
    (forall track s, 0 <= track < 40 -> 0 <= s < 18 ->
       let n := 18 * track + s + 1 in
       getb t (49 * track + 12 + 2 * s) = if n <? 720 then 48 + s_free_bit (geom_of h) b (n + 80) else 48) /\
    slice t (40 * 49) (zlen t) = 10 :: txt " (" ++ dec (zlen (filter (fun n => s_free_bit (geom_of h) b n =? 1) (zrange 80 800))) ++ txt " free)".
Proof.
  intros T B. destruct (run_sparta w f img h b dir k secs T) as (im & O & _ & M). destruct T as [_ _ Hh W _ _ _ _].
  destruct (whole_open b h dir k secs Hh W) as (im' & O' & I1 & I2 & I3 & I4 & _). rewrite O in O'. injection O' as <-.
  pose proof (wh_disk _ _ _ _ _ W) as D. pose proof (sk_bytes _ _ _ _ D) as Hb.
  destruct (sparta_map b h im Hb Hh I1 I2 I3 I4 B) as (m & Em & L & M1 & M2).
  split. { rewrite M by (cbn; auto; discriminate). cbn [image_command]. rewrite Em. reflexivity. }
  exists im, (vtoc_text 40 18 1 m). split; [exact O|]. split; [unfold sparta_vtoc_text; rewrite Em; reflexivity|].
  destruct (vtoc_text_spec 40 18 1 m) as [A C]; [lia..|]. split.
  - intros track s Ht Hs'. cbv zeta. change 49 with (2 * 18 + 13). rewrite A by assumption. destruct (Z.ltb_spec (18 * track + s + 1) 720); [rewrite M1 by lia|rewrite M2 by lia]; reflexivity.
  - change (40 * 49) with (40 * (2 * 18 + 13)). rewrite C. do 4 f_equal.
    unfold count_ones. rewrite <- (Properties_Text.map_getb m) at 1. rewrite L. rewrite (zrange_app 0 720 1280) by lia. rewrite map_app, filter_app, zlen_app.
    assert (Z0 : filter (fun x => x =? 1) (map (getb m) (zrange 720 1280)) = []).
    { apply filter_none. intros x Hx. apply in_map_iff in Hx. destruct Hx as (n & <- & Hn). apply In_zrange in Hn. rewrite M2 by lia. reflexivity. }
    rewrite Z0. change (zlen (@nil Z)) with 0. rewrite Z.add_0_r. unfold zrange. change (Z.to_nat (800 - 80)) with (Z.to_nat (720 - 0)). change 80 with (0 + 80).
    assert (Q : forall j a, 0 <= a -> a + Z.of_nat j <= 720 -> zlen (filter (fun x => x =? 1) (map (getb m) (zseq_nat a j))) = zlen (filter (fun n => s_free_bit (geom_of h) b n =? 1) (zseq_nat (a + 80) j))).
    { induction j as [|j IH]; intros a Ha Hj; [reflexivity|]. cbn [zseq_nat map filter]. rewrite M1 by lia. specialize (IH (a + 1) ltac:(lia) ltac:(lia)). replace (a + 1 + 80) with (a + 80 + 1) in IH by lia.
      destruct (s_free_bit (geom_of h) b (a + 80) =? 1); [rewrite !zlen_cons, IH; reflexivity|exact IH]. }
    apply Q; lia.
Qed.
Print Assumptions C86_sparta_partial.

Example C86_sparta_example : sparta_at w0 demo_files p_sparta demo_atr_h demo_atr Properties_Sparta.demo_dir 2 demo_secs /\ has_bitmap (geom_of demo_atr_h) demo_atr.
Proof.
  split; [exact demo_at|]. constructor; try (vm_compute; congruence); [|split; [reflexivity|vm_compute; congruence]].
  intros n Hn. change (boot_word (geom_of demo_atr_h) demo_atr 16) with 2 in Hn. change (boot_byte (geom_of demo_atr_h) demo_atr 15) with 1 in Hn. assert (n = 2) by lia. subst n. apply demo_us. lia.
Qed.
(** So sector 6, which belongs to a file, is shown as free when sector 86 is. *)
Theorem C86_sparta_refuted : exists b h im t, hdr_of b = Ok h /\ open_sparta b = Ok im /\ is_file (geom_of h) b 5 [6] /\ s_free_bit (geom_of h) b 6 = 0 /\
  sparta_vtoc_text im = Ok t /\ getb t (12 + 2 * 5) = 49.
Proof.
  set (h := mkH 0 11520 128 0 0 125 90 0 0 0). set (b := Properties_Sparta.shred_disk).
  assert (C : match open_sparta b with Ok im => match sparta_vtoc_text im with Ok t => getb t (12 + 2 * 5) =? 49 | Err _ => false end | Err _ => false end = true) by (vm_compute; reflexivity).
  destruct (open_sparta b) as [im|] eqn:O; [|discriminate C]. destruct (sparta_vtoc_text im) as [t|] eqn:T; [|discriminate C]. apply Z.eqb_eq in C.
  exists b, h, im, t. split; [vm_compute; reflexivity|]. split; [exact O|]. split.
  { exists [5], (map_entries (sector (geom_of h) b 5)). split; [apply map_end; [split; [cbn; lia|left; reflexivity]|vm_compute; reflexivity]|].
    split; [exists (zrepeat 0 60); split; [vm_compute; reflexivity|intros [H|[]]; discriminate H]|]. constructor; [|constructor]. split; [cbn; lia|left; reflexivity]. }
  split; [vm_compute; reflexivity|]. split; [exact T|exact C].
Qed.
Print Assumptions C86_sparta_refuted.
