(** C86: sector maps of disks with more than 720 sectors. *)
From Coq Require Import String.
From Verif Require Import Base BaseLemmas DiskModel AtariModel AtariSpec AtariGeom AtariOps DetectModel DetectSpec DetectStay Properties_Detect Properties_Detect2 TemplAtari TemplData Properties_Templ TextModel TextProofs Properties_Text Properties_Main.

(** The shipped disk dos2ed.atr has 1040 sectors, 303 of which are free according to its
    second table (sector 1024); of these neither the state nor the number is shown. *)
Theorem C86_large_disks_refuted : exists im t, a_bytes im = dos2ed /\ zlen (a_bytes im) = 16 + 128 * 1040 /\ consistent im /\ atari_vtoc_text im = Ok t /\
  zlen t < 1040 * 2 /\ slice t 1960 (zlen t) = 10 :: txt " (707 free)" /\ le2 (getb (sector (mkG 16 128 0 1040) dos2ed 1024) 122) (getb (sector (mkG 16 128 0 1040) dos2ed 1024) 123) = 303.
Proof.
  destruct (C79_atari_templates env0 (nth 2 atari_templates (mkT [] [] [] 0))) as (im & B & (C & _) & _ & F & _).
  - right; right; left. reflexivity.
  - apply settled0. reflexivity.
  - cbn [nth atari_templates t_bytes t_free] in B, F. destruct (C86_atari_vtoc_partial im C) as (t & E & _ & T). rewrite <- B in F. rewrite F in T.
    change (40 * 49) with 1960 in T. exists im, t. split; [exact B|].
    assert (L : zlen (a_bytes im) = 16 + 128 * 1040).
    { rewrite B. unfold dos2ed. rewrite (zlen_t 128 1040 dos2ed_head dos2ed_boot dos2ed_tab dos2ed_files); [reflexivity| ..]; first [lia|vm_compute; reflexivity]. }
    split; [exact L|]. split; [exact C|]. split; [exact E|].
    split; [|split; [exact T|]].
    + apply (f_equal zlen) in T. rewrite zlen_slice_min in T by lia. change (zlen (10 :: txt " (" ++ dec 707 ++ txt " free)")) with 12 in T. lia.
    + unfold dos2ed. rewrite (sector_t 128 0 1040 dos2ed_head dos2ed_boot dos2ed_tab dos2ed_files); [vm_compute; reflexivity| ..]; first [lia|vm_compute; reflexivity].
Qed.
Print Assumptions C86_large_disks_refuted.
