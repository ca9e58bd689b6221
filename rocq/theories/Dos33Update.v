(** When a change to the bytes of a consistent disk leaves it consistent:
    every entry except possibly one, [j], keeps its file. *)
From Verif Require Import Base BaseLemmas DiskModel DirLemmas AtariVtoc Dos33Model Dos33Spec Dos33Geom Dos33Vtoc Dos33Dir Dos33Files.

(** What the entry in slot [j] must be. *)
Definition new_slot_ok (b cat : list Z) (k : Z) (b' : list Z) (j : Z) : Prop :=
  let e' := slot3 b' cat j in
  x_used e' /\ rstrip (x_name e') = x_name e' /\
  (forall i, 0 <= i < k -> i <> j -> x_live (slot3 b cat i) -> x_name (slot3 b cat i) <> x_name e') /\
  (x_live e' ->
     (forall i, 0 <= i < j -> x_live (slot3 b cat i)) /\
     getb e' 0 <> 0 /\ x_type e' <> 0 /\
     exists tl dl, file_at b' e' tl dl /\ dl <> [] /\ NoDup (tl ++ dl) /\
       forall n, In n (tl ++ dl) -> data_sector3 cat n /\ free_bit3 b' n = 0 /\
         forall i tl' dl', 0 <= i < k -> i <> j -> x_live (slot3 b cat i) ->
           file_at b (slot3 b cat i) tl' dl' -> ~ In n (tl' ++ dl')).

Record update3 (b cat : list Z) (k : Z) (b' : list Z) (k' j : Z) : Prop := mkU {
  u_disk : dos33_disk b cat k;
  u_len : zlen b' = 143360;
  u_bytes : bytes_ok b';
  u_boot : sec b' 0 = sec b 0;
  u_head : forall i, 0 <= i < 56 -> getb (vtoc b') i = getb (vtoc b) i;
  u_links : forall n, In n cat -> lnk (sec b' n) = lnk (sec b n);
  u_free : forall n, 0 <= n < 800 -> free_bit3 b' n = 1 -> data_sector3 cat n;
  u_k : k <= k' <= 7 * (zlen cat - 1);
  u_kept : forall i, 0 <= i < k' -> i <> j -> i < k /\ same_ent (slot3 b cat i) (slot3 b' cat i);
  u_unused : forall i, k' <= i < 7 * zlen cat -> ~ x_used (slot3 b' cat i);
  u_sec : forall i tl dl n, 0 <= i < k -> i <> j -> x_live (slot3 b cat i) ->
      file_at b (slot3 b cat i) tl dl -> In n (tl ++ dl) -> sec b' n = sec b n /\ free_bit3 b' n = 0;
  u_new : 0 <= j < k' -> new_slot_ok b cat k b' j
}.

Lemma flat_map_sec_ext b b' l : (forall n, In n l -> sec b' n = sec b n) ->
  flat_map (fun n => pairs (sec b' n)) l = flat_map (fun n => pairs (sec b n)) l.
Proof. intros H. apply flat_map_ext_in. intros n Hn. rewrite H by assumption. reflexivity. Qed.

Lemma file_at_keep b b' e e' tl dl : x_start e' = x_start e -> x_count e' = x_count e ->
  (forall n, In n tl -> sec b' n = sec b n) -> file_at b e tl dl -> file_at b' e' tl dl.
Proof.
  intros Hs Hc Hsec (L & Hn & rest & Hr). unfold file_at. rewrite Hs, Hc. split; [|split; [assumption|]].
  - apply (links_ext b); [|assumption]. intros m Hm. rewrite Hsec by assumption. reflexivity.
  - exists rest. rewrite <- Hr. apply flat_map_sec_ext. assumption.
Qed.

Section U.
  Variables (b cat : list Z) (k : Z) (b' : list Z) (k' j : Z).
  Hypothesis U : update3 b cat k b' k' j.
  Let D := u_disk _ _ _ _ _ _ U.

  Lemma kept_live i : 0 <= i < k' -> i <> j -> (x_live (slot3 b' cat i) <-> x_live (slot3 b cat i)).
  Proof.
    intros Hi Hj. destruct (u_kept _ _ _ _ _ _ U i Hi Hj) as [Hik (Hn & Hd & Hl)]. split.
    - intros [L0 L2]. destruct (k3_used _ _ _ D i ltac:(lia)) as [[Hu|Hu] _]; [|assumption].
      apply Hd in Hu. contradiction.
    - intros L. apply Hl, L.
  Qed.
  Lemma kept_file i tl dl : 0 <= i < k -> i <> j -> x_live (slot3 b cat i) ->
    file_at b (slot3 b cat i) tl dl ->
    file_at b' (slot3 b' cat i) tl dl /\ contents3 b' dl = contents3 b dl.
  Proof.
    intros Hi Hj L F. pose proof (u_k _ _ _ _ _ _ U).
    destruct (u_kept _ _ _ _ _ _ U i ltac:(lia) Hj) as [_ (Hn & _ & Hl)].
    destruct (Hl L) as (_ & _ & Hs & Hc & _). split.
    - apply (file_at_keep b b' (slot3 b cat i)); try assumption.
      intros n Hin. apply (u_sec _ _ _ _ _ _ U i tl dl n Hi Hj L F). apply in_or_app; auto.
    - unfold contents3. apply flat_map_ext_in. intros n Hin.
      apply (u_sec _ _ _ _ _ _ U i tl dl n Hi Hj L F). apply in_or_app; auto.
  Qed.
  (** The file of a kept entry is the old one. *)
  Lemma kept_file_inv i tl dl : 0 <= i < k' -> i <> j -> x_live (slot3 b' cat i) ->
    file_at b' (slot3 b' cat i) tl dl ->
    i < k /\ x_live (slot3 b cat i) /\ file_at b (slot3 b cat i) tl dl.
  Proof.
    intros Hi Hj L F. destruct (u_kept _ _ _ _ _ _ U i Hi Hj) as [Hik _].
    apply (kept_live i Hi Hj) in L. split; [assumption|]. split; [assumption|].
    destruct (k3_files _ _ _ D i ltac:(lia) L) as (_ & _ & tl0 & dl0 & F0 & _).
    destruct (kept_file i tl0 dl0 ltac:(lia) Hj L F0) as [F1 _].
    destruct (file_at_det _ _ _ _ _ _ F F1) as [-> ->]. assumption.
  Qed.

  Lemma lnk_vtoc_same : lnk (vtoc b') = lnk (vtoc b).
  Proof. unfold lnk. rewrite !(u_head _ _ _ _ _ _ U) by lia. reflexivity. Qed.

  Lemma update_ok : dos33_disk b' cat k'.
  Proof.
    pose proof (u_k _ _ _ _ _ _ U) as Hk. pose proof (k3_k _ _ _ D) as Hk0.
    constructor.
    - apply (u_bytes _ _ _ _ _ _ U).
    - apply (u_len _ _ _ _ _ _ U).
    - replace (slice b' 0 4) with (slice b 0 4); [apply (k3_boot _ _ _ D)|].
      replace (slice b 0 4) with (slice (sec b 0) 0 4) by (unfold sec; rewrite slice_slice by lia; reflexivity).
      rewrite <- (u_boot _ _ _ _ _ _ U). unfold sec. rewrite slice_slice by lia. reflexivity.
    - rewrite !(u_head _ _ _ _ _ _ U) by lia. apply (k3_release _ _ _ D).
    - rewrite !(u_head _ _ _ _ _ _ U) by lia. apply (k3_pairs _ _ _ D).
    - rewrite !(u_head _ _ _ _ _ _ U) by lia. apply (k3_geom _ _ _ D).
    - rewrite lnk_vtoc_same. apply (links_ext b); [apply (u_links _ _ _ _ _ _ U)|apply (k3_cat _ _ _ D)].
    - apply (k3_cat_vtoc _ _ _ D).
    - apply (u_free _ _ _ _ _ _ U).
    - lia.
    - intros i Hi. destruct (Z.eq_dec i j) as [->|Hj].
      + destruct (u_new _ _ _ _ _ _ U Hi) as (H1 & H2 & _). auto.
      + destruct (u_kept _ _ _ _ _ _ U i Hi Hj) as [Hik (Hn & Hd & Hl)].
        destruct (k3_used _ _ _ D i ltac:(lia)) as [Hu Hr]. rewrite Hn. split; [|assumption].
        destruct Hu as [Hu|Hu]; [left; apply Hd; assumption|right; apply Hl; assumption].
    - apply (u_unused _ _ _ _ _ _ U).
    - intros i i' Hii Hi' L. destruct (Z.eq_dec i' j) as [->|Hj'].
      + destruct (u_new _ _ _ _ _ _ U ltac:(lia)) as (_ & _ & H3 & H4). destruct (H4 L) as (H5 & _).
        destruct (u_kept _ _ _ _ _ _ U i ltac:(lia) ltac:(lia)) as [Hik (Hn & _)]. rewrite Hn.
        apply H3; [lia|lia|apply H5; lia].
      + apply (kept_live i' ltac:(lia) Hj') in L.
        destruct (u_kept _ _ _ _ _ _ U i' ltac:(lia) Hj') as [Hik' (Hn' & _)]. rewrite Hn'.
        destruct (Z.eq_dec i j) as [->|Hj].
        * destruct (u_new _ _ _ _ _ _ U ltac:(lia)) as (_ & _ & H3 & _).
          apply not_eq_sym. apply H3; [lia|assumption|assumption].
        * destruct (u_kept _ _ _ _ _ _ U i ltac:(lia) Hj) as [Hik (Hn & _)]. rewrite Hn.
          apply (k3_names _ _ _ D); [lia|lia|assumption].
    - intros i Hi L. destruct (Z.eq_dec i j) as [->|Hj].
      + destruct (u_new _ _ _ _ _ _ U Hi) as (_ & _ & _ & H4).
        destruct (H4 L) as (_ & H5 & H6 & tl & dl & F & Hne & Hnd & Hds).
        split; [assumption|]. split; [assumption|]. exists tl, dl. split; [assumption|].
        split; [assumption|]. split; [assumption|]. intros n Hn. destruct (Hds n Hn) as (? & ? & _). auto.
      + pose proof L as L'. apply (kept_live i Hi Hj) in L.
        destruct (u_kept _ _ _ _ _ _ U i Hi Hj) as [Hik (_ & _ & Hl)].
        destruct (Hl L) as (_ & Ht & _ & _ & H0). rewrite Ht, H0.
        destruct (k3_files _ _ _ D i ltac:(lia) L) as (T0 & T1 & tl & dl & F & Hne & Hnd & Hds).
        split; [assumption|]. split; [assumption|]. exists tl, dl.
        destruct (kept_file i tl dl ltac:(lia) Hj L F) as [F' _].
        split; [assumption|]. split; [assumption|]. split; [assumption|].
        intros n Hn. split; [apply Hds; assumption|].
        apply (u_sec _ _ _ _ _ _ U i tl dl n ltac:(lia) Hj L F Hn).
    - intros i i' tl dl tl' dl' n Hi L F Hn Hi' L' F' Hn'.
      destruct (Z.eq_dec i i') as [|Hne]; [assumption|exfalso].
      assert (G : forall i i' tl dl tl' dl', 0 <= i < k' -> 0 <= i' < k' ->
          i' <> j -> i = j -> x_live (slot3 b' cat i) -> x_live (slot3 b' cat i') ->
          file_at b' (slot3 b' cat i) tl dl -> file_at b' (slot3 b' cat i') tl' dl' ->
          In n (tl ++ dl) -> In n (tl' ++ dl') -> False).
      { clear - U D. intros i i' tl dl tl' dl' Hi Hi' Hj' -> L L' F F' Hn Hn'.
        destruct (u_new _ _ _ _ _ _ U Hi) as (_ & _ & _ & H4).
        destruct (H4 L) as (_ & _ & _ & tl0 & dl0 & F0 & _ & _ & Hds).
        destruct (file_at_det _ _ _ _ _ _ F F0) as [-> ->].
        destruct (Hds n Hn) as (_ & _ & Hno).
        destruct (kept_file_inv i' tl' dl' Hi' Hj' L' F') as (Hk' & Lk & Fk).
        apply (Hno i' tl' dl' ltac:(lia) Hj' Lk Fk Hn'). }
      destruct (Z.eq_dec i j) as [Ej|Hj].
      + apply (G i i' tl dl tl' dl'); try assumption. lia.
      + destruct (Z.eq_dec i' j) as [Ej'|Hj'].
        * apply (G i' i tl' dl' tl dl); assumption.
        * destruct (kept_file_inv i tl dl Hi Hj L F) as (Ka & La & Fa).
          destruct (kept_file_inv i' tl' dl' Hi' Hj' L' F') as (Kb & Lb & Fb).
          apply Hne. apply (k3_own _ _ _ D i i' tl dl tl' dl' n); try assumption; lia.
  Qed.
End U.

(** Only the VTOC changes, and no sector becomes free. *)
Lemma vtoc_only b cat k b' : dos33_disk b cat k -> zlen b' = 143360 -> bytes_ok b' ->
  (forall n, 0 <= n < 560 -> n <> 272 -> sec b' n = sec b n) ->
  (forall i, 0 <= i < 56 -> getb (vtoc b') i = getb (vtoc b) i) ->
  (forall n, 0 <= n < 800 -> free_bit3 b n = 0 -> free_bit3 b' n = 0) ->
  update3 b cat k b' k (-1).
Proof.
  intros D Hl Hb Hs Hh Hf.
  assert (Hcat : forall n, In n cat -> sec b' n = sec b n).
  { intros n Hn. pose proof (cat_range b cat k D) as Hr. rewrite Forall_forall in Hr.
    apply Hs; [apply Hr; assumption|]. intros ->. apply (k3_cat_vtoc _ _ _ D). assumption. }
  assert (Hslot : forall i, slot3 b' cat i = slot3 b cat i).
  { intros i. unfold slot3, catalog. f_equal. apply flat_map_ext_in. intros n Hn. rewrite Hcat by assumption. reflexivity. }
  constructor; try assumption.
  - apply Hs; lia.
  - intros n Hn. rewrite Hcat by assumption. reflexivity.
  - intros n Hn E. apply (k3_free _ _ _ D n Hn). destruct (free_bit3_bit b n) as [E0|E1]; [|assumption].
    rewrite Hf in E; [discriminate|assumption|assumption].
  - pose proof (k3_k _ _ _ D). lia.
  - intros i Hi _. split; [lia|]. rewrite Hslot. unfold same_ent. tauto.
  - intros i Hi. rewrite Hslot. apply (k3_unused _ _ _ D). assumption.
  - intros i tl dl n Hi _ L F Hn.
    destruct (k3_files _ _ _ D i Hi L) as (_ & _ & tl0 & dl0 & F0 & _ & _ & Hds).
    destruct (file_at_det _ _ _ _ _ _ F F0) as [-> ->]. destruct (Hds n Hn) as [(R & N & _) Z0].
    split; [apply Hs; lia|apply Hf; [lia|assumption]].
  - lia.
Qed.
