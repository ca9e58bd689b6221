(** The effect of writing a file on a consistent DOS 3.3 disk. *)
From Verif Require Import Base BaseLemmas DiskModel DirLemmas AtariVtoc AtariSectors AtariWrite Dos33Model Dos33Spec Dos33Geom Dos33Vtoc Dos33Dir Dos33Files Dos33Update Dos33Sectors Dos33Alloc.

(** Only the VTOC has changed, by marking the sectors [l] as used. *)
Record marked3 (b cat : list Z) (k : Z) (b' : list Z) (l : list Z) : Prop := mkM3 {
  m3_upd : update3 b cat k b' k (-1);
  m3_free : forall n, 0 <= n < 800 -> free_bit3 b' n = if zmem n l then 0 else free_bit3 b n;
  m3_frame : forall n, 0 <= n < 560 -> n <> 272 -> sec b' n = sec b n;
  m3_head : forall i, 0 <= i < 56 -> getb (vtoc b') i = getb (vtoc b) i
}.

(** What a write does, whatever the type and the names on the disk: the new
    entry goes to slot [i], the data to the sectors [dl], the lists to [tl]. *)
Record write_raw3 (b cat : list Z) (k : Z) (b' : list Z)
    (name : list Z) (ty : Z) (data : list Z) (i : Z) (tl dl : list Z) : Prop := mkWR3 {
  q3_len : zlen b' = 143360;
  q3_bytes : bytes_ok b';
  q3_boot : sec b' 0 = sec b 0;
  q3_head : forall j, 0 <= j < 56 -> getb (vtoc b') j = getb (vtoc b) j;
  q3_links : forall n, In n cat -> lnk (sec b' n) = lnk (sec b n);
  q3_k : Z.max k (i + 1) <= 7 * (zlen cat - 1);
  q3_kept : forall j, 0 <= j < k -> j <> i -> same_ent (slot3 b cat j) (slot3 b' cat j);
  q3_unlocked : forall j, 0 <= j < k -> j <> i -> x_live (slot3 b cat j) -> ~ x_locked (slot3 b' cat j);
  q3_unused : forall j, Z.max k (i + 1) <= j < 7 * zlen cat -> ~ x_used (slot3 b' cat j);
  q3_name : x_name (slot3 b' cat i) = name;
  q3_flag : getb (slot3 b' cat i) 2 = ty;
  q3_track : 0 < getb (slot3 b' cat i) 0 < 35;
  q3_file : file_at b' (slot3 b' cat i) tl dl;
  q3_data : contents3 b' dl = padded data;
  q3_count : zlen dl = sectors3 (zlen data) /\ zlen tl = lists3 (zlen dl);
  q3_lowest : dl ++ tl = firstn (length (dl ++ tl)) (free_list3 b);
  q3_nodup : NoDup (dl ++ tl);
  q3_secs : forall n, In n (dl ++ tl) -> data_sector3 cat n /\ free_bit3 b n = 1;
  q3_free : forall n, 0 <= n < 800 -> free_bit3 b' n = if zmem n (dl ++ tl) then 0 else free_bit3 b n;
  q3_frame : forall n, 0 <= n < 560 -> n <> 272 -> ~ In n cat -> ~ In n (dl ++ tl) -> sec b' n = sec b n;
  q3_slot : 0 <= i <= k /\ (i < k -> x_dead (slot3 b cat i)) /\ forall j, 0 <= j < i -> x_live (slot3 b cat j)
}.

Record write_effect3 (b cat : list Z) (k : Z) (b' : list Z) (k' : Z)
    (name : list Z) (ty : Z) (data : list Z) (i : Z) (tl dl : list Z) : Prop := mkWE3 {
  w3_upd : update3 b cat k b' k' i;
  w3_new : file_in3 b' cat k' name i tl dl;
  w3_data : contents3 b' dl = padded data;
  w3_type : x_type (slot3 b' cat i) = ty;
  w3_count : zlen dl = sectors3 (zlen data) /\ zlen tl = lists3 (zlen dl);
  w3_lowest : dl ++ tl = firstn (length (dl ++ tl)) (free_list3 b);
  w3_free : forall n, 0 <= n < 800 -> free_bit3 b' n = if zmem n (dl ++ tl) then 0 else free_bit3 b n;
  w3_frame : forall n, 0 <= n < 560 -> n <> 272 -> ~ In n cat -> ~ In n (dl ++ tl) -> sec b' n = sec b n;
  w3_slot : 0 <= i <= k /\ k' = Z.max k (i + 1) /\ (i < k -> x_dead (slot3 b cat i)) /\
            forall j, 0 <= j < i -> x_live (slot3 b cat j);
  w3_unlocked : forall j, 0 <= j < k' -> x_live (slot3 b' cat j) -> ~ x_locked (slot3 b' cat j)
}.

Lemma zlen_set_ent ds i d : 0 <= i <= zlen ds -> zlen (set_ent ds i d) = Z.max (zlen ds) (i + 1).
Proof.
  intros Hi. unfold set_ent. destruct (i <? zlen ds) eqn:E.
  - rewrite zlen_upd. lia.
  - rewrite zlen_app, zlen_cons, zlen_nil. lia.
Qed.
Lemma nth_set_ent ds i d j x : 0 <= i <= zlen ds -> 0 <= j < Z.max (zlen ds) (i + 1) ->
  nth (Z.to_nat j) (set_ent ds i d) x = if j =? i then d else nth (Z.to_nat j) ds x.
Proof.
  intros Hi Hj. unfold set_ent. destruct (i <? zlen ds) eqn:E.
  - unfold upd. rewrite nth_upd_nat. destruct (Z.eqb_spec j i) as [->|Hne].
    + rewrite Nat.eqb_refl. replace (Nat.ltb _ _) with true; [reflexivity|].
      symmetry. apply Nat.ltb_lt. unfold zlen in *; lia.
    + replace (Nat.eqb _ _) with false; [reflexivity|]. symmetry. apply Nat.eqb_neq. lia.
  - assert (i = zlen ds) by lia. subst i. destruct (Z.eqb_spec j (zlen ds)) as [->|Hne].
    + rewrite app_nth2 by (unfold zlen; lia). unfold zlen.
      rewrite Nat2Z.id, Nat.sub_diag. reflexivity.
    + rewrite app_nth1 by (unfold zlen in *; lia). reflexivity.
Qed.

Lemma stored_ljust name : rstrip (slice (ljust 30 (slice name 0 30)) 0 29) = stored_name3 name.
Proof.
  unfold ljust. set (l := slice name 0 30).
  assert (Hl : zlen l <= 30) by (unfold l; etransitivity; [apply zlen_slice_le; lia|lia]).
  rewrite slice_pad29 by (assumption || reflexivity). unfold stored_name3, l.
  rewrite slice_slice by lia. reflexivity.
Qed.
Lemma type_code_range ft : 0 <= type_code ft < 128.
Proof.
  unfold type_code.
  repeat match goal with |- context [match ?x with _ => _ end] => destruct x end; lia.
Qed.

Lemma new_ent_enc name ft n count : ascii name -> 0 <= n < 560 -> 0 <= count < 65536 ->
  enc_ok (set_start (new_ent name ft) (n / 16) (n mod 16) count).
Proof.
  intros Ha Hn Hc. unfold enc_ok, set_start, new_ent. cbn [d3_track d3_sector d3_count d3_name].
  unfold is_byte. repeat split; try (Z.to_euclidean_division_equations; lia).
  - unfold ljust. apply Forall_app. split.
    + apply Forall_firstn', Forall_skipn', Ha.
    + unfold zrepeat. apply Forall_forall. intros x Hx. apply repeat_spec in Hx. subst x. lia.
  - unfold ljust. rewrite zlen_app. pose proof (zlen_slice_le name 0 30 ltac:(lia)).
    pose proof (zlen_nonneg (slice name 0 30)). rewrite zlen_zrepeat by lia. lia.
Qed.

Lemma entries3_zlen f b cat k : 0 <= k -> zlen (entries3 f b cat k) = k.
Proof. intros. unfold entries3. rewrite zlen_map, zlen_zrange by lia. lia. Qed.
Lemma nth_entries3 f b cat k i d : 0 <= i < k ->
  nth (Z.to_nat i) (entries3 f b cat k) d = parse_ent (H3 f) (slot3 b cat i).
Proof. intros. unfold entries3. rewrite nth_map_zrange by assumption. reflexivity. Qed.

(** Sectors of live files. *)
Lemma live_sector b cat k i tl dl n : dos33_disk b cat k -> 0 <= i < k -> x_live (slot3 b cat i) ->
  file_at b (slot3 b cat i) tl dl -> In n (tl ++ dl) -> data_sector3 cat n /\ free_bit3 b n = 0.
Proof.
  intros D Hi L F Hn. destruct (k3_files _ _ _ D i Hi L) as (_ & _ & tl0 & dl0 & F0 & _ & _ & Hds).
  destruct (file_at_det _ _ _ _ _ _ F F0) as [-> ->]. apply Hds. assumption.
Qed.

Lemma In_firstn {A} (x : A) n l : In x (firstn n l) -> In x l.
Proof. intros H. rewrite <- (firstn_skipn n l). apply in_or_app. left; assumption. Qed.
Lemma In_skipn {A} (x : A) n l : In x (skipn n l) -> In x l.
Proof. intros H. rewrite <- (firstn_skipn n l). apply in_or_app. right; assumption. Qed.

Lemma NoDup_app_left {A} (l m : list A) : NoDup (l ++ m) -> NoDup l.
Proof.
  induction l as [|x l IH]; intros H; [constructor|]. cbn [app] in H. inversion H; subst.
  constructor; [|auto]. intros C. apply H2. apply in_or_app; left; assumption.
Qed.
Lemma NoDup_app_right {A} (l m : list A) : NoDup (l ++ m) -> NoDup m.
Proof. induction l as [|x l IH]; intros H; [assumption|]. inversion H; auto. Qed.
Lemma NoDup_app_disj {A} (l m : list A) x : NoDup (l ++ m) -> In x l -> In x m -> False.
Proof.
  induction l as [|y l IH]; intros H H1 H2; [destruct H1|]. cbn [app] in H. inversion H; subst.
  destruct H1 as [->|H1]; [apply H4, in_or_app; right; assumption|auto].
Qed.
Lemma NoDup_app_swap {A} (l m : list A) : NoDup (l ++ m) -> NoDup (m ++ l).
Proof.
  intros H. pose proof (NoDup_app_left _ _ H) as Hl. pose proof (NoDup_app_right _ _ H) as Hm.
  pose proof (fun x => NoDup_app_disj l m x H) as Hd. clear H.
  induction Hm as [|x m Hx Hm IH]; [assumption|]. cbn [app]. constructor.
  - rewrite in_app_iff. intros [C|C]; [contradiction|]. apply (Hd x); [assumption|left; reflexivity].
  - apply IH. intros y H1 H2. apply (Hd y H1). right; assumption.
Qed.

(** Marking free sectors as used. *)
Lemma mark_free b cat k l : dos33_disk b cat k -> (forall n, In n l -> In n (free_list3 b)) ->
  marked3 b cat k (wr b 272 (pack_vtoc3 (vtoc b) (clear_all l (smap3 b)))) l.
Proof.
  intros D Hl. pose proof (k3_size _ _ _ D) as Hb. pose proof (k3_bytes _ _ _ D) as Ho.
  pose proof (zlen_smap3 b Hb) as Hs.
  destruct (write_map b (clear_all l (smap3 b)) Hb Ho) as (W1 & W2 & W3 & W4 & W5 & W6).
  { rewrite zlen_clear_all. assumption. }
  { apply bits_clear_all, bits_smap3; assumption. }
  set (b' := wr b 272 _) in *.
  assert (F : forall n, 0 <= n < 800 -> free_bit3 b' n = if zmem n l then 0 else free_bit3 b n).
  { intros n Hn. rewrite W6 by assumption. rewrite getb_clear_all.
    - destruct (zmem n l); [reflexivity|]. rewrite getb_smap3 by (assumption || lia).
      replace (n <? 800) with true by lia. reflexivity.
    - intros i Hi. apply Hl, In_free_list3 in Hi. lia.
    - lia. }
  constructor; try assumption.
  apply vtoc_only; try assumption. intros n Hn E. rewrite F by assumption. destruct (zmem n l); auto.
Qed.

Lemma wrs_two s1 s2 b : wrs [s1; s2] b = wr (wr b (s_num s1) (s_data s1)) (s_num s2) (s_data s2).
Proof. reflexivity. Qed.
Lemma wr_same b n d : zlen b = 143360 -> 0 <= n < 560 -> zlen d = 256 -> sec (wr b n d) n = d.
Proof. intros. rewrite sec_wr by assumption. rewrite Z.eqb_refl. reflexivity. Qed.

(* keeps the kernel from unfolding these when it compares terms *)
Strategy 100 [pack_vtoc3 clear_all smap3 wr wrs free_list3 free_bit3 zrange sec lists3 sectors3 padded catalog slot3
  build_sectors ts_chunks cat_sectors write_sectors link_loop dsecs].

Section W.
  Variables (b cat : list Z) (k : Z) (name ft data : list Z).
  Hypothesis D : dos33_disk b cat k.
  Hypothesis Hname : ascii name.
  Hypothesis Hdata : data <> [].
  Hypothesis Hdok : bytes_ok data.

  Let nd := sectors3 (zlen data).
  Let nt := lists3 nd.
  Let F := free_list3 b.
  Let f := fdir3 b.
  Let Hb := k3_size _ _ _ D.
  Let Ho := k3_bytes _ _ _ D.
  Let idx := free_index (map (fun d => negb (d3_del d)) (entries3 f b cat k)) 0.

  Lemma idx_spec : 0 <= idx <= k /\ (forall j, 0 <= j < idx -> x_live (slot3 b cat j)) /\
    (idx < k -> x_dead (slot3 b cat idx)).
  Proof.
    pose proof (k3_k _ _ _ D) as Hk.
    pose proof (free_index_spec (map (fun d => negb (d3_del d)) (entries3 f b cat k)) 0) as FI.
    cbv zeta in FI. fold idx in FI.
    rewrite zlen_map, entries3_zlen, Z.add_0_l in FI by lia. destruct FI as (Hidx & Hlow & Hdead).
    assert (Hn : forall j, 0 <= j < k -> nth (Z.to_nat (j - 0)) (map (fun d => negb (d3_del d)) (entries3 f b cat k)) false
              = negb (d3_del (parse_ent (H3 f) (slot3 b cat j)))).
    { intros j Hj. rewrite Z.sub_0_r. unfold entries3. rewrite map_map. rewrite nth_map_zrange by assumption. reflexivity. }
    split; [lia|]. split.
    - intros j Hj. specialize (Hlow j ltac:(lia)). rewrite Hn in Hlow by lia.
      destruct (k3_used _ _ _ D j ltac:(lia)) as [[Hu|Hu] _]; [|assumption].
      apply (d3_del_parse (H3 f)) in Hu. rewrite Hu in Hlow. discriminate.
    - intros Hi. specialize (Hdead ltac:(lia)). rewrite Hn in Hdead by lia.
      apply (d3_del_parse (H3 f)). destruct (d3_del _); [reflexivity|discriminate].
  Qed.

  Lemma nd_pos : 1 <= nd /\ 1 <= nt /\ nt <= nd.
  Proof.
    assert (0 < zlen data) by (destruct data; [congruence|rewrite zlen_cons; pose proof (zlen_nonneg l); lia]).
    unfold nt, nd, lists3, sectors3. Z.to_euclidean_division_equations; lia.
  Qed.

  Lemma F_data n : In n F -> data_sector3 cat n /\ free_bit3 b n = 1.
  Proof. intros H. apply In_free_list3 in H. split; [apply (k3_free _ _ _ D); tauto|tauto]. Qed.
  Lemma F_len : zlen F <= 560.
  Proof.
    apply NoDup_bound; [apply NoDup_free_list3| |lia]. apply Forall_forall. intros n Hn.
    apply F_data in Hn. destruct Hn as [[? _] _]. lia.
  Qed.

  Let o1 := firstn (Z.to_nat nd) F.
  Let o2 := firstn (Z.to_nat nt) (skipn (Z.to_nat nd) F).
  Let v1 := pack_vtoc3 (vtoc b) (clear_all o1 (smap3 b)).
  Let b1 := wr b 272 v1.
  Let v2 := pack_vtoc3 v1 (clear_all o2 (clear_all o1 (smap3 b))).
  Let b2 := wr b1 272 v2.

  Lemma o12 : o1 ++ o2 = firstn (Z.to_nat (nd + nt)) F.
  Proof.
    pose proof nd_pos. unfold o1, o2. rewrite Z2Nat.inj_add by lia.
    generalize (Z.to_nat nd) as n. generalize (Z.to_nat nt) as m. intros m n.
    generalize F as l. clear. induction n as [|n IH]; intros l; [reflexivity|].
    destruct l as [|x l]; [destruct m; reflexivity|]. cbn [firstn skipn app Nat.add]. f_equal. apply IH.
  Qed.
  Lemma o1_F n : In n o1 -> In n F.
  Proof. apply In_firstn. Qed.
  Lemma o12_F n : In n (o1 ++ o2) -> In n F.
  Proof. rewrite o12. apply In_firstn. Qed.
  Lemma o12_nodup : NoDup (o1 ++ o2).
  Proof.
    rewrite o12. pose proof (NoDup_free_list3 b) as N. fold F in N.
    rewrite <- (firstn_skipn (Z.to_nat (nd + nt)) F) in N. apply NoDup_app_left in N. assumption.
  Qed.

  Lemma marked_b1 : marked3 b cat k b1 o1.
  Proof. apply mark_free; [assumption|]. exact o1_F. Qed.
  Lemma marked_b2 : marked3 b cat k b2 (o1 ++ o2).
  Proof.
    pose proof marked_b1 as M1. pose proof (update_ok _ _ _ _ _ _ (m3_upd _ _ _ _ _ M1)) as D1.
    pose proof (k3_size _ _ _ D1) as Hb1. pose proof (k3_bytes _ _ _ D1) as Ho1.
    assert (Ev1 : vtoc b1 = v1).
    { unfold vtoc, b1. rewrite sec_wr; [rewrite Z.eqb_refl; reflexivity|assumption|lia| |lia].
      apply zlen_pack_vtoc3. apply zlen_sec; [assumption|lia]. }
    assert (Hsm : zlen (clear_all o2 (clear_all o1 (smap3 b))) = 1280)
      by (rewrite !zlen_clear_all; apply zlen_smap3; assumption).
    destruct (write_map b1 (clear_all o2 (clear_all o1 (smap3 b))) Hb1 Ho1 Hsm) as (W1 & W2 & W3 & W4 & W5 & W6).
    { apply bits_clear_all, bits_clear_all, bits_smap3; assumption. }
    rewrite Ev1 in W1, W2, W3, W4, W5, W6. fold v2 in W1, W2, W3, W4, W5, W6. fold b2 in W1, W2, W3, W4, W5, W6.
    assert (FB : forall n, 0 <= n < 800 -> free_bit3 b2 n = if zmem n (o1 ++ o2) then 0 else free_bit3 b n).
    { intros n Hn. rewrite W6 by assumption. rewrite <- clear_all_app. rewrite getb_clear_all.
      - destruct (zmem n (o1 ++ o2)); [reflexivity|]. rewrite getb_smap3 by (assumption || lia).
        replace (n <? 800) with true by lia. reflexivity.
      - intros i Hi. apply o12_F, In_free_list3 in Hi. rewrite zlen_smap3 by assumption. lia.
      - lia. }
    assert (FR : forall n, 0 <= n < 560 -> n <> 272 -> sec b2 n = sec b n).
    { intros n Hn Hne. rewrite W4 by assumption. apply (m3_frame _ _ _ _ _ M1); assumption. }
    assert (HH : forall i, 0 <= i < 56 -> getb (vtoc b2) i = getb (vtoc b) i).
    { intros i Hi. rewrite W5 by assumption. rewrite <- Ev1. apply (m3_head _ _ _ _ _ M1). assumption. }
    constructor; try assumption.
    apply vtoc_only; try assumption. intros n Hn E. rewrite FB by assumption. destruct (zmem n _); auto.
  Qed.

  (** * The outcomes *)
  Lemma write_body3_raw :
    (zlen F < nd -> write_body3 (view3 b cat k) name ft data = (view3 b cat k, Err (EAtr NotEnoughSpaceOnDisk))) /\
    (nd <= zlen F < nd + nt ->
       write_body3 (view3 b cat k) name ft data = (with_bytes3 (view3 b cat k) b1, Err (EAtr NotEnoughSpaceOnDisk))) /\
    (nd + nt <= zlen F -> ~ room3 b cat k ->
       write_body3 (view3 b cat k) name ft data = (with_bytes3 (view3 b cat k) b2, Err (EAtr NoSpaceInDirectory))) /\
    (nd + nt <= zlen F -> room3 b cat k ->
       exists b', write_body3 (view3 b cat k) name ft data = (with_bytes3 (view3 b cat k) b', Ok tt) /\
         write_raw3 b cat k b' (stored_name3 name) (type_code ft) data idx o2 o1).
  Proof.
    pose proof nd_pos as (Hnd & Hnt & Hntd). pose proof F_len as HF.
    assert (EG : get_directory3 (view3 b cat k) = (view3 b cat k, Ok (entries3 f b cat k)))
      by (apply (get_directory3_view b cat k D)).
    unfold write_body3. rewrite EG. clear EG.
    change (i_hdr (view3 b cat k)) with (H3 f). change (i_bytes (view3 b cat k)) with b.
    change (h_pairs (H3 f)) with 122. cbn [Z.eqb].
    change (free_index (map (fun d => negb (d3_del d)) (entries3 f b cat k)) 0) with idx.
    destruct (build_sectors_spec 256 256 ltac:(lia) (length data) data (le_n _)) as (cs & Ebs & Ecs & Hcs & Hcnt & Hlast).
    rewrite Ebs. cbn [lift3].
    assert (Esm : get_smap3 (view3 b cat k) = Ok (smap3 b)).
    { unfold get_smap3. cbn [view3 i_hdr i_bytes]. rewrite get_raw3_in by lia. reflexivity. }
    rewrite Esm. cbn [lift3]. rewrite reserve_spec, nz_smap3 by assumption. fold F.
    rewrite map_length.
    assert (Ecnt : zlen cs = nd) by (rewrite Hcnt; unfold nd, sectors3, AtariSpec.sectors_needed; f_equal; lia).
    assert (Hlcs : length cs = Z.to_nat nd) by (unfold zlen in Ecnt; lia).
    rewrite Hlcs. fold o1.
    split; [|split; [|split]].
    1: { intros Hlt. replace (Z.to_nat nd <=? length F)%nat with false; [reflexivity|].
         symmetry. apply Nat.leb_gt. clear -Hlt. unfold zlen in *. lia. }
    all: intros Hsp.
    2,3: intros Hroom.
    all: replace (Z.to_nat nd <=? length F)%nat with true
           by (symmetry; apply Nat.leb_le; clear -Hsp Hnd Hnt; unfold zlen in *; lia).
    all: rewrite calc_bitmap3_spec by (assumption || (rewrite zlen_clear_all; apply zlen_smap3; assumption)).
    all: fold v1; fold b1.
    all: assert (Ho1l : length o1 = length cs)
           by (unfold o1; rewrite firstn_length, Hlcs; clear -Hsp Hnd Hnt; unfold zlen in *; lia).
    all: rewrite plain_link by (rewrite map_length; assumption).
    all: fold (dsecs cs o1); rewrite dsecs_num by assumption.
    all: destruct (ts_chunks_spec (Z.to_nat nd) o1 ltac:(lia)) as (ts & Ets & Hts & Htsl & Htsn & Htslast).
    all: rewrite Ets; cbn [lift3]; rewrite map_length.
    all: assert (Ho1z : zlen o1 = nd) by (clear -Ho1l Ecnt; unfold zlen in *; lia).
    all: rewrite Ho1z in Htsn; fold nt in Htsn.
    all: assert (Hlts : length ts = Z.to_nat nt) by (clear -Htsn; unfold zlen in *; lia).
    all: rewrite Hlts, reserve_spec.
    all: assert (Enz : nz (clear_all o1 (smap3 b)) = skipn (Z.to_nat nd) F)
           by (unfold o1, F; rewrite <- nz_smap3 by assumption; apply nz_clear_first).
    all: rewrite Enz; fold o2.
    1: { replace (Z.to_nat nt <=? length (skipn (Z.to_nat nd) F))%nat with false; [reflexivity|].
         symmetry. apply Nat.leb_gt. rewrite skipn_length. clear -Hsp Hnd Hnt. unfold zlen in *. lia. }
    all: replace (Z.to_nat nt <=? length (skipn (Z.to_nat nd) F))%nat with true
           by (symmetry; apply Nat.leb_le; rewrite skipn_length; clear -Hsp Hnd Hnt; unfold zlen in *; lia).
    all: pose proof marked_b1 as M1; pose proof (update_ok _ _ _ _ _ _ (m3_upd _ _ _ _ _ M1)) as D1.
    all: pose proof marked_b2 as M2; pose proof (update_ok _ _ _ _ _ _ (m3_upd _ _ _ _ _ M2)) as D2.
    all: assert (Hvl : zlen (vtoc b) = 256) by (apply zlen_sec; [assumption|lia]).
    all: assert (Hv1l : zlen v1 = 256) by (apply zlen_pack_vtoc3; assumption).
    all: assert (Hv2l : zlen v2 = 256) by (apply zlen_pack_vtoc3; assumption).
    all: assert (Ev1 : vtoc b1 = v1)
           by (unfold vtoc, b1; apply wr_same; [assumption|lia|assumption]).
    all: assert (Ev2 : vtoc b2 = v2)
           by (unfold vtoc, b2; apply wr_same; [apply (k3_size _ _ _ D1)|lia|assumption]).
    all: rewrite calc_bitmap3_spec
           by (apply (k3_size _ _ _ D1) || (rewrite !zlen_clear_all; apply zlen_smap3; assumption)).
    all: rewrite Ev1; fold v2; fold b2.
    all: assert (Ho2l : length o2 = length ts)
           by (unfold o2; rewrite firstn_length, Hlts, skipn_length; clear -Hsp Hnd Hnt; unfold zlen in *; lia).
    all: assert (Hts0 : ts <> []) by (intros ->; cbn in Hlts; clear -Hlts Hnt; lia).
    all: assert (Hr1 : Forall (fun n => 16 <= n < 560) o1)
           by (apply Forall_forall; intros n Hn; apply o1_F, F_data in Hn; apply Hn).
    all: assert (Hr2 : Forall (fun n => 16 <= n < 560) o2)
           by (apply Forall_forall; intros n Hn;
               assert (Hn' : In n (o1 ++ o2)) by (apply in_or_app; right; assumption);
               apply o12_F, F_data in Hn'; apply Hn').
    all: destruct (ts_link o2 ts Ho2l Hts0 Htsl) as [L1 L2];
           [ (* entries *) apply Forall_forall; intros c Hc; apply Forall_forall; intros m Hm;
             assert (Hm' : In m o1) by (rewrite <- Hts; apply in_concat; eauto);
             rewrite Forall_forall in Hr1; specialize (Hr1 m Hm'); clear -Hr1; lia
           | revert Hr2; apply Forall_impl; intros; lia |].
    all: set (tss := link_loop ts_setnext 0 None (combine (map tsec ts) o2)) in *.
    all: destruct tss as [|t0 tss'] eqn:Etss; [cbn [map] in L1; rewrite <- L1 in Ho2l; cbn in Ho2l; clear -Ho2l Hlts Hnt; lia|].
    all: rewrite <- Etss in *.
    all: assert (Et0 : s_num t0 = hd 0 o2) by (rewrite <- L1, Etss; reflexivity).
    all: assert (Hto2 : o2 <> []) by (intros C; rewrite C in Ho2l; cbn in Ho2l; clear -Ho2l Hlts Hnt; lia).
    all: assert (Ht0r : 16 <= s_num t0 < 560) by (rewrite Et0; destruct o2 as [|x o2']; [congruence|]; inversion Hr2; assumption).
    all: assert (Ezs : zlen (dsecs cs o1) = nd)
           by (rewrite <- (zlen_map s_num), dsecs_num by assumption; assumption).
    all: assert (Ezt : zlen tss = nt) by (rewrite <- (zlen_map s_num), L1; clear -Ho2l Hlts Hnt; unfold zlen; lia).
    all: rewrite Ezs, Ezt.
    all: set (d1 := set_start (new_ent name ft) (s_num t0 / 16) (s_num t0 mod 16) (nd + nt)).
    all: pose proof idx_spec as (Hidx & Hlow & Hdead); pose proof (k3_k _ _ _ D) as Hk.
    all: set (ds := set_ent (entries3 f b cat k) idx d1).
    all: assert (Hzds : zlen ds = Z.max k (idx + 1))
           by (unfold ds; rewrite zlen_set_ent; rewrite entries3_zlen; lia).
    all: assert (Hd1 : enc_ok d1) by (apply new_ent_enc; [assumption|lia|lia]).
    all: assert (Hnth : forall j, 0 <= j < zlen ds -> nth (Z.to_nat j) ds d1 = if j =? idx then d1 else parse_ent (H3 f) (slot3 b cat j))
           by (intros j Hj; unfold ds; rewrite nth_set_ent by (rewrite entries3_zlen; lia);
               destruct (Z.eqb_spec j idx); [reflexivity|apply nth_entries3; lia]).
    all: assert (Hencs : Forall enc_ok ds)
           by (apply Forall_forall; intros d Hd; apply (In_nth _ _ d1) in Hd; destruct Hd as (m & Hm & <-);
               replace m with (Z.to_nat (Z.of_nat m)) by lia; rewrite Hnth by (clear -Hm; unfold zlen; lia);
               destruct (_ =? idx); [assumption|apply enc_ok_parse, bytes_ok_slot3; assumption]).
    all: assert (Hds0 : ds <> []) by (intros C; rewrite C, zlen_nil in Hzds; lia).
    all: assert (Hlinks2 : links b2 f cat)
           by (pose proof (k3_cat _ _ _ D2) as HL;
               rewrite (lnk_vtoc_same _ _ _ _ _ _ (m3_upd _ _ _ _ _ M2)) in HL; exact HL).
    all: pose proof (cat_sectors_spec f b2 cat ds (k3_size _ _ _ D2) (k3_bytes _ _ _ D2) Hlinks2
           (cat_nonempty b cat k D) Hds0 Hencs) as HC.
    1: { (* no room *)
      replace (zlen ds <=? 7 * (zlen cat - 1)) with false in HC.
      - rewrite HC. reflexivity.
      - symmetry. apply Z.leb_gt. rewrite Hzds. destruct (Z_lt_ge_dec idx k) as [Hlt|Hge].
        + exfalso. apply Hroom. left. exists idx. split; [lia|apply Hdead; lia].
        + assert (~ k < 7 * (zlen cat - 1)) by (intros C; apply Hroom; right; assumption). lia. }
    (* success *)
    assert (Hk' : k <= zlen ds <= 7 * (zlen cat - 1)).
    { rewrite Hzds. destruct Hroom as [(i & Hi & Hx)|Hlt]; [|lia].
      assert (idx <= i); [|lia].
      destruct (Z_le_gt_dec idx i) as [|Hgt]; [assumption|]. destruct (Hlow i ltac:(lia)) as [C _]. contradiction. }
    replace (zlen ds <=? 7 * (zlen cat - 1)) with true in HC by lia.
    destruct HC as (es & csec & pad & EC & F2 & Cnum & Clen & Cok & Cby & Cflat & Cpad & Ccount).
    rewrite EC. cbn [lift3].
    (* the sectors written *)
    assert (Hcs256 : Forall (fun c : list Z => 1 <= zlen c <= 256) cs) by assumption.
    pose proof (dsecs_data cs o1 Ho1l Hcs256) as Edat.
    assert (Hcsok : Forall bytes_ok cs).
    { apply Forall_forall. intros c Hc. apply Forall_forall. intros x Hx. unfold bytes_ok in Hdok.
      rewrite Forall_forall in Hdok. apply Hdok. rewrite <- Ecs. apply in_concat. eauto. }
    assert (Hgd : Forall (fun s => good_sec s /\ bytes_ok (s_data s)) (dsecs cs o1)).
    { apply Forall_forall. intros s Hs. split; [split|].
      - assert (In (s_num s) o1) by (rewrite <- (dsecs_num cs o1 Ho1l); apply in_map; assumption).
        rewrite Forall_forall in Hr1. specialize (Hr1 _ H). lia.
      - assert (Hin : In (s_data s) (map s_data (dsecs cs o1))) by (apply in_map; assumption).
        rewrite Edat in Hin. apply in_map_iff in Hin. destruct Hin as (c & <- & Hc).
        rewrite Forall_forall in Hcs256. specialize (Hcs256 c Hc). cbv beta in Hcs256.
        rewrite zlen_app, zlen_zrepeat by lia. lia.
      - assert (Hin : In (s_data s) (map s_data (dsecs cs o1))) by (apply in_map; assumption).
        rewrite Edat in Hin. apply in_map_iff in Hin. destruct Hin as (c & <- & Hc).
        apply bytes_ok_app. rewrite Forall_forall in Hcsok.
        split; [apply Hcsok; assumption|apply bytes_ok_zrepeat; unfold is_byte; lia]. }
    assert (Hgt : Forall (fun s => good_sec s /\ bytes_ok (s_data s)) tss).
    { apply Forall_forall. intros s Hs.
      assert (Hn : In (s_num s) o2) by (rewrite <- L1; apply in_map; assumption).
      rewrite Forall_forall in Hr2. specialize (Hr2 _ Hn). cbv beta in Hr2.
      destruct (Forall2_In_l _ _ _ _ L2 Hs) as (p & _ & G1 & G2 & _).
      split; [split; [lia|assumption]|assumption]. }
    assert (Hgw : Forall (fun s => good_sec s /\ bytes_ok (s_data s)) (dsecs cs o1 ++ tss))
      by (apply Forall_app; split; assumption).
    assert (Hgw1 : Forall good_sec (dsecs cs o1 ++ tss)) by (revert Hgw; apply Forall_impl; tauto).
    assert (Hgw2 : Forall (fun s => bytes_ok (s_data s)) (dsecs cs o1 ++ tss)) by (revert Hgw; apply Forall_impl; tauto).
    rewrite write_sectors_spec by (assumption || apply (k3_size _ _ _ D2)). cbn [lift3].
    set (b3 := wrs (dsecs cs o1 ++ tss) b2).
    assert (Hb3 : zlen b3 = 143360) by (apply zlen_wrs; [apply (k3_size _ _ _ D2)|assumption]).
    assert (Ho3 : bytes_ok b3) by (apply bytes_ok_wrs; [apply (k3_bytes _ _ _ D2)|assumption]).
    assert (Hsv1 : s_data (fill_sec 256 272 0 [] v1) = v1) by (apply s_data_fill_full; assumption).
    assert (Hsv2 : s_data (fill_sec 256 272 0 [] v2) = v2) by (apply s_data_fill_full; assumption).
    assert (Hgv : Forall good_sec [fill_sec 256 272 0 [] v1; fill_sec 256 272 0 [] v2]).
    { repeat constructor; try (cbn [fill_sec s_num]; lia); rewrite ?Hsv1, ?Hsv2; assumption. }
    rewrite write_sectors_spec by assumption. cbn [lift3].
    set (b4 := wrs [fill_sec 256 272 0 [] v1; fill_sec 256 272 0 [] v2] b3).
    assert (Eb4 : b4 = wr (wr b3 272 v1) 272 v2).
    { unfold b4. rewrite wrs_two, Hsv1, Hsv2. reflexivity. }
    assert (Hb4 : zlen b4 = 143360) by (apply zlen_wrs; assumption).
    assert (Hv2ok : bytes_ok v2) by (rewrite <- Ev2; apply bytes_ok_sec, (k3_bytes _ _ _ D2)).
    assert (Hv1ok : bytes_ok v1) by (rewrite <- Ev1; apply bytes_ok_sec, (k3_bytes _ _ _ D1)).
    assert (Ho4 : bytes_ok b4) by (rewrite Eb4; apply bytes_ok_wr; [apply bytes_ok_wr; assumption|assumption]).
    assert (Hgc : Forall good_sec csec) by (revert Cok; apply Forall_impl; intros s [G _]; assumption).
    rewrite write_sectors_spec by assumption.
    set (b5 := wrs csec b4).
    exists b5. split; [reflexivity|].
    assert (Hb5 : zlen b5 = 143360) by (apply zlen_wrs; assumption).
    assert (Ho5 : bytes_ok b5) by (apply bytes_ok_wrs; assumption).
    assert (Hcn : forall n, In n (map s_num csec) -> In n cat) by (intros n Hn; rewrite Cnum in Hn; eapply In_firstn; eassumption).
    assert (Hcnd : NoDup (map s_num csec)).
    { rewrite Cnum. pose proof (links_nodup _ _ _ Hlinks2) as N.
      rewrite <- (firstn_skipn (length csec) cat) in N. apply NoDup_app_left in N. assumption. }
    assert (Hc272 : ~ In 272 (map s_num csec)) by (intros C; apply (k3_cat_vtoc _ _ _ D), Hcn, C).
    assert (Hodata : forall n, In n (o1 ++ o2) -> data_sector3 cat n) by (intros n Hn; apply F_data, o12_F, Hn).
    assert (Hwnum : map s_num (dsecs cs o1 ++ tss) = o1 ++ o2) by (rewrite map_app, dsecs_num, L1 by assumption; reflexivity).
    (* what each sector contains *)
    assert (S4 : forall n, 0 <= n < 560 -> sec b4 n = if n =? 272 then v2 else sec b3 n).
    { intros n Hn. rewrite Eb4. rewrite sec_wr; [|apply zlen_wr; [assumption|lia|assumption]|lia|assumption|assumption].
      destruct (Z.eqb_spec n 272) as [->|Hne]; [reflexivity|].
      rewrite sec_wr by (assumption || lia). destruct (Z.eqb_spec n 272); [contradiction|reflexivity]. }
    assert (Svt : vtoc b5 = vtoc b2).
    { rewrite Ev2. unfold vtoc, b5. rewrite sec_wrs_other by (assumption || lia). rewrite S4 by lia. reflexivity. }
    assert (Snew : forall s, In s (dsecs cs o1 ++ tss) -> sec b5 (s_num s) = s_data s).
    { intros s Hs. assert (Hin : In (s_num s) (o1 ++ o2)) by (rewrite <- Hwnum; apply in_map; assumption).
      destruct (Hodata _ Hin) as (R & N & C). unfold b5.
      rewrite sec_wrs_other; [|assumption|assumption|lia|intros X; apply C, Hcn, X].
      rewrite S4 by lia. replace (s_num s =? 272) with false by lia. unfold b3.
      apply sec_wrs_in; [apply (k3_size _ _ _ D2)|assumption|rewrite Hwnum; apply o12_nodup|assumption]. }
    assert (Scat : forall s, In s csec -> sec b5 (s_num s) = s_data s).
    { intros s Hs. apply sec_wrs_in; assumption. }
    assert (Soth : forall n, 0 <= n < 560 -> n <> 272 -> ~ In n (o1 ++ o2) -> ~ In n (map s_num csec) -> sec b5 n = sec b n).
    { intros n Hn Hne H1 H2. unfold b5. rewrite sec_wrs_other by assumption. rewrite S4 by assumption.
      replace (n =? 272) with false by lia. unfold b3.
      rewrite sec_wrs_other; [|apply (k3_size _ _ _ D2)|assumption|assumption|rewrite Hwnum; assumption].
      apply (m3_frame _ _ _ _ _ M2); assumption. }
    assert (FB : forall n, 0 <= n < 800 -> free_bit3 b5 n = if zmem n (o1 ++ o2) then 0 else free_bit3 b n).
    { intros n Hn. unfold free_bit3 at 1. rewrite Svt. apply (m3_free _ _ _ _ _ M2). assumption. }
    assert (HH : forall i, 0 <= i < 56 -> getb (vtoc b5) i = getb (vtoc b) i).
    { intros i Hi. rewrite Svt. apply (m3_head _ _ _ _ _ M2). assumption. }
    assert (Hcatr : Forall (fun m => 0 <= m < 560) cat) by (apply (cat_range b cat k D)).
    assert (Hcatno : forall n, In n cat -> 0 <= n < 560 /\ n <> 272 /\ ~ In n (o1 ++ o2)).
    { intros n Hn. rewrite Forall_forall in Hcatr. split; [apply Hcatr; assumption|].
      split; [intros ->; apply (k3_cat_vtoc _ _ _ D); assumption|].
      intros C. apply Hodata in C. apply C. assumption. }
    (* the catalog *)
    destruct (slots_after b b5 cat ds es csec pad Hb Hb5 Hcatr F2 Cnum Clen Cflat ltac:(lia) Ccount Scat) as [SL1 SL2].
    { intros n Hn. destruct (Hcatno n (In_skipn _ _ _ Hn)) as (A1 & A2 & A3).
      apply Soth; try assumption. rewrite Cnum. intros C.
      pose proof (links_nodup _ _ _ Hlinks2) as N. rewrite <- (firstn_skipn (length csec) cat) in N.
      apply (NoDup_app_disj _ _ _ N C Hn). }
    assert (Henc : forall j, 0 <= j < zlen ds -> enc_of (nth (Z.to_nat j) ds d1) (slot3 b5 cat j)).
    { intros j Hj. rewrite SL1 by assumption. apply (Forall2_nth _ _ _ F2). clear -Hj. unfold zlen in *. lia. }
    assert (Hesame : forall j, 0 <= j < zlen ds -> j <> idx -> j < k /\ same_ent (slot3 b cat j) (slot3 b5 cat j)).
    { intros j Hj Hne. split; [lia|]. pose proof (Henc j Hj) as E. rewrite Hnth in E by assumption.
      destruct (Z.eqb_spec j idx); [contradiction|].
      destruct (k3_used _ _ _ D j ltac:(lia)) as [U1 U2].
      apply (reencode (H3 f)); try assumption; [apply bytes_ok_slot3; assumption|].
      intros L. destruct (k3_files _ _ _ D j ltac:(lia) L) as (_ & T & _). assumption. }
    assert (Hunl : forall j, 0 <= j < k -> j <> idx -> x_live (slot3 b cat j) -> ~ x_locked (slot3 b5 cat j)).
    { intros j Hj Hne L. assert (Hj' : 0 <= j < zlen ds) by lia.
      pose proof (Henc j Hj') as E. rewrite Hnth in E by assumption.
      destruct (Z.eqb_spec j idx); [contradiction|].
      apply (reencode_unlocks (H3 f) (slot3 b cat j)); try assumption. apply bytes_ok_slot3; assumption. }
    pose proof (Henc idx ltac:(lia)) as E1. rewrite Hnth, Z.eqb_refl in E1 by lia.
    destruct E1 as (N1 & N2 & N3 & N4 & N5 & N6 & N7 & _).
    unfold d1, set_start, new_ent in N3, N4, N5, N6, N7.
    cbn [d3_del d3_track d3_sector d3_count d3_name flag3 d3_type d3_lock] in N3, N4, N5, N6, N7.
    rewrite stored_ljust in N7.
    replace (type_code ft + 128 * 0) with (type_code ft) in N5 by lia.
    pose proof (type_code_range ft) as Htr. rewrite u8_id in N5 by (unfold is_byte; lia).
    assert (Xstart : x_start (slot3 b5 cat idx) = hd 0 o2).
    { unfold x_start. rewrite N3, N4, <- Et0. Z.to_euclidean_division_equations; lia. }
    assert (Hnd12 := o12_nodup).
    assert (HFA : file_at b5 (slot3 b5 cat idx) o2 o1).
    { destruct (ts_chain b5 tss ts o2 L2 L1 (eq_sym Ho2l)) as [C1 C2].
      - apply NoDup_app_right in Hnd12. assumption.
      - revert Hr2. apply Forall_impl. intros; lia.
      - intros s Hs. apply Snew. apply in_or_app; right; assumption.
      - split; [rewrite Xstart; assumption|]. split.
        + rewrite N6, Ho1z. rewrite <- L1, zlen_map, Ezt. lia.
        + rewrite C2. destruct (concat_pad 122 ts Htsl Htslast) as [_ CP]. rewrite CP, Hts. eauto. }
    assert (HC3 : contents3 b5 o1 = padded data).
    { unfold contents3. rewrite <- (dsecs_num cs o1 Ho1l) at 1. rewrite flat_map_concat_map, map_map.
      rewrite (map_ext_in _ s_data) by (intros s Hs; apply Snew; apply in_or_app; left; assumption).
      rewrite Edat. destruct (concat_pad 256 cs Hcs256 Hlast) as [_ CP]. rewrite CP, Ecs.
      unfold padded. fold nd. rewrite Ecnt. reflexivity. }
    constructor; try assumption.
    - apply Soth; [lia|lia| |].
      + intros C. apply Hodata in C. destruct C as [C _]. lia.
      + intros C. apply Hcn in C. pose proof (cat_pos b cat k D) as P. rewrite Forall_forall in P. specialize (P 0 C). lia.
    - intros n Hn. destruct (in_dec Z.eq_dec n (map s_num csec)) as [Hi|Hi].
      + apply in_map_iff in Hi. destruct Hi as (s & <- & Hs). rewrite Scat by assumption.
        rewrite Forall_forall in Cok. destruct (Cok s Hs) as [_ Ec]. rewrite Ec.
        destruct (Hcatno (s_num s) Hn) as (A1 & A2 & A3).
        rewrite (m3_frame _ _ _ _ _ M2) by assumption. reflexivity.
      + destruct (Hcatno n Hn) as (A1 & A2 & A3). rewrite Soth by assumption. reflexivity.
    - lia.
    - intros j Hj Hne. apply Hesame; [lia|assumption].
    - intros i Hi. destruct (SL2 i ltac:(lia)) as [E|E]; [|assumption]. rewrite E.
      apply (k3_unused _ _ _ D). lia.
    - rewrite N3. clear -Ht0r. Z.to_euclidean_division_equations; lia.
    - split; [assumption|]. rewrite Ho1z. clear -Ho2l Htsn Hlts Hnt. fold nt. unfold zlen in *. lia.
    - rewrite o12. rewrite firstn_length. rewrite Nat.min_l; [reflexivity|].
      clear -Hsp Hnd Hnt. unfold zlen in *. lia.
    - intros n Hn. split; [apply Hodata; assumption|]. apply F_data, o12_F. assumption.
    - intros n Hn Hne Hc Ho'. apply Soth; try assumption. intros C. apply Hc, Hcn, C.
    - split; [lia|]. split; assumption.
  Qed.

  Hypothesis Hty : type_code ft <> 0.
  Hypothesis Hnew : ~ listed3 b cat k (stored_name3 name).

  Lemma raw_write3 b' i tl dl :
    write_raw3 b cat k b' (stored_name3 name) (type_code ft) data i tl dl ->
    write_effect3 b cat k b' (Z.max k (i + 1)) (stored_name3 name) (type_code ft) data i tl dl.
  Proof.
    intros R. pose proof nd_pos as (Hnd & Hnt & Hntd).
    pose proof (type_code_range ft) as Htr. pose proof (k3_k _ _ _ D) as Hk.
    destruct (q3_slot _ _ _ _ _ _ _ _ _ _ R) as (Hi & Hdead & Hlow).
    pose proof (q3_flag _ _ _ _ _ _ _ _ _ _ R) as Hfl.
    pose proof (q3_track _ _ _ _ _ _ _ _ _ _ R) as Htrk.
    pose proof (q3_name _ _ _ _ _ _ _ _ _ _ R) as N7.
    pose proof (q3_file _ _ _ _ _ _ _ _ _ _ R) as HFA.
    pose proof (q3_free _ _ _ _ _ _ _ _ _ _ R) as FB.
    pose proof (q3_nodup _ _ _ _ _ _ _ _ _ _ R) as Hnd12.
    pose proof (q3_secs _ _ _ _ _ _ _ _ _ _ R) as Hsecs.
    pose proof (q3_count _ _ _ _ _ _ _ _ _ _ R) as Hcnt.
    assert (Xlive : x_live (slot3 b' cat i)) by (split; [lia|rewrite Hfl; assumption]).
    assert (Xtype : x_type (slot3 b' cat i) = type_code ft) by (unfold x_type; rewrite Hfl; apply Z.mod_small; lia).
    assert (Hsecold : forall j tl' dl' n, 0 <= j < k -> x_live (slot3 b cat j) ->
      file_at b (slot3 b cat j) tl' dl' -> In n (tl' ++ dl') ->
      sec b' n = sec b n /\ free_bit3 b' n = 0 /\ ~ In n (dl ++ tl)).
    { intros j tl' dl' n Hj L Ff Hn. destruct (live_sector b cat k j tl' dl' n D Hj L Ff Hn) as [(Rg & N & C) Z0].
      assert (Hno : ~ In n (dl ++ tl)) by (intros X; apply Hsecs in X; lia).
      split; [apply (q3_frame _ _ _ _ _ _ _ _ _ _ R); [lia|assumption..]|]. split; [|assumption].
      rewrite FB by lia. destruct (zmem n (dl ++ tl)); [reflexivity|assumption]. }
    assert (Eswap : forall n, In n (tl ++ dl) <-> In n (dl ++ tl)) by (intros n; rewrite !in_app_iff; tauto).
    assert (U : update3 b cat k b' (Z.max k (i + 1)) i).
    { destruct R. constructor; try assumption.
      - intros n Hn E. rewrite FB in E by assumption. destruct (zmem n (dl ++ tl)); [discriminate|].
        apply (k3_free _ _ _ D); assumption.
      - lia.
      - intros j Hj Hne. split; [lia|]. apply q3_kept0; [lia|assumption].
      - intros j tl' dl' n Hj _ L Ff Hn. destruct (Hsecold j tl' dl' n Hj L Ff Hn) as (A1 & A2 & _). auto.
      - intros _. unfold new_slot_ok. cbv zeta. split; [right; assumption|].
        split; [rewrite N7; apply rstripf_idem|]. split.
        + intros j Hj _ L E. apply Hnew. exists j. rewrite N7 in E. auto.
        + intros _. split; [assumption|]. split; [lia|]. split; [rewrite Xtype; assumption|].
          exists tl, dl. split; [assumption|].
          split; [intros C; rewrite C, zlen_nil in Hcnt; fold nd in Hcnt; lia|].
          split; [apply NoDup_app_swap; assumption|].
          intros n Hn. apply Eswap in Hn. split; [apply Hsecs; assumption|]. split.
          * destruct (Hsecs n Hn) as [[Rg _] _]. rewrite FB by lia. apply zmem_In in Hn. rewrite Hn. reflexivity.
          * intros j tl' dl' Hj _ L Ff C. destruct (Hsecold j tl' dl' n Hj L Ff C) as (_ & _ & A3). contradiction. }
    constructor; try assumption.
    - split; [lia|]. split; [assumption|]. split; assumption.
    - apply (q3_data _ _ _ _ _ _ _ _ _ _ R).
    - apply (q3_lowest _ _ _ _ _ _ _ _ _ _ R).
    - apply (q3_frame _ _ _ _ _ _ _ _ _ _ R).
    - split; [lia|]. split; [reflexivity|]. split; assumption.
    - intros j Hj L. destruct (Z.eq_dec j i) as [->|Hne].
      + unfold x_locked. rewrite Hfl. lia.
      + apply (q3_unlocked _ _ _ _ _ _ _ _ _ _ R); [lia|assumption|].
        apply (kept_live _ _ _ _ _ _ U j Hj Hne). assumption.
  Qed.

  (** * The outcomes *)
  Lemma write_body3_spec :
    (zlen F < nd -> write_body3 (view3 b cat k) name ft data = (view3 b cat k, Err (EAtr NotEnoughSpaceOnDisk))) /\
    (nd <= zlen F < nd + nt ->
       write_body3 (view3 b cat k) name ft data = (with_bytes3 (view3 b cat k) b1, Err (EAtr NotEnoughSpaceOnDisk))) /\
    (nd + nt <= zlen F -> ~ room3 b cat k ->
       write_body3 (view3 b cat k) name ft data = (with_bytes3 (view3 b cat k) b2, Err (EAtr NoSpaceInDirectory))) /\
    (nd + nt <= zlen F -> room3 b cat k ->
       exists b', write_body3 (view3 b cat k) name ft data = (with_bytes3 (view3 b cat k) b', Ok tt) /\
         write_effect3 b cat k b' (Z.max k (idx + 1)) (stored_name3 name) (type_code ft) data idx o2 o1).
  Proof.
    destruct write_body3_raw as (A1 & A2 & A3 & A4). split; [exact A1|]. split; [exact A2|]. split; [exact A3|].
    intros H1 H2. destruct (A4 H1 H2) as (b' & E & R). exists b'. split; [exact E|]. apply raw_write3. exact R.
  Qed.
End W.
