(** The lists of segments of executables, cartridges, ROM images and MAME files. *)
From Coq Require Import String.
From Verif Require Import Base BaseLemmas DiskModel AtariModel SegModel SegSpec SegProofs SegProofs2 SegProofs3 SegProofs5 TextModel EditModel EditProofs EditAtari SegListModel SegListSpec SegListProofs.
From Verif Require Import DetectModel ExecModel ExecSpec ExecProofs.
From Verif Require CartModel CartProofs Properties_Cart.

(** * Atari executables *)
(** The line of a piece at the position [pos] of the file. *)
Definition piece_line (pos : Z) (p : piece) : list entry :=
  match p with
  | PMark => []
  | PSeg o d => [mkEn (if o =? 0x2e0 then KRun pos (pos + 4) else KAt pos (pos + 4)) [] o (zrange (pos + 4) (pos + 4 + zlen d))]
  | PCutByte _ => [mkEn (KAt pos (pos + 1)) (txt "Incomplete Data") 0 [pos]]
  | PCutHead l => [mkEn KObj (txt "Short Segment Header") 0 (zrange pos (pos + zlen l))]
  | PCutData o _ d => [mkEn (KAt pos (pos + 4)) (txt "Incomplete Data") o (zrange (pos + 4) (pos + 4 + zlen d))]
  end.
Fixpoint piece_lines (pos : Z) (ps : list piece) : list entry :=
  match ps with
  | [] => []
  | p :: r => piece_line pos p ++ piece_lines (pos + zlen (encode_piece p)) r
  end.
(** The bytes that are not loaded: the addresses before every segment, and the markers
    with addresses after them. *)
Definition has_head (p : piece) : bool := match p with PSeg _ _ | PCutData _ _ _ => true | _ => false end.
Fixpoint heads (pos : Z) (ps : list piece) : list Z :=
  match ps with
  | [] => []
  | p :: r => (match p with
               | PMark => if existsb has_head r then zrange pos (pos + 2) else []
               | PSeg _ _ | PCutData _ _ _ => zrange pos (pos + 4)
               | _ => []
               end) ++ heads (pos + zlen (encode_piece p)) r
  end.

Section X.
  Variable r : raw.
  Lemma slice_window_clamp h a b : raw_ok h r -> 0 <= a <= b -> a <= raw_len h r ->
    window r h (raw_slice h r (Some a) (Some b)) (zrange a (Z.min b (raw_len h r))).
  Proof.
    intros R Ha Hb. destruct (raw_slice_shows h r (Some a) (Some b) R) as (X1 & X2 & X3 & X4 & X5). pose proof (zlen_shows h r R) as L.
    constructor; try assumption.
    - apply Forall_forall. intros p Hp. apply In_zrange in Hp. lia.
    - rewrite X2. unfold pyslice, bound. replace (a <? 0) with false by lia. replace (b <? 0) with false by lia.
      rewrite <- slice_map_range by lia. f_equal; lia.
  Qed.
  Lemma marks_ext h a a' n h' : (forall p, In p a <-> In p a') -> marks h r a n h' -> marks h r a' n h'.
  Proof.
    intros E [M1 M2 M3 M4 M5 M6 M7 M8 M9]. constructor; try assumption. intros p Hp. rewrite (M4 p Hp).
    replace (zmem p a') with (zmem p a); [reflexivity|]. apply eq_true_iff_eq. rewrite !zmem_In. apply E.
  Qed.
  Lemma marks_slice h a b : raw_ok h r -> NoDup (shows h r) -> 0 <= a <= b -> b <= raw_len h r -> marks h r (zrange a b) [] (mark_slice h r a b).
  Proof.
    intros R Nd Ha Hb. pose proof (slice_window r h a b R Ha Hb) as W. destruct (raw_slice_shows h r (Some a) (Some b) R) as (X1 & X2 & X3 & X4 & X5).
    pose proof (marks_style r h _ _ (fun _ => style_bits k_data) R Nd W (fun _ => eq_refl)) as M. unfold mark_slice. rewrite win_slice_shows by exact R.
    rewrite <- X2. unfold upd_style in *. rewrite <- X4. exact M.
  Qed.

  Lemma xex_list ps : forall fuel h pre spos first,
    pieces_ok ps -> bytes_ok (encode ps) -> (length (encode ps) < fuel)%nat -> (first = true -> begins_ok ps) ->
    raw_ok h r -> NoDup (shows h r) -> raw_len h r = zlen (pre ++ encode ps) -> 0 <= spos <= zlen pre ->
    exists h' l, xex_loop fuel h r (pre ++ encode ps) (zlen pre) spos first = (h', Ok l) /\
      marks h r ((if existsb has_head ps then zrange spos (zlen pre) else []) ++ heads (zlen pre) ps) [] h' /\
      Forall2 (made r h') l (piece_lines (zlen pre) ps).
  Proof.
    induction ps as [|p q IH]; intros fuel h pre spos first Hok Hby Hf Hfirst R Nd Hl Hs.
    - cbn [encode flat_map] in *. rewrite app_nil_r in *. destruct fuel; [cbn in Hf; lia|]. cbn [xex_loop]. replace (zlen pre <? zlen pre) with false by lia. cbn [negb].
      exists h, []. split; [reflexivity|]. split; [apply marks_refl|constructor].
    - destruct (pieces_cons p q Hok) as (Hp & Hw & Hr). cbn [encode flat_map piece_lines heads existsb] in *. fold (encode q) in *.
      apply bytes_ok_app in Hby. destruct Hby as [Hbp Hby]. destruct fuel as [|fuel]; [cbn in Hf; lia|].
      pose proof (zlen_nonneg pre). pose proof (zlen_nonneg (encode q)).
      destruct p as [|o d|x|l|o e d]; cbn [xex_loop encode_piece piece_line has_head orb] in *.
      + (* marker *)
        change (zlen [255; 255]) with 2. assert (L : zlen (pre ++ [255; 255] ++ encode q) = zlen pre + 2 + zlen (encode q)) by (rewrite !zlen_app; change (zlen [255; 255]) with 2; lia).
        rewrite L. replace (zlen pre <? zlen pre + 2 + zlen (encode q)) with true by lia. replace (zlen pre + 1 <? zlen pre + 2 + zlen (encode q)) with true by lia. cbn [negb].
        replace (le2 (getb (pre ++ [255; 255] ++ encode q) (zlen pre)) (getb (pre ++ [255; 255] ++ encode q) (zlen pre + 1))) with 65535.
        2: { rewrite (getb_app_r pre _ (zlen pre)), (getb_app_r pre _ (zlen pre + 1)) by lia. replace (zlen pre - zlen pre) with 0 by lia. replace (zlen pre + 1 - zlen pre) with 1 by lia. reflexivity. }
        cbn [Z.eqb Pos.eqb]. rewrite L in Hl. assert (E2 : zlen pre + 2 = zlen (pre ++ [255; 255])) by (rewrite zlen_app; reflexivity).
        destruct (IH fuel h (pre ++ [255; 255]) spos false Hr Hby) as (h' & l & E & M & F); [rewrite app_length in Hf; cbn [length] in Hf; lia|discriminate|exact R|exact Nd| |lia|].
        { rewrite <- app_assoc, L. exact Hl. }
        rewrite <- app_assoc in E. rewrite E2. exists h', l. split; [exact E|]. split; [|exact F]. rewrite <- E2 in M |- *. eapply marks_ext; [|exact M].
        intros p. rewrite !in_app_iff. destruct (existsb has_head q); [|cbn; tauto]. rewrite !In_zrange. intuition lia.
      + (* segment *)
        assert (Hsg : 0 <= o < 65535 /\ 1 <= zlen d /\ o + zlen d <= 65536) by (destruct Hp as [Hp|[]]; exact Hp).
        destruct first; [exfalso; specialize (Hfirst eq_refl); destruct q; exact Hfirst|].
        set (b := pre ++ (put2 o ++ put2 (o + zlen d - 1) ++ d) ++ encode q) in *.
        assert (L : zlen b = zlen pre + 4 + zlen d + zlen (encode q)) by (unfold b; rewrite !zlen_app, !zlen_put2; lia).
        assert (E1 : le2 (getb b (zlen pre)) (getb b (zlen pre + 1)) = o).
        { unfold b. rewrite <- app_assoc. apply (le2_at pre _ o 0 (zlen pre)) with (m := []); (reflexivity || lia). }
        assert (E2 : le2 (getb b (zlen pre + 2)) (getb b (zlen pre + 3)) = o + zlen d - 1).
        { unfold b. rewrite <- app_assoc, <- app_assoc. replace (zlen pre + 3) with (zlen pre + 2 + 1) by lia.
          apply (le2_at pre _ _ 2 (zlen pre + 2)); try lia. apply zlen_put2. }
        replace (zlen pre <? zlen b) with true by lia. replace (zlen pre + 1 <? zlen b) with true by lia. cbn [negb].
        rewrite E1, E2. replace (o =? 65535) with false by lia. rewrite zlen_slice by lia. replace (zlen pre + 4 - zlen pre <? 4) with false by lia.
        replace (o + zlen d - 1 <? o) with false by lia. replace (o + zlen d - 1 - o + 1) with (zlen d) by lia. cbv zeta. rewrite zlen_slice by lia.
        replace (zlen pre + 4 + zlen d - (zlen pre + 4) <? zlen d) with false by lia.
        pose proof (marks_slice h spos (zlen pre + 4) R Nd ltac:(lia) ltac:(lia)) as M1. set (h1 := mark_slice h r spos (zlen pre + 4)) in *.
        destruct (marks_raw r _ _ _ _ r M1 R) as (R1 & S1 & L1).
        pose proof (slice_window r h1 (zlen pre + 4) (zlen pre + 4 + zlen d) R1 ltac:(lia) ltac:(lia)) as W1. set (x := raw_slice h1 r _ _) in *.
        assert (EP : zlen (pre ++ put2 o ++ put2 (o + zlen d - 1) ++ d) = zlen pre + (4 + zlen d)) by (rewrite !zlen_app, !zlen_put2; lia).
        assert (Eb : (pre ++ put2 o ++ put2 (o + zlen d - 1) ++ d) ++ encode q = b) by (unfold b; rewrite <- !app_assoc; reflexivity).
        destruct (IH fuel h1 (pre ++ put2 o ++ put2 (o + zlen d - 1) ++ d) (zlen pre + (4 + zlen d)) false Hr Hby) as (h' & l & E & M & F);
          [rewrite !app_length in Hf; cbn [put2 length] in Hf; lia|discriminate|exact R1|rewrite S1; exact Nd|rewrite Eb, L1; exact Hl|rewrite EP; lia|].
        rewrite Eb, EP in E. rewrite E. cbn [hbind]. exists h'. eexists. split; [reflexivity|].
        assert (Ez : zlen (put2 o ++ put2 (o + zlen d - 1) ++ d) = 4 + zlen d) by (rewrite !zlen_app, !zlen_put2; lia). rewrite Ez. rewrite EP in M, F. split.
        * pose proof (marks_trans r _ _ _ _ _ _ _ R M1 M) as Mt. eapply marks_ext; [|exact Mt]. intros p. rewrite !in_app_iff, !In_zrange.
          destruct (existsb has_head q); rewrite ?In_zrange; cbn [In]; intuition lia.
        * cbn [app]. apply Forall2_cons; [|exact F]. split; [exact (window_marks r _ _ _ _ _ _ R1 M W1)|]. repeat split.
      + (* one byte *)
        destruct q as [|t q]; [|exfalso; apply (Hw ltac:(discriminate))]. cbn [encode flat_map existsb heads piece_lines] in *. rewrite app_nil_r in *.
        rewrite zlen_app in *. change (zlen [x]) with 1 in *. replace (zlen pre <? zlen pre + 1) with true by lia.
        replace (zlen pre + 1 <? zlen pre + 1) with false by lia. cbn [negb]. exists h. eexists. split; [reflexivity|]. split; [apply marks_refl|].
        cbn [app]. constructor; [|constructor]. split; [|repeat split].
        pose proof (slice_window r h (zlen pre) (zlen pre + 1) R ltac:(lia) ltac:(lia)) as W. rewrite (zrange_cons (zlen pre)) in W by lia. rewrite zrange_nil in W by lia. exact W.
      + destruct q as [|t q]; [|exfalso; apply (Hw ltac:(discriminate))]. cbn [encode flat_map existsb heads piece_lines] in *. rewrite app_nil_r in *.
        destruct Hp as [[]|(Hll & Hn)]. destruct first; [exfalso; specialize (Hfirst eq_refl); exact Hfirst|].
        rewrite zlen_app in *. replace (zlen pre <? zlen pre + zlen l) with true by lia.
        replace (zlen pre + 1 <? zlen pre + zlen l) with true by lia. cbn [negb].
        assert (B : le2 (getb (pre ++ l) (zlen pre)) (getb (pre ++ l) (zlen pre + 1)) =? 65535 = false).
        { rewrite (getb_app_r pre _ (zlen pre)), (getb_app_r pre _ (zlen pre + 1)) by lia. replace (zlen pre - zlen pre) with 0 by lia. replace (zlen pre + 1 - zlen pre) with 1 by lia.
          destruct l as [|a [|b l]]; [cbn in Hll; lia|cbn in Hll; lia|]. pose proof (Forall_inv Hbp) as Ba. pose proof (Forall_inv (Forall_inv_tail Hbp)) as Bb.
          change (le2 a b =? 65535 = false). apply Z.eqb_neq. intros E. apply Hn. cbn [slice Z.to_nat skipn firstn].
          unfold le2, is_byte in *. replace a with 255 by lia. replace b with 255 by lia. reflexivity. }
        rewrite B. rewrite zlen_slice_min by lia. rewrite zlen_app. replace (_ <? 4) with true by lia. exists h. eexists. split; [reflexivity|]. split; [apply marks_refl|].
        cbn [app]. constructor; [|constructor]. split; [|repeat split].
        pose proof (slice_window_clamp h (zlen pre) (zlen pre + 4) R ltac:(lia) ltac:(lia)) as W. rewrite Z.min_r in W by lia. rewrite Hl in W. exact W.
      + destruct q as [|t q]; [|exfalso; apply (Hw ltac:(discriminate))]. cbn [encode flat_map existsb heads piece_lines] in *. rewrite app_nil_r in *.
        destruct Hp as [[]|(Ho & He & Hd)]. pose proof (zlen_nonneg d) as Hd0.
        destruct first; [exfalso; specialize (Hfirst eq_refl); exact Hfirst|].
        set (b := pre ++ put2 o ++ put2 e ++ d) in *.
        assert (L : zlen b = zlen pre + 4 + zlen d) by (unfold b; rewrite !zlen_app, !zlen_put2; lia).
        assert (E1 : le2 (getb b (zlen pre)) (getb b (zlen pre + 1)) = o) by (apply (le2_at pre _ o 0 (zlen pre)) with (m := []); (reflexivity || lia)).
        assert (E2 : le2 (getb b (zlen pre + 2)) (getb b (zlen pre + 3)) = e).
        { replace (zlen pre + 3) with (zlen pre + 2 + 1) by lia. apply (le2_at pre _ _ 2 (zlen pre + 2)); try lia. apply zlen_put2. }
        replace (zlen pre <? zlen b) with true by lia. replace (zlen pre + 1 <? zlen b) with true by lia. cbn [negb].
        rewrite E1, E2. replace (o =? 65535) with false by lia. rewrite zlen_slice by lia. replace (zlen pre + 4 - zlen pre <? 4) with false by lia.
        replace (e <? o) with false by lia. cbv zeta. rewrite zlen_slice_min by lia. replace (_ <? e - o + 1) with true by lia.
        pose proof (marks_slice h spos (zlen pre + 4) R Nd ltac:(lia) ltac:(lia)) as M1. set (h1 := mark_slice h r spos (zlen pre + 4)) in *.
        destruct (marks_raw r _ _ _ _ r M1 R) as (R1 & S1 & L1). exists h1. eexists. split; [reflexivity|]. split.
        * eapply marks_ext; [|exact M1]. intros p. rewrite app_nil_r, in_app_iff, !In_zrange. lia.
        * constructor; [|constructor]. split; [|repeat split].
          pose proof (slice_window_clamp h1 (zlen pre + 4) (zlen pre + 4 + (e - o + 1)) R1 ltac:(lia) ltac:(lia)) as W. rewrite Z.min_r in W by lia. rewrite L1, Hl, L in W. exact W.
  Qed.
End X.

(** * Cartridges *)
(** The lines of a cartridge of the type [c] whose data begins at [off]: the fixed part,
    which is the last one, and the parts that are switched, in order. *)
Definition main_line (c : CartModel.cart) (off : Z) : entry :=
  match CartModel.ct_main c with
  | Some (ms, _, ma) => mkEn KObj (txt "Main Bank") ma (zrange (off + (CartModel.ct_size c - ms) * 1024) (off + CartModel.ct_size c * 1024))
  | None => mkEn KObj (txt "Main Bank") 0 (zrange off (off + CartModel.ct_size c * 1024))
  end.
Definition bank_lines (c : CartModel.cart) (off : Z) : list entry :=
  match CartModel.ct_main c, CartModel.ct_bank c with
  | Some (ms, _, _), Some (bs, _, ba) =>
      map (fun k => mkEn KObj (txt "Bank #" ++ dec k) ba (zrange (off + (k - 1) * bs * 1024) (off + k * bs * 1024)))
          (zrange 1 ((CartModel.ct_size c - ms) / bs + 1))
  | _, _ => []
  end.
Definition cart_head (off : Z) : list entry := if 0 <? off then [mkEn KObj (txt "Cart Header") 0 (zrange 0 off)] else [].
Lemma banks_tile bs off : 0 < bs -> forall n a, 0 <= n -> 
  concat (map (fun k => zrange (off + (k - 1) * bs * 1024) (off + k * bs * 1024)) (zrange a (a + n))) = zrange (off + (a - 1) * bs * 1024) (off + (a - 1 + n) * bs * 1024).
Proof.
  intros Hb n a Hn. rewrite <- (Z2Nat.id n Hn). generalize (Z.to_nat n). clear n Hn. intros n. revert a. induction n as [|n IH]; intros a.
  - rewrite !zrange_nil by lia. reflexivity.
  - rewrite (zrange_cons a) by lia. cbn [map concat]. replace (a + Z.of_nat (S n)) with (a + 1 + Z.of_nat n) by lia. rewrite IH.
    replace (a + 1 - 1) with a by lia. rewrite <- zrange_app by nia. f_equal. nia.
Qed.

Section C.
  Variables (r : raw) (h : heap).
  Hypothesis R : raw_ok h r.
  Lemma bank_segs_made hd bs ba : CartModel.h_bsize hd = bs -> CartModel.h_borigin hd = ba -> 0 <= CartModel.h_off hd -> 0 < bs ->
    forall n a k, 0 <= a -> CartModel.h_off hd + (a + Z.of_nat n * bs) * 1024 <= raw_len h r ->
    Forall2 (made r h) (bank_segs h r hd k (CartProofs.offsets a bs n))
      (map (fun j => mkEn KObj (txt "Bank #" ++ dec j) ba (zrange (CartModel.h_off hd + (a + (j - k) * bs) * 1024) (CartModel.h_off hd + (a + (j - k + 1) * bs) * 1024))) (zrange k (k + Z.of_nat n))).
  Proof.
    intros Eb Ea Ho Hb. induction n as [|n IH]; intros a k Ha Hl.
    - rewrite zrange_nil by lia. constructor.
    - rewrite (zrange_cons k) by lia. cbn [map CartProofs.offsets bank_segs]. apply Forall2_cons.
      + split; [|repeat split]; [|exact Ea]. cbn [g_raw n_at]. rewrite Eb.
        pose proof (slice_window r h (CartModel.h_off hd + a * 1024) (CartModel.h_off hd + a * 1024 + bs * 1024) R ltac:(nia) ltac:(nia)) as W.
        replace (CartModel.h_off hd + (a + (k - k) * bs) * 1024) with (CartModel.h_off hd + a * 1024) by nia.
        replace (CartModel.h_off hd + (a + (k - k + 1) * bs) * 1024) with (CartModel.h_off hd + a * 1024 + bs * 1024) by nia. exact W.
      + specialize (IH (a + bs) (k + 1) ltac:(lia) ltac:(nia)). replace (k + Z.of_nat (S n)) with (k + 1 + Z.of_nat n) by lia.
        match goal with |- Forall2 _ _ ?y => match type of IH with Forall2 _ _ ?z => replace y with z; [exact IH|] end end.
        apply map_ext. intros j. f_equal. f_equal; f_equal; nia.
  Qed.
  Lemma cart_made c ty nm sz crc off hd : In c CartModel.known_cart_types -> 0 <= off -> raw_len h r = off + CartModel.ct_size c * 1024 ->
    CartModel.set_type (CartModel.mkH ty nm sz crc off [] 0 0 0 0 0) (CartModel.ct_type c) = Ok hd ->
    exists l, cart_parse_segments h r hd = (h, Ok l) /\ Forall2 (made r h) l (cart_head off ++ main_line c off :: bank_lines c off).
  Proof.
    intros Hc Ho Hl. pose proof (CartProofs.cart_wf c Hc) as W. unfold CartModel.set_type. rewrite (CartProofs.get_cart_in c Hc).
    cbn [rbind CartModel.h_moff CartModel.h_morigin CartModel.h_banks CartModel.h_bsize CartModel.h_borigin CartModel.h_crc CartModel.h_off].
    unfold CartProofs.wf_cart in W. unfold main_line, bank_lines. destruct c as [t n s m b]. cbn [CartModel.ct_type CartModel.ct_name CartModel.ct_size CartModel.ct_main CartModel.ct_bank] in *.
    assert (Hd : Forall2 (made r h) (if 0 <? off then [mkSeg KObj (txt "Cart Header") 0 (raw_slice h r (Some 0) (Some off))] else []) (cart_head off)).
    { unfold cart_head. destruct (Z.ltb_spec 0 off); [|constructor]. constructor; [|constructor]. split; [|repeat split].
      apply slice_window; [exact R|lia|]. rewrite Hl. rewrite !andb_true_iff in W. nia. }
    destruct m as [[[ms mo] ma]|]; destruct b as [[[bs bo] ba]|].
    - rewrite !andb_true_iff in W. destruct W as [[[W1 W2] W3] [[[[[B1 B2] B3] B4] B5] B6]].
      assert (Q : s - ms = Z.of_nat (Z.to_nat ((s - ms) / bs)) * bs).
      { rewrite Z2Nat.id by (apply Z.div_pos; lia). pose proof (Z.div_mod (s - ms) bs ltac:(lia)). nia. }
      assert (E : CartModel.bank_loop (Z.to_nat (s - ms)) (s - ms) bo bs = Ok (CartProofs.offsets bo bs (Z.to_nat ((s - ms) / bs)))).
      { rewrite Q at 2. apply CartProofs.bank_loop_ok; [lia|]. rewrite <- Q. lia. }
      rewrite E. cbn [rbind]. intros X. injection X as <-. assert (bo = 0) as -> by lia. assert (mo = s - ms) as -> by lia.
      unfold cart_parse_segments. cbn [CartModel.h_off CartModel.h_moff CartModel.h_morigin CartModel.h_msize CartModel.h_banks]. eexists. split; [reflexivity|].
      apply Forall2_join; [exact Hd|]. apply Forall2_cons.
      + split; [|repeat split]. cbn [g_raw n_at]. replace (off + s * 1024) with (off + (s - ms) * 1024 + ms * 1024) by lia. apply slice_window; [exact R|nia|nia].
      + set (k := Z.to_nat ((s - ms) / bs)) in *. set (hd := CartModel.mkH _ _ _ _ _ _ _ _ _ _ _).
        pose proof (bank_segs_made hd bs ba eq_refl eq_refl Ho ltac:(lia) k 0 1 ltac:(lia)) as F. cbn [hd CartModel.h_off] in F. specialize (F ltac:(nia)).
        replace ((s - ms) / bs + 1) with (1 + Z.of_nat k) by (unfold k; rewrite Z2Nat.id by (apply Z.div_pos; lia); lia).
        match goal with |- Forall2 _ _ ?y => match type of F with Forall2 _ _ ?z => replace y with z; [exact F|] end end.
        apply map_ext. intros j. f_equal. f_equal; f_equal; nia.
    - rewrite !andb_true_iff in W. destruct W as [[[W1 W2] W3] [W4 W5]]. intros X. injection X as <-. assert (ms = s) as -> by lia. assert (mo = 0) as -> by lia.
      unfold cart_parse_segments. cbn [CartModel.h_off CartModel.h_moff CartModel.h_morigin CartModel.h_msize CartModel.h_banks bank_segs]. eexists. split; [reflexivity|].
      apply Forall2_join; [exact Hd|]. constructor; [|constructor]. split; [|repeat split]. cbn [g_raw n_at]. rewrite Z.sub_diag, Z.mul_0_l, Z.add_0_r. apply slice_window; [exact R|nia|nia].
    - rewrite andb_false_r in W. discriminate.
    - rewrite !andb_true_iff in W. destruct W as [[[W1 W2] W3] _]. intros X. injection X as <-.
      unfold cart_parse_segments. cbn [CartModel.h_off CartModel.h_moff CartModel.h_morigin CartModel.h_msize CartModel.h_banks bank_segs]. eexists. split; [reflexivity|].
      apply Forall2_join; [exact Hd|]. constructor; [|constructor]. split; [|repeat split]. cbn [g_raw n_at]. rewrite Z.mul_0_l, Z.add_0_r. apply slice_window; [exact R|nia|nia].
  Qed.
End C.
(** An accepted cartridge. *)
Lemma cart_accepted e strict p t b im : bytes_ok b -> p = PCart8 t \/ p = PCart52 t -> parse_image e strict p b = Ok im ->
  exists c ty nm sz crc off hd, In c CartModel.known_cart_types /\ CartModel.ct_type c = t /\ (off = 0 \/ off = 16) /\ zlen b = off + CartModel.ct_size c * 1024 /\
    CartModel.set_type (CartModel.mkH ty nm sz crc off [] 0 0 0 0 0) t = Ok hd /\ im = ICart (CartModel.mkCI b t hd).
Proof.
  intros Hb Hp E. assert (E' : exists k, cart_image k strict b t = Ok im) by (destruct Hp as [->| ->]; eexists; exact E). clear E Hp. destruct E' as (k & E). unfold cart_image in E.
  destruct (CartModel.open_cart b t) as [c0|] eqn:O; cbn [rbind] in E; [|discriminate]. unfold CartModel.open_cart in O. destruct (CartModel.get_cart t) as [c|] eqn:G; cbn [rbind] in O; [|discriminate].
  destruct (CartProofs.get_cart_inv t c G) as (Hc & Ht). pose proof (CartProofs.cart_wf c Hc) as W. unfold CartProofs.wf_cart in W. rewrite !andb_true_iff in W. destruct W as [[[W1 W2] W3] _].
  assert (Relax : forall bb hd0, CartModel.set_type CartModel.no_header t = Ok hd0 -> CartModel.cart_check_size (CartModel.mkCI bb t hd0) = Ok tt -> zlen bb = 0 + CartModel.ct_size c * 1024).
  { intros bb hd0 S1 S2. destruct (CartProofs.set_type_ok c (-1) EmptyString 0 0 0 Hc) as (h1 & S3 & T). rewrite Ht in S3. unfold CartModel.no_header in S1. rewrite S3 in S1. injection S1 as <-.
    rewrite (CartProofs.cart_size_ok (CartModel.mkCI bb t h1) c 0 0 T Hc) in S2. cbn [CartModel.ci_bytes] in S2. destruct (Z.eqb_spec (zlen bb) (0 + CartModel.ct_size c * 1024)); [assumption|discriminate]. }
  destruct (CartModel.read_cart_header (slice b 0 16)) as [hd|x] eqn:Rd.
  - cbn [rbind] in O. destruct (CartModel.cart_check_size (CartModel.mkCI b t hd)) as [[]|] eqn:Ck; cbn [rbind] in O; [|discriminate]. injection O as <-.
    destruct (CartProofs.read_inv b hd Hb Rd) as (c1 & crc & rest & Hc1 & Hr & T & Lb & Lr & Eb).
    assert (Same : CartModel.h_type hd = t -> exists c ty nm sz crc off hd', In c CartModel.known_cart_types /\ CartModel.ct_type c = t /\ (off = 0 \/ off = 16) /\ zlen b = off + CartModel.ct_size c * 1024 /\
      CartModel.set_type (CartModel.mkH ty nm sz crc off [] 0 0 0 0 0) t = Ok hd' /\ CartModel.mkCI b t hd = CartModel.mkCI b t hd').
    { intros Et. assert (Eq : CartModel.ct_type c1 = t) by (rewrite <- (CartProofs.ty_type _ _ _ _ T); exact Et).
      unfold CartModel.read_cart_header in Rd. destruct (zlen (slice b 0 16) =? 16); [|discriminate]. destruct (zlist_eqb _ _); [|discriminate]. cbv zeta in Rd.
      match type of Rd with CartModel.set_type (CartModel.mkH ?ty0 ?nm0 ?sz0 ?crc0 ?off0 _ _ _ _ _ _) ?q = _ => set (ty := ty0) in *; set (cr := crc0) in * end.
      assert (Ety : ty = t).
      { unfold CartModel.set_type in Rd. destruct (CartModel.get_cart ty) as [c2|] eqn:G2; cbn [rbind] in Rd; [|discriminate]. destruct (CartProofs.get_cart_inv ty c2 G2) as (Hc2 & Ht2).
        rewrite <- Et. destruct (CartModel.ct_main c2) as [[[? ?] ?]|]; destruct (CartModel.ct_bank c2) as [[[? ?] ?]|];
          try (destruct (CartModel.bank_loop _ _ _ _) as [bl|]; cbn [rbind] in Rd; [|discriminate]); apply (f_equal (fun o => match o with Ok x => CartModel.h_type x | Err _ => 0 end)) in Rd; exact Rd. }
      rewrite Ety in Rd. exists c1, t, EmptyString, 0, cr, 16, hd. split; [exact Hc1|]. split; [exact Eq|]. split; [right; reflexivity|].
      rewrite (CartProofs.cart_size_ok (CartModel.mkCI b t hd) c1 crc 16 T Hc1) in Ck. cbn [CartModel.ci_bytes] in Ck.
      destruct (Z.eqb_spec (zlen b) (16 + CartModel.ct_size c1 * 1024)) as [L|]; [|discriminate]. split; [exact L|]. split; [exact Rd|reflexivity]. }
    destruct strict.
    + destruct (CartModel.cart_strict k (CartModel.mkCI b t hd)) as [u|x] eqn:Sr; cbn [checked rbind] in E; [|destruct x as [y| | | | | | | | | | | |]; discriminate]. injection E as <-.
      unfold CartModel.cart_strict in Sr. cbn [CartModel.ci_hdr CartModel.ci_type] in Sr. destruct (match k with CartModel.AnyMachine => _ | _ => _ end); [discriminate|].
      destruct (_ =? -1); [discriminate|]. destruct (Z.eqb_spec (CartModel.h_type hd) t) as [Et|]; [|discriminate].
      destruct (Same Et) as (c2 & ty & nm & sz & cr & off & hd' & A1 & A2 & A3 & A4 & A5 & A6). exists c2, ty, nm, sz, cr, off, hd'. rewrite A6. auto 10.
    + unfold CartModel.cart_relaxed in E. cbn [CartModel.ci_hdr CartModel.ci_type CartModel.ci_bytes] in E. destruct (Z.eqb_spec (CartModel.h_type hd) t) as [Et|Nt]; cbn [negb] in E.
      * cbn [rbind] in E. injection E as <-. destruct (Same Et) as (c2 & ty & nm & sz & cr & off & hd' & A1 & A2 & A3 & A4 & A5 & A6). exists c2, ty, nm, sz, cr, off, hd'. rewrite A6. auto 10.
      * destruct (CartModel.set_type CartModel.no_header t) as [hd0|] eqn:S0; cbn [rbind] in E; [|discriminate]. destruct (CartModel.cart_check_size (CartModel.mkCI b t hd0)) as [[]|] eqn:C0; cbn [rbind] in E; [|discriminate].
        injection E as <-. exists c, (-1), EmptyString, 0, 0, 0, hd0. split; [exact Hc|]. split; [exact Ht|]. split; [left; reflexivity|]. split; [apply (Relax b hd0); [first [exact S0|reflexivity]|exact C0]|]. split; [exact S0|reflexivity].
  - destruct (CartProofs.read_err _ _ Rd) as [-> | ->]; cbn [rbind] in O; [|discriminate]. change (CartModel.cart_check_size (CartModel.mkCI b t CartModel.no_header)) with (@Ok unit tt) in O. cbn [rbind] in O. injection O as <-.
    destruct strict.
    + unfold CartModel.cart_strict in E. cbn [CartModel.ci_hdr CartModel.ci_type CartModel.h_type CartModel.no_header Z.eqb Pos.eqb] in E. destruct (match k with CartModel.AnyMachine => _ | _ => _ end); discriminate.
    + unfold CartModel.cart_relaxed in E. cbn [CartModel.ci_hdr CartModel.ci_type CartModel.ci_bytes] in E. change (CartModel.h_type CartModel.no_header) with (-1) in E. replace (-1 =? t) with false in E by lia. cbn [negb] in E.
      destruct (CartModel.set_type CartModel.no_header t) as [hd0|] eqn:S0; cbn [rbind] in E; [|discriminate]. destruct (CartModel.cart_check_size (CartModel.mkCI b t hd0)) as [[]|] eqn:C0; cbn [rbind] in E; [|discriminate].
      injection E as <-. exists c, (-1), EmptyString, 0, 0, 0, hd0. split; [exact Hc|]. split; [exact Ht|]. split; [left; reflexivity|]. split; [apply (Relax b hd0); [first [exact S0|reflexivity]|exact C0]|]. split; [exact S0|reflexivity].
Qed.
