(** C93: what `list --metadata` adds to a listing. *)
From Coq Require Import String.
From Verif Require Import Base BaseLemmas DiskModel AtariModel SpartaModel Dos33Model CliModel CliProofs TextModel TextSpec TextProofs TextOpen
  Properties_Text Dos33Spec Dos33Geom Dos33Dir Dos33Files Dos33Vtoc Dos33Alloc Dos33Ops Dos33Demo SegList33 MetaModel.
From Verif Require Properties_Sparta.
Import List.

(** * The flags *)
(** [w] stands somewhere in [t]. *)
Definition occurs (w t : list Z) : Prop := exists a c, t = a ++ w ++ c.
Fixpoint starts_b (w t : list Z) : bool :=
  match w, t with [], _ => true | x :: w', y :: t' => (x =? y) && starts_b w' t' | _, [] => false end.
Fixpoint occurs_b (w t : list Z) : bool :=
  starts_b w t || match t with [] => false | _ :: r => occurs_b w r end.
Lemma starts_b_spec w : forall t, starts_b w t = true <-> exists c, t = w ++ c.
Proof.
  induction w as [|x w IH]; intros t.
  - split; [intros _; exists t; reflexivity|reflexivity].
  - destruct t as [|y t]; cbn [starts_b]; [split; [discriminate|intros (c & H); discriminate]|].
    rewrite andb_true_iff, Z.eqb_eq, IH. split.
    + intros [-> (c & ->)]. exists c. reflexivity.
    + intros (c & H). injection H as -> ->. split; [reflexivity|exists c; reflexivity].
Qed.
Lemma occurs_b_spec w t : occurs_b w t = true <-> occurs w t.
Proof.
  induction t as [|y t IH]; cbn [occurs_b]; rewrite orb_true_iff, starts_b_spec.
  - split.
    + intros [(c & H)|H]; [|discriminate]. exists [], c. exact H.
    + intros (a & c & H). left. destruct a; [exists c; exact H|discriminate].
  - rewrite IH. split.
    + intros [(c & H)|(a & c & ->)]; [exists [], c; exact H|exists (y :: a), c; reflexivity].
    + intros (a & c & H). destruct a as [|z a]; [left; exists c; exact H|]. injection H as -> ->. right. exists a, c. reflexivity.
Qed.
Lemma occurs_is w t b : occurs_b w t = b -> (occurs w t <-> b = true).
Proof. intros <-. symmetry. apply occurs_b_spec. Qed.

(** The word of a flag stands in the line exactly when the flag is set. *)
Theorem C93_atari_flags d :
  (occurs (txt "OUT") (atari_meta d) <-> d_out d = true) /\ (occurs (txt "DOS2") (atari_meta d) <-> d_dos2 d = true) /\
  (occurs (txt "MYDOS") (atari_meta d) <-> d_mydos d = true) /\ (occurs (txt "IN_USE") (atari_meta d) <-> d_inuse d = true) /\
  (occurs (txt "DEL") (atari_meta d) <-> d_deleted d = true) /\ (occurs (txt "LOCK") (atari_meta d) <-> d_locked d = true).
Proof.
  unfold atari_meta. destruct (d_out d), (d_dos2 d), (d_mydos d), (d_inuse d), (d_deleted d), (d_locked d);
    repeat split; apply occurs_is; vm_compute; reflexivity.
Qed.
Print Assumptions C93_atari_flags.
Theorem C93_sparta_flags d :
  (occurs (txt "OUT") (sparta_meta d) <-> sd_out d = true) /\ (occurs (txt "DIR") (sparta_meta d) <-> sd_isdir d = true) /\
  (occurs (txt "IN_USE") (sparta_meta d) <-> sd_inuse d = true) /\
  (occurs (txt "DEL") (sparta_meta d) <-> sd_deleted d = true) /\ (occurs (txt "LOCK") (sparta_meta d) <-> sd_locked d = true).
Proof.
  unfold sparta_meta. destruct (sd_out d), (sd_isdir d), (sd_inuse d), (sd_deleted d), (sd_locked d);
    repeat split; apply occurs_is; vm_compute; reflexivity.
Qed.
Print Assumptions C93_sparta_flags.

(** * The listing *)
(** With --metadata the same lines are printed, each followed by the metadata of its file;
    what can fail is printing the lines or one of the metadata. *)
Theorem C93_listing {E} line name (read meta : E -> res (list Z)) crc img head show files ds t :
  meta_text E line name read meta crc img head show files ds = (t, Ok tt) <->
  exists ls ms, Forall2 (fun d l => list_one E line read crc show d = Ok l) (selected E name files ds) ls /\
    Forall2 (fun d m => meta d = Ok m) (selected E name files ds) ms /\
    list_text E line name read crc img head show files ds = (img ++ txt ": " ++ head ++ 10 :: flat_map (fun l => l ++ [10]) ls, Ok tt) /\
    t = img ++ txt ": " ++ head ++ 10 :: flat_map (fun e => fst e ++ 10 :: snd e ++ [10]) (combine ls ms).
Proof.
  unfold meta_text, list_text. generalize (selected E name files ds). intros l.
  assert (K : forall r, meta_loop E line read meta crc show l = (r, Ok tt) <->
    exists ls ms, Forall2 (fun d l => list_one E line read crc show d = Ok l) l ls /\ Forall2 (fun d m => meta d = Ok m) l ms /\
      print_loop E (list_one E line read crc show) l = (flat_map (fun l => l ++ [10]) ls, Ok tt) /\
      r = flat_map (fun e => fst e ++ 10 :: snd e ++ [10]) (combine ls ms)).
  { induction l as [|d l IH]; intros r; cbn [meta_loop print_loop].
    - split.
      + intros H. injection H as <-. exists [], []. repeat split; constructor.
      + intros (ls & ms & F1 & F2 & _ & ->). inversion F1; subst. reflexivity.
    - split.
      + destruct (list_one E line read crc show d) as [x|] eqn:Ex; [|discriminate]. destruct (meta d) as [m|] eqn:Em; [|discriminate].
        destruct (meta_loop E line read meta crc show l) as [t2 y]. intros H. injection H as <- ->.
        destruct (proj1 (IH t2) eq_refl) as (ls & ms & F1 & F2 & Ep & ->). exists (x :: ls), (m :: ms).
        split; [constructor; assumption|]. split; [constructor; assumption|]. rewrite Ep. cbn [flat_map combine fst snd]. split; repeat (rewrite <- app_assoc; cbn [app]); reflexivity.
      + intros (ls & ms & F1 & F2 & Ep & ->). inversion F1 as [|? x ? ls' Ex F1']; subst. inversion F2 as [|? m ? ms' Em F2']; subst.
        rewrite Ex in Ep |- *. rewrite Em. cbn [combine flat_map fst snd].
        destruct (print_loop E (list_one E line read crc show) l) as [t3 y] eqn:Et. injection Ep as Ep ->.
        rewrite <- app_assoc in Ep. apply app_inv_head in Ep. injection Ep as ->.
        rewrite (proj2 (IH (flat_map (fun e => fst e ++ 10 :: snd e ++ [10]) (combine ls' ms')))).
        * repeat (rewrite <- app_assoc; cbn [app]). reflexivity.
        * exists ls', ms'. auto. }
  split.
  - destruct (meta_loop E line read meta crc show l) as [r x]. intros H. injection H as <- ->.
    destruct (proj1 (K r) eq_refl) as (ls & ms & F1 & F2 & Ep & ->). exists ls, ms. rewrite Ep. auto.
  - intros (ls & ms & F1 & F2 & Ep & ->). destruct (print_loop E (list_one E line read crc show) l) as [t3 y] eqn:Et.
    injection Ep as Ep ->. apply app_inv_head in Ep. injection Ep as Ep. apply app_inv_head in Ep. injection Ep as ->.
    rewrite (proj2 (K (flat_map (fun e => fst e ++ 10 :: snd e ++ [10]) (combine ls ms)))); [reflexivity|]. exists ls, ms. auto.
Qed.
Print Assumptions C93_listing.

(** On Atari DOS and SpartaDOS images metadata never fails: a listing with it ends as the
    listing without it does. *)
Lemma meta_ends {E} line name (read : E -> res (list Z)) m crc img head show files ds :
  snd (meta_text E line name read (fun d => Ok (m d)) crc img head show files ds) = snd (list_text E line name read crc img head show files ds).
Proof.
  unfold meta_text, list_text. generalize (selected E name files ds). intros l.
  assert (K : snd (meta_loop E line read (fun d => Ok (m d)) crc show l) = snd (print_loop E (list_one E line read crc show) l)).
  { induction l as [|d l IH]; cbn [meta_loop print_loop]; [reflexivity|]. destruct (list_one E line read crc show d); [|reflexivity].
    destruct (meta_loop E line read (fun d => Ok (m d)) crc show l), (print_loop E (list_one E line read crc show) l). exact IH. }
  destruct (meta_loop E line read (fun d => Ok (m d)) crc show l), (print_loop E (list_one E line read crc show) l). exact K.
Qed.
Theorem C93_ends crc img show files im ims :
  snd (atari_list_meta crc img show files im) = snd (atari_list crc img show files im) /\
  snd (sparta_list_meta crc img show files ims) = snd (sparta_list crc img show files ims).
Proof.
  split; [apply meta_ends|]. unfold sparta_list_meta, sparta_list. destruct (stamps ims); [|reflexivity].
  apply (meta_ends sparta_line (fun e => sfilename (fst e)) (fun e => sget_file ims (fst e)) (fun e => sparta_meta (fst e))).
Qed.
Print Assumptions C93_ends.

(** * DOS 3.3 *)
(** The metadata of a file: a numbered line per sector of its track/sector list, and the
    numbers of its data sectors. *)
Definition row_shown (i n : Z) : list Z := txt " " ++ dec i ++ txt ": sector=" ++ dec n ++ txt " next=0 size=256 used=256".
Lemma row_shown_is i n : ts_row i n = row_shown i n.
Proof. reflexivity. Qed.
(** Texts of numbers between brackets can be read. *)
Fixpoint nums_tail (m : list Z) : list Z :=
  match m with [] => [93] | [a] => dec a ++ [93] | a :: r => dec a ++ 44 :: 32 :: nums_tail r end.
Lemma nums_text_tail m : nums_text m = 91 :: nums_tail m.
Proof.
  unfold nums_text. change (txt "[") with [91]. cbn [app]. f_equal. induction m as [|a m IH]; [reflexivity|]. destruct m as [|b m]; [reflexivity|].
  change (map dec (a :: b :: m)) with (dec a :: map dec (b :: m)). change (nums_tail (a :: b :: m)) with (dec a ++ 44 :: 32 :: nums_tail (b :: m)). rewrite <- IH.
  change (joined (txt ", ") (dec a :: map dec (b :: m))) with (dec a ++ txt ", " ++ joined (txt ", ") (map dec (b :: m))). rewrite <- !app_assoc. reflexivity.
Qed.
Lemma code_nums : code (fun _ => True) nums_tail (fun m => m).
Proof.
  intros a. induction a as [|x a IH]; intros b r s _ _ H.
  - destruct b as [|y b]; [split; [reflexivity|]; injection H as H; exact H|]. exfalso.
    pose proof (dec_num y) as F. pose proof (dec_ne y) as N. destruct (dec y) as [|c l] eqn:Ed; [congruence|]. inversion F as [|? ? Fc _]; subst.
    assert (c = 93) as ->. { destruct b; cbn [nums_tail] in H; rewrite Ed in H; injection H; congruence. }
    revert Fc. apply not_num_b. reflexivity.
  - destruct b as [|y b].
    { exfalso. pose proof (dec_num x) as F. pose proof (dec_ne x) as N. destruct (dec x) as [|c l] eqn:Ed; [congruence|]. inversion F as [|? ? Fc _]; subst.
      assert (c = 93) as ->. { destruct a; cbn [nums_tail] in H; rewrite Ed in H; injection H; congruence. }
      revert Fc. apply not_num_b. reflexivity. }
    assert (X : forall z (l : list Z), exists c t, nums_tail (z :: l) = dec z ++ c :: t /\ ~ is_num c /\ ((l = [] /\ c = 93 /\ t = []) \/ (l <> [] /\ c = 44 /\ t = 32 :: nums_tail l))).
    { intros z l. destruct l as [|w l]; [exists 93, []|exists 44, (32 :: nums_tail (w :: l))].
      - split; [reflexivity|]. split; [apply not_num_b; reflexivity|auto].
      - split; [reflexivity|]. split; [apply not_num_b; reflexivity|right; repeat split; discriminate]. }
    destruct (X x a) as (c & t & E1 & N1 & D1). destruct (X y b) as (c' & t' & E2 & N2 & D2). rewrite E1, E2, <- !app_assoc in H. cbn [app] in H.
    destruct (span_eq is_num _ _ _ _ _ _ (dec_num x) (dec_num y) N1 N2 H) as (Hx & Hr). injection Hr as Hc Hr. apply dec_inj in Hx. subst y c'.
    destruct D1 as [(-> & -> & ->)|(Na & -> & ->)], D2 as [(-> & Ec & ->)|(Nb & Ec & ->)]; try discriminate Ec.
    + split; [reflexivity|exact Hr].
    + cbn [app] in Hr. injection Hr as Hr. destruct (IH b r s Logic.I Logic.I Hr) as [-> ->]. split; reflexivity.
Qed.
Lemma code_map : code (fun _ => True) nums_text (fun m => m).
Proof. intros a b r s _ _ H. rewrite !nums_text_tail in H. injection H as H. apply (code_nums a b r s Logic.I Logic.I H). Qed.
(** The lines of the track/sector list *)
Fixpoint rows_tail (i : Z) (tl : list Z) : list Z :=
  match tl with [] => [115] | n :: r => ts_row i n ++ 10 :: rows_tail (i + 1) r end.
Lemma code_row : code (fun _ => True) (fun e : Z * Z => ts_row (fst e) (snd e) ++ [10]) (fun e => e).
Proof.
  apply code_ext with (g := fun e : Z * Z => txt " " ++ (dec (fst e) ++ 58 :: txt " sector=") ++ (dec (snd e) ++ 32 :: txt "next=0 size=256 used=256" ++ [10])).
  { intros [i n] _. unfold ts_row. cbn [fst snd]. rewrite <- !app_assoc. reflexivity. }
  eapply code_view; [|eapply code_app; [apply code_const|eapply code_app; [apply code_dec; apply not_num_b; reflexivity|apply code_dec; apply not_num_b; reflexivity]]].
  intros [i n] [j m] _ _. cbn [fst snd]. intros H. injection H as -> ->. reflexivity.
Qed.
Lemma code_rows : forall i, code (fun _ => True) (rows_tail i) (fun m => m).
Proof.
  intros i a. revert i. induction a as [|x a IH]; intros i b r s _ _ H; destruct b as [|y b]; cbn [rows_tail] in H.
  - split; [reflexivity|]. injection H as H. exact H.
  - discriminate H.
  - discriminate H.
  - pose proof (code_row (i, x) (i, y) (rows_tail (i + 1) a ++ r) (rows_tail (i + 1) b ++ s) Logic.I Logic.I) as K. cbn [fst snd] in K.
    destruct K as [Kx Kr]; [rewrite <- !app_assoc in H |- *; exact H|]. injection Kx as ->.
    destruct (IH (i + 1) b r s Logic.I Logic.I Kr) as [-> ->]. split; reflexivity.
Qed.
Lemma rows_text_tail m : forall tl i, tl <> [] -> joined [10] (ts_rows i tl) ++ 10 :: 115 :: m = rows_tail i tl ++ m.
Proof.
  induction tl as [|n tl IH]; intros i N; [congruence|]. destruct tl as [|n' tl].
  - cbn [ts_rows joined rows_tail]. rewrite <- app_assoc. reflexivity.
  - change (ts_rows i (n :: n' :: tl)) with (ts_row i n :: ts_rows (i + 1) (n' :: tl)).
    change (rows_tail i (n :: n' :: tl)) with (ts_row i n ++ 10 :: rows_tail (i + 1) (n' :: tl)). rewrite <- app_assoc. cbn [app]. rewrite <- IH by discriminate.
    change (joined [10] (ts_row i n :: ts_rows (i + 1) (n' :: tl))) with (ts_row i n ++ [10] ++ joined [10] (ts_rows (i + 1) (n' :: tl))). rewrite <- !app_assoc. reflexivity.
Qed.
Lemma code_sectors : code (fun e : list Z * list Z => fst e <> []) (fun e => sectors_text (fst e) (snd e)) (fun e => e).
Proof.
  apply code_ext with (g := fun e : list Z * list Z => txt "track/sector list at: " ++ rows_tail 0 (fst e) ++ txt "ector map: " ++ nums_text (snd e)).
  { intros [tl m] H. cbn [fst snd] in *. unfold sectors_text. f_equal. change (10 :: txt "sector map: " ++ nums_text m) with (10 :: 115 :: txt "ector map: " ++ nums_text m). apply rows_text_tail. exact H. }
  eapply code_view; [|eapply code_app; [apply code_const|eapply code_app; [|eapply code_app; [apply code_const|]]]].
  2:{ intros a b r s _ _ H. exact (code_rows 0 (fst a) (fst b) r s Logic.I Logic.I H). }
  2:{ intros a b r s _ _ H. exact (code_map (snd a) (snd b) r s Logic.I Logic.I H). }
  intros [a a'] [b b'] _ _ H. cbn [fst snd] in H. injection H as -> ->. reflexivity.
Qed.
(** From the text the sectors of the list and of the data can be read. *)
Theorem C93_sectors_read tl dl tl' dl' : tl <> [] -> tl' <> [] -> sectors_text tl dl = sectors_text tl' dl' -> tl = tl' /\ dl = dl'.
Proof.
  intros N N' H. destruct (code_sectors (tl, dl) (tl', dl') [] [] N N') as [K _]; [cbn [fst snd]; rewrite !app_nil_r; exact H|]. injection K as -> ->. auto.
Qed.
Print Assumptions C93_sectors_read.

(** On a consistent image the metadata of every file show the sectors of its track/sector
    list and its data sectors, in order: the sectors hold the file, none is free, and no
    sector is shown for two files. *)
Lemma in_file3 im d : consistent3 im -> In d (i_files im) -> exists tl dl, sectors_of3 im (d3_name d) tl dl /\
  get_tslist (fuel33 (i_hdr im)) (i_hdr im) (i_bytes im) d = Ok (tl, dl) /\ get_file3 im d = Ok (contents3 (i_bytes im) dl) /\
  find_file3 im (d3_name d) = Ok (contents3 (i_bytes im) dl).
Proof.
  intros C Hd. destruct (consistent3_view im C) as (cat & k & Ei & D). set (b := i_bytes im) in *. clearbody b. subst im. cbn [view3 i_files i_hdr i_bytes] in *.
  apply in_files3 in Hd; [|exact D]. destruct Hd as (i & Hi & L & ->). destruct (k3_files _ _ _ D i Hi L) as (_ & _ & tl & dl & F & _).
  assert (Fi : file_in3 b cat k (d3_name (parse_ent (H3 (fdir3 b)) (slot3 b cat i))) i tl dl) by (rewrite d3_name_parse; split; [exact Hi|]; split; [exact L|]; split; [reflexivity|exact F]).
  exists tl, dl. split; [exists cat, k, i; split; [exact D|exact Fi]|]. split.
  - apply (get_tslist_spec (fdir3 b) b (slot3 b cat i) _ tl dl (k3_size _ _ _ D) F); [apply d3_start_parse; intros X; destruct L; contradiction|reflexivity].
  - split; [apply (get_file3_spec b cat k _ i tl dl D Hi L F)|]. apply (find_of_file_in3 b cat k _ i tl dl D Fi).
Qed.
Lemma sectors_own im n n' tl dl tl' dl' s : sectors_of3 im n tl dl -> sectors_of3 im n' tl' dl' -> In s (tl ++ dl) -> In s (tl' ++ dl') -> n = n'.
Proof.
  intros (cat & k & i & D & (Hi & L & N & A)) (cat' & k' & j & D' & (Hj & L' & N' & A')) H H'. destruct (disk_det _ _ _ _ _ D D') as [<- <-].
  assert (i = j) as <- by (apply (k3_own _ _ _ D i j tl dl tl' dl' s); assumption). congruence.
Qed.
Lemma sectors_used im n tl dl : sectors_of3 im n tl dl -> tl <> [] /\ NoDup (tl ++ dl) /\ forall s, In s (tl ++ dl) -> 16 <= s < 560 /\ ~ is_free3 im s.
Proof.
  intros (cat & k & i & D & (Hi & L & N & A)). destruct (k3_files _ _ _ D i Hi L) as (T & _ & tl' & dl' & F & _ & Nd & Hs).
  destruct (file_at_det _ _ _ _ _ _ A F) as [<- <-]. split; [|split; [exact Nd|]].
  - intros ->. destruct A as [Lk _]. inversion Lk as [E|]. unfold x_start in E.
    destruct L as [L1 L2]. assert (B : bytes_ok (slot3 (i_bytes im) cat i)).
    { unfold slot3, catalog. apply bytes_ok_slice. apply Forall_forall. intros z Hz. apply in_flat_map in Hz. destruct Hz as (m & _ & Hz).
      assert (Q : bytes_ok (slice (sec (i_bytes im) m) 11 256)) by (apply bytes_ok_slice; unfold sec; apply bytes_ok_slice; exact (k3_bytes _ _ _ D)). unfold bytes_ok in Q. rewrite Forall_forall in Q. apply Q. exact Hz. }
    pose proof (bytes_ok_getb _ 0 B). pose proof (bytes_ok_getb _ 1 B). unfold is_byte in *. lia.
  - intros s Is. destruct (Hs s Is) as [(R & _) Fb]. split; [exact R|]. intros [_ Fr]. congruence.
Qed.
Theorem C93_dos33_meta im d : consistent3 im -> In d (i_files im) -> exists tl dl,
  dos33_meta im d = Ok (sectors_text tl dl) /\
  find_file3 im (d3_name d) = Ok (flat_map (sec (i_bytes im)) dl) /\
  sectors_of3 im (d3_name d) tl dl /\
  NoDup (tl ++ dl) /\ (forall s, In s (tl ++ dl) -> 16 <= s < 560 /\ ~ is_free3 im s) /\
  (forall e tl' dl' s, In e (i_files im) -> dos33_meta im e = Ok (sectors_text tl' dl') -> tl' <> [] ->
     In s (tl ++ dl) -> In s (tl' ++ dl') -> d3_name e = d3_name d).
Proof.
  intros C Hd. destruct (in_file3 im d C Hd) as (tl & dl & Hs & Ht & _ & Hf). exists tl, dl.
  destruct (sectors_used _ _ _ _ Hs) as (Hn & Hnd & Hu).
  split; [unfold dos33_meta; rewrite Ht; reflexivity|]. split; [exact Hf|]. split; [exact Hs|]. split; [exact Hnd|]. split; [exact Hu|].
  intros e tl' dl' s He Hm N' I1 I2. destruct (in_file3 im e C He) as (tl2 & dl2 & Hs2 & Ht2 & _). unfold dos33_meta in Hm. rewrite Ht2 in Hm. cbn [rbind] in Hm. assert (Hm' : sectors_text tl2 dl2 = sectors_text tl' dl') by congruence.
  destruct (sectors_used _ _ _ _ Hs2) as (Hn2 & _).
  destruct (C93_sectors_read _ _ _ _ Hn2 N' Hm') as [-> ->]. symmetry. apply (sectors_own im _ _ tl dl tl' dl' s Hs Hs2 I1 I2).
Qed.
Print Assumptions C93_dos33_meta.

(** A listing of a consistent image, with or without checksums, never fails. *)
Theorem C93_dos33_ends crc img show files im : consistent3 im -> snd (dos33_list_meta crc img show files im) = Ok tt.
Proof.
  intros C. unfold dos33_list_meta, meta_text.
  assert (F : Forall (fun e => In (snd e) (i_files im)) (selected _ (fun e => d3_name (snd e)) files (numbered im))).
  { apply Forall_selected. destruct C as [Ho _]. rewrite <- (proj2 (numbered_files _ _ Ho)). apply Forall_forall. intros e He. apply in_map. exact He. }
  revert F. generalize (selected _ (fun e : Z * ent => d3_name (snd e)) files (numbered im)). intros l F.
  assert (K : snd (meta_loop (Z * ent) dos33_line (fun e => get_file3 im (snd e)) (fun e => dos33_meta im (snd e)) crc show l) = Ok tt).
  { induction F as [|d l Hd F IH]; [reflexivity|]. cbn [meta_loop]. destruct (in_file3 im (snd d) C Hd) as (tl & dl & _ & Ht & Hf & _).
    unfold list_one. rewrite Hf. cbn [rbind]. unfold dos33_meta at 1. rewrite Ht. cbn [rbind].
    destruct (meta_loop (Z * ent) dos33_line (fun e => get_file3 im (snd e)) (fun e => dos33_meta im (snd e)) crc show l) as [t2 x]. destruct show; exact IH. }
  destruct (meta_loop (Z * ent) dos33_line (fun e => get_file3 im (snd e)) (fun e => dos33_meta im (snd e)) crc show l) as [t2 x]. exact K.
Qed.
Print Assumptions C93_dos33_ends.

(** Two consistent images listed with the same text agree in what the lines show and in the
    sectors of the files listed. *)
Definition shown33 (show : bool) (e : (Z * ent) * Z * (list Z * list Z)) : list Z :=
  (dos33_line (fst (fst e)) ++ shown_tail show (snd (fst e)) ++ [10]) ++ sectors_text (fst (snd e)) (snd (snd e)) ++ [10].
Lemma code_shown33 show : code (fun e : (Z * ent) * Z * (list Z * list Z) => (line3_ok (fst (fst e)) /\ 0 <= snd (fst e)) /\ fst (snd e) <> [])
  (shown33 show) (fun e => (dos33_view (fst (fst e)), if show then snd (fst e) else 0, snd e)).
Proof.
  unfold shown33. eapply code_view; [|eapply code_app; [|eapply code_app; [|apply code_const]]].
  2:{ intros a b r s [Ha _] [Hb _] H. exact (code_dos33 show (fst a) (fst b) r s Ha Hb H). }
  2:{ intros a b r s [_ Ha] [_ Hb] H. exact (code_sectors (snd a) (snd b) r s Ha Hb H). }
  cbv beta. intros a b _ _ H. congruence.
Qed.
Lemma list_meta33 crc img show files im t : consistent3 im -> dos33_list_meta crc img show files im = (t, Ok tt) ->
  let l := selected _ (fun e => d3_name (snd e)) files (numbered im) in
  exists cs ss, Forall2 (has_crc (fun e => get_file3 im (snd e)) crc show) l cs /\
    Forall2 (fun e s => sectors_of3 im (d3_name (snd e)) (fst s) (snd s)) l ss /\
    t = img ++ txt ": " ++ dos33_head im ++ 10 :: flat_map (shown33 show) (combine (combine l cs) ss).
Proof.
  intros C. unfold dos33_list_meta, meta_text. cbv zeta.
  assert (F : Forall (fun e => In (snd e) (i_files im)) (selected _ (fun e => d3_name (snd e)) files (numbered im))).
  { apply Forall_selected. destruct C as [Ho _]. rewrite <- (proj2 (numbered_files _ _ Ho)). apply Forall_forall. intros e He. apply in_map. exact He. }
  revert F. generalize (selected _ (fun e : Z * ent => d3_name (snd e)) files (numbered im)). intros l F.
  destruct (meta_loop (Z * ent) dos33_line (fun e => get_file3 im (snd e)) (fun e => dos33_meta im (snd e)) crc show l) as [t2 x] eqn:Em. intros H. injection H as <- ->.
  assert (K : exists cs ss, Forall2 (has_crc (fun e => get_file3 im (snd e)) crc show) l cs /\
    Forall2 (fun e s => sectors_of3 im (d3_name (snd e)) (fst s) (snd s)) l ss /\ t2 = flat_map (shown33 show) (combine (combine l cs) ss)).
  { revert t2 Em. induction F as [|d l Hd F IH]; intros t2 Em; cbn [meta_loop] in Em.
    - injection Em as <-. exists [], []. repeat split; constructor.
    - destruct (in_file3 im (snd d) C Hd) as (tl & dl & Hs & Ht & Hf & _).
      unfold list_one, dos33_meta at 1 in Em. rewrite Hf, Ht in Em. cbn [rbind] in Em.
      destruct (meta_loop (Z * ent) dos33_line (fun e => get_file3 im (snd e)) (fun e => dos33_meta im (snd e)) crc show l) as [t3 y].
      assert (E : (dos33_line d ++ shown_tail show (crc (contents3 (i_bytes im) dl)) ++ 10 :: sectors_text tl dl ++ 10 :: t3, y) = (t2, Ok tt)).
      { rewrite <- Em. destruct show; unfold shown_tail; repeat (rewrite <- app_assoc; cbn [app]); reflexivity. }
      assert (y = Ok tt) as -> by congruence. assert (Et : t2 = dos33_line d ++ shown_tail show (crc (contents3 (i_bytes im) dl)) ++ 10 :: sectors_text tl dl ++ 10 :: t3) by congruence. clear E Em.
      destruct (IH t3 eq_refl) as (cs & ss & F1 & F2 & ->). exists ((if show then crc (contents3 (i_bytes im) dl) else 0) :: cs), ((tl, dl) :: ss).
      split; [constructor; [unfold has_crc; destruct show; [exists (contents3 (i_bytes im) dl); auto|reflexivity]|exact F1]|].
      split; [constructor; [exact Hs|exact F2]|]. rewrite Et. cbn [combine flat_map]. generalize (flat_map (shown33 show) (combine (combine l cs) ss)). intros rest.
      unfold shown33. cbn [fst snd]. repeat (rewrite <- app_assoc; cbn [app]). destruct show; reflexivity. }
  destruct K as (cs & ss & F1 & F2 & ->). exists cs, ss. auto.
Qed.
Lemma shown33_views (show : bool) (l : list (Z * ent)) : forall (cs : list Z) (ss : list (list Z * list Z)), List.length l = List.length cs -> List.length l = List.length ss ->
  map (fun e : (Z * ent) * Z * (list Z * list Z) => (dos33_view (fst (fst e)), if show then snd (fst e) else 0, snd e)) (combine (combine l cs) ss) =
  combine (combine (map dos33_view l) (map (fun c : Z => if show then c else 0) cs)) ss.
Proof.
  induction l as [|e l IH]; intros [|c cs] [|s ss] L1 L2; cbn [List.length] in *; try discriminate; [reflexivity|]. cbn [combine map fst snd]. f_equal. apply IH; lia.
Qed.
Lemma combine_same {A B} (l l' : list A) : forall m m' : list B, List.length l = List.length m -> List.length l' = List.length m' -> combine l m = combine l' m' -> l = l' /\ m = m'.
Proof.
  revert l'. induction l as [|x l IH]; intros [|x' l'] [|y m] [|y' m'] L L' E; cbn [List.length combine] in *; try discriminate; [auto|].
  injection E as -> -> E. destruct (IH l' m m' ltac:(lia) ltac:(lia) E) as [-> ->]. auto.
Qed.
Theorem C93_dos33_list crc img show files im1 im2 t : (forall x, 0 <= crc x < 2 ^ 32) -> consistent3 im1 -> consistent3 im2 ->
  dos33_list_meta crc img show files im1 = (t, Ok tt) -> dos33_list_meta crc img show files im2 = (t, Ok tt) ->
  let l1 := selected _ (fun e => d3_name (snd e)) files (numbered im1) in
  let l2 := selected _ (fun e => d3_name (snd e)) files (numbered im2) in
  map dos33_view l1 = map dos33_view l2 /\
  (show = true -> sums (fun e => get_file3 im1 (snd e)) crc l1 = sums (fun e => get_file3 im2 (snd e)) crc l2) /\
  exists ss, Forall2 (fun e s => sectors_of3 im1 (d3_name (snd e)) (fst s) (snd s)) l1 ss /\
             Forall2 (fun e s => sectors_of3 im2 (d3_name (snd e)) (fst s) (snd s)) l2 ss.
Proof.
  intros Hc C1 C2 T1 T2. cbv zeta.
  destruct (list_meta33 _ _ _ _ _ _ C1 T1) as (c1 & s1 & F1 & G1 & E1). destruct (list_meta33 _ _ _ _ _ _ C2 T2) as (c2 & s2 & F2 & G2 & E2).
  rewrite E1 in E2. do 2 apply app_inv_head in E2. unfold dos33_head in E2. apply app_inv_head in E2. injection E2 as E2.
  assert (N : forall im files, consistent3 im -> Forall line3_ok (selected _ (fun e => d3_name (snd e)) files (numbered im))).
  { intros im fs C. apply Forall_selected, numbered_ok. destruct (consistent3_view im C) as (cat & k & _ & D). exact (k3_bytes _ _ _ D). }
  assert (Q : forall im l (cs : list Z) (ss : list (list Z * list Z)), Forall line3_ok l -> Forall (fun c => 0 <= c) cs ->
     Forall2 (fun e s => sectors_of3 im (d3_name (snd e)) (fst s) (snd s)) l ss ->
     Forall (fun e : (Z * ent) * Z * (list Z * list Z) => (line3_ok (fst (fst e)) /\ 0 <= snd (fst e)) /\ fst (snd e) <> []) (combine (combine l cs) ss)).
  { intros im l cs ss A B G. apply Forall_forall. intros [[e c] s] H. cbn [fst snd]. pose proof (in_combine_l _ _ _ _ H) as Hl. pose proof (in_combine_r _ _ _ _ H) as Hr.
    rewrite Forall_forall in A, B. split; [split; [apply A; apply (in_combine_l _ _ _ _ Hl)|apply B; apply (in_combine_r _ _ _ _ Hl)]|].
    clear H Hl A B. induction G as [|x y l0 ss0 Hxy G IH]; [destruct Hr|]. destruct Hr as [<-|Hr]; [apply (sectors_used _ _ _ _ Hxy)|apply IH; exact Hr]. }
  pose proof (code_list _ _ _ (code_shown33 show) ltac:(intros a _ H; unfold shown33 in H; destruct (app_eq_nil _ _ H) as [H2 _]; destruct (app_eq_nil _ _ H2) as [_ H3]; destruct (app_eq_nil _ _ H3) as [_ H4]; discriminate) _ _
    (Q im1 _ c1 s1 (N im1 files C1) (has_crc_nonneg _ _ _ _ _ Hc F1) G1) (Q im2 _ c2 s2 (N im2 files C2) (has_crc_nonneg _ _ _ _ _ Hc F2) G2) E2) as M.
  pose proof (Forall2_len _ _ _ F1) as L1. pose proof (Forall2_len _ _ _ F2) as L2. pose proof (Forall2_len _ _ _ G1) as L3. pose proof (Forall2_len _ _ _ G2) as L4.
  rewrite !shown33_views in M by assumption.
  apply combine_same in M; [|rewrite combine_length, !map_length, <- L1; rewrite Nat.min_id; exact L3|rewrite combine_length, !map_length, <- L2; rewrite Nat.min_id; exact L4].
  destruct M as [M1 <-]. apply combine_same in M1; [|rewrite !map_length; exact L1|rewrite !map_length; exact L2]. destruct M1 as [Mv Mc].
  split; [exact Mv|]. split; [|exists s1; auto]. intros ->. rewrite !map_id in Mc. subst c2. rewrite (has_crc_sums _ _ _ _ F1), (has_crc_sums _ _ _ _ F2). reflexivity.
Qed.
Print Assumptions C93_dos33_list.

(** The link shown with a sector of the track/sector list is always 0, also when the list
    goes on in another sector. *)
Theorem C93_next_partial im d tl dl n : consistent3 im -> In d (i_files im) -> sectors_of3 im (d3_name d) tl dl -> tl = [n] ->
  lnk (sec (i_bytes im) n) = 0 /\ occurs (txt "sector=" ++ dec n ++ txt " next=" ++ dec (lnk (sec (i_bytes im) n)) ++ txt " size") (sectors_text tl dl).
Proof.
  intros C Hd Hs ->. assert (E : lnk (sec (i_bytes im) n) = 0).
  { destruct Hs as (cat & k & i & D & (_ & _ & _ & (Lk & _))). inversion Lk as [|? ? ? ? L2]. inversion L2. congruence. }
  split; [exact E|]. rewrite E. exists (txt "track/sector list at:  0: "). eexists. unfold sectors_text, ts_rows, joined, ts_row. repeat (rewrite <- app_assoc; cbn [app]).
  change (dec 0) with (txt "0"). cbn -[dec]. reflexivity.
Qed.
Print Assumptions C93_next_partial.
Definition BIG : list Z := txt "BIG".
Theorem C93_next_refuted : exists im d tl dl n m rest, consistent3 im /\ In d (i_files im) /\ sectors_of3 im (d3_name d) tl dl /\ tl = n :: m :: rest /\
  dos33_meta im d = Ok (sectors_text tl dl) /\ lnk (sec (i_bytes im) n) = m /\ m <> 0 /\
  occurs (txt "sector=" ++ dec n ++ txt " next=0 size") (sectors_text tl dl).
Proof.
  set (data := zrepeat 7 31488). assert (Ld : zlen data = 31488) by (apply zlen_zrepeat; lia).
  assert (Lw : legal_write3 one_im BIG (txt "B") data).
  { split; [repeat constructor; vm_compute; intuition congruence|]. split; [vm_compute; discriminate|]. split; [intros H; rewrite H in Ld; discriminate|].
    split; [apply bytes_ok_zrepeat; unfold is_byte; lia|]. rewrite one_listing. vm_compute. intuition discriminate. }
  destruct (write_master3 one_im BIG (txt "B") data one_consistent Lw) as [(_ & _ & im & tl & dl & _ & W)|[(H & _)|[(H & _)|(_ & H & _)]]].
  2,3: rewrite one_free, ?Ld in H; vm_compute in H; intuition congruence.
  2: exfalso; apply H, one_room.
  pose proof (wr3_consistent _ _ _ _ _ _ _ W) as C. pose proof (wr3_sectors _ _ _ _ _ _ _ W) as Hs.
  destruct (wr3_count _ _ _ _ _ _ _ W) as [C1 C2]. rewrite Ld in C1. change (sectors3 31488) with 123 in C1. rewrite C1 in C2. change (lists3 123) with 2 in C2.
  assert (Hl : In (stored_name3 BIG) (listing3 im)) by (destruct (wr3_listing _ _ _ _ _ _ _ W) as (l1 & l2 & _ & ->); apply in_or_app; right; left; reflexivity).
  apply in_map_iff in Hl. destruct Hl as (d & En & Hd). rewrite <- En in Hs.
  destruct tl as [|n [|m rest]]; [discriminate C2..|]. exists im, d, (n :: m :: rest), dl, n, m, rest.
  split; [exact C|]. split; [exact Hd|]. split; [exact Hs|]. split; [reflexivity|].
  split. { destruct (in_file3 im d C Hd) as (tl' & dl' & Hs' & Ht & _). destruct (sectors_of3_det _ _ _ _ _ _ Hs Hs') as [<- <-]. unfold dos33_meta. rewrite Ht. reflexivity. }
  clear - Hs. destruct Hs as (cat & k & i & D & (_ & _ & _ & (Lk & _))). inversion Lk as [|? ? ? ? L2]. subst. inversion L2 as [|? ? R1 R2 R3 Em]. subst.
  split; [reflexivity|]. split; [lia|]. exists (txt "track/sector list at:  0: "). eexists. unfold sectors_text, ts_rows, joined, ts_row. repeat (rewrite <- app_assoc; cbn [app]).
  change (dec 0) with (txt "0"). cbn -[dec]. reflexivity.
Qed.
Print Assumptions C93_next_refuted.

(** The metadata of the file of a disk *)
Lemma meta_of im n tl dl : consistent3 im -> In n (listing3 im) -> sectors_of3 im n tl dl ->
  exists d, In d (i_files im) /\ dos33_meta im d = Ok (sectors_text tl dl).
Proof.
  intros C Hl Hs. apply in_map_iff in Hl. destruct Hl as (d & <- & Hd). exists d. split; [exact Hd|].
  destruct (in_file3 im d C Hd) as (tl' & dl' & Hs' & Ht & _). destruct (sectors_of3_det _ _ _ _ _ _ Hs Hs') as [<- <-]. unfold dos33_meta. rewrite Ht. reflexivity.
Qed.
Lemma one_sectors : sectors_of3 one_im HELLO [48] [49].
Proof. exists demo_cat, 1, 0. rewrite one_bytes. split; [exact demo_one_disk|exact one_file]. Qed.
Lemma one_listed : In HELLO (listing3 one_im).
Proof. rewrite one_listing. left. reflexivity. Qed.
Definition one_meta : list Z := txt "track/sector list at:  0: sector=48 next=0 size=256 used=256" ++ 10 :: txt "sector map: [49]".
Lemma one_meta_is : sectors_text [48] [49] = one_meta.
Proof. vm_compute. reflexivity. Qed.
Example C93_dos33_example : consistent3 one_im /\ exists d, In d (i_files one_im) /\ dos33_meta one_im d = Ok one_meta.
Proof. split; [exact one_consistent|]. rewrite <- one_meta_is. exact (meta_of one_im HELLO [48] [49] one_consistent one_listed one_sectors). Qed.
Example C93_flags_example : exists d, atari_meta d = txt "flags=[DOS2, IN_USE, LOCK]" /\ d_dos2 d = true /\ d_locked d = true /\ d_out d = false.
Proof. exists (mkD 3 98 false true false false true true false 5 20 (txt "FILE") (txt "DAT") true false). vm_compute. auto. Qed.
Definition sparta_meta_text : list Z :=
  txt "D.ATR: XFD Disk Image (size=1152 (9x128B) Sparta DOS Format: 9 usable sectors (1 free), 2 files" ++ 10 ::
  txt "File #1  (..u.  005) A       TXT       200  1/2/90 12:30:0  000000c8" ++ 10 :: txt "flags=[IN_USE]" ++ 10 ::
  txt "File #2  (...d  008) B                  10  1/2/90 12:30:0  0000000a" ++ 10 :: txt "flags=[DEL]" ++ [10].
Example C93_sparta_example : exists im, open_sparta Properties_Sparta.demo = Ok im /\ sparta_list_meta sum8 (txt "D.ATR") true [] im = (sparta_meta_text, Ok tt).
Proof.
  destruct (open_sparta Properties_Sparta.demo) as [im|e] eqn:Ho; [|vm_compute in Ho; discriminate].
  vm_compute in Ho. injection Ho as <-. eexists. split; [reflexivity|]. vm_compute. reflexivity.
Qed.
