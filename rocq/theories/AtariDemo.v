(** Concrete images: witnesses that the hypotheses of the Atari theorems are met
    (derived from the theorems themselves, starting at a formatted disk), and
    crafted images on which the code misbehaves. *)
From Verif Require Import Base BaseLemmas DiskModel DirLemmas AtariModel AtariSpec AtariGeom AtariDir AtariVtoc AtariChain AtariSectors AtariWrite AtariDelete AtariShred AtariOps AtariSession AtariMore AtariBlank AtariHeader AtariProps.

Definition hello : list Z := [72; 69; 76; 76; 79; 46; 84; 88; 84].   (* HELLO.TXT *)
Definition other : list Z := [66].                                    (* B *)
Definition text : list Z := zrepeat 65 300.

Lemma bytes_ok_b l : forallb (fun x => (0 <=? x) && (x <? 256)) l = true -> bytes_ok l.
Proof.
  intros H. rewrite forallb_forall in H. apply Forall_forall. intros x Hx. specialize (H x Hx). unfold is_byte. lia.
Qed.
Lemma clean_end_last s c : is_space c = false -> c <> 0 -> clean_end (s ++ [c]).
Proof. intros H1 H2 p x E. apply app_inj_tail in E. destruct E as [_ <-]. auto. Qed.
Lemma clean_end_nil : clean_end [].
Proof. intros p c E. destruct p; discriminate. Qed.
Lemma hello_valid : valid_name hello.
Proof.
  exists [72; 69; 76; 76; 79], [84; 88; 84]. split; [reflexivity|]. split; [cbn; lia|]. split; [cbn; lia|].
  split; [cbn; lia|]. split; [apply bytes_ok_b; reflexivity|]. split; [apply bytes_ok_b; reflexivity|].
  split.
  - apply (clean_end_last [72; 69; 76; 76] 79); [reflexivity|discriminate].
  - apply (clean_end_last [84; 88] 84); [reflexivity|discriminate].
Qed.
Lemma other_valid : valid_name other.
Proof.
  exists [66], []. split; [reflexivity|]. split; [cbn; lia|]. split; [cbn; lia|].
  split; [cbn; lia|]. split; [apply bytes_ok_b; reflexivity|]. split; [constructor|].
  split; [apply (clean_end_last [] 66); [reflexivity|discriminate]|apply clean_end_nil].
Qed.

Lemma blank_image : exists im, open_image (fmt_disk 128 720) = Ok im /\ consistent_tidy im /\ listing im = [] /\
  free_sectors_of im = 707 /\ payload_of im = 125 /\ h_max (a_hdr im) = 720 /\ a_bytes im = fmt_disk 128 720.
Proof.
  destruct (fmt_opens 128 720) as (im & Ho & C & L & B & H); [lia|reflexivity|lia|unfold plain_size; split; [cbn [In]; lia|lia]|].
  exists im. split; [exact Ho|]. split; [exact C|]. split; [exact L|].
  unfold free_sectors_of, payload_of. rewrite B, H. rewrite fmt_geom_of.
  rewrite fmt_free_count by lia. split; [reflexivity|]. split; [reflexivity|]. split; reflexivity.
Qed.

Lemma listing_files im : zlen (a_files im) = zlen (listing im).
Proof. unfold listing, zlen. rewrite map_length. reflexivity. Qed.
Lemma tidy_consistent im : consistent_tidy im -> consistent im.
Proof. intros (H & k & D & _). split; eauto. Qed.

(** A disk holding the 300-byte file HELLO.TXT. *)
Lemma demo_image : exists im, consistent_tidy im /\ listing im = [hello] /\ find_file im hello = Ok text /\
  free_sectors_of im = 704 /\ payload_of im = 125 /\ h_max (a_hdr im) = 720.
Proof.
  destruct blank_image as (im & _ & C & L & F & P & M & _).
  assert (LW : legal_write im hello text).
  { split; [apply valid_stored; exact hello_valid|]. rewrite (proj2 (valid_stored _ hello_valid)). split; [discriminate|]. split; [apply bytes_ok_b; reflexivity|].
    rewrite listing_files, L. split; [intros []|cbn; lia]. }
  destruct (write_master im hello text (tidy_consistent _ C) LW) as [(Hs & im' & c & Ew & W)|(Hs & _)].
  2: { exfalso. revert Hs. rewrite P, F. intros Hs. vm_compute in Hs. congruence. }
  pose proof (session_tidy im [OWrite hello text] C) as S. cbn [all_ops legal_op] in S.
  specialize (S (conj LW I)). cbn [run do_op] in S. rewrite Ew in S. destruct S as [C' _].
  exists im'. split; [exact C'|]. destruct (wr_listing _ _ _ _ _ W) as (l1 & l2 & E1 & E2). rewrite L in E1.
  pose proof (wr_read _ _ _ _ _ W) as R. rewrite (proj2 (valid_stored _ hello_valid)) in E2, R.
  destruct l1; [|discriminate]. destruct l2; [|discriminate].
  split; [exact E2|]. split; [exact R|]. rewrite (wr_free_count _ _ _ _ _ W), P, F. split; [reflexivity|].
  unfold payload_of. rewrite (wr_hdr _ _ _ _ _ W). split; assumption.
Qed.

(** The demo disk accepts a second file. *)
Lemma demo_write : exists im im', consistent_tidy im /\ listing im = [hello] /\ legal_write im other text /\
  write_file im other text = (im', Ok tt).
Proof.
  destruct demo_image as (im & C & L & Fd & F & P & M).
  assert (LW : legal_write im other text).
  { split; [apply valid_stored; exact other_valid|]. rewrite (proj2 (valid_stored _ other_valid)). split; [discriminate|]. split; [apply bytes_ok_b; reflexivity|].
    rewrite listing_files, L. split; [intros [E|[]]; discriminate|cbn; lia]. }
  destruct (write_master im other text (tidy_consistent _ C) LW) as [(Hs & im' & c & Ew & W)|(Hs & _)].
  - exists im, im'. auto.
  - exfalso. revert Hs. rewrite P, F. intros Hs. vm_compute in Hs. congruence.
Qed.
(** It refuses a file larger than its free space. *)
Lemma demo_refuse : exists im, consistent im /\ listing im = [hello] /\ legal_write im other (zrepeat 65 100000) /\
  write_file im other (zrepeat 65 100000) = (im, Err (EAtr NotEnoughSpaceOnDisk)).
Proof.
  destruct demo_image as (im & C & L & Fd & F & P & M).
  assert (LW : legal_write im other (zrepeat 65 100000)).
  { split; [apply valid_stored; exact other_valid|]. rewrite (proj2 (valid_stored _ other_valid)). split.
    - intros E. apply (f_equal zlen) in E. rewrite zlen_zrepeat in E by lia. rewrite zlen_nil in E. lia.
    - split.
      + apply bytes_ok_zrepeat. unfold is_byte; lia.
      + rewrite listing_files, L. split; [intros [E|[]]; discriminate|cbn; lia]. }
  exists im. split; [apply tidy_consistent; exact C|]. split; [exact L|]. split; [exact LW|].
  destruct (write_master im other _ (tidy_consistent _ C) LW) as [(Hs & _)|(_ & E)]; [|exact E].
  exfalso. revert Hs. rewrite P, F, zlen_zrepeat by lia. intros Hs. vm_compute in Hs. congruence.
Qed.

(** * Crafted images *)
Definition padto (n : Z) (l : list Z) : list Z := l ++ zrepeat 0 (n - zlen l).
Fixpoint assoc (n : Z) (l : list (Z * list Z)) : list Z :=
  match l with [] => [] | (m, s) :: r => if m =? n then s else assoc n r end.
(** An image of [nsec] 128-byte sectors with the given directory and sectors. *)
Definition craft (nsec : Z) (dir : list Z) (secs : list (Z * list Z)) : list Z :=
  fmt_header 128 nsec ++ flat_map (fun n =>
    if n =? 360 then fmt_vtoc 128 nsec
    else if (361 <=? n) && (n <=? 368) then padto 128 (slice dir ((n - 361) * 128) ((n - 361) * 128 + 128))
    else padto 128 (assoc n secs)) (zrange 1 (nsec + 1)).
Definition fsec (data : list Z) (fno next used : Z) : list Z :=
  padto 125 data ++ [fno * 4 + next / 256; next mod 256; used].
Definition entry (flag count start : Z) (name : list Z) : list Z :=
  [flag] ++ put2 count ++ put2 start ++ ljust 8 name ++ [32; 32; 32].

Definition with_open {A} (b : list Z) (dflt : A) (k : aimg -> A) : A :=
  match open_image b with Ok im => k im | Err _ => dflt end.
Lemma with_open_true b (k : aimg -> bool) : with_open b false k = true -> exists im, open_image b = Ok im /\ k im = true.
Proof. unfold with_open. destruct (open_image b) as [im|e]; [eauto|discriminate]. Qed.
Definition is_ok {A} (r : res A) : bool := match r with Ok _ => true | Err _ => false end.
Definition bytes_b (l : list Z) : bool := forallb (fun x => (0 <=? x) && (x <? 256)) l.
Definition ok_is (r : res (list Z)) (d : list Z) : bool := match r with Ok x => zlist_eqb x d | Err _ => false end.
Lemma bytes_b_ok l : bytes_b l = true -> bytes_ok l.
Proof. exact (bytes_ok_b l). Qed.
Lemma ok_is_eq r d : ok_is r d = true -> r = Ok d.
Proof. destruct r; cbn; [|discriminate]. intros H. apply zlist_eqb_eq in H. subst. reflexivity. Qed.
Lemma ok_is_neq r d : ok_is r d = false -> r <> Ok d.
Proof. intros H ->. cbn in H. assert (zlist_eqb d d = true) by (apply zlist_eqb_eq; reflexivity). congruence. Qed.

(** 1. Writing no data at all. *)
Definition bad_empty (im : aimg) : bool :=
    let (im', r) := write_file im other [] in
    match r with Err (EAtr InvalidDiskImage) => true | _ => false end &&
    negb (zlist_eqb (a_bytes im') (a_bytes im)) && negb (is_ok (open_image (a_bytes im'))).
Lemma bad_empty_true : with_open (fmt_disk 128 368) false bad_empty = true.
Proof. vm_cast_no_check (eq_refl true). Qed.

(** 2. A full directory: 64 one-byte files in the sectors from 369. *)
Definition full_name (i : Z) : list Z := [70; 65 + i / 8; 65 + i mod 8].
Definition full_disk : list Z :=
  craft 433 (flat_map (fun i => entry 0x42 1 (369 + i) (full_name i)) (zrange 0 64))
    (map (fun i => (369 + i, fsec [100 + i] i 0 1)) (zrange 0 64)).
Definition bad_full (im : aimg) : bool :=
    (h_ssize (a_hdr im) =? 128) && (zlen (a_files im) =? 64) &&
    forallb (fun i => ok_is (find_file im (full_name i)) [100 + i]) (zrange 0 64) &&
    let (im', r) := write_file im other [1] in
    is_ok r && negb (existsb (fun n => zlist_eqb n other) (listing im')) &&
    negb (ok_is (find_file im' (full_name 0)) [100]).
Lemma bad_full_true : with_open full_disk false bad_full = true.
Proof. vm_cast_no_check (eq_refl true). Qed.

(** 3. A file whose only sector holds no bytes; a MyDOS file whose sector links
    to itself; a deleted file. *)
Definition odd_disk : list Z :=
  craft 368 (entry 0x42 1 4 [65] ++ entry 0x46 1 5 [66] ++ entry 0x80 1 6 [67])
    [(4, fsec [] 0 0 0); (5, padto 125 [] ++ [0; 5; 125]); (6, fsec [1] 2 0 1)].
Definition odd_check (im : aimg) : bool :=
    bytes_b odd_disk &&
    ok_is (find_file im [65]) odd_disk &&
    match find_name [66] (a_files im) with
    | Some d => d_my d && d_sane d && (d_start d =? 5) &&
        match read_sector (a_hdr im) (a_bytes im) true (d_num d) 5 [] with
        | Ok (n, s, p, u) => (n =? 5) && match s with [] => true | _ => false end
        | Err _ => false
        end
    | None => false
    end &&
    negb (existsb (fun n => zlist_eqb n [67]) (listing im)) &&
    is_ok (snd (delete_file im [67])).
Lemma odd_check_true : with_open odd_disk false odd_check = true.
Proof. vm_cast_no_check (eq_refl true). Qed.

(** 4. A 272-byte sector holds 269 data bytes, but the count byte wraps. *)
Definition bad_wide (im : aimg) : bool :=
    (h_ssize (a_hdr im) =? 272) && match a_files im with [] => true | _ => false end &&
    let (im', r) := write_file im other (zrepeat 65 269) in
    is_ok r && ok_is (find_file im' other) (zrepeat 65 13).
Lemma bad_wide_true : with_open (fmt_disk 272 368) false bad_wide = true.
Proof. vm_cast_no_check (eq_refl true). Qed.

(** 5. Writing a name that is already there. *)
Definition dup_disk : list Z := craft 369 (entry 0x42 1 369 [66]) [(369, fsec [1] 0 0 1)].
Definition bad_dup (im : aimg) : bool :=
    ok_is (find_file im other) [1] &&
    let (im', r) := write_file im other [2] in
    is_ok r && ok_is (find_file im' other) [1].
Lemma bad_dup_true : with_open dup_disk false bad_dup = true.
Proof. vm_cast_no_check (eq_refl true). Qed.
