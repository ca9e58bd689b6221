(** Theorems C49-C51 and the MyDOS part of C10: what reading does with damaged
    Atari images. *)
From Verif Require Import Base BaseLemmas DiskModel Loops AtariModel AtariSpec AtariGeom AtariDir AtariVtoc AtariHeader AtariProps AtariDemo AtariExtra.

(** A disk with a file A (sector 4) that runs into file B (sectors 6), and a
    MyDOS file C. *)
Definition cross_disk : list Z :=
  craft 368 (entry 0x42 2 4 [65] ++ entry 0x42 1 6 [66] ++ entry 0x46 1 7 [67])
    [(4, fsec [1; 2] 0 6 2); (6, fsec [3] 1 0 1); (7, padto 125 [9; 8; 7] ++ [0; 0; 3])].
Definition raw_is (im : aimg) (n f nx : Z) : bool :=
  match get_pos (a_hdr im) n with
  | Ok (p, s) => let raw := slice (a_bytes im) p (p + s) in
                 (3 <=? zlen raw) && (link_file raw =? f) && (link_next raw =? nx)
  | Err _ => false
  end.
Definition cross_check (im : aimg) : bool :=
  bytes_b cross_disk && (0 <=? h_max (a_hdr im)) && raw_is im 4 0 6 && raw_is im 6 1 0 &&
  (a_total im =? 707) && (a_free im =? 707) && (h_image_size (a_hdr im) =? 47104) &&
  match find_name [65] (a_files im), find_name [66] (a_files im), find_name [67] (a_files im) with
  | Some d, Some e, Some m =>
      negb (d_my d) && d_sane d && (d_start d =? 4) && (d_num d =? 0) &&
      negb (d_my e) && ok_is (get_file im e) [3] &&
      d_my m && ok_is (get_file im m) [9; 8; 7]
  | _, _, _ => false
  end.
Lemma cross_check_true : with_open cross_disk false cross_check = true.
Proof. vm_cast_no_check (eq_refl true). Qed.

Lemma raw_is_bytes im n f nx : raw_is im n f nx = true ->
  exists raw, sector_bytes (a_hdr im) (a_bytes im) n raw /\ link_file raw = f /\ link_next raw = nx.
Proof.
  unfold raw_is, sector_bytes. destruct (get_pos (a_hdr im) n) as [[p s]|]; [|discriminate]. cbv zeta. intros H.
  exists (slice (a_bytes im) p (p + s)). split; [exists p, s; split; [reflexivity|split; [reflexivity|lia]]|lia].
Qed.
Lemma cross_facts : exists im d e m, open_image cross_disk = Ok im /\ bytes_ok cross_disk /\
  In d (a_files im) /\ In e (a_files im) /\ In m (a_files im) /\
  (d_my d = false /\ d_sane d = true /\ stray (a_hdr im) (a_bytes im) (d_num d) (d_start d) [4]) /\
  (d_my e = false /\ get_file im e = Ok [3]) /\ (d_my m = true /\ get_file im m = Ok [9; 8; 7]) /\
  a_total im = 707 /\ a_free im = 707 /\ h_image_size (a_hdr im) <> 133120.
Proof.
  destruct (with_open_true _ _ cross_check_true) as (im & Ho & E). unfold cross_check in E.
  apply andb_true_iff in E. destruct E as [E F].
  apply andb_true_iff in E. destruct E as [E E7]. apply andb_true_iff in E. destruct E as [E E6].
  apply andb_true_iff in E. destruct E as [E E5]. apply andb_true_iff in E. destruct E as [E E4].
  apply andb_true_iff in E. destruct E as [E E3]. apply andb_true_iff in E. destruct E as [E1 E2].
  destruct (find_name [65] (a_files im)) as [d|] eqn:Fd; [|discriminate F].
  destruct (find_name [66] (a_files im)) as [e|] eqn:Fe; [|discriminate F].
  destruct (find_name [67] (a_files im)) as [m|] eqn:Fm; [|discriminate F].
  apply andb_true_iff in F. destruct F as [F F8]. apply andb_true_iff in F. destruct F as [F F7].
  apply andb_true_iff in F. destruct F as [F F6]. apply andb_true_iff in F. destruct F as [F F5].
  apply andb_true_iff in F. destruct F as [F F4]. apply andb_true_iff in F. destruct F as [F F3].
  apply andb_true_iff in F. destruct F as [F1 F2].
  apply negb_true_iff in F1, F5. apply Z.eqb_eq in F3, F4, E5, E6, E7. apply ok_is_eq in F6, F8.
  destruct (raw_is_bytes _ _ _ _ E3) as (r4 & S4 & A4 & B4). destruct (raw_is_bytes _ _ _ _ E4) as (r6 & S6 & A6 & B6).
  exists im, d, e, m. split; [exact Ho|]. split; [apply bytes_b_ok; exact E1|].
  split; [eapply find_name_In; exact Fd|]. split; [eapply find_name_In; exact Fe|]. split; [eapply find_name_In; exact Fm|].
  split; [split; [exact F1|]; split; [exact F2|]|].
  - rewrite F3, F4. apply (stray_more _ _ _ 4 r4).
    + exact S4.
    + exact A4.
    + rewrite B4. discriminate.
    + intros [].
    + rewrite B4. apply (stray_here _ _ _ 6 r6); [exact S6|]. rewrite A6. discriminate.
  - split; [split; [exact F5|exact F6]|]. split; [split; [exact F7|exact F8]|]. split; [exact E5|]. split; [exact E6|].
    rewrite E7. discriminate.
Qed.

(** * C49 *)
Theorem C49_cross_linked_file_is_reported b im d c :
  bytes_ok b -> open_image b = Ok im -> In d (a_files im) -> d_mydos d = false ->
  stray (a_hdr im) (a_bytes im) (d_num d) (d_start d) c ->
  get_file im d = Err (EAtr FileNumberMismatch164).
Proof.
  intros Hb Ho Hd Hm St. destruct (open_image_inv b im Ho) as (h & Hh & -> & Hfiles).
  apply (stray_get_file im d c).
  - destruct (hdr_of_facts b (a_hdr im) Hb Hh) as (_ & _ & X & _). exact X.
  - apply (opened_entries b im d Hb Ho Hd).
  - rewrite (Hfiles d Hd). exact Hm.
  - exact St.
Qed.
Print Assumptions C49_cross_linked_file_is_reported.
Theorem C49_data_comes_from_the_files_own_sectors b im d data :
  open_image b = Ok im -> In d (a_files im) -> d_mydos d = false -> get_file im d = Ok data ->
  exists c, walk (a_hdr im) (a_bytes im) (d_num d) (d_start d) c.
Proof.
  intros Ho Hd Hm E. destruct (open_image_inv b im Ho) as (h & Hh & -> & Hfiles).
  apply (get_file_walk im d data); [|exact E]. rewrite (Hfiles d Hd). exact Hm.
Qed.
Print Assumptions C49_data_comes_from_the_files_own_sectors.
Example C49_example : exists im d e, open_image cross_disk = Ok im /\ bytes_ok cross_disk /\
  In d (a_files im) /\ d_mydos d = false /\ stray (a_hdr im) (a_bytes im) (d_num d) (d_start d) [4] /\
  In e (a_files im) /\ d_mydos e = false /\ get_file im e = Ok [3].
Proof.
  destruct cross_facts as (im & d & e & m & Ho & Hb & Id & Ie & Im & (D1 & D2 & D3) & (E1 & E2) & _).
  destruct (open_image_inv _ im Ho) as (h & _ & _ & Hfiles).
  exists im, d, e. rewrite <- !Hfiles by assumption. repeat (split; [assumption|]). assumption.
Qed.

(** * C50 *)
Theorem C50_opened_entries_are_possible b im d :
  bytes_ok b -> open_image b = Ok im -> In d (a_files im) ->
  1 <= d_start d <= h_max (a_hdr im) /\ d_count d <= h_max (a_hdr im).
Proof. intros Hb Ho Hd. apply (opened_entries b im d Hb Ho Hd). Qed.
Print Assumptions C50_opened_entries_are_possible.
Theorem C50_impossible_entry_is_refused b h i :
  hdr_of b = Ok h -> hgeo h b -> 0 <= i < num_slots (geom_of h) ->
  (forall j, 0 <= j <= i -> e_flag (slot (geom_of h) b j) <> 0) ->
  e_live (slot (geom_of h) b i) ->
  (~ 1 <= e_start (slot (geom_of h) b i) <= h_max h \/ h_max h < e_count (slot (geom_of h) b i)) ->
  exists e, open_image b = Err e.
Proof. exact (insane_refused b h i). Qed.
Print Assumptions C50_impossible_entry_is_refused.
Definition insane_disk : list Z := craft 368 (entry 0x42 1 4 [65] ++ entry 0x42 1 369 [66]) [].
Definition insane_check (h : hdr) : bool :=
  (h_ssize h =? 128) && (h_max h =? 368) && (h_image_size h =? 47104) && (num_slots (geom_of h) =? 64) &&
  negb (e_flag (slot (geom_of h) insane_disk 0) =? 0) && (e_flag (slot (geom_of h) insane_disk 1) =? 0x42) &&
  (e_start (slot (geom_of h) insane_disk 1) =? 369).
Lemma insane_check_true : match hdr_of insane_disk with Ok h => insane_check h | Err _ => false end = true.
Proof. vm_cast_no_check (eq_refl true). Qed.
Example C50_example : exists h, hdr_of insane_disk = Ok h /\ hgeo h insane_disk /\ 0 <= 1 < num_slots (geom_of h) /\
  (forall j, 0 <= j <= 1 -> e_flag (slot (geom_of h) insane_disk j) <> 0) /\ e_live (slot (geom_of h) insane_disk 1) /\
  (~ 1 <= e_start (slot (geom_of h) insane_disk 1) <= h_max h \/ h_max h < e_count (slot (geom_of h) insane_disk 1)).
Proof.
  pose proof insane_check_true as E. destruct (hdr_of insane_disk) as [h|] eqn:Hh; [|discriminate E].
  unfold insane_check in E. apply andb_true_iff in E. destruct E as [E E7].
  apply andb_true_iff in E. destruct E as [E E6]. apply andb_true_iff in E. destruct E as [E E5]. apply andb_true_iff in E. destruct E as [E E4].
  apply andb_true_iff in E. destruct E as [E E3]. apply andb_true_iff in E. destruct E as [E1 E2].
  apply Z.eqb_eq in E1, E2, E3, E4, E6, E7. apply negb_true_iff in E5. apply Z.eqb_neq in E5.
  assert (G : hgeo h insane_disk).
  { apply hdr_of_hgeo; [exact Hh| | | |]; rewrite ?E1, ?E2, ?E3; [split; discriminate|reflexivity|discriminate|discriminate]. }
  exists h. split; [reflexivity|]. split; [exact G|]. rewrite E4, E7, E2. split; [split; [discriminate|reflexivity]|]. split.
  - intros j Hj. assert (Hj2 : j = 0 \/ j = 1) by (clear -Hj; lia). destruct Hj2 as [-> | ->]; [exact E5|]. rewrite E6. discriminate.
  - split; [|left; intros [_ X]; exact (X eq_refl)]. unfold e_live, flag_has. rewrite E6. reflexivity.
Qed.

(** * C51 *)
Theorem C51_reported_totals b im : bytes_ok b -> open_image b = Ok im ->
  exists p s, get_pos (a_hdr im) 360 = Ok (p, s) /\
    a_total im = le2 (getb b (p + 1)) (getb b (p + 2)) /\
    (h_image_size (a_hdr im) <> 133120 -> a_free im = le2 (getb b (p + 3)) (getb b (p + 4))) /\
    (h_image_size (a_hdr im) = 133120 -> exists q t, get_pos (a_hdr im) 1024 = Ok (q, t) /\
       a_free im = (le2 (getb b (p + 3)) (getb b (p + 4)) + le2 (getb b (q + 122)) (getb b (q + 123))) mod 65536).
Proof. exact (opened_totals b im). Qed.
Print Assumptions C51_reported_totals.
Example C51_example : exists im, open_image cross_disk = Ok im /\ bytes_ok cross_disk /\
  a_total im = 707 /\ a_free im = 707 /\ h_image_size (a_hdr im) <> 133120.
Proof.
  destruct cross_facts as (im & d & e & m & Ho & Hb & _ & _ & _ & _ & _ & _ & T). exists im. auto.
Qed.

(** * C10, MyDOS files: a read ends within the bound or never ends *)
Theorem C10_mydos_read_ends_or_never_does b im d :
  bytes_ok b -> open_image b = Ok im -> In d (a_files im) -> d_mydos d = true ->
  (get_file im d <> Err EFuel /\
   forall fuel, (chain_fuel (a_hdr im) <= fuel)%nat -> get_file_fuel fuel im d = get_file im d) \/
  (forall fuel, get_file_fuel fuel im d = Err EFuel).
Proof.
  intros Hb Ho Hd Hm. destruct (open_image_inv b im Ho) as (h & Hh & -> & Hfiles).
  apply mydos_dichotomy.
  - destruct (hdr_of_facts b (a_hdr im) Hb Hh) as (_ & _ & X & _). exact X.
  - rewrite (Hfiles d Hd). exact Hm.
Qed.
Print Assumptions C10_mydos_read_ends_or_never_does.
Example C10_mydos_example : exists im d, open_image cross_disk = Ok im /\ bytes_ok cross_disk /\
  In d (a_files im) /\ d_mydos d = true /\ get_file im d = Ok [9; 8; 7].
Proof.
  destruct cross_facts as (im & d & e & m & Ho & Hb & _ & _ & Im & _ & _ & (M1 & M2) & _).
  destruct (open_image_inv _ im Ho) as (h & _ & _ & Hfiles).
  exists im, m. rewrite <- Hfiles by assumption. repeat (split; [assumption|]). assumption.
Qed.
