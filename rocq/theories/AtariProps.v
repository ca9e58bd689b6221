(** The Atari properties in terms of images and operations only; the files
    Properties_*.v restate these lemmas. *)
From Verif Require Import Base BaseLemmas DiskModel DirLemmas AtariModel AtariSpec AtariGeom AtariDir AtariVtoc AtariChain AtariSectors AtariWrite AtariDelete AtariShred AtariOps AtariSession AtariMore AtariHeader.

(** Number of sectors the free map marks free; bytes of file data per sector. *)
Definition free_sectors_of (im : aimg) : Z := free_count (geom_of (a_hdr im)) (a_bytes im).
Definition payload_of (im : aimg) : Z := h_payload (a_hdr im).
Definition is_free_sector (im : aimg) (n : Z) : Prop :=
  0 <= n < 720 /\ free_bit (geom_of (a_hdr im)) (a_bytes im) n = 1.
(** The sectors of a listed file, in order. *)
Definition sectors_of (im : aimg) (name : list Z) (c : list Z) : Prop :=
  exists k i, dos2_disk (geom_of (a_hdr im)) (a_bytes im) k /\
    file_in (geom_of (a_hdr im)) (a_bytes im) k name i c.

Record write_result (im im' : aimg) (n d : list Z) (c : list Z) : Prop := mkWR {
  wr_consistent : consistent im';
  wr_read : find_file im' (stored_name n) = Ok d;
  wr_others : forall m, m <> stored_name n -> find_file im' m = find_file im m;
  wr_listing : exists l1 l2, listing im = l1 ++ l2 /\ listing im' = l1 ++ stored_name n :: l2;
  wr_hdr : a_hdr im' = a_hdr im;
  wr_len : zlen (a_bytes im') = zlen (a_bytes im);
  wr_nodup : NoDup c;
  wr_count : zlen c = sectors_needed (payload_of im) (zlen d);
  wr_sectors : sectors_of im' (stored_name n) c;
  wr_were_free : forall s, In s c -> is_free_sector im s;
  wr_free : forall s, is_free_sector im' s <-> is_free_sector im s /\ ~ In s c;
  wr_free_count : free_sectors_of im' = free_sectors_of im - sectors_needed (payload_of im) (zlen d);
  wr_bytes : forall p, 0 <= p ->
    (forall s, In s c \/ 360 <= s <= 368 -> ~ in_sector (geom_of (a_hdr im)) s p) ->
    getb (a_bytes im') p = getb (a_bytes im) p;
  wr_reported : a_free im' = a_free im
}.

Lemma is_free_bit im n : 0 <= n < 720 ->
  free_bit (geom_of (a_hdr im)) (a_bytes im) n = 0 \/ free_bit (geom_of (a_hdr im)) (a_bytes im) n = 1.
Proof. intros _. apply (free_bit_bit (a_hdr im) (a_bytes im) n). Qed.

Lemma write_master im n d : consistent im -> legal_write im n d ->
  (sectors_needed (payload_of im) (zlen d) <= free_sectors_of im /\
   exists im' c, write_file im n d = (im', Ok tt) /\ write_result im im' n d c) \/
  (free_sectors_of im < sectors_needed (payload_of im) (zlen d) /\
   write_file im n d = (im, Err (EAtr NotEnoughSpaceOnDisk))).
Proof.
  intros C (Hv & Hd & Hdok & Hnl & H64). destruct (consistent_view im C) as (k & E & G & D & Hh).
  set (h := a_hdr im) in *. set (b := a_bytes im) in *.
  rewrite E in Hnl, H64. rewrite In_listing in Hnl.
  unfold payload_of, free_sectors_of. fold h b.
  destruct (Z_le_dec (sectors_needed (h_payload h) (zlen d)) (free_count (geom_of h) b)) as [Hs|Hs].
  - left. split; [assumption|].
    destruct (write_file_view h b k n d G D Hv Hd Hdok Hnl H64 Hs) as (b' & k' & i & c & Ew & W).
    assert (G' : hgeo h b') by (eapply hgeo_zlen; [exact G|apply (we_len _ _ _ _ _ _ _ _ _ W)]).
    exists (view h b' k'), c. split; [rewrite E at 1; exact Ew|].
    destruct (write_find h b k b' k' (stored_name n) d i c G D W) as [F1 F2].
    constructor; cbn [view a_hdr a_bytes]; fold h b; unfold payload_of, free_sectors_of; cbn [view a_hdr a_bytes]; fold h b.
    + apply view_consistent; [exact G'|apply (we_disk _ _ _ _ _ _ _ _ _ W)|].
      rewrite (we_hdr _ _ _ _ _ _ _ _ _ W). exact Hh.
    + exact F1.
    + intros m Hm. rewrite (F2 m Hm). rewrite <- E. reflexivity.
    + rewrite E. eapply write_listing. exact W.
    + reflexivity.
    + apply (we_len _ _ _ _ _ _ _ _ _ W).
    + destruct (we_new _ _ _ _ _ _ _ _ _ W) as (_ & _ & _ & Ch). eapply chain_NoDup; exact Ch.
    + apply (we_count _ _ _ _ _ _ _ _ _ W).
    + exists k', i. split; [apply (we_disk _ _ _ _ _ _ _ _ _ W)|apply (we_new _ _ _ _ _ _ _ _ _ W)].
    + intros s Hs'. apply (we_alloc _ _ _ _ _ _ _ _ _ W s Hs').
    + intros s. unfold is_free_sector. cbn [view a_hdr a_bytes]. fold h b. split.
      * intros [Hr Hf]. rewrite (we_free _ _ _ _ _ _ _ _ _ W s Hr) in Hf.
        destruct (zmem s c) eqn:Em; [discriminate|]. apply zmem_false in Em. auto.
      * intros [[Hr Hf] Hni]. split; [assumption|]. rewrite (we_free _ _ _ _ _ _ _ _ _ W s Hr).
        apply zmem_false in Hni. rewrite Hni. assumption.
    + eapply write_free_count. exact W.
    + eapply write_bytes; [exact G|exact W].
    + rewrite E. apply view_free_same; [exact G| |].
      * intros j Hj. apply (we_vtoc _ _ _ _ _ _ _ _ _ W). left; assumption.
      * intros Ei. apply (we_frame _ _ _ _ _ _ _ _ _ W).
        -- pose proof (hg_ed _ _ G Ei). lia.
        -- intros Hin. apply (we_alloc _ _ _ _ _ _ _ _ _ W) in Hin. lia.
        -- lia.
  - right. split; [lia|]. rewrite E. apply write_file_refused_view; try assumption; [|lia].
    destruct Hv as (B & _). revert B. apply Forall_impl. unfold is_byte. intros; lia.
Qed.

Record delete_result (im im' : aimg) (n : list Z) (c : list Z) : Prop := mkDR {
  dr_consistent : consistent im';
  dr_gone : find_file im' n = Err (EAtr FileNotFound);
  dr_others : forall m, m <> n -> find_file im' m = find_file im m;
  dr_listing : exists l1 l2, listing im = l1 ++ n :: l2 /\ listing im' = l1 ++ l2;
  dr_hdr : a_hdr im' = a_hdr im;
  dr_len : zlen (a_bytes im') = zlen (a_bytes im);
  dr_sectors : sectors_of im n c;
  dr_nodup : NoDup c;
  dr_free : forall s, is_free_sector im' s <-> is_free_sector im s \/ (In s c /\ s < 720);
  dr_free_count : free_sectors_of im' = free_sectors_of im + zlen (filter (fun s => s <? 720) c);
  dr_bytes : forall p, 0 <= p ->
    (forall s, 360 <= s <= 368 -> ~ in_sector (geom_of (a_hdr im)) s p) ->
    getb (a_bytes im') p = getb (a_bytes im) p;
  dr_reported : a_free im' = a_free im
}.

Lemma delete_master im n : consistent im -> In n (listing im) ->
  exists im' c, delete_file im n = (im', Ok tt) /\ delete_result im im' n c.
Proof.
  intros C Hin. destruct (consistent_view im C) as (k & E & G & D & Hh).
  set (h := a_hdr im) in *. set (b := a_bytes im) in *.
  assert (L : listed (geom_of h) b k n) by (rewrite E in Hin; apply In_listing in Hin; exact Hin).
  destruct (listed_file h b k D n L) as (i & c & F & Hne & _).
  destruct (delete_file_view h b k n i c G D F) as (b' & Ed & W).
  assert (G' : hgeo h b') by (eapply hgeo_zlen; [exact G|apply (de_len _ _ _ _ _ _ W)]).
  pose proof F as (Hi & Li & Ni & Ch).
  assert (Hc0 : forall s, In s c -> s < 720 -> free_bit (geom_of h) b s = 0).
  { destruct (dk_files _ _ _ D i Hi Li) as (_ & _ & c' & C' & _ & A). rewrite (chain_det _ _ _ _ _ Ch _ C'). exact A. }
  assert (Hcp : forall s, In s c -> 0 <= s).
  { pose proof (chain_data _ _ _ _ _ Ch) as Dc. rewrite Forall_forall in Dc. intros s Hs. apply Dc in Hs.
    destruct Hs as (Hs & _). lia. }
  exists (view h b' k), c. split; [rewrite E at 1; exact Ed|].
  destruct (delete_find h b k b' i c G D W) as [F1 F2].
  constructor; cbn [view a_hdr a_bytes]; fold h b; unfold payload_of, free_sectors_of; cbn [view a_hdr a_bytes]; fold h b.
  - apply view_consistent; [exact G'|apply (de_disk _ _ _ _ _ _ W)|].
    rewrite (de_hdr _ _ _ _ _ _ W). exact Hh.
  - rewrite <- Ni. apply F2. assumption.
  - intros m Hm. rewrite F1 by (intros [_ X]; congruence). rewrite <- E. reflexivity.
  - rewrite E. rewrite <- Ni. eapply delete_listing; eassumption.
  - reflexivity.
  - apply (de_len _ _ _ _ _ _ W).
  - exists k, i. split; [exact D|exact F].
  - eapply chain_NoDup; exact Ch.
  - intros s. unfold is_free_sector. cbn [view a_hdr a_bytes]. fold h b. split.
    + intros [Hr Hf]. rewrite (de_free _ _ _ _ _ _ W s Hr) in Hf.
      destruct (zmem s c) eqn:Em; [right|left; auto]. apply zmem_In in Em. split; [assumption|lia].
    + intros [[Hr Hf]|[Hs Hr]].
      * split; [assumption|]. rewrite (de_free _ _ _ _ _ _ W s Hr). rewrite Hf. destruct (zmem s c); reflexivity.
      * assert (Hr' : 0 <= s < 720) by (specialize (Hcp s Hs); lia). split; [assumption|].
        rewrite (de_free _ _ _ _ _ _ W s Hr'). apply zmem_In in Hs. rewrite Hs. reflexivity.
  - eapply delete_free_count; [exact W|eapply chain_NoDup; exact Ch|exact Hcp|exact Hc0].
  - eapply delete_bytes; [exact G|exact W].
  - rewrite E. apply view_free_same; [exact G| |].
    + intros j Hj. apply (de_vtoc _ _ _ _ _ _ W). left; assumption.
    + intros Ei. apply (de_frame _ _ _ _ _ _ W); [|lia]. pose proof (hg_ed _ _ G Ei). lia.
Qed.

(** Deleting a name that is not listed. *)
Lemma delete_unlisted im n : consistent_tidy im -> ~ In n (listing im) ->
  exists im' r, delete_file im n = (im', r) /\ consistent_tidy im' /\ listing im' = listing im /\
    (forall m, find_file im' m = find_file im m) /\ (r = Ok tt \/ im' = im).
Proof.
  intros C Hin. pose proof (tidy_good im C) as (k & E & G & D & Hh & T). specialize (T eq_refl).
  set (h := a_hdr im) in *. set (b := a_bytes im) in *.
  assert (L : ~ listed (geom_of h) b k n) by (rewrite E in Hin; rewrite In_listing in Hin; exact Hin).
  destruct (delete_unlisted_view h b k n G D T L) as [(e & Ed & _)|(b' & i & nums & Ed & Hi & Hdead & Ni & W)].
  - exists im, (Err e). split; [rewrite E; exact Ed|]. split; [exact C|]. auto.
  - exists (view h b' k), (Ok tt). split; [rewrite E at 1; exact Ed|].
    destruct (delete_find h b k b' i nums G D W) as [F1 _].
    split; [|split; [|split; [|left; reflexivity]]].
    + apply good_tidy. apply good_view.
      * eapply hgeo_zlen; [exact G|apply (de_len _ _ _ _ _ _ W)].
      * apply (de_disk _ _ _ _ _ _ W).
      * rewrite (de_hdr _ _ _ _ _ _ W). exact Hh.
      * intros _. eapply tidy_delete; [exact D|exact T|exact W].
    + rewrite E. eapply delete_listing_dead; [exact W|exact Hdead].
    + intros m. rewrite F1 by (intros [X _]; contradiction). rewrite <- E. reflexivity.
Qed.

Record shred_result (im im' : aimg) (fill : Z) : Prop := mkSR {
  sr_consistent : consistent im';
  sr_listing : listing im' = listing im;
  sr_files : forall m, find_file im' m = find_file im m;
  sr_len : zlen (a_bytes im') = zlen (a_bytes im);
  sr_wiped : forall s p, is_free_sector im s -> in_sector (geom_of (a_hdr im)) s p ->
     getb (a_bytes im') p = u8 fill;
  sr_kept : forall p, 0 <= p -> (forall s, is_free_sector im s -> ~ in_sector (geom_of (a_hdr im)) s p) ->
     getb (a_bytes im') p = getb (a_bytes im) p
}.
Lemma shred_master im fill : consistent im ->
  exists im', shred im fill = (im', if h_max (a_hdr im) <? 1280 then Ok tt else Err EIndex) /\
    shred_result im im' fill.
Proof.
  intros C. destruct (consistent_view im C) as (k & E & G & D & Hh).
  set (h := a_hdr im) in *. set (b := a_bytes im) in *.
  destruct (shred_view h b k fill G D) as (b' & Es & W).
  assert (G' : hgeo h b') by (eapply hgeo_zlen; [exact G|apply (se_len _ _ _ _ _ W)]).
  exists (view h b' k). split; [rewrite E at 1; exact Es|].
  constructor; cbn [view a_hdr a_bytes]; fold h b.
  - apply view_consistent; [exact G'|apply (se_disk _ _ _ _ _ W)|]. rewrite (se_hdr _ _ _ _ _ W). exact Hh.
  - rewrite E. eapply shred_listing; eassumption.
  - intros m. rewrite E. eapply shred_find; eassumption.
  - apply (se_len _ _ _ _ _ W).
  - intros s p [Hr Hf] Hin. fold h b in Hf.
    assert (Hp : 0 <= p).
    { pose proof (dk_free _ _ _ D s Hr Hf) as (Hr' & _). pose proof (spos_bounds h b G s Hr') as B.
      unfold in_sector in Hin. lia. }
    destruct (shred_bytes h b k b' fill G D W p Hp) as [B _]. eapply B; eassumption.
  - intros p Hp Hn. destruct (shred_bytes h b k b' fill G D W p Hp) as [_ B]. apply B.
    intros s Hr Hf. apply Hn. split; assumption.
Qed.

(** * Re-encoding *)
Lemma reencode_dirent h num e : zlen e = 16 -> bytes_ok e -> ~ flag_has e 8 ->
  no_nul_end (e_base e) -> no_nul_end (e_ext e) ->
  parse_dirent h num (encode_dirent (parse_dirent h num e)) = parse_dirent h num e.
Proof.
  intros H1 H2 H3 H4 H5. apply same_entry_parse. apply encode_parse_same.
  split; [assumption|]. split; [assumption|]. split; [|split; assumption]. assumption.
Qed.

Lemma parse_vtoc_bits v m : parse_vtoc v = Ok m -> bytes_ok v ->
  packbits (slice m 0 720) = slice v 10 100 /\ zlen m = 1280 /\
  (forall n, 0 <= n < 720 -> getb m n = (getb v (10 + n / 8) / 2 ^ (7 - n mod 8)) mod 2) /\
  (forall n, 720 <= n -> getb m n = 0).
Proof.
  unfold parse_vtoc. intros E Hv.
  destruct (zlen (unpackbits (slice v 10 100)) =? 720) eqn:E1; [|discriminate]. injection E as <-.
  change 0x0a with 10 in *. change 0x64 with 100 in *.
  assert (Z1 : zlen (unpackbits (slice v 10 100)) = 720) by lia. pose proof Z1 as Z2. rewrite zlen_unpackbits in Z2.
  split; [|split; [|split]].
  - rewrite slice_app_l by lia. rewrite slice_all by lia. apply packbits_unpackbits, bytes_ok_slice, Hv.
  - rewrite zlen_app, zlen_zrepeat by lia. lia.
  - intros n Hn. rewrite getb_app_l by lia. rewrite getb_unpackbits by lia.
    rewrite getb_slice by (Z.to_euclidean_division_equations; lia). reflexivity.
  - intros n Hn. rewrite getb_app_r by lia. destruct (Z_lt_dec (n - zlen (unpackbits (slice v 10 100))) 560).
    + apply getb_zrepeat. lia.
    + apply getb_oob. rewrite zlen_zrepeat by lia. lia.
Qed.
Lemma vtoc_reencode im start count m : bytes_ok (a_bytes im) -> 0 <= start ->
  get_vtoc_object im = Ok (start, count, m) ->
  fst (calc_bitmap (h_ssize (a_hdr im)) (a_bytes im) start count m) = a_bytes im.
Proof.
  intros Hb Hs E. unfold get_vtoc_object in E. destruct (vtoc_bounds im) as [[s c]|e]; cbn [rbind] in E; [|discriminate].
  destruct (parse_vtoc _) as [m'|e] eqn:P; cbn [rbind] in E; [|discriminate]. injection E as -> -> ->.
  pose proof P as P0. unfold parse_vtoc in P0.
  destruct (zlen (unpackbits _) =? 720) eqn:E1; [|discriminate]. clear P0.
  rewrite zlen_unpackbits in E1. change 0x0a with 10 in *. change 0x64 with 100 in *.
  destruct (parse_vtoc_bits _ _ P) as (Pk & _); [apply bytes_ok_slice; assumption|].
  unfold calc_bitmap. cbn [fst]. rewrite Pk.
  rewrite zlen_slice_min in E1 by lia. rewrite zlen_slice_min in E1 by lia.
  rewrite slice_slice by lia.
  replace (Z.min (start + count) (start + 100)) with (start + 100) by lia.
  apply setslice_self; lia.
Qed.

(** * Files whose sectors carry no data *)
Lemma get_file_empty im d f c : hgeo (a_hdr im) (a_bytes im) -> bytes_ok (a_bytes im) ->
  d_sane d = true -> asks (d_my d) (d_num d) f -> chain (geom_of (a_hdr im)) (a_bytes im) f (d_start d) c ->
  contents (geom_of (a_hdr im)) (a_bytes im) c = [] -> get_file im d = Ok (a_bytes im).
Proof.
  intros G Hb Hs Hf Hc He. unfold get_file, get_file_fuel, start_read. rewrite Hs. cbn [rbind].
  destruct (chain_reads (a_hdr im) (a_bytes im) G _ _ _ _ _ Hf Hc (chain_fuel (a_hdr im)) []) as [R _].
  - eapply chain_length; eassumption.
  - intros [].
  - intros m _ [].
  - rewrite R. cbn [rbind]. replace (forallb _ _) with true; [reflexivity|]. symmetry.
    apply forallb_forall. intros r Hr. apply in_map_iff in Hr. destruct Hr as (m & <- & Hin). cbn [snd].
    pose proof (link_used_nonneg (a_hdr im) (a_bytes im) Hb m) as Hu.
    pose proof (chain_data _ _ _ _ _ Hc) as Dc. rewrite Forall_forall in Dc. destruct (Dc m Hin) as (Hr & _).
    pose proof (chain_used _ _ _ _ _ Hc) as U. rewrite Forall_forall in U. destruct (U m Hin) as [_ Hle].
    assert (Hs0 : slice (sector (geom_of (a_hdr im)) (a_bytes im) m) 0
       (link_used (sector (geom_of (a_hdr im)) (a_bytes im) m)) = []).
    { unfold contents in He. destruct (slice _ 0 _) as [|x l] eqn:Es; [reflexivity|exfalso].
      assert (In x (flat_map (fun n => slice (sector (geom_of (a_hdr im)) (a_bytes im) n) 0
        (link_used (sector (geom_of (a_hdr im)) (a_bytes im) n))) c)).
      { apply in_flat_map. exists m. split; [assumption|]. rewrite Es. left; reflexivity. }
      rewrite He in H. destruct H. }
    apply (f_equal zlen) in Hs0. rewrite zlen_slice in Hs0; [rewrite zlen_nil in Hs0; lia|lia|lia|].
    rewrite (zlen_sector (a_hdr im) (a_bytes im) G) by exact Hr.
    change (g_ss (geom_of (a_hdr im))) with (h_ssize (a_hdr im)) in Hle. lia.
Qed.

(** * Non-termination of the MyDOS reader *)
Lemma mydos_loop h b f n pos u seen : n <> 0 -> (forall s, read_sector h b true f n s = Ok (n, s, pos, u)) ->
  forall fuel, read_runs fuel h b true f n seen = Err EFuel.
Proof.
  intros Hn H fuel. induction fuel as [|fuel IH]; [reflexivity|]. cbn [read_runs]. rewrite H. cbn [rbind].
  replace (n =? 0) with false by lia. rewrite IH. reflexivity.
Qed.

(** * Names outside Latin-1 *)
Lemma write_unicode im n d c : consistent im -> In c n -> 255 < c -> write_file im n d = (im, Err EUnicode).
Proof.
  intros C Hin Hc. destruct (consistent_view im C) as (k & E & G & D & Hh).
  set (h := a_hdr im) in *. set (b := a_bytes im) in *. rewrite E.
  assert (W : write_body (view h b k) n d = (view h b k, Err EUnicode)).
  { unfold write_body. rewrite get_directory_view by assumption. cbv zeta.
    unfold new_dirent. replace (existsb _ n) with true; [reflexivity|]. symmetry. apply existsb_exists.
    exists c. split; [assumption|lia]. }
  unfold write_file, transact. rewrite W. cbn [is_atr].
  rewrite get_metadata_self; [reflexivity| |exact (dk_bytes _ _ _ D)]. apply disk_meta; assumption.
Qed.

(** * What opening keeps *)
Lemma get_vtoc_keeps im im' r : get_vtoc im = (im', r) ->
  a_bytes im' = a_bytes im /\ a_hdr im' = a_hdr im /\ a_files im' = a_files im.
Proof.
  unfold get_vtoc. destruct (get_sectors _ _ 360 360) as [data|e]; [|intros E; injection E as <- <-; auto].
  destruct (zlen data <? 5); [intros E; injection E as <- <-; auto|]. cbv zeta.
  destruct (negb _); [intros E; injection E as <- <-; auto|].
  destruct (_ || _); [intros E; injection E as <- <-; auto|].
  destruct (h_image_size (a_hdr im) =? 133120); [|intros E; injection E as <- <-; auto].
  destruct (get_sectors _ _ 1024 1024) as [data2|e]; [|intros E; injection E as <- <-; auto].
  destruct (zlen data2 <? 124); intros E; injection E as <- <-; auto.
Qed.
Lemma parse_dirents_my h fuel : forall num b ds e, parse_dirents fuel h num b = (ds, e) ->
  forall d, In d ds -> d_my d = d_mydos d.
Proof.
  induction fuel as [|fuel IH]; intros num b ds e E d Hd; destruct b as [|x b]; cbn [parse_dirents] in E.
  - injection E as <- <-. destruct Hd.
  - injection E as <- <-. destruct Hd.
  - injection E as <- <-. destruct Hd.
  - destruct (negb _); [injection E as <- <-; destruct Hd|].
    destruct (negb _ && _); [injection E as <- <-; destruct Hd|].
    destruct (parse_dirents fuel h (num + 1) (slice (x :: b) 16 (zlen (x :: b)))) as [ds' e'] eqn:E'.
    injection E as <- <-. destruct Hd as [<-|Hd]; [reflexivity|]. eapply IH; eassumption.
Qed.
Lemma open_image_inv b im : open_image b = Ok im ->
  exists h, hdr_of b = Ok h /\ h = a_hdr im /\ forall d, In d (a_files im) -> d_my d = d_mydos d.
Proof.
  unfold open_image, hdr_of. destruct (check_size _ _) as [h|e]; cbn [rbind]; [|discriminate].
  unfold get_metadata. destruct (get_vtoc _) as [im1 r1] eqn:E1. apply get_vtoc_keeps in E1.
  cbn [a_bytes a_hdr a_files] in E1. destruct E1 as (B1 & H1 & _). destruct r1 as [u|e]; [|discriminate].
  destruct (get_directory im1) as [im2 r2] eqn:E2. unfold get_directory in E2.
  destruct (get_sectors _ _ 361 368) as [db|e]; [|injection E2 as <- <-; discriminate].
  destruct (parse_dirents (length db) (a_hdr im1) 0 db) as [ds err] eqn:E3.
  destruct err; injection E2 as <- <-; [discriminate|]. cbn [a_sane].
  destruct (_ && _); [|discriminate]. intros E. injection E as <-. exists h. split; [reflexivity|].
  cbn [a_hdr a_files]. split; [congruence|]. intros d Hd. apply filter_In in Hd. destruct Hd as [Hd _].
  eapply parse_dirents_my; eassumption.
Qed.
Lemma open_image_bytes b im : open_image b = Ok im -> a_bytes im = b.
Proof.
  unfold open_image. destruct (check_size _ _) as [h|e]; cbn [rbind]; [|discriminate].
  unfold get_metadata. destruct (get_vtoc _) as [im1 r1] eqn:E1. apply get_vtoc_keeps in E1.
  cbn [a_bytes a_hdr a_files] in E1. destruct E1 as (B1 & H1 & _). destruct r1 as [u|e]; [|discriminate].
  destruct (get_directory im1) as [im2 r2] eqn:E2. unfold get_directory in E2.
  destruct (get_sectors _ _ 361 368) as [db|e]; [|injection E2 as <- <-; discriminate].
  destruct (parse_dirents (length db) (a_hdr im1) 0 db) as [ds err] eqn:E3.
  destruct err; injection E2 as <- <-; [discriminate|]. cbn [a_sane].
  destruct (_ && _); [|discriminate]. intros E. injection E as <-. exact B1.
Qed.
Lemma find_name_In n ds d : find_name n ds = Some d -> In d ds.
Proof.
  induction ds as [|x ds IH]; cbn [find_name]; [discriminate|]. destruct (zlist_eqb _ _).
  - intros E; injection E as <-; left; reflexivity.
  - right; auto.
Qed.
Lemma find_name_eq n ds d : find_name n ds = Some d -> n = filename d.
Proof.
  induction ds as [|x ds IH]; cbn [find_name]; [discriminate|]. destruct (zlist_eqb _ _) eqn:E0; [|auto].
  intros E; injection E as <-. apply zlist_eqb_eq in E0. exact E0.
Qed.

Lemma slice_zrepeat (x n k : Z) : 0 <= k <= n -> slice (zrepeat x n) 0 k = zrepeat x k.
Proof.
  intros H. replace (zrepeat x n) with (zrepeat x k ++ zrepeat x (n - k)).
  - rewrite slice_app_l by (rewrite ?zlen_zrepeat; lia). apply slice_all. rewrite zlen_zrepeat; lia.
  - unfold zrepeat. rewrite <- repeat_app. f_equal. lia.
Qed.
