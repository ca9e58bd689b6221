(** Which exceptions the parsers can raise. *)
From Verif Require Import Base BaseLemmas DiskModel DirLemmas AtariModel AtariSpec AtariGeom AtariHeader SpartaModel Dos33Model ExecModel DetectModel DetectSpec DetectProofs.
From Verif Require CartModel.

(** Nothing but success or an exception that a parser turns into a refusal. *)
Definition refusal (e : exn) : bool :=
  match e with EAtr UnsupportedDiskImage => false | EAtr _ => true | _ => false end.
Definition clean {A} (r : res A) : Prop := match r with Ok _ => True | Err e => refusal e = true end.
Lemma clean_bind {A B} (r : res A) (f : A -> res B) :
  clean r -> (forall a, r = Ok a -> clean (f a)) -> clean (let! x := r in f x).
Proof. destruct r; cbn [rbind clean]; auto. Qed.
Lemma clean_checked s r : clean r -> clean (checked s r).
Proof. destruct s; [|intros; exact I]. destruct r as [|e]; [auto|]. destruct e; intros H; solve [reflexivity | exact H]. Qed.
Lemma clean_atr_strict h n : clean (atr_strict h n).
Proof. unfold atr_strict. destruct (_ || _); cbn; auto. Qed.
Lemma as_parser_clean {A} (r : res A) : clean r ->
  match as_parser r with Ok _ => True | Err e => e = EAtr InvalidSegmentParser end.
Proof.
  destruct r as [a|e]; cbn [as_parser clean]; [auto|]. destruct e as [x| | | | | | | | | | | |]; try discriminate.
  destruct x; try discriminate; reflexivity.
Qed.
Lemma as_parser_other {A} (r : res A) e : as_parser r = Err e -> is_atr e = false -> r = Err e.
Proof.
  destruct r as [a|x]; cbn [as_parser]; [discriminate|]. destruct x as [y| | | | | | | | | | | |]; try (intros H _; exact H).
  destruct y; intros H; injection H as <-; discriminate.
Qed.

(** * Atari headers *)
Lemma header_usual b : bytes_ok b -> usual_sectors b ->
  exists h, atari_header b = Ok h /\ 128 <= h_ssize h /\ h_ssize h mod 2 = 0 /\
    (h_offset h = 0 \/ h_offset h = 16) /\ (h_isize h = 0 \/ h_isize h = 128) /\
    (h_offset h = 16 <-> has_atr_header b).
Proof.
  intros Hb U.
  assert (R : exists h0, read_header b = h0 /\ h_isize h0 = 0 /\
     (h_offset h0 = 0 \/ h_offset h0 = 16) /\ (h_offset h0 = 16 <-> has_atr_header b) /\
     (In (zlen b - h_offset h0) [92160; 92176; 184320; 184336; 183936; 183952] \/ 128 <= h_ssize h0 /\ h_ssize h0 mod 2 = 0)).
  { exists (read_header b). split; [reflexivity|]. unfold read_header, atr_header.
    pose proof (zlen_nonneg b). rewrite zlen_slice_min by lia.
    match goal with |- context [?x =? 16] => destruct (Z.eqb_spec x 16) as [L|L] end.
    - rewrite !getb_slice by lia. rewrite !Z.add_0_l.
      destruct (Z.eqb_spec (le2 (getb b 0) (getb b 1)) 0x296) as [M|M]; cbn [negb].
      + assert (A : has_atr_header b).
        { split; [lia|]. pose proof (bytes_ok_getb _ 0 Hb) as B0. pose proof (bytes_ok_getb _ 1 Hb) as B1.
          unfold is_byte in *. unfold le2 in M. lia. }
        cbn [h_ssize h_isize h_offset].
        split; [reflexivity|]. split; [right; reflexivity|]. split; [split; [intros _; exact A|reflexivity]|exact (U A)].
      + cbn [h_ssize h_isize h_offset xfd_header]. split; [reflexivity|].
        split; [left; reflexivity|]. split; [split; [discriminate|]|right; split; [lia|reflexivity]].
        intros (_ & A & A'). exfalso. apply M. rewrite A, A'. reflexivity.
    - cbn [h_ssize h_isize h_offset xfd_header]. split; [reflexivity|].
      split; [left; reflexivity|]. split; [split; [discriminate|]|right; split; [lia|reflexivity]]. intros (A & _). lia. }
  destruct R as (h0 & E & I0 & O1 & O2 & S0). unfold atari_header. rewrite E. unfold check_size.
  destruct ((zlen b - h_offset h0 =? 92160) || (zlen b - h_offset h0 =? 92176)) eqn:Q1; [eexists; split; [reflexivity|]; cbn [h_ssize h_isize h_offset]; repeat (split; [solve [lia|auto]|]); exact O2|].
  destruct ((zlen b - h_offset h0 =? 184320) || (zlen b - h_offset h0 =? 184336)) eqn:Q2; [eexists; split; [reflexivity|]; cbn [h_ssize h_isize h_offset]; repeat (split; [solve [lia|auto]|]); exact O2|].
  destruct ((zlen b - h_offset h0 =? 183936) || (zlen b - h_offset h0 =? 183952)) eqn:Q3; [eexists; split; [reflexivity|]; cbn [h_ssize h_isize h_offset]; repeat (split; [solve [lia|auto]|]); exact O2|].
  destruct S0 as [S0|[S1 S2]]; [exfalso; cbn [In] in S0; lia|].
  replace (h_ssize h0 =? 0) with false by lia.
  eexists; split; [reflexivity|]; cbn [h_ssize h_isize h_offset]. repeat (split; [solve [lia|auto]|]); exact O2.
Qed.

Section Header.
  Variables (b : list Z) (h : hdr).
  Hypothesis Hb : bytes_ok b.
  Hypothesis Hh : atari_header b = Ok h.
  Hypothesis Hss : 128 <= h_ssize h.
  Let Hh' : hdr_of b = Ok h := Hh.

  Lemma clean_get_pos n : clean (get_pos h n).
  Proof. unfold get_pos. destruct (negb _); cbn; auto. destruct (n <=? h_ninit h); cbn; auto. Qed.
  Lemma clean_more k n : clean (more_sectors h k n).
  Proof.
    revert n. induction k as [|k IH]; intros n; cbn [more_sectors]; [exact I|].
    apply clean_bind; [apply clean_get_pos|]. intros [p s] _. apply clean_bind; [apply IH|]. intros; exact I.
  Qed.
  Lemma clean_sector_slice x y : clean (get_sector_slice h x y).
  Proof.
    unfold get_sector_slice. apply clean_bind; [apply clean_get_pos|]. intros [p s] _.
    apply clean_bind; [apply clean_more|]. intros; exact I.
  Qed.
  Lemma clean_contig l s c : clean (contig_loop h l s c).
  Proof.
    revert s c. induction l as [|n r IH]; intros s c; cbn [contig_loop]; [exact I|].
    apply clean_bind; [apply clean_get_pos|]. intros [p z] _. apply IH.
  Qed.
  (** Sector size at a valid position. *)
  Lemma pos_size n p s : get_pos h n = Ok (p, s) -> 128 <= s /\ p + s <= zlen b /\ h_offset h <= p.
  Proof.
    intros P. destruct (get_pos_inside b h n p s Hb Hh' P) as (A & B & C).
    destruct (hdr_of_facts b h Hb Hh') as (_ & _ & _ & _ & F5).
    unfold get_pos in P. destruct (negb (sector_valid h n)) eqn:V; [discriminate|].
    destruct (n <=? h_ninit h) eqn:L; injection P as <- <-; [|lia].
    destruct F5 as [(_ & B2 & _)|(B1 & _)]; [lia|]. apply negb_false_iff in V. unfold sector_valid in V.
    destruct (hdr_of_facts b h Hb Hh') as (_ & _ & X & _). lia.
  Qed.
  Lemma one_sector n d : get_sectors h b n n = Ok d -> exists p s, get_pos h n = Ok (p, s) /\ d = slice b p (p + s) /\ zlen d = s.
  Proof.
    unfold get_sectors, get_sector_slice. destruct (get_pos h n) as [[p s]|] eqn:P; cbn [rbind]; [|discriminate].
    replace (Z.to_nat (n - n)) with 0%nat by lia. cbn [more_sectors rbind]. rewrite Z.add_0_r. intros E. injection E as <-.
    destruct (pos_size n p s P) as (A & B & C). destruct (hdr_of_facts b h Hb Hh') as (_ & O & _).
    exists p, s. split; [reflexivity|]. split; [reflexivity|]. rewrite zlen_slice; lia.
  Qed.
  Lemma clean_one_sector n : clean (get_sectors h b n n).
  Proof. unfold get_sectors. apply clean_bind; [apply clean_sector_slice|]. intros [x y] _. exact I. Qed.

  Lemma clean_view x n : zlen x = n -> 0 < n -> clean (view_rec x n).
  Proof. intros H P. unfold view_rec. replace (zlen x =? 0) with false by lia. rewrite H, Z.eqb_refl. exact I. Qed.

  Lemma clean_boot_segments rec n : 0 < n <= 128 -> clean (boot_segments h b rec n).
  Proof.
    intros Hn. unfold boot_segments. apply clean_bind; [apply clean_one_sector|]. intros d E.
    destruct (one_sector rec d E) as (p & s & P & -> & L). destruct (pos_size _ _ _ P) as (A & _).
    apply clean_bind; [apply clean_view; [rewrite zlen_slice_min; lia|lia]|]. intros v _.
    destruct (getb v 0 =? 0); [|exact I]. apply clean_bind; [apply clean_sector_slice|]. intros; exact I.
  Qed.
End Header.

(** * KBoot, boot and unidentified disks *)
Section Usual.
  Variables (b : list Z).
  Hypothesis Hb : bytes_ok b.
  Hypothesis U : usual_sectors b.

  Lemma kboot_clean : clean (kboot_open b).
  Proof.
    destruct (header_usual b Hb U) as (h & E & S1 & _ & O & _). unfold atari_header in E. cbv zeta in E.
    unfold kboot_open. cbv zeta. rewrite E. cbn [rbind]. destruct (get_pos h 4) as [[p s]|e] eqn:P; cbn [rbind].
    - destruct (pos_size b h Hb E S1 4 p s P) as (A & B & C).
      assert (V : 4 <= h_max h \/ h_max h < 0).
      { unfold get_pos in P. destruct (negb (sector_valid h 4)) eqn:V; [discriminate|]. unfold sector_valid in V. lia. }
      replace (zlen b <=? h_offset h + 9 + 2) with false by lia.
      destruct (_ || _); exact I || reflexivity.
    - pose proof (clean_get_pos h 4) as C. rewrite P in C. exact C.
  Qed.

  Lemma boot_check_clean h : atari_header b = Ok h -> 128 <= h_ssize h -> clean (boot_check h b).
  Proof.
    intros E S1. unfold boot_check. apply clean_bind; [apply clean_get_pos|]. intros [p s] P.
    destruct (pos_size b h Hb E S1 1 p s P) as (A & B & C).
    destruct (hdr_of_facts b h Hb E) as (_ & O & _).
    cbv zeta. apply clean_bind; [apply clean_view; [rewrite zlen_slice; lia|lia]|]. intros _ _.
    destruct (_ =? 0xffff); [reflexivity|]. apply clean_bind; [apply clean_view; [rewrite zlen_slice; lia|lia]|]. intros _ _.
    destruct (_ || _); [reflexivity|]. destruct (_ <? _); [reflexivity|exact I].
  Qed.

  Lemma boot_clean e s : clean (parse_image e s PBoot b).
  Proof.
    destruct (header_usual b Hb U) as (h & E & S1 & _). cbn [parse_image]. rewrite E. cbn [rbind].
    apply clean_bind; [apply boot_check_clean; assumption|]. intros _ _.
    apply clean_bind; [apply clean_checked, clean_atr_strict|]. intros _ _.
    apply clean_bind; [apply clean_boot_segments; try assumption; lia|]. intros; exact I.
  Qed.
  Lemma kboot_parse_clean e s : clean (parse_image e s PKBoot b).
  Proof.
    cbn [parse_image]. apply clean_bind; [apply kboot_clean|]. intros k _.
    apply clean_bind; [apply clean_checked, clean_atr_strict|]. intros; exact I.
  Qed.
  Lemma unidentified_clean e s : clean (parse_image e s PUnidentified b).
  Proof.
    destruct (header_usual b Hb U) as (h & E & S1 & _). cbn [parse_image]. rewrite E. cbn [rbind].
    apply clean_bind; [apply clean_checked, clean_atr_strict|]. intros; exact I.
  Qed.
End Usual.

(** * Executables, cartridges, ROMs, ProDOS *)
Lemma xex_loop_clean f b st p sp first : (Z.to_nat (zlen b - p) < f)%nat ->
  clean (snd (parse_xex_loop f b st p sp first)).
Proof.
  revert st p sp first. induction f as [|f IH]; intros st p sp first L; [lia|]. cbn [parse_xex_loop].
  destruct (p <? zlen b) eqn:E1; cbn [negb]; [|exact I].
  destruct (p + 1 <? zlen b) eqn:E2; cbn [negb]; [|exact I].
  destruct (_ =? 0xffff); [apply IH; lia|]. destruct first; [reflexivity|].
  destruct (_ <? 4); [exact I|]. cbv zeta. destruct (_ <? le2 (getb b p) (getb b (p + 1))) eqn:E3; [reflexivity|].
  destruct (_ <? _ - _ + 1); [exact I|].
  match goal with |- context [parse_xex_loop f b ?a ?b' ?c ?d] =>
    specialize (IH a b' c d ltac:(lia)); destruct (parse_xex_loop f b a b' c d) as [st' [rest|x]] end; exact IH.
Qed.
Lemma xex_clean e s b : clean (parse_image e s PXex b).
Proof.
  cbn [parse_image]. pose proof (xex_loop_clean (S (length b)) b (zrepeat 0 (zlen b)) 0 0 true ltac:(unfold zlen; lia)) as C.
  unfold parse_xex. destruct (snd _) as [segs|x]; exact C.
Qed.
Lemma bin_clean e s b : clean (parse_image e s PBin b).
Proof.
  cbn [parse_image]. apply clean_bind; [|intros; exact I]. unfold parse_bsave.
  repeat match goal with |- clean (if ?c then _ else _) => destruct c end; exact I || reflexivity.
Qed.
Lemma rom_clean b : clean (rom_image b).
Proof. unfold rom_image, CartModel.open_rom. destruct (negb _); exact I || reflexivity. Qed.
Lemma prodos_clean b : prodos_image b = Err (EAtr UnsupportedDiskImage) \/ clean (prodos_image b).
Proof.
  unfold prodos_image. destruct (negb _); [right; reflexivity|]. destruct (zlist_eqb _ _); [left|right]; reflexivity.
Qed.

Definition known_types : list Z := map CartModel.ct_type CartModel.known_cart_types.
Lemma get_cart_clean t : clean (CartModel.get_cart t).
Proof. unfold CartModel.get_cart. destruct (find _ _); exact I || reflexivity. Qed.
Lemma set_type_clean_all :
  forallb (fun t => match CartModel.set_type CartModel.no_header t with Ok _ => true | Err e => refusal e end) known_types = true.
Proof. vm_compute. reflexivity. Qed.
Lemma set_type_clean h t : clean (CartModel.set_type h t).
Proof.
  destruct (CartModel.get_cart t) as [c|x] eqn:G.
  - assert (K : In t known_types).
    { unfold CartModel.get_cart in G. destruct (find _ _) as [c'|] eqn:F; [|discriminate]. injection G as ->.
      apply find_some in F. destruct F as [F1 F2]. apply Z.eqb_eq in F2. subst t. apply in_map. exact F1. }
    pose proof set_type_clean_all as A. rewrite forallb_forall in A. specialize (A t K).
    unfold CartModel.set_type in *. rewrite G in *. cbn [rbind] in *.
    destruct (CartModel.ct_main c) as [[[ms mo] ma]|]; cbn [rbind] in *;
    (destruct (CartModel.ct_bank c) as [[[bs bo] ba]|]; [|exact I]);
    (destruct (CartModel.bank_loop _ _ _ _) as [l|y]; cbn [rbind] in *; [exact I|]); exact A.
  - unfold CartModel.set_type. rewrite G. cbn [rbind]. pose proof (get_cart_clean t) as C. rewrite G in C. exact C.
Qed.
Lemma open_cart_clean b t : clean (CartModel.open_cart b t).
Proof.
  unfold CartModel.open_cart. apply clean_bind; [apply get_cart_clean|]. intros _ _.
  assert (R : clean (CartModel.read_cart_header (slice b 0 16))).
  { unfold CartModel.read_cart_header. destruct (_ =? 16); [|reflexivity]. destruct (zlist_eqb _ _); [|reflexivity]. apply set_type_clean. }
  apply clean_bind.
  - destruct (CartModel.read_cart_header _) as [h|x]; [exact I|]. destruct x as [a| | | | | | | | | | | |]; try discriminate R.
    destruct a; exact I || exact R.
  - intros h _. cbv zeta. apply clean_bind; [|intros; exact I].
    unfold CartModel.cart_check_size. destruct (_ =? -1); [exact I|]. cbv zeta. apply clean_bind; [apply get_cart_clean|].
    intros c _. destruct (0 <? _); [reflexivity|]. destruct (negb _); exact I || reflexivity.
Qed.
Lemma cart_clean k s b t : clean (cart_image k s b t).
Proof.
  unfold cart_image. apply clean_bind; [apply open_cart_clean|]. intros c _. destruct s.
  - apply clean_bind; [apply clean_checked|intros; exact I]. unfold CartModel.cart_strict. cbv zeta.
    repeat match goal with |- clean (if ?c then _ else _) => destruct c end; exact I || reflexivity.
  - apply clean_bind; [|intros; exact I]. unfold CartModel.cart_relaxed. destruct (negb _); [|exact I].
    apply clean_bind; [apply set_type_clean|]. intros h _. cbv zeta. apply clean_bind; [|intros; exact I].
    unfold CartModel.cart_check_size. destruct (_ =? -1); [exact I|]. cbv zeta. apply clean_bind; [apply get_cart_clean|].
    intros c' _. destruct (0 <? _); [reflexivity|]. destruct (negb _); exact I || reflexivity.
Qed.
Lemma mame_clean z : (forall x, z = ZipErr x -> refusal x = true) -> z <> Zip [] -> clean (mame_image z).
Proof.
  intros H N. destruct z as [|l|x]; cbn [mame_image]; [reflexivity| |exact (H x eq_refl)].
  destruct (existsb _ l); [reflexivity|]. destruct l; [congruence|exact I].
Qed.
