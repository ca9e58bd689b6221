(** C96: compressed images. *)
From Verif Require Import Base BaseLemmas DiskModel AtariModel AtariSpec AtariProps AtariSession AtariDemo CliModel CliProofs CliInst SdModel ExecModel DetectModel DetectSpec DetectProofs MainModel MainProofs MainInst PackedProofs Properties_Detect Properties_Detect2 Properties_Cli Properties_Main.

(** A command on a compressed image does what it does on the image itself: the same is
    printed, it ends the same way, all other files are the same afterwards, and if the image
    file is changed, it is changed to the same bytes.  [reads_elsewhere]: the image file is not
    at the same time a file to be added or a source, data or object file. *)
Theorem C96_like_plain w o f img c b u g m r g' m' r' :
  ~ is_create c -> ~ is_boot c -> img <> [46] -> f img = Some b -> unpacked (w_env w) b = Ok u -> not_container (w_env w) u ->
  reads_elsewhere w f (fput f img u) img c ->
  main w o f img c = (g, m, r) -> main w o (fput f img u) img c = (g', m', r') ->
  m = m' /\ r = r' /\ (forall n, n <> img -> g n = g' n) /\ (g img = g' img \/ g img = Some b /\ g' img = Some u).
Proof.
  intros C1 C2 N F U NC RE E E'. set (f' := fput f img u) in *. assert (F' : f' img = Some u) by apply fput_eq.
  assert (K : alike_run img f f' (main w o f img c) (main w o f' img c)).
  { assert (A1 : forall n, n <> img -> f n = f' n) by (intros n Hn; symmetry; apply fput_neq; exact Hn).
    assert (A2 : f img <> None) by congruence. assert (A3 : f' img <> None) by congruence.
    pose proof (packed_found (w_env w) b u U NC) as PF.
    destruct (find_diskimage (w_env w) u) as [fd|x] eqn:D.
    - assert (C3 : is_segs c \/ ~ is_segs c) by (destruct c; [right; intros []..|left; exact Logic.I]). destruct C3 as [C3|C3].
      + destruct c; try destruct C3. unfold main. rewrite (not_dot _ N), F, F', PF, D, (packed_lines _ b u fd U NC).
        destruct (segments_command (w_env w) u fd). apply alike_same. exact A1.
      + rewrite (main_opened w o f img c b fd (conj C1 (conj C2 C3)) N F PF), (main_opened w o f' img c u fd (conj C1 (conj C2 C3)) N F' D).
        apply open_alike; assumption.
    - destruct c; try (exfalso; (apply C1; exact Logic.I) || (apply C2; exact Logic.I)); unfold main; rewrite (not_dot _ N), F, F', PF, D;
        destruct x as [a| | | | | | | | | | | |]; try (apply alike_same; exact A1); destruct a; apply alike_same; exact A1. }
  rewrite E, E' in K. destruct K as ((K1 & K2) & K3 & K4). cbn [fst snd] in *. split; [exact K3|]. split; [exact K4|]. split; [exact K1|].
  rewrite F, F' in K2. exact K2.
Qed.
Print Assumptions C96_like_plain.
(** If the command changes the image, the file then has the image itself, not compressed. *)
Definition zipped : list Z := [31; 139; 8].
Definition zip_env (u : list Z) : env :=
  mkEnv (fun b => if zlist_eqb b zipped then Unpacked u else NotPacked) (fun _ => NotPacked) (fun _ => NotPacked) (fun _ => NotZip) (fun _ => None).
Definition zip_world (u : list Z) : world := mkWorld (zip_env u) (w_asm w0) (w_crc w0) (w_tmpl w0).
Lemma zip_found u v : v <> zipped -> find_diskimage (zip_env u) v = find_diskimage env0 v.
Proof.
  intros N. assert (Z0 : zlist_eqb v zipped = false). { destruct (zlist_eqb v zipped) eqn:Q; [|reflexivity]. apply zlist_eqb_eq in Q. contradiction. }
  assert (U : unpacked (zip_env u) v = unpacked env0 v).
  { unfold unpacked, guess_container, known_containers. cbn [unpack_with e_gzip e_bzip e_lzma zip_env env0]. rewrite Z0. reflexivity. }
  unfold find_diskimage, iter_parsers. rewrite U. reflexivity.
Qed.
Theorem C96_unpacked_refuted : exists w f im im1, disk env0 im /\ disk env0 im1 /\ fs_of im1 hello = Some [1; 2; 3] /\
  f p_img = Some zipped /\ e_gzip (w_env w) zipped = Unpacked (a_bytes im) /\
  exists g, main w no_opts f p_img (KAdd [p_hello]) = (g, [MCopying hello], Ok tt) /\ g p_img = Some (a_bytes im1) /\ e_gzip (w_env w) (a_bytes im1) = NotPacked.
Proof.
  destruct add_hello as (im & im1 & D & L & D1 & L1 & R1 & E).
  assert (NZ : forall k, disk env0 k -> a_bytes k <> zipped).
  { intros k (C & _) Q. pose proof (big_image k C) as B. rewrite Q in B. vm_compute in B. discriminate B. }
  exists (zip_world (a_bytes im)), (demo_fs zipped), im, im1. split; [exact D|]. split; [exact D1|]. split; [exact R1|]. split; [reflexivity|]. split; [reflexivity|].
  destruct (main (zip_world (a_bytes im)) no_opts (demo_fs zipped) p_img (KAdd [p_hello])) as [[g m] r] eqn:M.
  exists g.
  set (u := a_bytes im) in *.
  destruct (disk_found env0 im D) as (fd & FD & FI).
  assert (NC : not_container env0 u) by (destruct D as (_ & _ & _ & S0); apply (S0 u); reflexivity).
  assert (NC' : not_container (zip_env u) u).
  { destruct NC as (_ & _ & _ & X). split; [|split; [reflexivity|split; [reflexivity|exact X]]]. cbn [e_gzip zip_env].
    destruct (zlist_eqb u zipped) eqn:Q; [|reflexivity]. apply zlist_eqb_eq in Q. exfalso. exact (NZ im D Q). }
  assert (FP : find_diskimage (zip_env u) zipped = Ok fd).
  { rewrite (packed_found (zip_env u) zipped u eq_refl NC'), (zip_found u u (NZ im D)). exact FD. }
  assert (O : opens (KAdd [p_hello])) by (split; [|split]; intros []).
  rewrite (main_opened (zip_world u) no_opts (demo_fs zipped) p_img (KAdd [p_hello]) zipped fd O ltac:(discriminate) eq_refl FP), FI in M.
  rewrite (main_opened w0 no_opts (demo_fs u) p_img (KAdd [p_hello]) u fd O ltac:(discriminate) eq_refl FD), FI in E.
  assert (A1 : forall n, n <> p_img -> demo_fs zipped n = demo_fs u n).
  { intros n Hn. unfold demo_fs. destruct (zlist_eqb n p_img) eqn:Q; [apply zlist_eqb_eq in Q; contradiction|reflexivity]. }
  assert (RE : reads_elsewhere w0 (demo_fs zipped) (demo_fs u) p_img (KAdd [p_hello])) by (intros [Q|[]]; discriminate Q).
  pose proof (open_alike p_img (demo_fs zipped) (demo_fs u) A1 ltac:(discriminate) ltac:(discriminate) w0 no_opts (IAtariDos im) (KAdd [p_hello]) RE) as K.
  change (open_command (zip_world u) no_opts (demo_fs zipped) p_img (IAtariDos im) (KAdd [p_hello])) with (open_command w0 no_opts (demo_fs zipped) p_img (IAtariDos im) (KAdd [p_hello])) in M.
  rewrite M, E in K. destruct K as ((_ & K2) & K3 & K4). cbn [fst snd] in *. rewrite fput_eq in K2. subst m r. split; [reflexivity|]. split.
  - destruct K2 as [K2|(_ & K2)]; [exact K2|]. exfalso. assert (EB : a_bytes im1 = a_bytes im) by (cbn in K2; unfold u in K2; congruence).
    destruct D as ((O0 & _) & _). destruct D1 as ((O1 & _) & _). rewrite EB, O0 in O1. injection O1 as ->. rewrite L in L1. discriminate L1.
  - cbn [e_gzip w_env zip_world zip_env]. destruct (zlist_eqb (a_bytes im1) zipped) eqn:Q; [|reflexivity]. apply zlist_eqb_eq in Q. exfalso. exact (NZ im1 D1 Q).
Qed.
Print Assumptions C96_unpacked_refuted.
(** The conditions of C96_like_plain are met: the program of the example above. *)
Example C96_example (u : list Z) : unpacked (zip_env u) zipped = Ok u /\ demo_fs zipped p_img = Some zipped /\
  reads_elsewhere (zip_world u) (demo_fs zipped) (fput (demo_fs zipped) p_img u) p_img (KAdd [p_hello]).
Proof. split; [reflexivity|]. split; [reflexivity|]. intros [Q|[]]; discriminate Q. Qed.
