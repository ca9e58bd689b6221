(** C79: the templates shipped with the program. *)
From Verif Require Import Base BaseLemmas DiskModel DirLemmas AtariModel AtariSpec AtariGeom AtariHeader AtariVtoc AtariChain AtariWrite AtariOps AtariProps AtariSession AtariDir SpartaModel ExecModel SdModel CliModel CliProofs CliInst DetectModel DetectSpec DetectProofs DetectErrors DetectErrors2 DetectErrors3 DetectStay DetectDsk Properties_Detect Properties_Detect2 Properties_Detect3 MainModel MainProofs MainProofs2 MainInst TemplAtari TemplData TemplDetect Dos33Model Dos33Spec Dos33Geom Dos33Files Dos33Ops Dos33Session Dos33Demo Templ33 TemplData33 Properties_Cli Properties_Main.

(** Name and bytes of a template, the names and sizes of the files on it in the order
    listed, and the number of free sectors. *)
Record tinfo := mkT { t_name : list Z; t_bytes : list Z; t_files : list (list Z * Z); t_free : Z }.
Definition atari_templates : list tinfo := [
  (* dos2dd.atr *)
  mkT [100; 111; 115; 50; 100; 100; 46; 97; 116; 114] dos2dd [] 707;
  (* dos2ed+2.5.atr: DOS.SYS 4625, DUP.SYS 5126, RAMDISK.COM 1066, SETUP.COM 8690, COPY32.COM 6879, DISKFIX.COM 7123 *)
  mkT [100; 111; 115; 50; 101; 100; 43; 50; 46; 53; 46; 97; 116; 114] dos2ed_25
    [([68; 79; 83; 46; 83; 89; 83], 4625); ([68; 85; 80; 46; 83; 89; 83], 5126); ([82; 65; 77; 68; 73; 83; 75; 46; 67; 79; 77], 1066);
     ([83; 69; 84; 85; 80; 46; 67; 79; 77], 8690); ([67; 79; 80; 89; 51; 50; 46; 67; 79; 77], 6879); ([68; 73; 83; 75; 70; 73; 88; 46; 67; 79; 77], 7123)] 436;
  (* dos2ed.atr *)
  mkT [100; 111; 115; 50; 101; 100; 46; 97; 116; 114] dos2ed [] 707;
  (* dos2sd+2.0s.atr: DOS.SYS 4875, DUP.SYS 5126, AUTORUN.SYS 88 *)
  mkT [100; 111; 115; 50; 115; 100; 43; 50; 46; 48; 115; 46; 97; 116; 114] dos2sd_20s
    [([68; 79; 83; 46; 83; 89; 83], 4875); ([68; 85; 80; 46; 83; 89; 83], 5126); ([65; 85; 84; 79; 82; 85; 78; 46; 83; 89; 83], 88)] 625;
  (* dos2sd.atr *)
  mkT [100; 111; 115; 50; 115; 100; 46; 97; 116; 114] dos2sd [] 707].
Definition dos33_templates : list tinfo := [
  (* dos33.dsk *)
  mkT [100; 111; 115; 51; 51; 46; 100; 115; 107] dos33 [] 496;
  (* dos33autobrun.dsk: HELLO 256 *)
  mkT [100; 111; 115; 51; 51; 97; 117; 116; 111; 98; 114; 117; 110; 46; 100; 115; 107] dos33_autobrun [([72; 69; 76; 76; 79], 256)] 494].
(** The template directory of the program. *)
Definition shipped : list (list Z * list Z) := map (fun x => (t_name x, t_bytes x)) (atari_templates ++ dos33_templates).
Lemma shipped_names : map fst shipped = template_names.
Proof. reflexivity. Qed.

(** * Atari *)
Definition atari_template_ok (e : env) (x : tinfo) : Prop :=
  exists im, a_bytes im = t_bytes x /\ disk e im /\ listing im = map fst (t_files x) /\
    free_count (geom_of (a_hdr im)) (t_bytes x) = t_free x /\
    Forall (fun p => exists d, find_file im (fst p) = Ok d /\ zlen d = snd p) (t_files x).
Definition used_bytes (ss : Z) (t : tab) (c : list Z) : list Z := flat_map (fun n => let s := tsec ss t n in slice s 0 (link_used s)) c.

Lemma filter_all {A} (p : A -> bool) l : forallb p l = true -> filter p l = l.
Proof. induction l as [|x l IH]; intros H; [reflexivity|]. cbn [forallb] in H. apply andb_prop in H. cbn [filter]. rewrite (proj1 H), IH by apply H. reflexivity. Qed.
Lemma has_flag e : has_b e 64 = flag_bit (e_flag e) 64.
Proof.
  destruct (has_b e 64) eqn:H; symmetry.
  - apply flag_bit_has. unfold flag_has. unfold has_b in H. lia.
  - destruct (flag_bit (e_flag e) 64) eqn:F; [|reflexivity]. apply flag_bit_has in F. unfold flag_has in F. unfold has_b in H. lia.
Qed.
Lemma template_all ss skew mx hd boot t cs h name files free e :
  128 <= ss <= 256 -> ss mod 16 = 0 -> 3 * ss - skew = 384 -> 368 <= mx -> zlen hd = 16 -> zlen boot = 384 ->
  forallb is_byte_b hd = true -> forallb is_byte_b boot = true -> disk_ok ss mx t cs = true ->
  header_for hd (384 + ss * (mx - 3)) = Ok h -> geom_of h = mkG 16 ss skew mx -> get_pos h 1 = Ok (16, 128) -> get_pos h 4 = Ok (400, ss) ->
  (h_image_size h = 133120 -> 1024 <= mx) -> le2 (getb hd 4) (getb hd 5) = ss -> recognised_ok ss mx boot = true -> zlen cs <= 64 ->
  forallb (fun i => has_b (tslot ss t i) 64) (zrange 0 (zlen cs)) = true ->
  map (fun i => (e_name (tslot ss t i), zlen (used_bytes ss t (nth (Z.to_nat i) cs [])))) (zrange 0 (zlen cs)) = files ->
  fold_right Z.add 0 (map (fb (tsec ss t 360)) (zrange 0 720)) = free ->
  settled e (atr_image ss mx hd boot t) -> atari_template_ok e (mkT name (atr_image ss mx hd boot t) files free).
Proof.
  intros Hss H16 Hskew Hmx Lh Lb Bh Bb OK Hhd Hg Hp1 Hp4 Hed Hle Hrec L64 Live Hf Hfree U.
  exists (view h (atr_image ss mx hd boot t) (zlen cs)). cbn [t_bytes t_files t_free]. split; [reflexivity|].
  split; [eapply templ_recognised; eassumption|]. split; [|split].
  - rewrite (templ_listing ss skew mx hd boot t cs h) by assumption. rewrite <- Hf, map_map. cbn [fst]. f_equal.
    rewrite (filter_ext _ (fun i => has_b (tslot ss t i) 64)) by (intros i; symmetry; apply has_flag). apply filter_all. exact Live.
  - cbn [view a_hdr]. rewrite Hg. rewrite <- Hfree. unfold free_count. f_equal. apply map_ext. intros n. apply (free_t ss skew mx hd boot t cs); assumption.
  - rewrite <- Hf. apply Forall_forall. intros p Hp. apply in_map_iff in Hp. destruct Hp as (i & <- & Hi). cbn [fst snd].
    exists (used_bytes ss t (nth (Z.to_nat i) cs [])). split; [|reflexivity]. rewrite forallb_forall in Live. pose proof (Live i Hi) as Lv. apply In_zrange in Hi.
    apply (templ_file ss skew mx hd boot t cs h); assumption.
Qed.
(** Every Atari template is a consistent disk which the program recognises as one, with
    these files and this much room. *)
Theorem C79_atari_templates (e : env) (x : tinfo) : In x atari_templates -> settled e (t_bytes x) -> atari_template_ok e x.
Proof.
  intros H U. cbn [atari_templates In] in H. destruct H as [<-|[<-|[<-|[<-|[<-|[]]]]]]; cbn [t_bytes] in U.
  - unfold dos2dd in *. apply (template_all 256 384 720 dos2dd_head dos2dd_boot dos2dd_tab dos2dd_files (mkH 16 183936 256 128 3 253 720 0 0 0));
    [lia|reflexivity|reflexivity|lia|vm_compute; reflexivity|vm_compute; reflexivity|vm_compute; reflexivity|vm_compute; reflexivity|vm_compute; reflexivity
    |vm_compute; reflexivity|reflexivity|reflexivity|reflexivity|intros X; vm_compute in X; discriminate X|reflexivity|vm_compute; reflexivity|vm_compute; discriminate
    |vm_compute; reflexivity|vm_compute; reflexivity|vm_compute; reflexivity|exact U].
  - unfold dos2ed_25 in *. apply (template_all 128 0 1040 dos2ed_25_head dos2ed_25_boot dos2ed_25_tab dos2ed_25_files (mkH 16 133120 128 0 0 125 1040 0 0 0));
    [lia|reflexivity|reflexivity|lia|vm_compute; reflexivity|vm_compute; reflexivity|vm_compute; reflexivity|vm_compute; reflexivity|vm_compute; reflexivity
    |vm_compute; reflexivity|reflexivity|reflexivity|reflexivity|lia|reflexivity|vm_compute; reflexivity|vm_compute; discriminate
    |vm_compute; reflexivity|vm_compute; reflexivity|vm_compute; reflexivity|exact U].
  - unfold dos2ed in *. apply (template_all 128 0 1040 dos2ed_head dos2ed_boot dos2ed_tab dos2ed_files (mkH 16 133120 128 0 0 125 1040 0 0 0));
    [lia|reflexivity|reflexivity|lia|vm_compute; reflexivity|vm_compute; reflexivity|vm_compute; reflexivity|vm_compute; reflexivity|vm_compute; reflexivity
    |vm_compute; reflexivity|reflexivity|reflexivity|reflexivity|lia|reflexivity|vm_compute; reflexivity|vm_compute; discriminate
    |vm_compute; reflexivity|vm_compute; reflexivity|vm_compute; reflexivity|exact U].
  - unfold dos2sd_20s in *. apply (template_all 128 0 720 dos2sd_20s_head dos2sd_20s_boot dos2sd_20s_tab dos2sd_20s_files (mkH 16 92160 128 0 0 125 720 0 0 0));
    [lia|reflexivity|reflexivity|lia|vm_compute; reflexivity|vm_compute; reflexivity|vm_compute; reflexivity|vm_compute; reflexivity|vm_compute; reflexivity
    |vm_compute; reflexivity|reflexivity|reflexivity|reflexivity|intros X; vm_compute in X; discriminate X|reflexivity|vm_compute; reflexivity|vm_compute; discriminate
    |vm_compute; reflexivity|vm_compute; reflexivity|vm_compute; reflexivity|exact U].
  - unfold dos2sd in *. apply (template_all 128 0 720 dos2sd_head dos2sd_boot dos2sd_tab dos2sd_files (mkH 16 92160 128 0 0 125 720 0 0 0));
    [lia|reflexivity|reflexivity|lia|vm_compute; reflexivity|vm_compute; reflexivity|vm_compute; reflexivity|vm_compute; reflexivity|vm_compute; reflexivity
    |vm_compute; reflexivity|reflexivity|reflexivity|reflexivity|intros X; vm_compute in X; discriminate X|reflexivity|vm_compute; reflexivity|vm_compute; discriminate
    |vm_compute; reflexivity|vm_compute; reflexivity|vm_compute; reflexivity|exact U].
Qed.
Print Assumptions C79_atari_templates.

(** * DOS 3.3 *)
Definition dos33_template_ok (e : env) (x : tinfo) : Prop :=
  exists im, i_bytes im = t_bytes x /\ disk3 e im /\ listing3 im = map fst (t_files x) /\
    free_count3 (t_bytes x) = t_free x /\
    Forall (fun p => exists d, find_file3 im (fst p) = Ok d /\ zlen d = snd p) (t_files x).
Lemma template3_all t cat cs name files free e :
  disk33_ok t cat cs = true -> zmem (getb (tsec 256 t 0) 0) [0x96; 255; 67] = false -> zmem (getb (tsec 256 t 0) 32) [0x11; 0x20; 0x21] = false ->
  map (fun i => (x_name (tslot3 t cat i), zlen (flat_map (tsec 256 t) (snd (nth (Z.to_nat i) cs ([], []))))))
    (filter (fun i => negb (getb (tslot3 t cat i) 0 =? 255)) (zrange 0 (zlen cs))) = files ->
  forallb (fun i => negb (getb (tslot3 t cat i) 2 =? 0)) (zrange 0 (zlen cs)) = true ->
  fold_right Z.add 0 (map (fb3 (tsec 256 t 272)) (zrange 0 800)) = free ->
  settled3 e (disk_of (tsec 256 t)) -> dos33_template_ok e (mkT name (disk_of (tsec 256 t)) files free).
Proof.
  intros OK Z0 Z32 Hf Live Hfree U. exists (view3 (disk_of (tsec 256 t)) cat (zlen cs)). cbn [t_bytes t_files t_free]. split; [reflexivity|].
  split; [apply templ3_recognised; assumption|]. split; [|split].
  - rewrite (templ3_listing t cat cs OK). rewrite <- Hf, map_map. reflexivity.
  - rewrite <- Hfree. unfold free_count3. f_equal. apply map_ext. intros n. apply (free_t3 t cat cs OK).
  - rewrite <- Hf. apply Forall_forall. intros p Hp. apply in_map_iff in Hp. destruct Hp as (i & <- & Hi). cbn [fst snd]. apply filter_In in Hi. destruct Hi as [Hi Lv].
    rewrite forallb_forall in Live. pose proof (Live i Hi) as L2. apply In_zrange in Hi. eexists. split; [|reflexivity].
    apply (templ3_file t cat cs OK i Hi). unfold live3_b. rewrite Lv, L2. reflexivity.
Qed.
Definition std_cat : list Z := [287; 286; 285; 284; 283; 282; 281; 280; 279; 278; 277; 276; 275; 274; 273].
(** Every DOS 3.3 template is a consistent disk which the program recognises as one. *)
Theorem C79_dos33_templates (e : env) (x : tinfo) : In x dos33_templates -> settled3 e (t_bytes x) -> dos33_template_ok e x.
Proof.
  intros H U. cbn [dos33_templates In] in H. destruct H as [<-|[<-|[]]]; cbn [t_bytes] in U.
  - unfold dos33 in *. apply (template3_all dos33_tab std_cat []); [vm_compute; reflexivity|vm_compute; reflexivity|vm_compute; reflexivity|reflexivity|reflexivity|vm_compute; reflexivity|exact U].
  - unfold dos33_autobrun in *. apply (template3_all dos33_autobrun_tab std_cat [([49], [48]); ([], [])]);
      [vm_compute; reflexivity|vm_compute; reflexivity|vm_compute; reflexivity|vm_compute; reflexivity|vm_compute; reflexivity|vm_compute; reflexivity|exact U].
Qed.
Print Assumptions C79_dos33_templates.

(** * Creating an image and using it *)
Lemma template_named x : In x (atari_templates ++ dos33_templates) -> get_template (t_name x) shipped = Ok (t_name x, t_bytes x).
Proof.
  intros H. cbn [atari_templates dos33_templates app In] in H. unfold get_template, template_matches, shipped, atari_templates, dos33_templates.
  cbn [map app t_name t_bytes filter fst].
  destruct H as [<-|[<-|[<-|[<-|[<-|[<-|[<-|[]]]]]]]]; cbn [t_name t_bytes];
    repeat match goal with |- context [substring ?a ?b] => let r := eval vm_compute in (substring a b) in change (substring a b) with r end; reflexivity.
Qed.
Lemma template_any p n b : get_template p shipped = Ok (n, b) -> exists x, In x (atari_templates ++ dos33_templates) /\ t_name x = n /\ t_bytes x = b.
Proof.
  intros H. unfold get_template in H. destruct (template_matches p shipped) as [|y [|]] eqn:M; try discriminate. injection H as ->.
  assert (I : In (n, b) (template_matches p shipped)) by (rewrite M; left; reflexivity). unfold template_matches in I. apply filter_In in I. destruct I as [I _].
  unfold shipped in I. apply in_map_iff in I. destruct I as (x & E & Hx). injection E as <- <-. exists x. auto.
Qed.
Lemma answers_fs_of im : consistent im -> answers im (fs_of im).
Proof. intros C n. unfold fs_of. destruct (consistent_view im C) as (k & E & G & D & Hh). rewrite E. destruct (find_view (a_hdr im) (a_bytes im) k n G D) as [(i & c & _ & ->)|[_ ->]]; reflexivity. Qed.
Lemma answers_fs_of3 im : consistent3 im -> answers3 im (fs_of3 im).
Proof.
  intros C n. unfold fs_of3. destruct (consistent3_view im C) as (cat & k & E & D). rewrite E. destruct (find_view3 (i_bytes im) cat k n D) as [(i & tl & dl & _ & -> & _)|(_ & -> & _)]; reflexivity.
Qed.
(** The state after a template has been copied to [img]: a recognised disk whose files are
    those of the template. *)
Definition made_atari (w : world) (f : fs) (img : list Z) (x : tinfo) (m : fsmap) : Prop :=
  atari_disk w f img m /\ (forall n, m n <> None <-> In n (map fst (t_files x))) /\
  Forall (fun p => exists d, m (fst p) = Some d /\ zlen d = snd p) (t_files x).
Definition made_dos33 (w : world) (f : fs) (img : list Z) (x : tinfo) (m : fsmap) : Prop :=
  dos33_disk w f img m /\ (forall n, m n <> None <-> In n (map fst (t_files x))) /\
  Forall (fun p => exists d, m (fst p) = Some d /\ zlen d = snd p) (t_files x).
Lemma make_atari w f img x : img <> [46] -> f img = Some (t_bytes x) -> atari_template_ok (w_env w) x -> exists m, made_atari w f img x m.
Proof.
  intros N F (im & B & D & L & _ & Fi). exists (fs_of im). pose proof D as (C & _). split; [|split].
  - split; [exact N|]. exists im. rewrite B. split; [exact F|]. split; [exact D|apply answers_fs_of; exact C].
  - intros n. rewrite <- L. unfold fs_of. destruct (consistent_view im C) as (k & E & G & Dk & Hh). rewrite E, In_listing.
    destruct (find_view (a_hdr im) (a_bytes im) k n G Dk) as [(i & c & (I1 & I2 & I3 & _) & ->)|[NL ->]]; split; intros H; try congruence; try discriminate.
    exists i. auto.
  - eapply Forall_impl; [|exact Fi]. intros p (d & E & Z0). exists d. unfold fs_of. rewrite E. auto.
Qed.
Lemma make_dos33 w f img x : img <> [46] -> f img = Some (t_bytes x) -> dos33_template_ok (w_env w) x -> exists m, made_dos33 w f img x m.
Proof.
  intros N F (im & B & D & L & _ & Fi). exists (fs_of3 im). pose proof D as (C & _). split; [|split].
  - split; [exact N|]. exists im. rewrite B. split; [exact F|]. split; [exact D|apply answers_fs_of3; exact C].
  - intros n. rewrite <- L. unfold fs_of3. destruct (consistent3_view im C) as (cat & k & E & Dk). rewrite E, (In_listing3 _ _ _ _ Dk).
    destruct (find_view3 (i_bytes im) cat k n Dk) as [(i & tl & dl & (I1 & I2 & I3 & _) & -> & _)|(NL & -> & _)]; split; intros H; try congruence; try discriminate.
    exists i. auto.
  - eapply Forall_impl; [|exact Fi]. intros p (d & E & Z0). exists d. unfold fs_of3. rewrite E. auto.
Qed.
Lemma created w o f img p n b : w_tmpl w = shipped -> get_template p shipped = Ok (n, b) -> o_dry o = false -> f img = None \/ o_force o = true ->
  main w o f img (KCreate p) = (fput f img b, [MUsing n; MCreated img], readable (w_env w) b).
Proof.
  intros Wt G D N. cbn [main]. unfold create_image. rewrite Wt, G, D. destruct (f img), (o_force o); destruct N; congruence || reflexivity.
Qed.
(** Creating an image from a shipped template succeeds, for any text that picks out one of
    the templates; the new file is a recognised disk with the template's files, and stays
    a disk that behaves like a map from names to contents in any further session. *)
Theorem C79_create_atari w o f img p x l : w_tmpl w = shipped -> img <> [46] -> In x atari_templates -> get_template p shipped = Ok (t_name x, t_bytes x) ->
  o_dry o = false -> f img = None \/ o_force o = true -> settled (w_env w) (t_bytes x) ->
  let f1 := fput f img (t_bytes x) in
  main w o f img (KCreate p) = (f1, [MUsing (t_name x); MCreated img], Ok tt) /\
  exists m, made_atari w f1 img x m /\
    (ordinary (atari_usual w) w f1 img l ->
     exists m', atari_disk w (session w f1 l) img m' /\
       replay (Some t_XEX) (fun d => d) (fun e => e = EAtr NotEnoughSpaceOnDisk) w f1 img m l m' /\
       forall n, ~ In n (named img l) -> m' n = m n).
Proof.
  intros Wt N I G D Fr U f1. pose proof (C79_atari_templates (w_env w) x I U) as T. split.
  - rewrite (created w o f img p _ _ Wt G D Fr). f_equal. destruct T as (im & B & (_ & (d & E) & _) & _). unfold readable. rewrite <- B, E. reflexivity.
  - destruct (make_atari w f1 img x N (fput_eq f img (t_bytes x)) T) as (m & M). exists m. split; [exact M|]. intros O. apply C74_session_atari; [apply M|exact O].
Qed.
Print Assumptions C79_create_atari.
Theorem C79_create_dos33 w o f img p x l : w_tmpl w = shipped -> img <> [46] -> In x dos33_templates -> get_template p shipped = Ok (t_name x, t_bytes x) ->
  o_dry o = false -> f img = None \/ o_force o = true -> settled3 (w_env w) (t_bytes x) ->
  let f1 := fput f img (t_bytes x) in
  main w o f img (KCreate p) = (f1, [MUsing (t_name x); MCreated img], Ok tt) /\
  exists m, made_dos33 w f1 img x m /\
    (ordinary (dos33_usual w) w f1 img l ->
     exists m', dos33_disk w (session w f1 l) img m' /\
       replay (Some t_BSAVE) padded (fun e => e = EAtr NotEnoughSpaceOnDisk \/ e = EAtr NoSpaceInDirectory) w f1 img m l m' /\
       forall n, ~ In n (named img l) -> m' n = m n).
Proof.
  intros Wt N I G D Fr U f1. pose proof (C79_dos33_templates (w_env w) x I U) as T. split.
  - rewrite (created w o f img p _ _ Wt G D Fr). f_equal. destruct T as (im & B & K & _). pose proof (disk3_found (w_env w) im K) as (fd & E & _). unfold readable. rewrite <- B. cbn [dos33_api p_bytes] in E. rewrite E. reflexivity.
  - destruct (make_dos33 w f1 img x N (fput_eq f img (t_bytes x)) T) as (m & M). exists m. split; [exact M|]. intros O. apply C74_session_dos33; [apply M|exact O].
Qed.
Print Assumptions C79_create_dos33.
(** Every text either picks out no template, or one of these. *)
Theorem C79_only_these (p n b : list Z) : get_template p shipped = Ok (n, b) -> exists x, In x (atari_templates ++ dos33_templates) /\ t_name x = n /\ t_bytes x = b.
Proof. exact (template_any p n b). Qed.
Print Assumptions C79_only_these.

(** ** A case: every template, by its full name, in a world where nothing is compressed *)
Lemma settled0 b : getb b 0 = 0x96 -> settled env0 b.
Proof. intros E b' _ H. apply env0_unclaimed. rewrite H by lia. exact E. Qed.
Lemma settled30 b : getb b 0 = 1 -> settled3 env0 b.
Proof.
  intros E b' _ H. assert (E' : getb b' 0 = 1) by (rewrite H by lia; exact E). split; [|split; reflexivity].
  split; [reflexivity|]. split; [reflexivity|]. split; [reflexivity|]. rewrite E'. intros (_ & [X|X] & _); discriminate.
Qed.
Definition plain_world : world := mkWorld env0 None (fun d => fold_left Z.add d 0) shipped.
Definition new_img : list Z := [110; 101; 119].
Example C79_all_by_name : forall x, In x (atari_templates ++ dos33_templates) ->
  main plain_world no_opts (fun _ => None) new_img (KCreate (t_name x)) = (fput (fun _ => None) new_img (t_bytes x), [MUsing (t_name x); MCreated new_img], Ok tt).
Proof.
  intros x H. pose proof (template_named x H) as G. apply in_app_or in H. destruct H as [H|H].
  - apply (C79_create_atari plain_world no_opts (fun _ => None) new_img (t_name x) x []); [reflexivity|discriminate|exact H|exact G|reflexivity|left; reflexivity|].
    apply settled0. cbn [atari_templates In] in H. destruct H as [<-|[<-|[<-|[<-|[<-|[]]]]]]; reflexivity.
  - apply (C79_create_dos33 plain_world no_opts (fun _ => None) new_img (t_name x) x []); [reflexivity|discriminate|exact H|exact G|reflexivity|left; reflexivity|].
    apply settled30. cbn [dos33_templates In] in H. destruct H as [<-|[<-|[]]]; reflexivity.
Qed.
Print Assumptions C79_all_by_name.
(** From a new DOS 2.0S disk: delete AUTORUN.SYS; DOS.SYS is still there. *)
Definition new_fs : fs := fput (fun _ => None) new_img dos2sd_20s.
Definition DOS_SYS : list Z := [68; 79; 83; 46; 83; 89; 83].
Definition AUTORUN_SYS : list Z := [65; 85; 84; 79; 82; 85; 78; 46; 83; 89; 83].
Example C79_delete_from_new : exists m d m', made_atari plain_world new_fs new_img (nth 3 atari_templates (mkT [] [] [] 0)) m /\
  m AUTORUN_SYS <> None /\ m DOS_SYS = Some d /\ zlen d = 4875 /\
  atari_disk plain_world (fst (fst (main plain_world no_opts new_fs new_img (KDelete [AUTORUN_SYS])))) new_img m' /\
  m' AUTORUN_SYS = None /\ m' DOS_SYS = Some d.
Proof.
  set (x := nth 3 atari_templates (mkT [] [] [] 0)).
  assert (T : atari_template_ok env0 x).
  { apply C79_atari_templates; [right; right; right; left; reflexivity|]. apply settled0. reflexivity. }
  destruct (make_atari plain_world new_fs new_img x ltac:(discriminate) eq_refl T) as (m & M). pose proof M as (A & Hl & Hf).
  cbn [x nth atari_templates t_files] in Hf. inversion Hf as [|? ? (d & E & Z0) _]; subst. cbn [fst snd] in E, Z0.
  destruct (main plain_world no_opts new_fs new_img (KDelete [AUTORUN_SYS])) as [[f' ms] r] eqn:Em.
  destruct (C74_one_run_atari plain_world no_opts new_fs new_img m (KDelete [AUTORUN_SYS]) f' ms r A I Em) as (m' & A' & Ef).
  cbn [effect no_opts o_dry] in Ef. destruct Ef as [_ Ef]. exists m, d, m'. split; [exact M|]. split; [apply Hl; right; right; left; reflexivity|]. split; [exact E|]. split; [exact Z0|].
  split; [exact A'|]. rewrite !Ef. split; [reflexivity|exact E].
Qed.
Print Assumptions C79_delete_from_new.
