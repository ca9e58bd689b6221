(** Model of the whole program after its arguments are parsed: atrcopy/__init__.py
    202-306 and 601-640, atrcopy/dummy.py.

    Local files and messages are as in CliModel.v.  Names given to the program that
    differ only by a leading "./" are not told apart by the operating system; they are
    written without it here. *)
From Verif Require Import Base DiskModel AtariModel SpartaModel Dos33Model CliModel CliInst SdModel ExecModel DetectModel ObjModel.

(** What is outside the program: the library modules and tables used by detection, the
    assembler pyatasm (absent, or its answer for a source file: an exception or
    segments), zlib.crc32, the templates. *)
Record world := mkWorld {
  w_env : env;
  w_asm : option (fs -> list Z -> res (list iseg));
  w_crc : list Z -> Z;
  w_tmpl : list (list Z * list Z) }.

(** A command with its arguments.  Of the options, those not here are in [opts]. *)
Inductive cmd :=
| KList (crc : bool) (files : list (list Z))
| KCrc (files : list (list Z))
| KExtract (files : list (list Z))
| KAdd (files : list (list Z))
| KCreate (template : list Z)
| KAssemble (src data obj : list (list Z)) (run output : list Z)
| KBoot (src data obj : list (list Z)) (run : list Z)
| KDelete (files : list (list Z))
| KVtoc (clear : bool)
| KSegments.

(** * Assembling: __init__.py 202-274 *)

(** The variable run_addr: text from the command line, a number, or None. *)
Inductive run_arg := RNone | RText (t : list Z) | RNum (a : Z).
Definition run_empty (r : run_arg) : bool :=
  match r with RNone => true | RText t => zlen t =? 0 | RNum a => a =? 0 end.

(** lines 203-218 *)
Fixpoint source_segs (asm : list Z -> res (list iseg)) (names : list (list Z)) : res (list iseg) :=
  match names with
  | [] => Ok []
  | n :: r => let! a := asm n in let! b := source_segs asm r in Ok (a ++ b)
  end.
Definition all_source_segs (w : world) (f : fs) (names : list (list Z)) : res (list iseg) :=
  match names, w_asm w with
  | [], _ => Ok []
  | _, None => Err (EAtr InvalidDiskImage)   (* AtrError: "Please install pyatasm" *)
  | _, Some asm => source_segs (asm f) names
  end.
(** lines 219-245 *)
Fixpoint data_segs (f : fs) (args : list (list Z)) : res (list iseg) :=
  match args with
  | [] => Ok []
  | a :: r => let! (first, d) := data_segment f a in let! l := data_segs f r in Ok (mkI first d :: l)
  end.
(** lines 252-260; the address of a run address segment is looked at in both cases *)
Fixpoint take_segs (ss : list xseg) (run : run_arg) : res (list iseg * run_arg) :=
  match ss with
  | [] => Ok ([], run)
  | s :: r =>
      if x_runad s then
        let! a := run_address s in
        take_segs r (if run_empty run then RNum a else run)
      else let! (l, run') := take_segs r run in
           Ok (if 0 <? x_origin s then mkI (x_origin s) (x_data s) :: l else l, run')
  end.
(** lines 246-260.  [find_diskimage] on "." answers an object without segments. *)
Fixpoint obj_segs (w : world) (f : fs) (names : list (list Z)) (run : run_arg)
  : list msg * res (list iseg * run_arg) :=
  match names with
  | [] => ([], Ok ([], run))
  | n :: r =>
      if zlist_eqb n [46] then ([], Err EAttribute)
      else match f n with
      | None => ([], Err EOS)
      | Some b =>
          match find_diskimage (w_env w) b with
          | Err (EAtr _) => let (m, x) := obj_segs w f r run in (MSkipping n :: m, x)
          | Err e => ([], Err e)
          | Ok fd =>
              match (let! ss := parser_segs (w_env w) b fd in take_segs ss run) with
              | Err e => ([], Err e)
              | Ok (l, run') =>
                  let (m, x) := obj_segs w f r run' in
                  (m, let! (l', run'') := x in Ok (l ++ l', run''))
              end
          end
      end
  end.
(** lines 264-272 *)
Definition run_value (r : run_arg) : run_arg :=
  if run_empty r then r
  else match r with
       | RText t => match text_to_int t with
                    | Ok v => RNum v
                    | Err _ => match py_int 10 t with Ok v => RNum v | Err _ => RNone end
                    end
       | r => r
       end.
Definition assemble_segments (w : world) (f : fs) (src data obj : list (list Z)) (run : list Z)
  : list msg * res (list iseg * run_arg) :=
  match all_source_segs w f src with
  | Err e => ([], Err e)
  | Ok a =>
      match data_segs f data with
      | Err e => ([], Err e)
      | Ok b => let (m, x) := obj_segs w f obj (RText run) in
                (m, let! (c, run') := x in Ok (a ++ b ++ c, run_value run'))
      end
  end.

(** executables.py: an empty run address counts as none *)
Definition run_opt (r : run_arg) : option Z := match r with RNum a => Some a | _ => None end.
(** diskimages.py 311-316; a class without a default extension has None there, and
    None.lower() raises AttributeError *)
Definition executable (dflt : option (list Z)) (name : list Z) (segs : list iseg) (run : run_arg)
  : res (list Z * list Z) :=
  match dflt with
  | Some d => create_executable_image d name segs (run_opt run)
  | None => match create_executable name segs (run_opt run) with
            | Err (EAtr UnsupportedContainer) => Err EAttribute
            | r => r
            end
  end.

(** * The boot command: __init__.py 284-297 *)
(** standard_delivery.py 65-70, 166-172: the default is used for None only; text cannot
    be divided. *)
Definition boot_make (run : run_arg) (k : boot_kind) (segs : list iseg) : res (list Z) :=
  match k with
  | BKBoot => kboot_create segs None
  | BStandard =>
      let l := map (fun s => mkSeg (i_origin s) (i_data s)) segs in
      match run with
      | RNone => sd_create l None
      | RNum a => sd_create l (Some a)
      | RText _ => Err EType
      end
  end.
Definition boot_command (w : world) (o : opts) (f : fs) (name : list Z) (src data obj : list (list Z)) (run : list Z)
  : fs * list msg * res unit :=
  match boot_class name with
  | None => (f, [MError name], Ok tt)
  | Some _ =>
      match assemble_segments w f src data obj run with
      | (m, Err e) => (f, m, Err e)
      | (m, Ok (segs, r)) =>
          let '(f', m', x) := boot_image o (boot_make r) f name segs in (f', m ++ m', x)
      end
  end.

(** * Commands on an opened image: __init__.py 612-640 *)
Section Image.
Variable A : api.
Variable dflt : option (list Z).                   (* default_executable_extension *)
Variable vtoc : p_img A -> res (list Z).           (* get_vtoc_object: the map of free sectors *)
Variables (w : world) (o : opts).
(** list_files with --crc, lines 178-191: the checksum is computed before a line is
    printed.  --metadata is not modelled. *)
Definition list_command (im : p_img A) (crc : bool) (files : list (list Z)) : list msg * res unit :=
  if crc then crc_files A (w_crc w) im files else (list_files A im files, Ok tt).
(** (the segments command is in [main]) *)
Definition image_command (f : fs) (img : list Z) (im : p_img A) (c : cmd) : fs * list msg * res unit :=
  match c with
  | KList crc files => let (m, r) := list_command im crc files in (f, m, r)
  | KCrc files => let (m, r) := crc_files A (w_crc w) im files in (f, m, r)
  | KExtract files => extract_files A o f im files
  | KAdd files => add_files A o f img im files
  | KDelete files => remove_files A o f img im files
  | KVtoc clear =>
      match vtoc im with
      | Err e => (f, [], Err e)
      | Ok _ => if clear then shred_image A o f img im else (f, [], Ok tt)
      end
  | KAssemble src data obj run output =>
      match assemble_segments w f src data obj run with
      | (m, Err e) => (f, m, Err e)
      | (m, Ok (segs, r)) =>
          match executable dflt output segs r with
          | Err e => (f, m, Err e)
          | Ok (d, ty) => let '(f', m', x) := assemble_save A o f img im output ty d in (f', m ++ m', x)
          end
      end
  | KCreate _ | KBoot _ _ _ _ | KSegments => (f, [], Ok tt)
  end.
End Image.

(** * The other kinds of images *)
Definition of_opt (e : option exn) : res unit := match e with None => Ok tt | Some e => Err e end.
Fixpoint sfind (n : list Z) (ds : list sdirent) : option sdirent :=
  match ds with [] => None | d :: r => if zlist_eqb n (sfilename d) then Some d else sfind n r end.
(** spartados.py; the file list includes entries not in use *)
Definition sparta_api : api := mkApi simg sdirent open_sparta s_bytes s_files sfilename
  (fun im n => sfind n (s_files im)) sget_file
  (fun im n _ d => let (im', e) := swrite_file im n d in (im', Err e))
  (fun im n => let (im', e) := sdelete_file im n in (im', Err e))
  (fun im => let (im', e) := sshred im 0 in (im', of_opt e)) [].
Definition sparta_vtoc (im : simg) : res (list Z) :=
  let! (start, count) := sbitmap_bounds im in parse_vtoc (slice (s_bytes im) start (start + count)).
(** kboot.py 8-57.  Adding and deleting call get_directory with an argument it does not
    take (TypeError); there is no table of contents (IndexError). *)
Definition kboot_name : list Z := [75; 66; 79; 79; 84; 46; 88; 69; 88].   (* KBOOT.XEX *)
Definition kboot_api : api := mkApi kboot unit kboot_open k_bytes (fun _ => [tt]) (fun _ => kboot_name)
  (fun _ n => if zlist_eqb n kboot_name then Some tt else None) (fun im _ => Ok (kboot_file im))
  (fun im _ _ _ => (im, Err EType)) (fun im _ => (im, Err EType)) (fun im => (im, Err EIndex)) [].
(** Images without files: ataridos.py 682-757 (writing fails at the missing table of
    contents: IndexError), cartridge.py and mame.py (classes DiskImageBase, Directory and
    VTOC raise errors.NotImplementedError, which does not exist: AttributeError). *)
Definition bare_api (e : exn) : api := mkApi unit unit (fun _ => Ok tt) (fun _ => []) (fun _ => []) (fun _ => [])
  (fun _ _ => None) (fun _ _ => Err EAttribute)
  (fun im _ _ _ => (im, Err e)) (fun im _ => (im, Err (EAtr FileNotFound))) (fun im => (im, Err e)) [].
(** XEX and BSAVE files are opened as objects without find_dirent, default_filetype,
    get_vtoc_object and create_executable_file_image (ataridos.py 270-333, dos33.py
    600-645), but with an empty list of files. *)
Definition flat_command (w : world) (o : opts) (f : fs) (c : cmd) : fs * list msg * res unit :=
  match c with
  | KExtract (_ :: _) => if o_all o then (f, [], Ok tt) else (f, [], Err EAttribute)
  | KAdd [] => match o_type o with [] => (f, [], Err EAttribute) | _ => (f, [], Ok tt) end
  | KAdd (p :: _) =>
      match o_type o, f p with
      | _ :: _, None => (f, [], Err EOS)
      | _, _ => (f, [], Err EAttribute)
      end
  | KDelete (_ :: _) | KVtoc _ => (f, [], Err EAttribute)
  | KAssemble src data obj run output =>
      match assemble_segments w f src data obj run with
      | (m, Err e) => (f, m, Err e)
      | (m, Ok _) => (f, m, Err EAttribute)
      end
  | _ => (f, [], Ok tt)
  end.

(** * The current directory in place of an image: dummy.py *)
(** lines 27-40 with __init__.py 130-145: save_file *)
Definition local_save (o : opts) (f : fs) (name data : list Z) : fs * list msg * res bool :=
  match f name, o_force o with
  | Some _, false => (f, [MSkipping name], Ok false)
  | _, _ => if o_dry o then (f, [MCopying name], Ok false) else (fput f name data, [MCopying name], Ok true)
  end.
Fixpoint local_add (o : opts) (f : fs) (files : list (list Z)) : fs * list msg * res unit :=
  match files with
  | [] => (f, [], Ok tt)
  | p :: r =>
      match f p with
      | None => (f, [], Err EOS)
      | Some d => let '(f', m, _) := local_save o f (basename p []) d in
                  let '(f2, m2, x) := local_add o f' r in (f2, m ++ m2, x)
      end
  end.
(** dummy.py 38-39: deleting does nothing *)
Definition local_delete (f : fs) (files : list (list Z)) : list msg :=
  map (fun n => match f n with Some _ => MRemoving n | None => MNotIn n end) files.
(** find_dirent answers True, which has no attribute filename *)
Fixpoint local_extract (f : fs) (files : list (list Z)) : list msg * res unit :=
  match files with
  | [] => ([], Ok tt)
  | n :: r => match f n with
              | Some _ => ([], Err EAttribute)
              | None => let (m, x) := local_extract f r in (MNotIn n :: m, x)
              end
  end.
Definition local_command (w : world) (o : opts) (f : fs) (c : cmd) : fs * list msg * res unit :=
  match c with
  | KAdd files => match o_type o with [] => (f, [], Err EAttribute) | _ => local_add o f files end
  | KDelete files => (f, local_delete f files, Ok tt)
  | KExtract files => if o_all o then (f, [], Err EAttribute)
                      else let (m, x) := local_extract f files in (f, m, x)
  | KAssemble src data obj run output =>
      match assemble_segments w f src data obj run with
      | (m, Err e) => (f, m, Err e)
      | (m, Ok (segs, r)) =>
          match executable None output segs r with
          | Err e => (f, m, Err e)
          | Ok (d, _) => let '(f', m', _) := local_save o f output d in (f', m ++ m', Ok tt)
          end
      end
  | KCreate _ | KBoot _ _ _ _ => (f, [], Ok tt)
  | KList _ _ | KCrc _ | KVtoc _ | KSegments => (f, [], Err EAttribute)
  end.

(** * The program: __init__.py 601-640 *)
(** lines 636-637, for every image *)
Definition segments_command (e : env) (b : list Z) (fd : found) : list msg * res unit :=
  match file_lines e b fd with
  | Ok l => (map MLine l, Ok tt)
  | Err x => ([], Err x)
  end.
Definition t_XEX : list Z := [88; 69; 88].
Definition t_BSAVE : list Z := [66; 83; 65; 86; 69].
Definition open_command (w : world) (o : opts) (f : fs) (img : list Z) (i : image) (c : cmd) : fs * list msg * res unit :=
  match i with
  | IAtariDos a => image_command atari_api (Some t_XEX) (fun a => let! (_, _, m) := get_vtoc_object a in Ok m) w o f img a c
  | IDos33 a => image_command dos33_api (Some t_BSAVE) get_smap3 w o f img a c
  | ISparta a => image_command sparta_api (Some t_XEX) sparta_vtoc w o f img a c
  | IKBoot a => image_command kboot_api (Some t_XEX) (fun _ => Err EIndex) w o f img a c
  | IBoot _ _ | IUnidentified _ _ => image_command (bare_api EIndex) (Some t_XEX) (fun _ => Err EIndex) w o f img tt c
  | ICart _ | IMame _ | IRom _ => image_command (bare_api EAttribute) None (fun _ => Err EAttribute) w o f img tt c
  | IXex _ | IBin _ => flat_command w o f c
  end.
Definition readable (e : env) (b : list Z) : res unit := let! _ := find_diskimage e b in Ok tt.
Definition main (w : world) (o : opts) (f : fs) (img : list Z) (c : cmd) : fs * list msg * res unit :=
  match c with
  | KCreate template => create_image (readable (w_env w)) o (w_tmpl w) f template img
  | KBoot src data obj run => boot_command w o f img src data obj run
  | _ =>
      if zlist_eqb img [46] then local_command w o f c
      else match f img with
      | None => (f, [MError img], Ok tt)
      | Some b =>
          match find_diskimage (w_env w) b with
          | Err (EAtr UnsupportedContainer) | Err (EAtr UnsupportedDiskImage) | Err EOS => (f, [MError img], Ok tt)
          | Err e => (f, [], Err e)
          | Ok fd =>
              match c with
              | KSegments => let (m, x) := segments_command (w_env w) b fd in (f, m, x)
              | _ => open_command w o f img (f_image fd) c
              end
          end
      end
  end.
