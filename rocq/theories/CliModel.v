(** Model of the command line commands: atrcopy/__init__.py, and of the number
    parsing in atrcopy/utils.py.

    The local file system is a map from path names to contents.  Directories are not
    modelled: creating one (line 116) has no effect here, and writing to a path always
    works.  What a command prints is a list of messages.  Names are lists of character
    codes (Latin-1). *)
From Verif Require Import Base.

(** * utils.py 43-60: text_to_int *)
(** The value of a digit character, as Python's int() reads it. *)
Definition digit_val (c : Z) : Z :=
  if (48 <=? c) && (c <=? 57) then c - 48
  else if (97 <=? c) && (c <=? 122) then c - 87
  else if (65 <=? c) && (c <=? 90) then c - 55 else 99.
(** The digits after sign and prefix; single underscores are allowed between digits. *)
Fixpoint int_digits (base : Z) (s : list Z) (acc : Z) (last : bool) : res Z :=
  match s with
  | [] => if last then Ok acc else Err EValue
  | c :: r =>
      if c =? 95 then (if last then int_digits base r acc false else Err EValue)
      else if digit_val c <? base then int_digits base r (acc * base + digit_val c) true
      else Err EValue
  end.
Definition py_space (c : Z) : bool :=
  ((9 <=? c) && (c <=? 13)) || ((28 <=? c) && (c <=? 32)) || (c =? 133) || (c =? 160).
Fixpoint lstripf (f : Z -> bool) (l : list Z) : list Z :=
  match l with c :: r => if f c then lstripf f r else l | [] => [] end.
(** int(text, base) for base 2, 10 and 16 *)
Definition py_int (base : Z) (text : list Z) : res Z :=
  let t := rstripf py_space (lstripf py_space text) in
  let '(sign, t1) := match t with 43 :: r => (1, r) | 45 :: r => (-1, r) | _ => (1, t) end in
  let t2 := match t1 with
            | 48 :: x :: r =>
                if ((base =? 16) && ((x =? 120) || (x =? 88))) || ((base =? 2) && ((x =? 98) || (x =? 66)))
                then match r with 95 :: r' => r' | _ => r end else t1
            | _ => t1
            end in
  let! v := int_digits base t2 0 false in Ok (sign * v).
Definition text_to_int (text : list Z) : res Z :=
  match text with
  | 48 :: 120 :: r => py_int 16 r
  | 36 :: r => py_int 16 r
  | 35 :: r => py_int 10 r
  | 37 :: r => py_int 2 r
  | _ => py_int 16 text
  end.
(** line 56-57: default_base="dec" *)
Definition text_to_int_dec (text : list Z) : res Z :=
  match text with
  | 48 :: 120 :: r => py_int 16 r
  | 36 :: r => py_int 16 r
  | 35 :: r => py_int 10 r
  | 37 :: r => py_int 2 r
  | _ => py_int 10 text
  end.

(** * What the commands use of a disk image *)
Record api := mkApi {
  p_img : Type; p_ent : Type;
  p_open : list Z -> res p_img;                         (* reading an image file *)
  p_bytes : p_img -> list Z;                            (* what save() writes *)
  p_files : p_img -> list p_ent;                        (* image.files *)
  p_name : p_ent -> list Z;                             (* dirent.filename *)
  p_find : p_img -> list Z -> option p_ent;             (* find_dirent *)
  p_read : p_img -> p_ent -> res (list Z);              (* get_file *)
  p_write : p_img -> list Z -> list Z -> list Z -> p_img * res unit;
  p_delete : p_img -> list Z -> p_img * res unit;
  p_shred : p_img -> p_img * res unit;
  p_default : list Z }.                                 (* default_filetype *)

Record opts := mkO {
  o_force : bool; o_dry : bool; o_lower : bool; o_text : bool; o_all : bool;
  o_dir : option (list Z); o_type : list Z }.

Definition fs := list Z -> option (list Z).
Definition fput (f : fs) (p d : list Z) : fs := fun q => if zlist_eqb q p then Some d else f q.

Inductive msg :=
| MCopying (name : list Z) | MSkipping (name : list Z) | MNotIn (name : list Z)
| MRemoving (name : list Z) | MExtracting (out : list Z) | MExists (out : list Z)
| MShredding | MUsing (name : list Z) | MCreated (name : list Z) | MCreating (name : list Z)
| MError (name : list Z) | MSaving (name : list Z) | MNothing
| MFile (name : list Z) | MCrc (name : list Z) (crc : Z) | MLine (text : list Z).

(** os.path.basename *)
Fixpoint basename (path : list Z) (acc : list Z) : list Z :=
  match path with [] => rev acc | 47 :: r => basename r [] | c :: r => basename r (c :: acc) end.
(** os.path.join with one further component *)
Definition join (dir name : list Z) : list Z :=
  match name with
  | 47 :: _ => name
  | _ => match dir with
         | [] => name
         | _ => if last dir 0 =? 47 then dir ++ name else dir ++ 47 :: name
         end
  end.
(** str.lower for Latin-1 characters *)
Definition lower1 (c : Z) : Z :=
  if (65 <=? c) && (c <=? 90) || ((192 <=? c) && (c <=? 222) && negb (c =? 215)) then c + 32 else c.

Section Commands.
Variable A : api.
Notation I := (p_img A).
Variable o : opts.

(** __init__.py 130-145: save_file.  The try block covers the deletion too. *)
Definition save_file (im : I) (name ft data : list Z) : I * list msg * res bool :=
  let go im :=
    if o_dry o then (im, [MCopying name], Ok false)
    else let (im', r) := p_write A im name ft data in
         (im', [MCopying name], let! _ := r in Ok true) in
  match p_find A im name with
  | None => go im
  | Some _ =>
      if o_force o then
        match p_delete A im name with
        | (im', Ok _) => go im'
        | (im', Err (EAtr FileNotFound)) => go im'
        | (im', Err e) => (im', [], Err e)
        end
      else (im, [MSkipping name], Ok false)
  end.

(** __init__.py 148-159: add_files.  [changed] holds the answer for the last file. *)
Fixpoint add_loop (f : fs) (im : I) (ft : list Z) (files : list (list Z)) (changed : bool)
  : I * list msg * res bool :=
  match files with
  | [] => (im, [], Ok changed)
  | path :: r =>
      match f path with
      | None => (im, [], Err EOS)
      | Some data =>
          match save_file im (basename path []) ft data with
          | (im', m, Ok c) => let '(im2, m2, x) := add_loop f im' ft r c in (im2, m ++ m2, x)
          | (im', m, Err e) => (im', m, Err e)
          end
      end
  end.
(** the final save: diskimages.py 180-189 *)
Definition save_if (f : fs) (img : list Z) (x : I * list msg * res bool) : fs * list msg * res unit :=
  match x with
  | (im, m, Ok true) => (fput f img (p_bytes A im), m, Ok tt)
  | (im, m, Ok false) => (f, m, Ok tt)
  | (im, m, Err e) => (f, m, Err e)
  end.
Definition filetype : list Z := match o_type o with [] => p_default A | t => t end.
Definition add_files (f : fs) (img : list Z) (im : I) (files : list (list Z)) : fs * list msg * res unit :=
  save_if f img (add_loop f im filetype files false).

(** __init__.py 162-175: remove_files *)
Fixpoint remove_loop (im : I) (files : list (list Z)) (changed : bool) : I * list msg * res bool :=
  match files with
  | [] => (im, [], Ok changed)
  | name :: r =>
      match p_find A im name with
      | None => let '(im2, m2, x) := remove_loop im r changed in (im2, MNotIn name :: m2, x)
      | Some _ =>
          if o_dry o then let '(im2, m2, x) := remove_loop im r changed in (im2, MRemoving name :: m2, x)
          else match p_delete A im name with
               | (im', Ok _) => let '(im2, m2, x) := remove_loop im' r true in (im2, MRemoving name :: m2, x)
               | (im', Err e) => (im', [MRemoving name], Err e)
               end
      end
  end.
Definition remove_files (f : fs) (img : list Z) (im : I) (files : list (list Z)) : fs * list msg * res unit :=
  save_if f img (remove_loop im files false).

(** __init__.py 98-127: extract_files.  The option -e is read nowhere. *)
Definition out_path (name : list Z) : list Z :=
  let n := if o_lower o then map lower1 name else name in
  match o_dir o with None => n | Some d => join d n end.
(** lines 122-124: both replacements *)
Definition replace (a b : Z) (l : list Z) : list Z := map (fun c => if c =? a then b else c) l.
Definition converted (data : list Z) : list Z :=
  if o_text o then replace 0x9b 10 (replace 0x7f 9 data) else data.
Fixpoint extract_loop (f : fs) (im : I) (sel : list (list Z * option (p_ent A))) : fs * list msg * res unit :=
  match sel with
  | [] => (f, [], Ok tt)
  | (name, None) :: r => let '(f2, m2, x) := extract_loop f im r in (f2, MNotIn name :: m2, x)
  | (name, Some d) :: r =>
      let out := out_path (p_name A d) in
      if o_dry o then let '(f2, m2, x) := extract_loop f im r in (f2, MExtracting out :: m2, x)
      else match p_read A im d with
           | Err e => (f, [], Err e)
           | Ok data =>
               match f out, o_force o with
               | Some _, false => let '(f2, m2, x) := extract_loop f im r in (f2, MExists out :: m2, x)
               | _, _ => let '(f2, m2, x) := extract_loop (fput f out (converted data)) im r in (f2, MExtracting out :: m2, x)
               end
           end
  end.
Definition selection (im : I) (files : list (list Z)) : list (list Z * option (p_ent A)) :=
  if o_all o then map (fun d => (p_name A d, Some d)) (p_files A im)
  else map (fun n => (n, p_find A im n)) files.
Definition extract_files (f : fs) (im : I) (files : list (list Z)) : fs * list msg * res unit :=
  extract_loop f im (selection im files).

(** __init__.py 178-203: list_files without metadata, crc_files.  zlib.crc32 is a
    parameter. *)
Definition listed_names (im : I) (files : list (list Z)) : list (p_ent A) :=
  filter (fun d => match files with [] => true | _ => existsb (zlist_eqb (p_name A d)) files end) (p_files A im).
Definition list_files (im : I) (files : list (list Z)) : list msg :=
  map (fun d => MFile (p_name A d)) (listed_names im files).
Fixpoint crc_loop (crc : list Z -> Z) (im : I) (ds : list (p_ent A)) : list msg * res unit :=
  match ds with
  | [] => ([], Ok tt)
  | d :: r => match p_read A im d with
              | Ok data => let (m, x) := crc_loop crc im r in (MCrc (p_name A d) (crc data) :: m, x)
              | Err e => ([], Err e)
              end
  end.
Definition crc_files (crc : list Z -> Z) (im : I) (files : list (list Z)) : list msg * res unit :=
  crc_loop crc im (listed_names im files).

(** __init__.py 284-290: assemble, from the data of the executable on *)
Definition assemble_save (f : fs) (img : list Z) (im : I) (name ft data : list Z) : fs * list msg * res unit :=
  save_if f img (save_file im name ft data).

(** __init__.py 309-313: shred_image *)
Definition shred_image (f : fs) (img : list Z) (im : I) : fs * list msg * res unit :=
  if o_dry o then (f, [MShredding], Ok tt)
  else match p_shred A im with
       | (im', Ok _) => (fput f img (p_bytes A im'), [MShredding], Ok tt)
       | (im', Err e) => (f, [MShredding], Err e)
       end.

(** __init__.py 554-559, 564-569: the commands that open their image file first.
    Errors other than the library's escape; so do library errors that are not
    UnsupportedContainer or UnsupportedDiskImage. *)
Inductive command := CAdd (files : list (list Z)) | CDelete (files : list (list Z)) | CExtract (files : list (list Z)) | CShred | CList (files : list (list Z)).
Definition run_command (f : fs) (img : list Z) (c : command) : fs * list msg * res unit :=
  match f img with
  | None => (f, [MError img], Ok tt)
  | Some b =>
      match p_open A b with
      | Err (EAtr UnsupportedContainer) | Err (EAtr UnsupportedDiskImage) => (f, [MError img], Ok tt)
      | Err e => (f, [], Err e)
      | Ok im =>
          match c with
          | CAdd l => add_files f img im l
          | CDelete l => remove_files f img im l
          | CExtract l => extract_files f im l
          | CShred => shred_image f img im
          | CList l => (f, list_files im l, Ok tt)
          end
      end
  end.
End Commands.

(** * Creating images: __init__.py 336-420 *)
(** substring test: [partial in name] *)
Fixpoint prefix (p s : list Z) : bool :=
  match p, s with [], _ => true | x :: p', y :: s' => (x =? y) && prefix p' s' | _, [] => false end.
Fixpoint substring (p s : list Z) : bool :=
  prefix p s || match s with [] => false | _ :: r => substring p r end.
(** get_template_data, lines 381-394: the templates are the files of the template
    directory whose description could be read. *)
Definition template_matches (partial : list Z) (ts : list (list Z * list Z)) : list (list Z * list Z) :=
  filter (fun t => substring partial (fst t)) ts.
Definition get_template (partial : list Z) (ts : list (list Z * list Z)) : res (list Z * list Z) :=
  match template_matches partial ts with
  | [t] => Ok t
  | _ => Err (EAtr InvalidDiskImage)
  end.
(** create_image, lines 397-420.  The new image is read back and listed; what that does
    to the output is not modelled, only whether it can be read. *)
Definition create_image (can_read : list Z -> res unit) (o : opts) (ts : list (list Z * list Z)) (f : fs) (template name : list Z)
  : fs * list msg * res unit :=
  match get_template template ts with
  | Err _ => (f, [MError template], Ok tt)
  | Ok (tn, data) =>
      if o_dry o then (f, [MUsing tn; MCreating name], Ok tt)
      else match f name, o_force o with
           | Some _, false => (f, [MUsing tn; MSkipping name], Ok tt)
           | _, _ => let f' := fput f name data in
                     (f', [MUsing tn; MCreated name], can_read data)
           end
  end.
(** the names in atrcopy/templates *)
Definition template_names : list (list Z) := [
  [100;111;115;50;100;100;46;97;116;114];                          (* dos2dd.atr *)
  [100;111;115;50;101;100;43;50;46;53;46;97;116;114];              (* dos2ed+2.5.atr *)
  [100;111;115;50;101;100;46;97;116;114];                          (* dos2ed.atr *)
  [100;111;115;50;115;100;43;50;46;48;115;46;97;116;114];          (* dos2sd+2.0s.atr *)
  [100;111;115;50;115;100;46;97;116;114];                          (* dos2sd.atr *)
  [100;111;115;51;51;46;100;115;107];                              (* dos33.dsk *)
  [100;111;115;51;51;97;117;116;111;98;114;117;110;46;100;115;107] (* dos33autobrun.dsk *)
 ].

(** * Boot images: __init__.py 293-306, parsers.py 303-320 *)
Inductive boot_kind := BKBoot | BStandard.
Definition lower_name (n : list Z) : list Z := map lower1 n.
Definition ends (s suffix : list Z) : bool :=
  (zlen suffix <=? zlen s) && zlist_eqb (slice s (zlen s - zlen suffix) (zlen s)) suffix.
Definition boot_class (name : list Z) : option boot_kind :=
  if ends (lower_name name) [46;97;116;114] then Some BKBoot
  else if ends (lower_name name) [46;100;115;107] then Some BStandard else None.
(** [make] creates the image from the segments; --force and --dry-run are not looked at. *)
Definition boot_image {S} (o : opts) (make : boot_kind -> list S -> res (list Z)) (f : fs) (name : list Z) (segs : list S)
  : fs * list msg * res unit :=
  match boot_class name with
  | None => (f, [MError name], Ok tt)
  | Some k =>
      match segs with
      | [] => (f, [MNothing], Ok tt)
      | _ => match make k segs with
             | Err e => (f, [], Err e)
             | Ok b => (fput f name b, [MSaving name], Ok tt)
             end
      end
  end.

(** * Data files of assemble and boot: __init__.py 229-253 *)
(** s.rsplit(c, 1): the parts before and after the last [c] *)
Fixpoint rsplit (c : Z) (s : list Z) : option (list Z * list Z) :=
  match s with
  | [] => None
  | x :: r => match rsplit c r with
              | Some (a, b) => Some (x :: a, b)
              | None => if x =? c then Some ([], r) else None
              end
  end.
(** s.split(c, 1) *)
Fixpoint lsplit (c : Z) (s : list Z) : option (list Z * list Z) :=
  match s with
  | [] => None
  | x :: r => if x =? c then Some ([], r)
              else match lsplit c r with Some (a, b) => Some (x :: a, b) | None => None end
  end.
(** A Python slice data[start:end] with optional bounds. *)
Definition py_bound (n i : Z) : Z := if i <? 0 then Z.max 0 (i + n) else Z.min i n.
Definition py_slice (l : list Z) (a : Z) (b : option Z) : list Z :=
  slice l (py_bound (zlen l) a) (match b with None => zlen l | Some e => py_bound (zlen l) e end).
Definition data_arg (arg : list Z) : res (list Z * Z * (Z * option Z)) :=
  match rsplit 64 arg with
  | None => Err (EAtr InvalidDiskImage)   (* AtrError: "must include a load address" *)
  | Some (name, addr) =>
      let! first := text_to_int addr in
      if zmem 91 name && zmem 93 name then
        match rsplit 91 name with
        | None => Ok (name, first, (0, None))
        | Some (nm, st) =>
            match lsplit 58 st with
            | None => Ok (nm, first, (0, None))
            | Some (s, e) =>
                let s' := match py_int 10 s with Ok v => v | Err _ => 0 end in
                let e1 := if ends e [93] then slice e 0 (zlen e - 1) else e in
                let e' := match py_int 10 e1 with Ok v => Some v | Err _ => None end in
                Ok (nm, first, (s', e'))
            end
        end
      else Ok (name, first, (0, None))
  end.
Definition data_segment (f : fs) (arg : list Z) : res (Z * list Z) :=
  let! (name, first, (s, e)) := data_arg arg in
  match f name with
  | None => Err EOS
  | Some d => Ok (first, py_slice d s e)
  end.
