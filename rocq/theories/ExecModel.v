(** Model of atrcopy/executables.py, of the executable parsers AtariDosFile
    (ataridos.py) and Dos33BinFile (dos33.py), and of atrcopy/kboot.py. *)
From Verif Require Import Base DiskModel AtariModel.

(** A segment as the executable writers see it: load address and bytes
    (segments.py 398-413).  Style, comments and names of the input segments are
    not modelled; the writers only copy them. *)
Record iseg := mkI { i_origin : Z; i_data : list Z }.

(** executables.py 15-60: get_xex, the bytes of the main segment.
    [run_addr = None] stands for None; 0 is treated like None by the code. *)
Definition has_addr (segs : list iseg) (a : Z) : bool :=
  existsb (fun s => (i_origin s <=? a) && (a <? i_origin s + zlen (i_data s))) segs.
Definition truthy (r : option Z) : option Z :=
  match r with Some a => if a =? 0 then None else Some a | None => None end.
Definition xex_total (segs : list iseg) : Z :=
  fold_left (fun t s => t + (4 + zlen (i_data s))) segs 2.
Definition xex_run (segs : list iseg) (run : option Z) : res Z :=
  match truthy run with
  | Some a => if has_addr segs a then Ok a else Err (EAtr InvalidBinaryFile)
  | None => match segs with [] => Err EIndex | s :: _ => Ok (i_origin s) end
  end.
(** lines 44-59: the loop over segments_copy; storing a word wraps. *)
Fixpoint xex_fill (segs : list iseg) (i : Z) (bytes : list Z) : list Z :=
  match segs with
  | [] => bytes
  | s :: r =>
      let b1 := setslice bytes i (put2 (i_origin s)) in
      let b2 := setslice b1 (i + 2) (put2 (i_origin s + zlen (i_data s) - 1)) in
      let b3 := setslice b2 (i + 4) (i_data s) in
      xex_fill r (i + (4 + zlen (i_data s))) b3
  end.
Definition xex_bytes (total : Z) (segs : list iseg) : list Z :=
  xex_fill segs 2 (setslice (zrepeat 0 total) 0 [255; 255]).
Definition get_xex (segs : list iseg) (run : option Z) : res (list Z) :=
  if existsb (fun s => i_origin s =? 0x2e0) segs
  then Ok (xex_bytes (xex_total segs) segs)
  else let! a := xex_run segs run in
       Ok (xex_bytes (xex_total segs + 6) (mkI 0x2e0 (put2 a) :: segs)).

(** executables.py 63-101: get_bsave *)
Definition bsave_origin (segs : list iseg) : Z :=
  fold_left (fun o s => Z.min o (i_origin s)) segs 100000000.
Definition bsave_last (segs : list iseg) : Z :=
  fold_left (fun l s => Z.max l (i_origin s + zlen (i_data s))) segs (-1).
Fixpoint bsave_fill (segs : list iseg) (origin : Z) (image : list Z) : list Z :=
  match segs with
  | [] => image
  | s :: r => bsave_fill r origin (setslice image (i_origin s - origin + 4) (i_data s))
  end.
Definition bsave_image (origin last : Z) (segs : list iseg) : res (list Z) :=
  let size := last - origin in
  if size + 4 <? 0 then Err EValue            (* np.zeros of a negative size *)
  else if size <? 0 then Err EIndex           (* words[1] of a shorter view *)
  else Ok (bsave_fill segs origin
             (setslice (setslice (zrepeat 0 (size + 4)) 0 (put2 origin)) 2 (put2 size))).
Definition get_bsave (segs : list iseg) (run : option Z) : res (list Z) :=
  let origin := bsave_origin segs in
  let last := bsave_last segs in
  match truthy run with
  | Some a =>
      if a =? origin then bsave_image origin last segs
      else if has_addr segs a
           then bsave_image (origin - 3) last
                  (mkI (origin - 3) [0x4c; u8 (a mod 256); u8 (a / 256)] :: segs)
           else Err (EAtr InvalidBinaryFile)
  | None => bsave_image origin last segs
  end.

(** executables.py 104-112: create_executable_file_data; the second component is
    the reported file type, as code points.  [str.lower] is modelled on ASCII
    letters; no other character has a lower-case form made of the letters of
    "xex", "bin" and "bsave" alone. *)
Definition lower (c : Z) : Z := if (65 <=? c) && (c <=? 90) then c + 32 else c.
Definition ends_with (s suffix : list Z) : bool :=
  (zlen suffix <=? zlen s) && zlist_eqb (slice s (zlen s - zlen suffix) (zlen s)) suffix.
Definition t_xex : list Z := [120; 101; 120].
Definition t_bin : list Z := [98; 105; 110].
Definition t_bsave : list Z := [98; 115; 97; 118; 101].
Definition create_executable (name : list Z) (segs : list iseg) (run : option Z)
  : res (list Z * list Z) :=
  let n := map lower name in
  if ends_with n t_xex then let! d := get_xex segs run in Ok (d, [88; 69; 88])
  else if ends_with n t_bin || ends_with n t_bsave
       then let! d := get_bsave segs run in Ok (d, [66])
       else Err (EAtr UnsupportedContainer).

(** diskimages.py 318-323: create_executable_file_image; [dflt] is
    default_executable_extension ("XEX" for Atari, "BSAVE" for Apple images). *)
Definition create_executable_image (dflt name : list Z) (segs : list iseg) (run : option Z)
  : res (list Z * list Z) :=
  match create_executable name segs run with
  | Err (EAtr UnsupportedContainer) => create_executable dflt segs run
  | r => r
  end.

(** ataridos.py 271-335: AtariDosFile.parse_segments.  A reported segment:
    RunAddressSegment or ObjSegment, its name, metadata_start, data_start,
    origin and bytes.  The style array is returned as changed so far. *)
Inductive xname := NoName | IncompleteData | ShortHeader.
Record xseg := mkX {
  x_runad : bool; x_name : xname; x_meta : Z; x_dstart : Z; x_origin : Z; x_data : list Z }.
Definition setstyle (st : list Z) (a b v : Z) : list Z :=
  if a <? b then setslice st a (zrepeat v (zlen (slice st a b))) else st.
Fixpoint parse_xex_loop (fuel : nat) (b st : list Z) (pos spos : Z) (first : bool)
  : list Z * res (list xseg) :=
  match fuel with
  | O => (st, Err EFuel)
  | S f =>
      if negb (pos <? zlen b) then (st, Ok [])
      else if negb (pos + 1 <? zlen b)
      then (st, Ok [mkX false IncompleteData pos (pos + 1) 0 (slice b pos (pos + 1))])
      else if le2 (getb b pos) (getb b (pos + 1)) =? 0xffff
      then parse_xex_loop f b st (pos + 2) spos false
      else if first then (st, Err (EAtr InvalidBinaryFile))
      else if zlen (slice b pos (pos + 4)) <? 4
      then (st, Ok [mkX false ShortHeader 0 0 0 (slice b pos (pos + 4))])
      else
        let start := le2 (getb b pos) (getb b (pos + 1)) in
        let end_ := le2 (getb b (pos + 2)) (getb b (pos + 3)) in
        let st' := setstyle st spos (pos + 4) 1 in
        if end_ <? start then (st', Err (EAtr InvalidBinaryFile))
        else
          let count := end_ - start + 1 in
          let data := slice b (pos + 4) (pos + 4 + count) in
          if zlen data <? count
          then (st', Ok [mkX false IncompleteData pos (pos + 4) start data])
          else match parse_xex_loop f b st' (pos + (4 + count)) (pos + (4 + count)) first with
               | (st'', Ok rest) =>
                   (st'', Ok (mkX (start =? 0x2e0) NoName pos (pos + 4) start data :: rest))
               | r => r
               end
  end.
Definition parse_xex (b st : list Z) : list Z * res (list xseg) :=
  parse_xex_loop (S (length b)) b st 0 0 true.

(** ataridos.py 263-268: RunAddressSegment.run_address; a segment has at least one
    byte, and one byte cannot be viewed as a word *)
Definition run_address (s : xseg) : res Z :=
  if zlen (slice (x_data s) 0 2) <? 2 then Err EValue
  else Ok (le2 (getb (x_data s) 0) (getb (x_data s) 1)).

(** dos33.py 600-644: Dos33BinFile.parse_segments.  The expression
    ["BSAVE data" % start] does not raise: [start] is a NumPy scalar, which the
    formatting operator takes for a mapping. *)
Definition parse_bsave (b : list Z) : res xseg :=
  if zlen (slice b 0 4) =? 4 then
    let start := le2 (getb b 0) (getb b 1) in
    let count := le2 (getb b 2) (getb b 3) in
    if negb (count =? zlen b - 4) then Err (EAtr InvalidBinaryFile)
    else let data := slice b 4 (4 + count) in
         if zlen data =? count then Ok (mkX false NoName 0 4 start data)
         else Err (EAtr InvalidBinaryFile)
  else Err (EAtr InvalidBinaryFile).

(** segments.py 69-80: BSAVESaver.encode_data *)
Definition bsave_saver (origin : Z) (data : list Z) : list Z :=
  put2 origin ++ put2 (zlen data) ++ data.

(** kboot.py 84: xexboot_header *)
Definition xexboot_header : list Z := [
  0; 3; 0; 7; 13; 7; 76; 13; 7; 28; 91; 0; 0; 160; 0; 140; 9; 3; 140; 4; 3; 140; 68; 2;
  140; 226; 2; 140; 227; 2; 200; 132; 9; 140; 1; 3; 206; 6; 3; 169; 49; 141; 0; 3; 169; 82; 141; 2;
  3; 169; 128; 141; 8; 3; 169; 1; 141; 5; 3; 169; 227; 141; 48; 2; 141; 2; 212; 169; 7; 141; 49; 2;
  141; 3; 212; 169; 0; 170; 141; 11; 3; 169; 4; 141; 10; 3; 32; 188; 7; 202; 32; 165; 7; 133; 67; 32;
  165; 7; 133; 68; 37; 67; 201; 255; 240; 240; 32; 165; 7; 133; 69; 32; 165; 7; 133; 70; 32; 165; 7; 145;
  67; 230; 67; 208; 2; 230; 68; 165; 69; 197; 67; 165; 70; 229; 68; 176; 235; 173; 226; 2; 13; 227; 2; 240;
  201; 134; 25; 32; 162; 7; 166; 25; 160; 0; 140; 226; 2; 140; 227; 2; 240; 184; 108; 226; 2; 173; 9; 7;
  208; 11; 173; 10; 7; 208; 3; 108; 224; 2; 206; 10; 7; 206; 9; 7; 224; 128; 144; 34; 169; 64; 141; 3;
  3; 32; 89; 228; 16; 6; 206; 1; 7; 208; 241; 0; 238; 10; 3; 208; 3; 238; 11; 3; 173; 10; 3; 141;
  25; 208; 160; 0; 162; 0; 189; 0; 1; 232; 96; 112; 112; 112; 112; 112; 70; 248; 7; 112; 7; 112; 112; 112;
  6; 112; 6; 112; 6; 65; 227; 7; 0; 0; 0; 0; 0; 44; 47; 33; 36; 41; 46; 39; 14; 14; 14; 0;
  0; 0; 0; 0; 0; 0; 0; 0; 0; 0; 0; 0; 0; 0; 0; 0; 0; 0; 0; 0; 0; 0; 0; 0;
  0; 0; 0; 0; 0; 0; 0; 0; 38; 50; 47; 45].

(** kboot.py 87-92: insert_bytes on an ASCII title *)
Definition upper (c : Z) : Z := if (97 <=? c) && (c <=? 122) then c - 32 else c.
Definition insert_bytes (data : list Z) (offset : Z) (s : list Z) (color : Z) : list Z :=
  let t := map (fun c => Z.lor (u8 (upper c - 32)) color) s in
  setslice data (offset + (20 - zlen t) / 2) t.

(** kboot.py 95-123: add_xexboot_header with the default boot code, title "DEMO"
    and author "an atari user".  User supplied boot code is not modelled (the
    code then passes a str to np.frombuffer and raises TypeError). *)
Definition title : list Z := [68; 69; 77; 79].
Definition author : list Z := [97; 110; 32; 97; 116; 97; 114; 105; 32; 117; 115; 101; 114].
Definition boot_sectors (xex_size : Z) : list Z :=
  let bootcode := setslice xexboot_header 9 (put2 xex_size) in
  let s0 := setslice (zrepeat 0 384) 0 bootcode in
  insert_bytes (insert_bytes s0 268 title 0xc0) 308 author 0x40.
Definition pad_sectors (b : list Z) : list Z :=
  b ++ zrepeat 0 ((zlen b + 127) / 128 * 128 - zlen b).
Definition add_xexboot_header (b : list Z) : list Z := boot_sectors (zlen b) ++ pad_sectors b.

(** kboot.py 66-79: create_boot_image, the bytes of the image.  The argument
    run_addr is not used by the code. *)
Definition atr_create : res hdr := check_size (mkH 16 0 128 0 0 128 0 0 0 0) 0.
Definition kboot_create (segs : list iseg) (run : option Z) : res (list Z) :=
  let! x := get_xex segs None in
  let payload := add_xexboot_header x in
  let! h0 := atr_create in
  let! h := check_size h0 (zlen payload) in
  Ok (atr_encode h ++ payload).

(** kboot.py 10-30 and 40-57, diskimages.py 154-165: opening a KBoot image; the
    result is the byte range of the executable.  The directory entry's name is not
    modelled. *)
Record kboot := mkK { k_hdr : hdr; k_bytes : list Z; k_start : Z; k_size : Z }.
Definition kboot_open (b : list Z) : res kboot :=
  let h0 := read_header b in
  let! h := check_size h0 (zlen b - h_offset h0) in
  let! (start, _) := get_pos h 4 in
  let i := h_offset h + 9 in
  if zlen b <=? i + 2 then Err EIndex
  else
    let count := getb b i + 256 * getb b (i + 1) + 256 * 256 * getb b (i + 2) in
    if (zlen b <? start + count) || (start + count <? zlen b - 128)
    then Err (EAtr InvalidDiskImage)
    else Ok (mkK h b start count).
(** kboot.py 49-53 with diskimages.py 300-302: get_file *)
Definition kboot_file (k : kboot) : list Z := slice (k_bytes k) (k_start k) (k_start k + k_size k).
