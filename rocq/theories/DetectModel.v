(** Model of format detection: atrcopy/parsers.py, atrcopy/magic.py,
    atrcopy/dcm.py, atrcopy/__init__.py 60-85, and of the parts of the image
    classes that run while a parser looks at the data (parse_segments with its
    exceptions).  The segments themselves are not built here: only whether
    building them raises.

    Not computed but given as parameters: Python's gzip, bz2, lzma and zipfile
    modules, and SHA-1. *)
From Verif Require Import Base DiskModel AtariModel SpartaModel Dos33Model ExecModel.
From Verif Require CartModel.

(** * What the data is opened as *)

(** parsers.py 110-197: the classes; the two cartridge families have one class
    for each cartridge type. *)
Inductive pclass :=
| PKBoot | PSparta | PAtariDos | PBoot | PUnidentified
| PXex | PCart8 (t : Z) | PCart52 (t : Z) | P2600 | PStarpath | PVectrex
| PMame | PRom | PDos33 | PProdos | PBin.

(** An entry of a zip file: mame.py 43-55 *)
Record zipent := mkZip { z_name : list Z; z_size : Z; z_data : list Z }.
(** The image object held by an accepting parser. *)
Inductive image :=
| IKBoot (k : kboot)
| ISparta (s : simg)
| IAtariDos (a : aimg)
| IBoot (h : hdr) (b : list Z)
| IUnidentified (h : hdr) (b : list Z)
| IXex (segs : list xseg)
| ICart (c : CartModel.cimage)
| IMame (entries : list zipent)
| IRom (b : list Z)
| IDos33 (i : img33)
| IBin (s : xseg).

(** * Outcomes of library modules outside the code base *)

(** mame.py 14-23, 37-58: what zipfile says about the data: not a zip file, or
    the sizes recorded in the directory and the unpacked members, or an
    exception.  container.py 56-90: gzip, bz2 and lzma: [None] stands for
    OSError / LZMAError / EOFError, which become InvalidContainer.
    parsers.py 228-238: the entry of the signature table for the SHA-1 of the
    data. *)
Inductive mime :=
| M_atr | M_xex | M_cart8 | M_cart52 | M_2600 | M_starpath | M_vectrex | M_mame | M_rom
| M_dsk | M_bin.
Inductive zipres := NotZip | Zip (entries : list zipent) | ZipErr (e : exn).
Inductive unpackres := NotPacked | Unpacked (b : list Z) | UnpackErr (e : exn).
Record env := mkEnv {
  e_gzip : list Z -> unpackres;
  e_bzip : list Z -> unpackres;
  e_lzma : list Z -> unpackres;
  e_zip : list Z -> zipres;
  e_sig : list Z -> option mime }.

(** * Strict checks of the headers *)

(** ataridos.py 428-432 and 450-454: an ATR header passes whatever the size. *)
Definition atr_strict (h : hdr) (size : Z) : res unit :=
  if (h_offset h =? 16) || zmem size [92160; 133120; 183936; 184320]
  then Ok tt else Err (EAtr InvalidDiskImage).

(** diskimages.py 157-158 with ataridos.py 388-414, 505-510: the header of an
    Atari image after check_size *)
Definition atari_header (b : list Z) : res hdr :=
  let h0 := read_header b in check_size h0 (zlen b - h_offset h0).

(** * Segments of the images *)

(** errors.py 36-49: the subclasses of InvalidFile *)
Definition is_invalid_file (e : exn) : bool :=
  match e with
  | EAtr InvalidFile | EAtr FileNumberMismatch164 | EAtr ByteNotInFile166 | EAtr InvalidBinaryFile => true
  | _ => false
  end.

(** diskimages.py 301-310: get_file_segments: the first exception that is not an
    InvalidFile. *)
Fixpoint file_segments {D A} (get : D -> res A) (ds : list D) : res unit :=
  match ds with
  | [] => Ok tt
  | d :: r => match get d with
              | Err e => if is_invalid_file e then file_segments get r else Err e
              | Ok _ => file_segments get r
              end
  end.

(** A structured view of [n] bytes followed by [[0]]: IndexError on no bytes,
    ValueError on a wrong number. *)
Definition view_rec (b : list Z) (n : Z) : res (list Z) :=
  if zlen b =? 0 then Err EIndex else if zlen b =? n then Ok b else Err EValue.

(** ataridos.py 592-606 and 757-772: get_boot_segments, on the sector holding
    the record ([rec]) whose size is [n] *)
Definition boot_segments (h : hdr) (b : list Z) (rec n : Z) : res unit :=
  let! data := get_sectors h b rec rec in
  let! v := view_rec (slice data 0 n) n in
  if getb v 0 =? 0 then let! _ := get_sector_slice h 1 (getb v 1) in Ok tt else Ok tt.

(** diskimages.py 261-270 with ataridos.py 592-679: AtariDosDiskImage.parse_segments *)
Definition atari_segments (im : aimg) : res unit :=
  let! _ := boot_segments (a_hdr im) (a_bytes im) 360 20 in
  let! _ := vtoc_bounds im in
  let! _ := get_contiguous (a_hdr im) 361 8 in
  file_segments (get_file im) (a_files im).

(** spartados.py 181-208, 221-246: SpartaDosDiskImage.parse_segments.  Without a
    root directory entry get_directory_segments reads attributes of None. *)
Definition sparta_segments (im : simg) : res unit :=
  let! _ := get_sector_slice (s_hdr im) 1 (Z.min (s_numboot im) 1) in
  let! _ := sbitmap_bounds im in
  match s_rootd im with
  | None => Err EAttribute
  | Some d =>
      let! _ := sget_file im d in
      file_segments (sget_file im) (s_files im)
  end.

(** dos33.py 485-530: get_boot_segments, get_vtoc_segments; the catalog was
    already walked by get_directory with the same header, so
    get_directory_segments (532-560) repeats a loop that ended. *)
Fixpoint more_sectors3 (h : hdr33) (more : nat) (n : Z) : res unit :=
  match more with
  | O => Ok tt
  | S m => let! _ := get_pos3 h (n + 1) in more_sectors3 h m (n + 1)
  end.
Definition sector_slice3 (h : hdr33) (a b : Z) : res unit :=
  let! _ := get_pos3 h a in more_sectors3 h (Z.to_nat (b - a)) a.
Definition dos33_segments (im : img33) : res unit :=
  let h := i_hdr im in
  let! _ := sector_slice3 h 0 0 in
  let! _ := sector_slice3 h 1 9 in
  let! _ := sector_slice3 h 0x0a 0x0b in
  let! _ := sector_slice3 h 0x0c (0x0c + 25) in
  let! _ := get_pos3 h 272 in
  file_segments (get_file3 im) (i_files im).

(** ataridos.py 707-733: BootDiskImage.check_size.  The numbers read are NumPy
    scalars; arithmetic with Python integers is done on 64 bits. *)
Definition boot_check (h : hdr) (b : list Z) : res unit :=
  let! _ := get_pos h 1 in
  let i := h_offset h in
  let! _ := view_rec (slice b i (i + 2)) 2 in
  if le2 (getb b i) (getb b (i + 1)) =? 0xffff then Err (EAtr InvalidDiskImage)
  else
    let nsec := getb b (i + 1) in
    let! _ := view_rec (slice b (i + 2) (i + 4)) 2 in
    let bload := le2 (getb b (i + 2)) (getb b (i + 3)) in
    let max_sectors := (0xc000 - bload) / h_ssize h in
    if (max_sectors <? nsec) || (nsec <? 1) then Err (EAtr InvalidDiskImage)
    else if 0xc000 - nsec * h_ssize h <? bload then Err (EAtr InvalidDiskImage)
    else Ok tt.

(** * Parsers *)

(** parsers.py 70-85: the translation of exceptions made by parse *)
Definition as_parser {A} (r : res A) : res A :=
  match r with
  | Err (EAtr UnsupportedDiskImage) => Err (EAtr UnsupportedDiskImage)
  | Err (EAtr _) => Err (EAtr InvalidSegmentParser)
  | r => r
  end.

(** parsers.py 94-101: check_image *)
Definition checked (strict : bool) (r : res unit) : res unit :=
  if strict then
    match r with Err (EAtr _) => Err (EAtr InvalidSegmentParser) | r => r end
  else Ok tt.

(** cartridge.py 322-334: ROM images; strict_check repeats check_size *)
Definition rom_image (b : list Z) : res image :=
  let! b := CartModel.open_rom b in Ok (IRom b).

(** cartridge.py 200-303 with parsers.py 143-155 *)
Definition cart_image (k : CartModel.machine) (strict : bool) (b : list Z) (t : Z) : res image :=
  let! c := CartModel.open_cart b t in
  if strict then let! _ := checked true (CartModel.cart_strict k c) in Ok (ICart c)
  else let! c := CartModel.cart_relaxed c in Ok (ICart c).

(** mame.py 14-67.  np.concatenate of no arrays raises ValueError. *)
Definition mame_image (z : zipres) : res image :=
  match z with
  | NotZip => Err (EAtr InvalidDiskImage)
  | ZipErr e => Err e
  | Zip l =>
      if existsb (fun x => 0 <? z_size x mod 16) l then Err (EAtr InvalidDiskImage)
      else match l with
           | [] => Err EValue
           | _ => Ok (IMame l)
           end
  end.

(** dos33.py 371-381 and 655-689: ProDOS images are never opened. *)
Definition prodos_image (b : list Z) : res image :=
  if negb (zlen b =? 143360) then Err (EAtr InvalidDiskImage)
  else if zlist_eqb (slice b 0 4) [1; 56; 176; 3] then Err (EAtr UnsupportedDiskImage)
  else Err (EAtr InvalidDiskImage).

(** parsers.py 70-101: SegmentParser.parse for each class *)
Definition parse_image (e : env) (strict : bool) (p : pclass) (b : list Z) : res image :=
  match p with
  | PKBoot =>
      let! k := kboot_open b in
      let! _ := checked strict (atr_strict (k_hdr k) (zlen b)) in Ok (IKBoot k)
  | PSparta =>
      let! s := open_sparta b in
      let! _ := checked strict (atr_strict (s_hdr s) (zlen b)) in
      let! _ := sparta_segments s in Ok (ISparta s)
  | PAtariDos =>
      let! a := open_image b in
      let! _ := checked strict (atr_strict (a_hdr a) (zlen b)) in
      let! _ := atari_segments a in Ok (IAtariDos a)
  | PBoot =>
      let! h := atari_header b in
      let! _ := boot_check h b in
      let! _ := checked strict (atr_strict h (zlen b)) in
      let! _ := boot_segments h b 1 6 in Ok (IBoot h b)
  | PUnidentified =>
      let! h := atari_header b in
      let! _ := checked strict (atr_strict h (zlen b)) in Ok (IUnidentified h b)
  | PXex =>
      match snd (parse_xex b (zrepeat 0 (zlen b))) with
      | Ok segs => Ok (IXex segs)
      | Err e => Err e
      end
  | PCart8 t => cart_image CartModel.HomeComputer strict b t
  | PCart52 t => cart_image CartModel.A5200 strict b t
  | P2600 | PStarpath | PVectrex | PRom => rom_image b
  | PMame => mame_image (e_zip e b)
  | PDos33 =>
      let! i := open33 b in
      let! _ := dos33_segments i in Ok (IDos33 i)
  | PProdos => prodos_image b
  | PBin => let! s := parse_bsave b in Ok (IBin s)
  end.
Definition parse (e : env) (strict : bool) (p : pclass) (b : list Z) : res image :=
  as_parser (parse_image e strict p b).

(** parsers.py 315-350, 398-416: mime_parsers *)
Definition mime_parsers (m : mime) : list pclass :=
  match m with
  | M_atr => [PKBoot; PSparta; PAtariDos; PBoot; PUnidentified]
  | M_xex => [PXex]
  | M_cart8 => map PCart8 (CartModel.cart_parsers CartModel.HomeComputer)
  | M_cart52 => map PCart52 (CartModel.cart_parsers CartModel.A5200)
  | M_2600 => [P2600]
  | M_starpath => [PStarpath]
  | M_vectrex => [PVectrex]
  | M_mame => [PMame]
  | M_rom => [PRom]
  | M_dsk => [PDos33; PProdos]
  | M_bin => [PBin]
  end.
(** parsers.py 353-362: mime_parse_order *)
Definition mime_parse_order : list mime :=
  [M_atr; M_xex; M_cart8; M_cart52; M_mame; M_dsk; M_bin; M_rom].

(** parsers.py 240-250 and 258-270: the loop of guess_parser_by_size and
    guess_parser_for_mime *)
Fixpoint guess {P A} (parse : P -> res A) (ps : list P) : res (option (P * A)) :=
  match ps with
  | [] => Ok None
  | p :: r => match parse p with
              | Ok x => Ok (Some (p, x))
              | Err (EAtr InvalidSegmentParser) => guess parse r
              | Err e => Err e
              end
  end.
Definition guess_for_mime (e : env) (m : mime) (b : list Z) : res (option (pclass * image)) :=
  guess (fun p => parse e true p b) (mime_parsers m).

(** parsers.py 225-256: guess_parser_by_size *)
Definition guess_by_size (e : env) (b : list Z) : res (option (mime * (pclass * image))) :=
  match e_sig e b with
  | None => Ok None
  | Some m => let! r := guess (fun p => parse e false p b) (mime_parsers m) in
              match r with Some x => Ok (Some (m, x)) | None => Ok None end
  end.

(** * Magic signatures: magic.py *)

(** One item of a signature: a slice and the bytes expected there, or an index
    and the byte expected there (IndexError outside the data). *)
Inductive sigitem := SSlice (a b : Z) (l : list Z) | SAt (i v : Z).
Inductive detail := D_getaway_pd | D_getaway_xex | D_getaway | D_level_tester | D_jumpman.
Definition magic (d : detail) : list sigitem :=
  match d with
  | D_getaway_pd => [SSlice 8 10 [0x82; 0x39]; SSlice 12 16 [0x67; 0x21; 0x70; 0x64]]
  | D_getaway_xex => [SSlice 0 6 [0xff; 0xff; 0x80; 0x2a; 0xff; 0x8a]]
  | D_getaway => [SSlice 0x10 0x19 [0x00; 0xc1; 0x80; 0x0f; 0xcc; 0x22; 0x18; 0x60; 0x0e]]
  | D_level_tester => [SSlice 0 5 [0x96; 0x02; 0xd0; 0x05; 0x80];
      SAt (0x0196 + 0x3f) 0x4c; SAt (0x0196 + 0x48) 0x20; SAt (0x0196 + 0x4b) 0x60; SAt (0x0196 + 0x4c) 0xff]
  | D_jumpman => [SSlice 0 5 [0x96; 0x02; 0x80; 0x16; 0x80];
      SAt (0x0810 + 0x3f) 0x4c; SAt (0x0810 + 0x48) 0x20; SAt (0x0810 + 0x4b) 0x60; SAt (0x0810 + 0x4c) 0xff]
  end.
(** magic.py 52-61: check_signature *)
Fixpoint check_signature (b : list Z) (s : list sigitem) : res bool :=
  match s with
  | [] => Ok true
  | SSlice x y l :: r => if zlist_eqb (slice b x y) l then check_signature b r else Ok false
  | SAt i v :: r => if zlen b <=? i then Err EIndex
                    else if getb b i =? v then check_signature b r else Ok false
  end.
(** magic.py 64-71: guess_detail_for_mime; the entries whose name starts with the
    mime type *)
Definition details (m : mime) : list detail :=
  match m with
  | M_atr => [D_getaway_pd; D_getaway; D_level_tester; D_jumpman]
  | M_xex => [D_getaway_xex]
  | _ => []
  end.
Fixpoint first_detail (b : list Z) (ds : list detail) : res (option detail) :=
  match ds with
  | [] => Ok None
  | d :: r => let! ok := check_signature b (magic d) in
              if ok then Ok (Some d) else first_detail b r
  end.
Definition guess_detail (m : mime) (b : list Z) : res (option detail) := first_detail b (details m).

(** * Containers: parsers.py 199-222, container.py 21-33, dcm.py *)

Definition of_unpack (r : unpackres) : res (list Z) :=
  match r with
  | NotPacked => Err (EAtr InvalidContainer)
  | Unpacked b => Ok b
  | UnpackErr e => Err e
  end.
(** dcm.py 15-50: decoding is not written, so a DCM file is recognised and
    refused. *)
Definition dcm_unpack (b : list Z) : res (list Z) :=
  if zlen b =? 0 then Err (EAtr InvalidContainer)
  else if (getb b 0 =? 0xf9) || (getb b 0 =? 0xfa) then
    if zlen b =? 1 then Err (EAtr InvalidContainer)
    else if negb (getb b 1 mod 32 =? 1) then Err (EAtr InvalidContainer)
    else if (getb b 1 / 32) mod 4 =? 3 then Err (EAtr InvalidContainer)
    else Err (EAtr UnsupportedContainer)
  else Err (EAtr InvalidContainer).
Definition known_containers (e : env) : list (list Z -> res (list Z)) :=
  [fun b => of_unpack (e_gzip e b); fun b => of_unpack (e_bzip e b);
   fun b => of_unpack (e_lzma e b); dcm_unpack].
Fixpoint unpack_with (cs : list (list Z -> res (list Z))) (b : list Z) : res (option (list Z)) :=
  match cs with
  | [] => Ok None
  | c :: r => match c b with
              | Ok u => Ok (Some u)
              | Err (EAtr InvalidContainer) => unpack_with r b
              | Err e => Err e
              end
  end.
Definition guess_container (e : env) (b : list Z) : res (option (list Z)) :=
  unpack_with (known_containers e) b.

(** * The whole search *)

(** What is returned: the mime type, its refinement, the parser class and its
    image. *)
Record found := mkFound {
  f_mime : mime; f_detail : option detail; f_class : pclass; f_image : image }.

(** the loop over mime_parse_order: parsers.py 290-297, __init__.py 68-83 *)
Fixpoint search (e : env) (ms : list mime) (b : list Z) : res (option found) :=
  match ms with
  | [] => Ok None
  | m :: r =>
      let! g := guess_for_mime e m b in
      match g with
      | Some (p, x) => let! d := guess_detail m b in Ok (Some (mkFound m d p x))
      | None => search e r b
      end
  end.

Definition unpacked (e : env) (b : list Z) : res (list Z) :=
  let! c := guess_container e b in
  Ok (match c with Some u => u | None => b end).

(** parsers.py 285-298: iter_parsers (None: no parser) *)
Definition iter_parsers (e : env) (b : list Z) : res (option found) :=
  let! r := unpacked e b in
  let! g := guess_by_size e r in
  match g with
  | Some (m, (p, x)) => Ok (Some (mkFound m None p x))
  | None => search e mime_parse_order r
  end.

(** __init__.py 60-85: find_diskimage_from_data *)
Definition find_diskimage (e : env) (b : list Z) : res found :=
  let! r := iter_parsers e b in
  match r with Some f => Ok f | None => Err (EAtr UnsupportedDiskImage) end.

(** parsers.py 273-282: guess_parser_for_system; [sel] tells which mime types
    start with the given text *)
Definition guess_for_system (e : env) (sel : mime -> bool) (b : list Z) : res (option found) :=
  search e (filter sel mime_parse_order) b.

(** signatures.py: sizes and mime types of the entries of sha1_signatures *)
Definition sig_2600 : list Z := [2048; 4096; 8192; 8448; 10495; 12288; 16384; 32768; 65536].
Definition sig_5200 : list Z := [2048; 4096; 8192; 16384; 32768; 40960].
Definition sig_starpath : list Z := [8448; 25344; 33792].
Definition sig_vectrex : list Z := [
  90; 118; 128; 166; 172; 190; 191; 216; 218; 241; 256; 276; 284; 299; 312; 333;
  368; 408; 414; 415; 429; 490; 508; 512; 513; 626; 669; 764; 820; 835; 893; 914;
  915; 937; 955; 1031; 1038; 1059; 1079; 1085; 1119; 1163; 1169; 1208; 1212; 1214; 1216; 1217;
  1219; 1230; 1235; 1247; 1259; 1369; 1374; 1464; 1517; 1536; 1565; 1748; 1805; 1841; 1844; 1912;
  1915; 1935; 1987; 2010; 2103; 2345; 2499; 2782; 2980; 3027; 3090; 3120; 3419; 3423; 3448; 3489;
  3544; 3584; 3671; 3750; 3808; 3823; 3829; 3929; 3944; 3968; 3976; 3987; 4096; 4104; 4110; 4113;
  4118; 4120; 4121; 4122; 4126; 4132; 4136; 4137; 4148; 4155; 4220; 4227; 4245; 4251; 4265; 4269;
  4464; 4517; 4538; 4548; 4769; 5026; 5059; 5168; 5388; 5725; 5783; 6073; 6553; 6765; 6825; 6930;
  7156; 7168; 7326; 7352; 7375; 7436; 7479; 7573; 7874; 7930; 7936; 8058; 8073; 8103; 8169; 8183;
  8190; 8192; 8208; 8212; 8216; 8217; 8221; 8223; 8225; 8232; 8233; 8240; 8243; 8252; 8254; 8387;
  8393; 8411; 8516; 8560; 8685; 8700; 9177; 9180; 9279; 9305; 9630; 9718; 10869; 11011; 11407; 11804;
  12096; 12216; 12288; 12322; 12470; 12760; 13434; 13524; 13913; 15026; 15602; 15956; 16361; 16384; 16409; 16446;
  16913; 17823; 18385; 20604; 21863; 22941; 23040; 24214; 25431; 25886; 29218; 29872; 30538; 32768].
Definition in_table (m : mime) (size : Z) : bool :=
  match m with
  | M_2600 => zmem size sig_2600
  | M_cart52 => zmem size sig_5200
  | M_starpath => zmem size sig_starpath
  | M_vectrex => zmem size sig_vectrex
  | _ => false
  end.
