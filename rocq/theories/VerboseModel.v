(** What the program prints under --verbose while it looks for the format of a file, and the
    first line it then prints about the image.  Messages of the logging module go to another
    stream and are not modelled. *)
From Coq Require Import String.
From Verif Require Import Base DiskModel AtariModel SpartaModel Dos33Model ExecModel DetectModel CliModel TextModel.
From Verif Require CartModel.
Import List.

(** parsers.py 315-350: the names of the mime types *)
Definition mime_text (m : mime) : list Z :=
  txt (match m with
       | M_atr => "application/vnd.atari8bit.atr" | M_xex => "application/vnd.atari8bit.xex"
       | M_cart8 => "application/vnd.atari8bit.cart" | M_cart52 => "application/vnd.atari5200.cart"
       | M_2600 => "application/vnd.atari2600.cart" | M_starpath => "application/vnd.atari2600.starpath"
       | M_vectrex => "application/vnd.vectrex" | M_mame => "application/vnd.mame_rom" | M_rom => "application/vnd.rom"
       | M_dsk => "application/vnd.apple2.dsk" | M_bin => "application/vnd.apple2.bin"
       end)%string.
(** magic.py 7-49: the names of the refined types *)
Definition detail_text (d : detail) : list Z :=
  txt (match d with
       | D_getaway_pd => "application/vnd.atari8bit.atr.getaway_pd" | D_getaway_xex => "application/vnd.atari8bit.xex.getaway"
       | D_getaway => "application/vnd.atari8bit.atr.getaway" | D_level_tester => "application/vnd.atari8bit.atr.jumpman_level_tester"
       | D_jumpman => "application/vnd.atari8bit.atr.jumpman"
       end)%string.
(** parsers.py 108-196 and 403-416: menu_name; the classes of the cartridge types are called
    after the type, those of type 0 have a name of their own. *)
Definition cart_menu (t : Z) : list Z :=
  match find (fun c => CartModel.ct_type c =? t) CartModel.by_size with
  | Some c => txt (CartModel.ct_name c) ++ txt " Cartridge"
  | None => txt "temp"
  end.
Definition menu_name (p : pclass) : list Z :=
  match p with
  | PKBoot => txt "KBoot Disk Image" | PSparta => txt "Sparta DOS Disk Image" | PAtariDos => txt "Atari DOS Disk Image"
  | PBoot => txt "Atari Boot Disk Image" | PUnidentified => txt "Atari Disk Image" | PXex => txt "XEX (Atari 8-bit executable)"
  | PCart8 t => if t =? 0 then txt "Atari Home Computer Cartridge" else cart_menu t
  | PCart52 t => if t =? 0 then txt "Atari 5200 Cartridge" else cart_menu t
  | P2600 => txt "Atari 2600 Cartridge" | PStarpath => txt "Atari 2600 Starpath Cassette" | PVectrex => txt "Vectrex Cartridge"
  | PMame => txt "MAME ROM Zipfile" | PRom => txt "ROM Image" | PDos33 => txt "DOS 3.3 Disk Image" | PProdos => txt "ProDOS Disk Image"
  | PBin => txt "BIN (Apple ][ executable)"
  end.

Definition trying (m : mime) : list Z := txt "Trying MIME type " ++ mime_text m.
Definition found_parser (p : pclass) : list Z := txt "Found parser " ++ menu_name p.
Definition magic_match (d : detail) : list Z := txt "Magic signature match: " ++ detail_text d.
Definition loading (img : list Z) : list Z := txt "Loading file " ++ img.

(** __init__.py 66-80: the loop, with the lines printed before it ends or raises *)
Fixpoint search_lines (e : env) (ms : list mime) (b : list Z) : list (list Z) * res (option found) :=
  match ms with
  | [] => ([], Ok None)
  | m :: r =>
      match guess_for_mime e m b with
      | Err x => ([trying m], Err x)
      | Ok None => let (l, y) := search_lines e r b in (trying m :: l, y)
      | Ok (Some (p, x)) =>
          match guess_detail m b with
          | Err y => ([trying m; found_parser p], Err y)
          | Ok d => ([trying m; found_parser p] ++ match d with Some d => [magic_match d] | None => [] end, Ok (Some (mkFound m d p x)))
          end
      end
  end.
(** __init__.py 57-83: find_diskimage_from_data with [verbose] *)
Definition data_lines (e : env) (b : list Z) : list (list Z) * res found :=
  match unpacked e b with
  | Err x => ([], Err x)
  | Ok r =>
      match guess_by_size e r with
      | Err x => ([], Err x)
      | Ok (Some (m, (p, x))) => ([], Ok (mkFound m None p x))
      | Ok None =>
          let (l, y) := search_lines e mime_parse_order r in
          (l, match y with Ok (Some f) => Ok f | Ok None => Err (EAtr UnsupportedDiskImage) | Err x => Err x end)
      end
  end.
(** __init__.py 85-97: find_diskimage, for a file that can be read *)
Definition verbose_find (e : env) (img b : list Z) : list (list Z) * res found :=
  let (l, y) := data_lines e b in (loading img :: l, y).

(** __init__.py 615: the end of the first line; [mime] is the refined type if there is one *)
Definition kind_text (f : found) : list Z :=
  txt " (" ++ match f_detail f with Some d => detail_text d | None => mime_text (f_mime f) end ++ txt "}".
(** print of each line *)
Definition printed (l : list (list Z)) : list Z := flat_map (fun t => t ++ [10]) l.
(** __init__.py 610-620: everything that list prints on an image with entries under
    --verbose, [head] being str(image) *)
Definition verbose_list {E} (line name : E -> list Z) (read : E -> res (list Z)) (crc : list Z -> Z) (lines : list (list Z)) (f : found)
    (img head : list Z) (show : bool) (files : list (list Z)) (ds : list E) : list Z * res unit :=
  let (t, x) := list_text E line name read crc img (head ++ kind_text f) show files ds in (printed lines ++ t, x).
