(** What the commands print: the summary line and the directory of `list`, the lines of
    `crc`, and the map of free sectors of `vtoc`.  Text is a list of character codes.

    Simplification: how print() encodes characters above 127 is not modelled; the
    characters themselves are. *)
From Coq Require Import String Ascii.
From Verif Require Import Base DiskModel AtariModel SpartaModel Dos33Model CliModel.

(** * Python's % formatting *)
Definition txt (s : string) : list Z := map (fun a => Z.of_N (N_of_ascii a)) (list_ascii_of_string s).
Definition dchar (n : Z) : Z := if n <? 10 then 48 + n else 87 + n.
Fixpoint digits (fuel : nat) (base n : Z) : list Z :=
  match fuel with
  | O => []
  | S f => if n <? base then [dchar n] else digits f base (n / base) ++ [dchar (n mod base)]
  end.
Definition nat_text (base n : Z) : list Z := digits (S (Z.to_nat (Z.log2 n))) base n.
(** ['%d'] *)
Definition dec (n : Z) : list Z := if n <? 0 then 45 :: nat_text 10 (- n) else nat_text 10 n.
(** ['%0wd'] of a number that is not negative, ['%0wx'] *)
Definition pad0 (w : Z) (s : list Z) : list Z := zrepeat 48 (w - zlen s) ++ s.
(** ['%wd'] *)
Definition rjust (w : Z) (s : list Z) : list Z := zrepeat 32 (w - zlen s) ++ s.
Definition hex8 (n : Z) : list Z := pad0 8 (nat_text 16 n).
Definition pick (b : bool) (yes no : string) : list Z := if b then txt yes else txt no.

(** * Directory entries *)
(** ataridos.py 111-120: summary *)
Definition atari_summary (d : dirent) : list Z :=
  pick (d_out d) "o" "." ++ pick (d_dos2 d) "2" "." ++ pick (d_mydos d) "m" "." ++
  pick (d_inuse d) "u" "." ++ pick (d_deleted d) "d" "." ++ pick (d_locked d) "*" " ".
(** ataridos.py 100-101: AtariDosDirent.__str__ *)
Definition atari_line (d : dirent) : list Z :=
  txt "File #" ++ ljust 2 (dec (d_num d)) ++ txt " (" ++ atari_summary d ++ txt ") " ++
  pad0 3 (dec (d_start d)) ++ txt " " ++ ljust 8 (d_base d) ++ ljust 3 (d_ext d) ++ txt "  " ++
  pad0 3 (dec (d_count d)).

(** dos33.py 183-199: type_to_text and file_type *)
Definition type_text (t : Z) : list Z :=
  if t =? 0 then txt "T" else if t =? 1 then txt "I" else if t =? 2 then txt "A" else if t =? 4 then txt "B"
  else if t =? 8 then txt "S" else if t =? 16 then txt "R" else if t =? 32 then txt "a" else if t =? 64 then txt "b"
  else txt "?".
(** dos33.py 200-209: summary *)
Definition dos33_summary (d : ent) : list Z :=
  if d3_del d then txt "D " else pick (negb (d3_lock d =? 0)) "*" " " ++ type_text (d3_type d).
(** dos33.py 177-178: Dos33Dirent.__str__; the number of the entry is not part of [ent]. *)
Definition dos33_line (e : Z * ent) : list Z :=
  let (num, d) := e in
  txt "File #" ++ ljust 2 (dec num) ++ txt " (" ++ dos33_summary d ++ txt ") " ++
  pad0 3 (dec (d3_count d)) ++ txt " " ++ ljust 30 (d3_name d) ++ txt " " ++
  pad0 3 (dec (d3_track d)) ++ txt " " ++ pad0 3 (dec (d3_sector d)).
(** dos33.py 460-484: the files with the numbers they got, counted over all entries *)
Definition numbered (im : img33) : list (Z * ent) :=
  let ds := fst (cat_loop (fuel33 (i_hdr im)) (i_hdr im) (i_bytes im) (h_fdir (i_hdr im))) in
  filter (fun e => d3_sane (snd e) && negb (d3_del (snd e))) (combine (zrange 0 (zlen ds)) ds).

(** spartados.py 73-74, 84-88: str_timestamp, the bytes 17-22 of the entry *)
Definition stamp_text (t : list Z) : list Z :=
  dec (getb t 0) ++ txt "/" ++ dec (getb t 1) ++ txt "/" ++ dec (getb t 2) ++ txt " " ++
  dec (getb t 3) ++ txt ":" ++ dec (getb t 4) ++ txt ":" ++ dec (getb t 5).
(** spartados.py 34-41: SpartaDosDirent.__str__ *)
Definition sparta_line (e : sdirent * list Z) : list Z :=
  let (d, t) := e in
  txt "File #" ++ ljust 2 (dec (sd_num d)) ++ txt " (" ++
  pick (sd_out d) "o" "." ++ pick (sd_isdir d) "D" "." ++ pick (sd_inuse d) "u" "." ++
  pick (sd_deleted d) "d" "." ++ pick (sd_locked d) "*" " " ++ txt " " ++ pad0 3 (dec (sd_start d)) ++ txt ") " ++
  ljust 8 (sd_base d) ++ ljust 3 (sd_ext d) ++ txt "  " ++ rjust 8 (dec (sd_length d)) ++ txt "  " ++ stamp_text t.
(** spartados.py 167-179: entry [num] was read from byte 23*num of the root directory *)
Definition stamps (im : simg) : res (list (sdirent * list Z)) :=
  match s_rootd im with
  | None => Ok (map (fun d => (d, [])) (s_files im))
  | Some r =>
      let! c := sget_file im r in
      Ok (map (fun d => (d, slice c (23 * sd_num d + 17) (23 * sd_num d + 23))) (s_files im))
  end.

(** * The summary line: __init__.py 613-614 without --verbose *)
(** ataridos.py 372-373, 438-439: AtrHeader.__str__, XfdHeader.__str__.  Only images with
    an ATR header have an offset. *)
Definition sizes_text (size max ssize : Z) : list Z :=
  txt " Disk Image (size=" ++ dec size ++ txt " (" ++ dec max ++ txt "x" ++ dec ssize ++ txt "B)".
Definition header_text (h : hdr) : list Z :=
  if h_offset h =? 0 then txt "XFD" ++ sizes_text (h_image_size h) (h_max h) (h_ssize h)
  else txt "ATR" ++ sizes_text (h_image_size h) (h_max h) (h_ssize h) ++ txt ", crc=" ++ dec (h_crc h) ++
       txt " flags=" ++ dec (h_flags h) ++ txt " unused=" ++ dec (h_unused h) ++ txt ")".
(** ataridos.py 477-478, spartados.py 118-119 *)
Definition format_text (h : hdr) (format : string) (total free files : Z) : list Z :=
  header_text h ++ txt " " ++ txt format ++ txt " Format: " ++ dec total ++ txt " usable sectors (" ++ dec free ++ txt " free), " ++
  dec files ++ txt " files".
Definition atari_head (im : aimg) : list Z :=
  format_text (a_hdr im) "Atari DOS" (a_total im) (a_free im) (zlen (a_files im)).
Definition sparta_head (im : simg) : list Z :=
  format_text (s_hdr im) "Sparta DOS" (s_total im) (s_free im) (zlen (s_files im)).
(** dos33.py 368-369, 391-392; the geometry is fixed *)
Definition dos33_head (im : img33) : list Z := txt "DOS 3.3" ++ sizes_text 143360 560 256.

(** * list and crc: __init__.py 178-199 *)
Section Listing.
Variable E : Type.                      (* directory entries *)
Variable line : E -> list Z.            (* str(dirent) *)
Variable name : E -> list Z.            (* dirent.filename *)
Variable read : E -> res (list Z).      (* image.get_file *)
Variable crc : list Z -> Z.             (* zlib.crc32 *)
Definition selected (files : list (list Z)) (ds : list E) : list E :=
  filter (fun d => match files with [] => true | _ => existsb (zlist_eqb (name d)) files end) ds.
(** The text printed before the first exception, and that exception. *)
Fixpoint print_loop (one : E -> res (list Z)) (ds : list E) : list Z * res unit :=
  match ds with
  | [] => ([], Ok tt)
  | d :: r => match one d with
              | Err e => ([], Err e)
              | Ok t => let (t2, x) := print_loop one r in (t ++ 10 :: t2, x)
              end
  end.
Definition list_one (show : bool) (d : E) : res (list Z) :=
  if show then let! x := read d in Ok (line d ++ txt "  " ++ hex8 (crc x)) else Ok (line d).
Definition crc_one (d : E) : res (list Z) :=
  let! x := read d in Ok (name d ++ txt ": " ++ hex8 (crc x)).
(** [img] is the name of the image as the user gave it. *)
Definition list_text (img head : list Z) (show : bool) (files : list (list Z)) (ds : list E) : list Z * res unit :=
  let (t, x) := print_loop (list_one show) (selected files ds) in (img ++ txt ": " ++ head ++ 10 :: t, x).
Definition crc_text (files : list (list Z)) (ds : list E) : list Z * res unit :=
  print_loop crc_one (selected files ds).
End Listing.

Definition atari_list (crc : list Z -> Z) (img : list Z) (show : bool) (files : list (list Z)) (im : aimg) : list Z * res unit :=
  list_text dirent atari_line filename (AtariModel.get_file im) crc img (atari_head im) show files (a_files im).
Definition dos33_list (crc : list Z -> Z) (img : list Z) (show : bool) (files : list (list Z)) (im : img33) : list Z * res unit :=
  list_text (Z * ent) dos33_line (fun e => d3_name (snd e)) (fun e => get_file3 im (snd e)) crc img (dos33_head im) show files (numbered im).
Definition sparta_list (crc : list Z -> Z) (img : list Z) (show : bool) (files : list (list Z)) (im : simg) : list Z * res unit :=
  match stamps im with
  | Err e => ([], Err e)
  | Ok ds => list_text (sdirent * list Z) sparta_line (fun e => sfilename (fst e)) (fun e => sget_file im (fst e)) crc img (sparta_head im) show files ds
  end.
Definition atari_crc (crc : list Z -> Z) (files : list (list Z)) (im : aimg) : list Z * res unit :=
  crc_text dirent filename (AtariModel.get_file im) crc files (a_files im).
Definition dos33_crc (crc : list Z -> Z) (files : list (list Z)) (im : img33) : list Z * res unit :=
  crc_text (Z * ent) (fun e => d3_name (snd e)) (fun e => get_file3 im (snd e)) crc files (numbered im).

(** * vtoc: utils.py 306-312 *)
(** str() of a row of a NumPy array of digits *)
Fixpoint row_text (l : list Z) : list Z :=
  match l with [] => [] | [x] => [48 + x] | x :: r => 48 + x :: 32 :: row_text r end.
(** str() of an array of [rows] rows (fewer than 1000 elements, so all are shown), each
    line with the number of its row.  [i] counts up; the first line starts with two
    brackets and the last one ends with two. *)
Fixpoint rows_text (n : nat) (i : Z) (w : Z) (m : list Z) : list Z :=
  match n with
  | O => []
  | S k =>
      txt "track " ++ pad0 2 (dec i) ++ txt ": " ++ pick (i =? 0) "[[" " [" ++ row_text (slice m 0 w) ++
      match k with
      | O => txt "]]"
      | S _ => txt "]" ++ 10 :: rows_text k (i + 1) w (slice m w (zlen m))
      end
  end.
Definition count_ones (m : list Z) : Z := zlen (filter (fun x => x =? 1) m).
(** The map has 1280 entries; [label] is the number of the first sector. *)
Definition vtoc_text (tracks spt label : Z) (m : list Z) : list Z :=
  rows_text (Z.to_nat tracks) 0 spt (slice m label (tracks * spt + label)) ++
  10 :: txt " (" ++ dec (count_ones m) ++ txt " free)".
Definition atari_vtoc_text (im : aimg) : res (list Z) :=
  let! (_, _, m) := get_vtoc_object im in Ok (vtoc_text 40 18 1 m).
Definition dos33_vtoc_text (im : img33) : res (list Z) :=
  let! m := get_smap3 im in Ok (vtoc_text 35 16 0 m).
