(** `list --metadata`: what the program prints below the line of each file. *)
From Coq Require Import String.
From Verif Require Import Base DiskModel AtariModel SpartaModel Dos33Model CliModel TextModel.
Import List.

(** str.join *)
Fixpoint joined (sep : list Z) (l : list (list Z)) : list Z :=
  match l with [] => [] | [x] => x | x :: r => x ++ sep ++ joined sep r end.
Definition flag_word (b : bool) (w : string) : list (list Z) := if b then [txt w] else [].
Definition flags_text (ws : list (list Z)) : list Z := txt "flags=[" ++ joined (txt ", ") ws ++ txt "]".

(** ataridos.py 122-134: AtariDosDirent.verbose_info, extra_metadata *)
Definition atari_meta (d : dirent) : list Z :=
  flags_text (flag_word (d_out d) "OUT" ++ flag_word (d_dos2 d) "DOS2" ++ flag_word (d_mydos d) "MYDOS" ++
              flag_word (d_inuse d) "IN_USE" ++ flag_word (d_deleted d) "DEL" ++ flag_word (d_locked d) "LOCK").
(** spartados.py 43-51; extra_metadata is inherited *)
Definition sparta_meta (d : sdirent) : list Z :=
  flags_text (flag_word (sd_out d) "OUT" ++ flag_word (sd_isdir d) "DIR" ++
              flag_word (sd_inuse d) "IN_USE" ++ flag_word (sd_deleted d) "DEL" ++ flag_word (sd_locked d) "LOCK").

(** utils.py 75-76: WriteableSector.__str__ of a Dos33TSSector.  _next_sector is set to 0 by
    utils.py 66 and never changed: the link is kept in the data of the sector only
    (dos33.py 45-56).  dos33.py 20-21: used is the size of the sector. *)
Definition ts_row (i n : Z) : list Z :=
  txt " " ++ dec i ++ txt ": sector=" ++ dec n ++ txt " next=" ++ dec 0 ++ txt " size=" ++ dec 256 ++ txt " used=" ++ dec 256.
(** utils.py 121-122: BaseSectorList.__str__ *)
Fixpoint ts_rows (i : Z) (tl : list Z) : list (list Z) :=
  match tl with [] => [] | n :: r => ts_row i n :: ts_rows (i + 1) r end.
(** str() of a list of numbers *)
Definition nums_text (m : list Z) : list Z := txt "[" ++ joined (txt ", ") (map dec m) ++ txt "]".
Definition sectors_text (tl m : list Z) : list Z :=
  txt "track/sector list at: " ++ joined [10] (ts_rows 0 tl) ++ 10 :: txt "sector map: " ++ nums_text m.
(** dos33.py 223-228: Dos33Dirent.extra_metadata *)
Definition dos33_meta (im : img33) (d : ent) : res (list Z) :=
  let! (tl, m) := get_tslist (fuel33 (i_hdr im)) (i_hdr im) (i_bytes im) d in Ok (sectors_text tl m).

(** __init__.py 178-190: list_files with show_metadata.  The line of the file has been
    printed when extra_metadata is called. *)
Section Meta.
Variable E : Type.
Variable line : E -> list Z.
Variable name : E -> list Z.
Variable read : E -> res (list Z).
Variable meta : E -> res (list Z).
Variable crc : list Z -> Z.
Fixpoint meta_loop (show : bool) (ds : list E) : list Z * res unit :=
  match ds with
  | [] => ([], Ok tt)
  | d :: r =>
      match list_one E line read crc show d with
      | Err e => ([], Err e)
      | Ok t =>
          match meta d with
          | Err e => (t ++ [10], Err e)
          | Ok m => let (t2, x) := meta_loop show r in (t ++ 10 :: m ++ 10 :: t2, x)
          end
      end
  end.
Definition meta_text (img head : list Z) (show : bool) (files : list (list Z)) (ds : list E) : list Z * res unit :=
  let (t, x) := meta_loop show (selected E name files ds) in (img ++ txt ": " ++ head ++ 10 :: t, x).
End Meta.

Definition atari_list_meta (crc : list Z -> Z) (img : list Z) (show : bool) (files : list (list Z)) (im : aimg) : list Z * res unit :=
  meta_text dirent atari_line filename (AtariModel.get_file im) (fun d => Ok (atari_meta d)) crc img (atari_head im) show files (a_files im).
Definition dos33_list_meta (crc : list Z -> Z) (img : list Z) (show : bool) (files : list (list Z)) (im : img33) : list Z * res unit :=
  meta_text (Z * ent) dos33_line (fun e => d3_name (snd e)) (fun e => get_file3 im (snd e)) (fun e => dos33_meta im (snd e)) crc img
    (dos33_head im) show files (numbered im).
Definition sparta_list_meta (crc : list Z -> Z) (img : list Z) (show : bool) (files : list (list Z)) (im : simg) : list Z * res unit :=
  match stamps im with
  | Err e => ([], Err e)
  | Ok ds => meta_text (sdirent * list Z) sparta_line (fun e => sfilename (fst e)) (fun e => sget_file im (fst e)) (fun e => Ok (sparta_meta (fst e)))
               crc img (sparta_head im) show files ds
  end.
