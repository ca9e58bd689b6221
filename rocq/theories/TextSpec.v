(** What a printed listing shows: the attributes of the entries, of the headers and the
    checksums. *)
From Verif Require Import Base DiskModel AtariModel SpartaModel Dos33Model.

(** Names are printed in columns: blanks at their end are lost. *)
Definition trim32 (l : list Z) : list Z := rstripf (Z.eqb 32) l.
(** Number, flags, first sector, name and extension, number of sectors *)
Definition flags_of (d : dirent) := (d_out d, d_dos2 d, d_mydos d, d_inuse d, d_deleted d, d_locked d).
Definition atari_view (d : dirent) := (d_num d, flags_of d, d_start d, (d_base d, d_ext d), d_count d).
(** Number, lock, type if it is one of those the program knows, sectors, name, first track
    and sector *)
Definition known_type (t : Z) : option Z := if zmem t [0; 1; 2; 4; 8; 16; 32; 64] then Some t else None.
Definition dos33_view (e : Z * ent) :=
  let d := snd e in (fst e, negb (d3_lock d =? 0), known_type (d3_type d), d3_count d, trim32 (d3_name d), d3_track d, d3_sector d).
(** The same for SpartaDOS, with the length and the six bytes of date and time *)
Definition sflags_of (d : sdirent) := (sd_out d, sd_isdir d, sd_inuse d, sd_deleted d, sd_locked d).
Definition stamp_view (t : list Z) := (getb t 0, getb t 1, getb t 2, (getb t 3, getb t 4, getb t 5)).
Definition sparta_view (e : sdirent * list Z) :=
  let d := fst e in (sd_num d, sflags_of d, sd_start d, (sd_base d, sd_ext d), sd_length d, stamp_view (snd e)).
(** Kind of header, sizes, and the further numbers of an ATR header *)
Definition header_view (h : hdr) : bool * (Z * Z * Z) * (Z * Z * Z) :=
  (h_offset h =? 0, (h_image_size h, h_max h, h_ssize h), if h_offset h =? 0 then (0, 0, 0) else (h_crc h, h_flags h, h_unused h)).
(** The checksums of the contents *)
Definition sums {E} (read : E -> res (list Z)) (crc : list Z -> Z) (ds : list E) : list (option Z) :=
  map (fun d => match read d with Ok x => Some (crc x) | Err _ => None end) ds.
