(** What a list of segments of a disk image should be: names, load addresses and the
    positions of the bytes shown; and the annotations made while listing. *)
From Coq Require Import String.
From Verif Require Import Base AtariModel AtariSpec AtariGeom SegModel SegSpec TextModel SegListModel.

(** A line of the list; [n_at] are positions in the image. *)
Record entry := mkEn { n_kind : skind; n_name : list Z; n_origin : Z; n_at : list Z }.
(** The segment [s] is what the line says, as a window on the raw data [r]. *)
Record seg_is (h : heap) (r : raw) (s : seg) (e : entry) : Prop := mkSI {
  si_kind : g_kind s = n_kind e;
  si_name : g_name s = n_name e;
  si_origin : g_origin s = n_origin e;
  si_ok : raw_ok h (g_raw s);
  si_data : r_data (g_raw s) = r_data r;
  si_style : r_style (g_raw s) = r_style r;
  si_extra : r_extra (g_raw s) = r_extra r;
  si_shows : shows h (g_raw s) = map (getb (shows h r)) (n_at e);
  si_bytes : read_data h (g_raw s) = map (getb (read_data h r)) (n_at e)
}.

(** From [h] to [h'] only annotations of [r] changed: the bytes at the positions [area]
    are marked as data, and the comments [notes] were made (the last one at a position
    counts). *)
Record marks (h : heap) (r : raw) (area : list Z) (notes : list (Z * list Z)) (h' : heap) : Prop := mkMk {
  mk_alloc : length (hp_arr h') = length (hp_arr h) /\ length (hp_ext h') = length (hp_ext h);
  mk_arr : forall a, a <> r_style r -> arr h' a = arr h a;
  mk_len : zlen (arr h' (r_style r)) = zlen (arr h (r_style r));
  mk_style : forall p, 0 <= p < raw_len h r -> getb (arr h' (r_style r)) (getb (shows h r) p) =
     if zmem p area then style_bits k_data else getb (arr h (r_style r)) (getb (shows h r) p);
  mk_style_out : forall q, 0 <= q -> ~ In q (shows h r) -> getb (arr h' (r_style r)) q = getb (arr h (r_style r)) q;
  mk_ext : forall e, e <> r_extra r -> ext h' e = ext h e;
  mk_user : e_user (ext h' (r_extra r)) = e_user (ext h (r_extra r));
  mk_note : forall p, 0 <= p < raw_len h r -> dget (getb (shows h r) p) (comments h' r) =
     match dget p (rev notes) with Some t => Some t | None => dget (getb (shows h r) p) (comments h r) end;
  mk_note_out : forall q, ~ In q (shows h r) -> dget q (comments h' r) = dget q (comments h r)
}.

(** * Atari DOS 2 *)
(** Bytes of sectors 1 to [n]. *)
Definition first_bytes (hd : hdr) (n : Z) : Z :=
  Z.min n (h_ninit hd) * h_isize hd + Z.max 0 (n - h_ninit hd) * h_ssize hd.
(** The fields of a VTOC sector. *)
Definition vtoc_fields : list (Z * string) :=
  [(0, "Type code"); (1, "Total number of sectors"); (3, "Number of free sectors"); (5, "reserved"); (6, "unused");
   (10, "Sector bit map"); (100, "unused")]%string.
Definition vtoc2_fields : list (Z * string) :=
  [(0, "Repeat of sectors 48-719"); (68, "Sector bit map 720-1023"); (122, "Number of free sectors above 720"); (124, "unused")]%string.
(** The fields of a directory slot. *)
Definition slot_fields : list (Z * string) :=
  [(0, "Flag"); (1, "Number of sectors in file"); (3, "Starting sector number"); (5, "Filename"); (13, "Extension")]%string.
Definition fields_at (p : Z) (l : list (Z * string)) : list (Z * list Z) := map (fun f => (p + fst f, txt (snd f))) l.
Definition named_fields (i p : Z) (l : list (Z * string)) : list (Z * list Z) :=
  map (fun f => (p + fst f, txt "FILE #" ++ dec i ++ txt ": " ++ txt (snd f))) l.
Definition atari_notes (g : geom) (second : bool) : list (Z * list Z) :=
  fields_at (spos g 360) vtoc_fields ++ (if second then fields_at (spos g 1024) vtoc2_fields else []) ++
  flat_map (fun i => named_fields i (spos g 361 + 16 * i) slot_fields) (zrange 0 64).
Definition sectors_at (g : geom) (n num : Z) : list Z := zrange (spos g n) (spos g n + num * g_ss g).
Definition atari_area (g : geom) (second : bool) : list Z :=
  sectors_at g 360 1 ++ (if second then sectors_at g 1024 1 else []) ++ sectors_at g 361 8.

(** The segments of a disk that are not files: all of it, the header of the image file,
    the sectors; boot sectors only if the VTOC's first byte is 0; VTOC and directory. *)
Definition image_head (menu : string) (hd : hdr) (len : Z) : list entry :=
  [mkEn KDefault (txt menu) 0 (zrange 0 len);
   mkEn KObj (txt (if h_offset hd =? 0 then "XFD Header"%string else "ATR Header"%string)) 0 (zrange 0 (h_offset hd));
   mkEn (KRaw 1 (h_max hd) (h_isize hd) (h_ninit hd) (h_ssize hd)) (txt "Raw disk sectors") 0 (zrange (h_offset hd) len)].
Definition boot_entries (off size addr hlen : Z) : list entry :=
  [mkEn KObj (txt "Boot Sectors") addr (zrange off (off + size));
   mkEn KObj (txt "Boot Header") addr (zrange off (off + hlen));
   mkEn KObj (txt "Boot Code") (addr + hlen) (zrange (off + hlen) (off + size))].
Definition atari_fixed (hd : hdr) (b : list Z) : list entry :=
  let g := geom_of hd in
  let v := sector g b 360 in
  image_head "Atari DOS Disk Image" hd (zlen b) ++
  (if getb v 0 =? 0 then boot_entries (h_offset hd) (first_bytes hd (Z.max 1 (getb v 1))) (le2 (getb v 2) (getb v 3)) 20 else []) ++
  [mkEn (KRaw 360 1 128 3 (h_ssize hd)) (txt "VTOC") 0 (sectors_at g 360 1)] ++
  (if h_image_size hd =? 133120 then [mkEn (KRaw 1024 1 128 3 (h_ssize hd)) (txt "VTOC2") 0 (sectors_at g 1024 1)] else []) ++
  [mkEn (KRaw 361 8 128 3 (h_ssize hd)) (txt "Directory") 0 (sectors_at g 361 8)].
(** The bytes of a file that occupies the sectors [c]. *)
Definition file_bytes_at (g : geom) (b c : list Z) : list Z :=
  flat_map (fun n => zrange (spos g n) (spos g n + link_used (sector g b n))) c.
(** How a file is called in the list. *)
Definition file_label (d : dirent) : list Z := filename d ++ txt " " ++ dec (d_count d) ++ txt "s@" ++ dec (d_start d).

(** * DOS 3.3 *)
(** The bytes of some sectors, in this order. *)
Definition sectors_at3 (l : list Z) : list Z := flat_map (fun n => zrange (256 * n) (256 * n + 256)) l.
(** A line for the sectors from [first] to [last]. *)
Definition boot_entry3 (name : string) (addr first last : Z) : entry :=
  mkEn KObj (txt name) addr (zrange (256 * first) (256 * last + 256)).
(** The segments of a disk with the catalog sectors [cat] that are not files. *)
Definition fixed3 (cat : list Z) : list entry :=
  [mkEn KDefault (txt "DOS 3.3 Disk Image") 0 (zrange 0 143360);
   mkEn KObj (txt "DOS 3.3 Header") 0 [];
   mkEn (KTrack 0 560 0 0 256) (txt "Raw disk sectors") 0 (zrange 0 143360);
   boot_entry3 "Boot 1" 0x800 0 0; boot_entry3 "Boot 2" 0x3700 1 9;
   boot_entry3 "Relocator" 0x1b00 10 11; boot_entry3 "Boot 3" 0x1d00 12 37;
   mkEn (KTrack 272 1 0 0 256) (txt "VTOC") 0 (sectors_at3 [272]);
   mkEn KDefault (txt "Catalog") 0 (sectors_at3 cat)].
Definition vtoc_fields3 : list (Z * string) :=
  [(0, "unused"); (1, "Track number of next catalog sector"); (2, "Sector number of next catalog sector");
   (3, "Release number of DOS used to format"); (4, "unused"); (6, "Volume number"); (7, "unused");
   (39, "Number of track/sector pairs per t/s list sector"); (40, "unused"); (48, "Last track that sectors allocated");
   (49, "Track allocation direction"); (50, "unused"); (52, "Tracks per disk"); (53, "Sectors per track"); (54, "Bytes per sector")]%string.
Definition catalog_fields3 : list (Z * string) :=
  [(0, "unused"); (1, "Track number of next catalog sector"); (2, "Sector number of next catalog sector"); (3, "unused")]%string.
(** The names given to the fields of an entry; those of the first two are not right:
    they are the track and sector of the file's first track/sector list. *)
Definition entry_fields3 : list (Z * string) :=
  [(0, "Track number of next catalog sector"); (1, "Sector number of next catalog sector"); (2, "File type"); (3, "Filename");
   (33, "Number of sectors in file")]%string.
Definition notes3 (cat : list Z) : list (Z * list Z) :=
  fields_at (256 * 272) vtoc_fields3 ++
  map (fun t => (256 * 272 + 56 + 4 * t, txt "Free sectors in track " ++ dec t)) (zrange 0 35) ++
  flat_map (fun j => let p := 256 * getb cat j in
      fields_at p catalog_fields3 ++ flat_map (fun i => named_fields (7 * j + i) (p + 11 + 35 * i) entry_fields3) (zrange 0 7))
    (zrange 0 (zlen cat)).
(** The address of a file of type B is in its first two bytes; the segment begins with
    a header of four bytes. *)
Definition origin3 (type : Z) (data : list Z) : Z := if type =? 4 then le2 (getb data 0) (getb data 1) - 4 else 0.
