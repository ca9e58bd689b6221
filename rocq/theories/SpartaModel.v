(** Model of atrcopy/spartados.py, on top of the headers and sector addressing
    of ataridos.py (AtariModel). *)
From Verif Require Import Base DiskModel AtariModel.

(* ------------------------------------------------------------------ *)
(** * Directory entries *)

(** spartados.py 11-32: the attributes of a SpartaDosDirent. *)
Record sdirent := mkSD {
  sd_num : Z; sd_flag : Z;
  sd_locked : bool; sd_hidden : bool; sd_inuse : bool; sd_deleted : bool;
  sd_isdir : bool; sd_out : bool;
  sd_start : Z; sd_base : list Z; sd_ext : list Z; sd_length : Z;
  sd_sane : bool }.

(** ataridos.py 106-109: filename (inherited), characters as codes *)
Definition sfilename (d : sdirent) : list Z :=
  sd_base d ++ (match sd_ext d with [] => [] | e => 46 :: e end).

(** spartados.py 77-82: sanity_check *)
Definition ssanity (h : hdr) (inuse : bool) (start : Z) : bool :=
  if negb inuse then true else sector_valid h start.

(** ['i1'] field: the byte as a signed number *)
Definition signed8 (x : Z) : Z := if x <? 128 then x else x - 256.

(** spartados.py 12-21, 53-75: parse_raw_dirent.  A 23-byte view of an empty array has
    no element 0; a view of any other number of bytes raises ValueError.
    [archived] (bit 0x100 of a byte) is always false. *)
Definition parse_sdirent (h : hdr) (num : Z) (b : list Z) : res sdirent :=
  if zlen b =? 0 then Err EIndex
  else if negb (zlen b =? 23) then Err EValue
  else
    let flag := getb b 0 in
    let inuse := flag_bit flag 0x08 in
    let isdir := flag_bit flag 0x20 in
    let start := le2 (getb b 1) (getb b 2) in
    Ok (mkSD num flag (flag_bit flag 0x01) (flag_bit flag 0x10) inuse
             (flag_bit flag 0x10) isdir (flag_bit flag 0x80) start
             (rstrip (rstrip0 (slice b 6 14)))
             (if isdir then [] else rstrip (rstrip0 (slice b 14 17)))
             (65536 * signed8 (getb b 5) + le2 (getb b 3) (getb b 4))
             (ssanity h inuse start)).

(** spartados.py 23-32: the constructor with [starting_sector] given *)
Definition with_start (h : hdr) (d : sdirent) (s : Z) : sdirent :=
  mkSD (sd_num d) (sd_flag d) (sd_locked d) (sd_hidden d) (sd_inuse d) (sd_deleted d)
       (sd_isdir d) (sd_out d) s (sd_base d) (sd_ext d) (sd_length d)
       (ssanity h (sd_inuse d) s).

(* ------------------------------------------------------------------ *)
(** * Sector maps *)

(** [view(dtype='<u2')] of an even number of bytes *)
Fixpoint words (l : list Z) : list Z :=
  match l with
  | a :: b :: r => le2 a b :: words r
  | _ => []
  end.

(** spartados.py 210-219: the loop of get_sector_map.  [None] is Python's None,
    returned when the first sector is 0.  One unit of fuel per map sector. *)
Fixpoint map_loop (fuel : nat) (h : hdr) (bytes : list Z) (sector : Z) (m : option (list Z))
  : res (option (list Z)) :=
  if sector <=? 0 then Ok m
  else
    match fuel with
    | O => Err EFuel
    | S f =>
        let! b := get_sectors h bytes sector sector in
        if zlen b <? 4 then Err EValue
        else if Z.odd (zlen b) then Err EValue
        else
          let w := words (slice b 4 (zlen b)) in
          map_loop f h bytes (le2 (getb b 0) (getb b 1))
                   (Some (match m with None => w | Some m => m ++ w end))
    end.
Definition sector_map (fuel : nat) (h : hdr) (bytes : list Z) (sector : Z) : res (option (list Z)) :=
  map_loop fuel h bytes sector None.

(* ------------------------------------------------------------------ *)
(** * Reading *)

(** spartados.py 98-106 and 229-237: read_sector in the loop of
    get_file_segment; the byte order is kept as (position, length) runs.
    Running over the end of the map raises IndexError. *)
Fixpoint sread_runs (h : hdr) (m : list Z) (remaining : Z) : res (list (Z * Z)) :=
  match m with
  | [] => Err EIndex
  | sector :: r =>
      if sector =? 0 then Ok []
      else
        let! (pos, size) := get_pos h sector in
        let n := Z.min remaining size in
        let! rest := sread_runs h r (remaining - n) in
        Ok ((pos, n) :: rest)
  end.

(** segments.py 131-132, 344-355 on runs; a run of negative length is an empty
    range. *)
Definition sruns (runs : list (Z * Z)) : list (Z * Z) :=
  map (fun r => (fst r, Z.max 0 (snd r))) runs.

(** spartados.py 90-96: start_read.  The map is None for sector 0 and then
    read_sector raises TypeError. *)
Definition sfile_runs (fuel : nat) (h : hdr) (bytes : list Z) (d : sdirent) : res (list (Z * Z)) :=
  if negb (sd_sane d) then Err (EAtr InvalidDirent)
  else
    let! m := sector_map fuel h bytes (sd_start d) in
    match m with
    | None => Err EType
    | Some m => let! r := sread_runs h m (sd_length d) in Ok (sruns r)
    end.

(** spartados.py 238-246 and segments.py 664-665: the bytes of the segment made
    by get_file_segment.  An empty byte order gives EmptySegment(self.rawdata),
    whose bytes are the whole image. *)
Definition sget_bytes (fuel : nat) (h : hdr) (bytes : list Z) (d : sdirent) : res (list Z) :=
  let! runs := sfile_runs fuel h bytes d in
  if forallb (fun r => snd r =? 0) runs then Ok bytes else indexed_bytes bytes runs.

(* ------------------------------------------------------------------ *)
(** * Images *)

Record simg := mkS {
  s_bytes : list Z; s_hdr : hdr;
  s_numboot : Z; s_bootaddr : Z; s_bitmap : Z; s_nbitmap : Z; s_root : Z;
  s_ssize : Z;          (* sector_size, from the boot record *)
  s_total : Z; s_free : Z;
  s_files : list sdirent; s_rootd : option sdirent }.

(** spartados.py 141-144: sector_size_map.get(x, -1) *)
Definition sector_size_of (x : Z) : Z :=
  if x =? 0 then 256 else if x =? 1 then 512 else if x =? 0x80 then 128 else -1.

(** spartados.py 121-139, 146-162: get_boot_sector_info.  Offsets of the fields
    of the boot record: num_boot 1, boot_addr 2, root_dir 9, num_sectors 11,
    num_free 13, num_bitmap 15, bitmap 16, first_free 18, sector_size 31,
    fs_version 32. *)
Definition boot_sector_info (b : list Z) (h : hdr) : res simg :=
  let! data := get_sectors h b 1 1 in
  let r := slice data 0 33 in
  if zlen r =? 0 then Err EIndex
  else if negb (zlen r =? 33) then Err EValue
  else
    let w i := le2 (getb r i) (getb r (i + 1)) in
    let num := h_max h in
    let ssz := sector_size_of (getb r 31) in
    if (w 11 =? num) && (w 18 <=? num) && (w 16 <=? num) && (w 9 <=? num) &&
       zmem (getb r 32) [0x11; 0x20; 0x21] && negb (ssz =? -1)
    then Ok (mkS b h (getb r 1) (w 2) (w 16) (getb r 15) (w 9) ssz (w 11) (w 13) [] None)
    else Err (EAtr InvalidDiskImage).

(** spartados.py 176-178: the entries at offsets 23, 46, ... below [length] *)
Fixpoint sentries (n : nat) (h : hdr) (num : Z) (s : list Z) (i : Z) : res (list sdirent) :=
  match n with
  | O => Ok []
  | S n => let! d := parse_sdirent h num (slice s i (i + 23)) in
           let! r := sentries n h (num + 1) s (i + 23) in
           Ok (d :: r)
  end.
(** len(range(23, length, 23)) *)
Definition num_entries (length : Z) : nat := Z.to_nat ((length - 23 + 22) / 23).

Definition with_dir (im : simg) (ds : list sdirent) (d : option sdirent) : simg :=
  mkS (s_bytes im) (s_hdr im) (s_numboot im) (s_bootaddr im) (s_bitmap im) (s_nbitmap im)
      (s_root im) (s_ssize im) (s_total im) (s_free im) ds d.

(** spartados.py 167-179: get_directory *)
Definition sget_directory (fuel : nat) (im : simg) : res simg :=
  let h := s_hdr im in
  let! m := sector_map fuel h (s_bytes im) (s_root im) in
  match m with
  | None => Err EType
  | Some [] => Err EIndex
  | Some (sector :: _) =>
      if sector =? 0 then Ok (with_dir im [] None)
      else
        let! (raw, _, _) := get_raw_bytes h (s_bytes im) sector in
        let! d0 := parse_sdirent h 0 (slice raw 0 23) in
        let d := with_start h d0 (s_root im) in
        let! s := sget_bytes fuel h (s_bytes im) d in
        let! ds := sentries (num_entries (sd_length d)) h 1 s 23 in
        Ok (with_dir im ds (Some d))
  end.

(** diskimages.py 103-119, 154-165 with spartados.py 109-116: opening.  The
    property all_sane is never cleared for SpartaDOS. *)
Definition open_sparta_fuel (fuel : nat) (bytes : list Z) : res simg :=
  let h0 := read_header bytes in
  let! h := check_size h0 (zlen bytes - h_offset h0) in
  let! im := boot_sector_info bytes h in
  sget_directory fuel im.
Definition sfuel (bytes : list Z) : nat := S (S (length bytes)).
Definition open_sparta (bytes : list Z) : res simg := open_sparta_fuel (sfuel bytes) bytes.

(** diskimages.py 281-296: find_dirent, find_file, get_file *)
Fixpoint sfind (name : list Z) (ds : list sdirent) : option sdirent :=
  match ds with
  | [] => None
  | d :: r => if zlist_eqb name (sfilename d) then Some d else sfind name r
  end.
Definition sget_file (im : simg) (d : sdirent) : res (list Z) :=
  sget_bytes (sfuel (s_bytes im)) (s_hdr im) (s_bytes im) d.
Definition sfind_file (im : simg) (name : list Z) : res (list Z) :=
  match sfind name (s_files im) with
  | None => Err (EAtr FileNotFound)
  | Some d => sget_file im d
  end.

(** diskimages.py 146-152: the entries dir() shows *)
Definition slisted (im : simg) : list sdirent := filter sd_inuse (s_files im).

(* ------------------------------------------------------------------ *)
(** * Changing an image *)

(** diskimages.py 161-165 run again after an operation (the "finally" clause);
    its exception replaces the one being raised. *)
Definition smetadata (bytes : list Z) (im : simg) : res simg :=
  let! im' := boot_sector_info bytes (s_hdr im) in sget_directory (sfuel bytes) im'.
Definition sfinally (bytes : list Z) (im : simg) (e : exn) : simg * exn :=
  match smetadata bytes im with
  | Ok im' => (im', e)
  | Err e' => (mkS bytes (s_hdr im) (s_numboot im) (s_bootaddr im) (s_bitmap im) (s_nbitmap im)
                   (s_root im) (s_ssize im) (s_total im) (s_free im) [] None, e')
  end.

(** diskimages.py 337-361 and 379-394: write_file and delete_file call
    get_directory with an argument that SpartaDosDiskImage.get_directory does
    not take: TypeError, before anything is written. *)
Definition swrite_file (im : simg) (name data : list Z) : simg * exn := sfinally (s_bytes im) im EType.
Definition sdelete_file (im : simg) (name : list Z) : simg * exn := sfinally (s_bytes im) im EType.

(** spartados.py 195-208: get_vtoc_segments.  The sum of the two NumPy numbers
    is computed in 16 bits. *)
Definition sbitmap_bounds (im : simg) : res (Z * Z) :=
  contig_loop (s_hdr im) (zrange (s_bitmap im) (u16 (s_bitmap im + s_nbitmap im))) 0 0.

(** diskimages.py 332-335, 396-407 and ataridos.py 35-38 (inherited VTOC class):
    shred.  The bytes after it, and the exception of the loop if any. *)
Definition sshred (im : simg) (fill : Z) : simg * option exn :=
  let body : list Z * option exn :=
    match sbitmap_bounds im with
    | Err e => (s_bytes im, Some e)
    | Ok (start, count) =>
        match parse_vtoc (slice (s_bytes im) start (start + count)) with
        | Err e => (s_bytes im, Some e)
        | Ok smap =>
            let '(b, r) := shred_loop (Z.to_nat (h_max (s_hdr im))) (s_hdr im) smap fill 1 (s_bytes im) in
            (b, match r with Ok _ => None | Err e => Some e end)
        end
    end in
  match smetadata (fst body) im with
  | Ok im' => (im', snd body)
  | Err e => (mkS (fst body) (s_hdr im) (s_numboot im) (s_bootaddr im) (s_bitmap im) (s_nbitmap im)
                  (s_root im) (s_ssize im) (s_total im) (s_free im) [] None, Some e)
  end.
