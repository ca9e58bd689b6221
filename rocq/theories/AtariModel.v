(** Model of atrcopy/ataridos.py (disk images) together with the parts of
    atrcopy/diskimages.py and atrcopy/utils.py it runs on. *)
From Verif Require Import Base DiskModel.

(* ------------------------------------------------------------------ *)
(** * Headers and sector addressing *)

(** diskimages.py 20-38 / ataridos.py 351-370.  The fields first_vtoc,
    first_directory, tracks_per_disk... of the header are constants that the
    Atari code never reads; starting_sector_label is 1 (ataridos.py 352). *)
Record hdr := mkH {
  h_offset : Z;       (* header_offset: 16 for ATR, 0 for XFD *)
  h_image_size : Z;
  h_ssize : Z;        (* sector_size *)
  h_isize : Z;        (* initial_sector_size *)
  h_ninit : Z;        (* num_initial_sectors *)
  h_payload : Z;      (* payload_bytes *)
  h_max : Z;          (* max_sectors *)
  h_crc : Z; h_unused : Z; h_flags : Z }.

(** ataridos.py 435-446 / 351-352: XfdHeader() *)
Definition xfd_header : hdr := mkH 0 0 128 0 0 128 0 0 0 0.

(** ataridos.py 359-370: AtrHeader(bytes) on the first 16 bytes *)
Definition atr_header (b : list Z) : res hdr :=
  if zlen b =? 16 then
    if negb (le2 (getb b 0) (getb b 1) =? 0x296) then Err (EAtr InvalidAtrHeader)
    else Ok (mkH 16
               ((getb b 6 * 256 * 256 + le2 (getb b 2) (getb b 3)) * 16)
               (le2 (getb b 4) (getb b 5)) 0 0 128 0
               (le4 (getb b 7) (getb b 8) (getb b 9) (getb b 10))
               (le4 (getb b 11) (getb b 12) (getb b 13) (getb b 14))
               (getb b 15))
  else Err (EAtr InvalidAtrHeader).

(** ataridos.py 505-510: AtariDosDiskImage.read_header *)
Definition read_header (bytes : list Z) : hdr :=
  match atr_header (slice bytes 0 16) with
  | Ok h => h
  | Err _ => xfd_header
  end.

(** ataridos.py 375-386 with diskimages.py 43-46: AtrHeader.to_array *)
Definition atr_encode (h : hdr) : list Z :=
  let paragraphs := h_image_size h / 16 in
  put2 0x296 ++ put2 (paragraphs mod 65536) ++ put2 (h_ssize h) ++
  [u8 (paragraphs / 65536)] ++ put4 (h_crc h) ++ put4 (h_unused h) ++ [u8 (h_flags h)].

(** ataridos.py 388-414: AtrHeader.check_size *)
Definition check_size (h : hdr) (size : Z) : res hdr :=
  let '(isz, ss, iss, ni) :=
    if (size =? 92160) || (size =? 92176) then (92160, 128, 0, 0)
    else if (size =? 184320) || (size =? 184336) then (184320, 256, 0, 0)
    else if (size =? 183936) || (size =? 183952) then (183936, 256, 128, 3)
    else (size, h_ssize h, h_isize h, h_ninit h) in
  if ss =? 0 then Err EZeroDiv
  else Ok (mkH (h_offset h) isz ss iss ni (ss - 3) ((isz - iss * ni) / ss + ni)
               (h_crc h) (h_unused h) (h_flags h)).

(** diskimages.py 54-55: BaseHeader.sector_is_valid, label 1 *)
Definition sector_valid (h : hdr) (n : Z) : bool :=
  (h_max h <? 0) || ((1 <=? n) && (n <? h_max h + 1)).

(** ataridos.py 416-426: AtrHeader.get_pos *)
Definition get_pos (h : hdr) (n : Z) : res (Z * Z) :=
  if negb (sector_valid h n) then Err (EAtr ByteNotInFile166)
  else if n <=? h_ninit h
       then Ok (h_ninit h * (n - 1) + h_offset h, h_isize h)
       else Ok (h_ninit h * h_isize h + (n - 1 - h_ninit h) * h_ssize h + h_offset h,
                h_ssize h).

(** diskimages.py 225-239: get_sector_slice, [more] further sectors *)
Fixpoint more_sectors (h : hdr) (more : nat) (n : Z) : res Z :=
  match more with
  | O => Ok 0
  | S m => let! (_, sz) := get_pos h (n + 1) in
           let! rest := more_sectors h m (n + 1) in
           Ok (sz + rest)
  end.
Definition get_sector_slice (h : hdr) (start end_ : Z) : res (Z * Z) :=
  let! (pos, size) := get_pos h start in
  let! more := more_sectors h (Z.to_nat (end_ - start)) start in
  Ok (pos, pos + (size + more)).

(** diskimages.py 241-249: get_sectors (the bytes) *)
Definition get_sectors (h : hdr) (bytes : list Z) (start end_ : Z) : res (list Z) :=
  let! (a, b) := get_sector_slice h start end_ in
  Ok (slice bytes a b).

(** diskimages.py 221-223: get_raw_bytes *)
Definition get_raw_bytes (h : hdr) (bytes : list Z) (n : Z) : res (list Z * Z * Z) :=
  let! (pos, size) := get_pos h n in
  Ok (slice bytes pos (pos + size), pos, size).

(** diskimages.py 251-259: get_contiguous_sectors *)
Fixpoint contig_loop (h : hdr) (ns : list Z) (start count : Z) : res (Z * Z) :=
  match ns with
  | [] => Ok (start, count)
  | n :: r => let! (pos, size) := get_pos h n in
              contig_loop h r (if start =? 0 then pos else start) (count + size)
  end.
Definition get_contiguous (h : hdr) (n num : Z) : res (Z * Z) :=
  contig_loop h (zrange n (n + num)) 0 0.

(* ------------------------------------------------------------------ *)
(** * Directory entries *)

(** ataridos.py 70-98.  [d_my] tells whether the object is a MydosDirent. *)
Record dirent := mkD {
  d_num : Z; d_flag : Z;
  d_out : bool; d_dos2 : bool; d_mydos : bool; d_isdir : bool;
  d_locked : bool; d_inuse : bool; d_deleted : bool;
  d_count : Z; d_start : Z;
  d_base : list Z; d_ext : list Z;
  d_sane : bool; d_my : bool }.

Definition flag_bit (flag k : Z) : bool := 0 <? (flag / k) mod 2.

(** ataridos.py 106-109: AtariDosDirent.filename (characters as codes) *)
Definition filename (d : dirent) : list Z :=
  d_base d ++ (match d_ext d with [] => [] | e => 46 :: e end).

(** ataridos.py 179-186: sanity_check *)
Definition sanity (h : hdr) (inuse : bool) (start count : Z) : bool :=
  if negb inuse then true
  else if negb (sector_valid h start) then false
  else negb ((count <? 0) || (h_max h <? count)).

(** ataridos.py 136-153: parse_raw_dirent on 16 bytes, followed by the class
    choice of get_directory, lines 558-560. *)
Definition parse_dirent (h : hdr) (num : Z) (b : list Z) : dirent :=
  let flag := getb b 0 in
  let inuse := flag_bit flag 0x40 in
  let count := le2 (getb b 1) (getb b 2) in
  let start := le2 (getb b 3) (getb b 4) in
  mkD num flag (flag_bit flag 0x01) (flag_bit flag 0x02) (flag_bit flag 0x04)
      (flag_bit flag 0x10) (flag_bit flag 0x20) inuse (flag_bit flag 0x80)
      count start (rstrip (rstrip0 (slice b 5 13))) (rstrip (rstrip0 (slice b 13 16)))
      (sanity h inuse start count) (flag_bit flag 0x04).

Definition b2z (b : bool) : Z := if b then 1 else 0.

(** ataridos.py 155-164: encode_dirent.  The flag is the [|] of distinct bits,
    i.e. their sum. *)
Definition encode_dirent (d : dirent) : list Z :=
  [ 1 * b2z (d_out d) + 2 * b2z (d_dos2 d) + 4 * b2z (d_mydos d) +
    0x10 * b2z (d_isdir d) + 0x20 * b2z (d_locked d) + 0x40 * b2z (d_inuse d) +
    0x80 * b2z (d_deleted d) ] ++
  put2 (d_count d) ++ put2 (d_start d) ++ put_s 8 (d_base d) ++ put_s 3 (d_ext d).

(** ataridos.py 80-98 and 223-234: AtariDosDirent(None) and set_values.
    Names are lists of character codes; a code above 255 makes
    [encode("latin1")] raise. *)
Definition new_dirent (name : list Z) (index : Z) : res dirent :=
  if existsb (fun c => 255 <? c) name then Err EUnicode
  else
    let (base, ext) :=
      match split_at 46 name with
      | (b, Some e) => (b, e)
      | (b, None) => (b, [32; 32; 32])
      end in
    Ok (mkD index 0 false true false false false true false 0 0
            (ljust 8 (slice base 0 8)) ext true false).

(** ataridos.py 166-168: mark_deleted *)
Definition mark_deleted (d : dirent) : dirent :=
  mkD (d_num d) (d_flag d) (d_out d) (d_dos2 d) (d_mydos d) (d_isdir d) (d_locked d)
      false true (d_count d) (d_start d) (d_base d) (d_ext d) (d_sane d) (d_my d).

(** ataridos.py 170-172: update_sector_info *)
Definition update_sector_info (d : dirent) (l : list wsector) : dirent :=
  mkD (d_num d) (d_flag d) (d_out d) (d_dos2 d) (d_mydos d) (d_isdir d) (d_locked d)
      (d_inuse d) (d_deleted d) (zlen l) (first_sector l) (d_base d) (d_ext d)
      (d_sane d) (d_my d).

(** ataridos.py 556-572: the loop of get_directory.  Returns the entries seen
    and the exception, if any (a 16-byte view of fewer than 16 bytes raises
    ValueError).  Fuel: one unit per entry. *)
Fixpoint parse_dirents (fuel : nat) (h : hdr) (num : Z) (b : list Z)
  : list dirent * option exn :=
  match b with
  | [] => ([], None)
  | _ =>
      match fuel with
      | O => ([], Some EFuel)
      | S f =>
          let e := slice b 0 16 in
          if negb (zlen e =? 16) then ([], Some EValue)
          else
            let d := parse_dirent h num e in
            if negb (d_inuse d) && (d_flag d =? 0) then ([], None)
            else let (ds, err) := parse_dirents f h (num + 1) (slice b 16 (zlen b)) in
                 (d :: ds, err)
      end
  end.

(* ------------------------------------------------------------------ *)
(** * Images *)

(** The attributes of an AtariDosDiskImage that operations read or write.
    The style array and the comments are not part of this model. *)
Record aimg := mkA {
  a_bytes : list Z;
  a_hdr : hdr;
  a_total : Z;            (* total_sectors *)
  a_free : Z;             (* unused_sectors *)
  a_files : list dirent;  (* files *)
  a_sane : bool;          (* all_sane *)
  a_fvtoc : Z; a_nvtoc : Z; a_vtoc2 : Z }.

Definition with_bytes (im : aimg) (b : list Z) : aimg :=
  mkA b (a_hdr im) (a_total im) (a_free im) (a_files im) (a_sane im)
      (a_fvtoc im) (a_nvtoc im) (a_vtoc2 im).

(** ataridos.py 512-527: calc_vtoc_code *)
Definition calc_vtoc_code (im : aimg) : Z :=
  let num := 1 + (a_total im + 80) / (h_ssize (a_hdr im) * 8) in
  if h_ssize (a_hdr im) =? 128 then
    if num =? 1 then 2
    else let num' := if Z.odd num then num + 1 else num in (num' + 1) / 2 + 2
  else if a_total im <? 1024 then 2 else 2 + num.

(** ataridos.py 529-550: get_vtoc *)
Definition get_vtoc (im : aimg) : aimg * res unit :=
  let h := a_hdr im in
  match get_sectors h (a_bytes im) 360 360 with
  | Err e => (im, Err e)
  | Ok data =>
      if zlen data <? 5 then (im, Err EValue)
      else
        let code := getb data 0 in
        let num := if (code =? 0) || (code =? 2) then 1 else code * 2 - 3 in
        let im1 := mkA (a_bytes im) h (a_total im) (a_free im) (a_files im) (a_sane im)
                       (360 - num + 1) (a_nvtoc im) (a_vtoc2 im) in
        if negb (sector_valid h (360 - num + 1)) then (im1, Err (EAtr ByteNotInFile166))
        else
          let im2 := mkA (a_bytes im) h (a_total im) (a_free im) (a_files im) (a_sane im)
                         (360 - num + 1) num (a_vtoc2 im) in
          if (num <? 0) || (calc_vtoc_code im2 <? num)
          then (im2, Err (EAtr InvalidDiskImage))
          else
            let total := le2 (getb data 1) (getb data 2) in
            let unused := le2 (getb data 3) (getb data 4) in
            if h_image_size h =? 133120 then
              let im3 := mkA (a_bytes im) h total unused (a_files im) (a_sane im)
                             (360 - num + 1) num 1024 in
              match get_sectors h (a_bytes im) 1024 1024 with
              | Err e => (im3, Err e)
              | Ok data2 =>
                  if zlen data2 <? 124 then (im3, Err EValue)
                  else (mkA (a_bytes im) h total
                            (u16 (unused + le2 (getb data2 122) (getb data2 123)))
                            (a_files im) (a_sane im) (360 - num + 1) num 1024, Ok tt)
              end
            else (mkA (a_bytes im) h total unused (a_files im) (a_sane im)
                      (360 - num + 1) num (a_vtoc2 im), Ok tt)
  end.

(** ataridos.py 552-573: get_directory; also yields the entries stored in the
    Directory object. *)
Definition get_directory (im : aimg) : aimg * res (list dirent) :=
  match get_sectors (a_hdr im) (a_bytes im) 361 368 with
  | Err e => (im, Err e)
  | Ok db =>
      let (ds, err) := parse_dirents (length db) (a_hdr im) 0 db in
      let sane := a_sane im && forallb (fun d => negb (d_inuse d) || d_sane d) ds in
      match err with
      | Some e =>
          (mkA (a_bytes im) (a_hdr im) (a_total im) (a_free im) (a_files im) sane
               (a_fvtoc im) (a_nvtoc im) (a_vtoc2 im), Err e)
      | None =>
          (mkA (a_bytes im) (a_hdr im) (a_total im) (a_free im)
               (filter d_inuse ds) sane
               (a_fvtoc im) (a_nvtoc im) (a_vtoc2 im), Ok ds)
      end
  end.

(** diskimages.py 161-165 and 201-203: get_metadata and check_sane *)
Definition get_metadata (im : aimg) : aimg * res unit :=
  match get_vtoc im with
  | (im1, Err e) => (im1, Err e)
  | (im1, Ok _) =>
      match get_directory im1 with
      | (im2, Err e) => (im2, Err e)
      | (im2, Ok _) =>
          if a_sane im2 then (im2, Ok tt) else (im2, Err (EAtr InvalidDiskImage))
      end
  end.

(** diskimages.py 103-119, 154-159 and ataridos.py 458-463: opening an image *)
Definition open_image (bytes : list Z) : res aimg :=
  let h0 := read_header bytes in
  let! h := check_size h0 (zlen bytes - h_offset h0) in
  match get_metadata (mkA bytes h 0 0 [] true 360 1 0) with
  | (im, Ok _) => Ok im
  | (_, Err e) => Err e
  end.

(* ------------------------------------------------------------------ *)
(** * Reading files *)

(** ataridos.py 206-221 and 239-244: read_sector with process_raw_sector of
    AtariDosDirent ([my = false]) and MydosDirent ([my = true]).
    Result: next sector, sectors_seen, position, number of data bytes. *)
Definition read_sector (h : hdr) (bytes : list Z) (my : bool) (fnum cur : Z)
    (seen : list Z) : res (Z * list Z * Z * Z) :=
  let! (raw, pos, _) := get_raw_bytes h bytes cur in
  let len := zlen raw in
  if len <? 3 then Err EIndex
  else
    let b3 := getb raw (len - 3) in
    let b2 := getb raw (len - 2) in
    let b1 := getb raw (len - 1) in
    if my then Ok (b3 * 256 + b2, seen, pos, b1)
    else
      if negb (b3 / 4 =? fnum) then Err (EAtr FileNumberMismatch164)
      else
        let seen' := cur :: seen in
        let next := (b3 mod 4) * 256 + b2 in
        if zmem next seen' then Err (EAtr InvalidFile)
        else Ok (next, seen', pos, b1).

(** ataridos.py 655-659: the reading loop of get_file_segment; the byte order
    is kept as a list of (position, length) runs. *)
Fixpoint read_runs (fuel : nat) (h : hdr) (bytes : list Z) (my : bool) (fnum cur : Z)
    (seen : list Z) : res (list (Z * Z)) :=
  match fuel with
  | O => Err EFuel
  | S f =>
      let! (next, seen', pos, n) := read_sector h bytes my fnum cur seen in
      if next =? 0 then Ok [(pos, n)]
      else let! rest := read_runs f h bytes my fnum next seen' in
           Ok ((pos, n) :: rest)
  end.

(** ataridos.py 188-197: the loop of get_sectors_in_vtoc (sector numbers) *)
Fixpoint read_nums (fuel : nat) (h : hdr) (bytes : list Z) (my : bool) (fnum cur : Z)
    (seen : list Z) : res (list Z) :=
  match fuel with
  | O => Err EFuel
  | S f =>
      let! (next, seen', _, _) := read_sector h bytes my fnum cur seen in
      if next =? 0 then Ok [cur]
      else let! rest := read_nums f h bytes my fnum next seen' in
           Ok (cur :: rest)
  end.

(** Enough fuel for every chain without repetition. *)
Definition chain_fuel (h : hdr) : nat := S (S (Z.to_nat (h_max h))).

(** ataridos.py 199-204: start_read *)
Definition start_read (d : dirent) : res unit :=
  if d_sane d then Ok tt else Err (EAtr InvalidDirent).

(** segments.py 344-355 (get_indexed on contiguous raw data) and 131-132
    (OrderWrapper.tobytes): IndexError when an index is outside the data. *)
Definition indexed_bytes (bytes : list Z) (runs : list (Z * Z)) : res (list Z) :=
  if forallb (fun r => (snd r =? 0) || (fst r + snd r <=? zlen bytes)) runs
  then Ok (flat_map (fun r => slice bytes (fst r) (fst r + snd r)) runs)
  else Err EIndex.

(** ataridos.py 652-667 with diskimages.py 294-296: get_file with explicit
    fuel.  An empty byte order yields EmptySegment(self.rawdata), whose tobytes
    (segments.py 664-665) is the whole raw data. *)
Definition get_file_fuel (fuel : nat) (im : aimg) (d : dirent) : res (list Z) :=
  let! _ := start_read d in
  let! runs := read_runs fuel (a_hdr im) (a_bytes im) (d_my d) (d_num d) (d_start d) [] in
  if forallb (fun r => snd r =? 0) runs then Ok (a_bytes im)
  else indexed_bytes (a_bytes im) runs.
Definition get_file (im : aimg) (d : dirent) : res (list Z) :=
  get_file_fuel (chain_fuel (a_hdr im)) im d.

(** diskimages.py 281-288: find_dirent by name, among the listed files *)
Fixpoint find_name (name : list Z) (ds : list dirent) : option dirent :=
  match ds with
  | [] => None
  | d :: r => if zlist_eqb name (filename d) then Some d else find_name name r
  end.

(** diskimages.py 290-292: find_file *)
Definition find_file (im : aimg) (name : list Z) : res (list Z) :=
  match find_name name (a_files im) with
  | None => Err (EAtr FileNotFound)
  | Some d => get_file im d
  end.

(* ------------------------------------------------------------------ *)
(** * The volume table of contents *)

(** ataridos.py 608-632 (position of the first VTOC segment, and the check that
    the second one exists), diskimages.py 332-335. *)
Definition vtoc_bounds (im : aimg) : res (Z * Z) :=
  let! (start, count) := get_contiguous (a_hdr im) (a_fvtoc im) (a_nvtoc im) in
  if 0 <? a_vtoc2 im then
    let! _ := get_contiguous (a_hdr im) (a_vtoc2 im) 1 in Ok (start, count)
  else Ok (start, count).

(** ataridos.py 35-38 with utils.py 302: AtariDosVTOC.parse_segments *)
Definition parse_vtoc (v : list Z) : res (list Z) :=
  let bits := unpackbits (slice v 0x0a 0x64) in
  if zlen bits =? 720 then Ok (bits ++ zrepeat 0 560) else Err EValue.

(** A VTOC object: bounds of the view on the image, and the sector map. *)
Definition get_vtoc_object (im : aimg) : res (Z * Z * list Z) :=
  let! (start, count) := vtoc_bounds im in
  let! smap := parse_vtoc (slice (a_bytes im) start (start + count)) in
  Ok (start, count, smap).

(** ataridos.py 41-47: AtariDosVTOC.calc_bitmap.  [vtoc1] is a view on the
    image, so the packed bitmap lands in the image bytes at once.  Also returns
    the sector appended to the VTOC's sector list. *)
Definition calc_bitmap (ssize : Z) (bytes : list Z) (start count : Z) (smap : list Z)
  : list Z * wsector :=
  let bytes' := setslice bytes (start + 0x0a) (packbits (slice smap 0 720)) in
  (bytes', make_sector ssize (slice bytes' start (start + count)) 360).

(* ------------------------------------------------------------------ *)
(** * Writing, deleting, shredding *)

(** ataridos.py 22-31: AtariDosWriteableSector.next_sector_num setter.
    [(fnum << 2) | (hi & 3)] is a sum because the bits are disjoint. *)
Definition atari_setnext (s : wsector) (value : Z) : wsector :=
  set_data s (setslice (s_data s) (s_size s - 3)
    [u8 (s_fnum s * 4 + (value / 256) mod 4); u8 (value mod 256); u8 (s_used s)]).

(** ataridos.py 63-67: AtariDosDirectory.set_sector_numbers *)
Fixpoint number_dir (n : Z) (l : list wsector) : list wsector :=
  match l with [] => [] | s :: r => set_num s n :: number_dir (n + 1) r end.

(** utils.py 215-220: add_dirent's effect on the entries *)
Definition set_dirent (ds : list dirent) (i : Z) (d : dirent) : list dirent :=
  if i <? zlen ds then upd ds i d else ds ++ [d].

(** utils.py 249-267: calc_sectors for the Atari directory *)
Definition atari_dir_sectors (ssize : Z) (ds : list dirent) : res (list wsector) :=
  let! l := calc_dir_sectors (new_sector ssize (-1)) (map encode_dirent ds) in
  Ok (number_dir 361 l).

(** diskimages.py 324-330.  The saved state consists of views ([self.bytes[:]]),
    so it always equals the current contents and rollback copies the bytes onto
    themselves. *)
Inductive snapshot := SelfView.
Definition begin_transaction (im : aimg) : snapshot := SelfView.
Definition rollback (im : aimg) (st : snapshot) : aimg :=
  match st with SelfView => with_bytes im (a_bytes im) end.

Definition lift_st {A B} (im : aimg) (r : res A) (k : A -> aimg * res B) : aimg * res B :=
  match r with Ok a => k a | Err e => (im, Err e) end.

(** diskimages.py 346-355: the try block of write_file, including
    utils.py 234-238 (save_dirent) and 322-343 (assign_sector_numbers). *)
Definition write_body (im : aimg) (name data : list Z) : aimg * res unit :=
  match get_directory im with
  | (im0, Err e) => (im0, Err e)
  | (im0, Ok ds) =>
      let h := a_hdr im0 in
      let idx := free_index (map d_inuse ds) 0 in
      lift_st im0 (new_dirent name idx) (fun d0 =>
      lift_st im0 (build_sectors (length data) (h_ssize h) (h_payload h) data) (fun secs =>
      lift_st im0 (get_vtoc_object im0) (fun '(start, count, smap) =>
      match reserve (length secs) smap with
      | None => (im0, Err (EAtr NotEnoughSpaceOnDisk))
      | Some (order, smap') =>
          let (bytes1, vsec) := calc_bitmap (h_ssize h) (a_bytes im0) start count smap' in
          let im1 := with_bytes im0 bytes1 in
          let secs' := link_loop atari_setnext idx None (combine secs order) in
          let d1 := update_sector_info d0 secs' in
          lift_st im1 (atari_dir_sectors (h_ssize h) (set_dirent ds idx d1)) (fun dsecs =>
          let (bytes2, r2) := write_sectors (get_pos h) secs' bytes1 in
          lift_st (with_bytes im1 bytes2) r2 (fun _ =>
          let (bytes3, r3) := write_sectors (get_pos h) [vsec] bytes2 in
          lift_st (with_bytes im1 bytes3) r3 (fun _ =>
          let (bytes4, r4) := write_sectors (get_pos h) dsecs bytes3 in
          (with_bytes im1 bytes4, r4))))
      end)))
  end.

(** try / except AtrError: rollback, raise / finally: get_metadata *)
Definition transact (im : aimg) (body : aimg -> aimg * res unit) : aimg * res unit :=
  let st := begin_transaction im in
  let (im1, r) := body im in
  let im2 := match r with
             | Err e => if is_atr e then rollback im1 st else im1
             | Ok _ => im1
             end in
  match get_metadata im2 with
  | (im3, Err e) => (im3, Err e)
  | (im3, Ok _) => (im3, r)
  end.

(** diskimages.py 337-360: write_file (the file type is ignored by Atari DOS) *)
Definition write_file (im : aimg) (name data : list Z) : aimg * res unit :=
  transact im (fun im0 => write_body im0 name data).

(** utils.py 222-232: Directory.find_dirent by name, over all entries *)
Fixpoint find_index (name : list Z) (ds : list dirent) (i : Z) : option (Z * dirent) :=
  match ds with
  | [] => None
  | d :: r => if zlist_eqb name (filename d) then Some (i, d) else find_index name r (i + 1)
  end.

(** diskimages.py 381-389: the try block of delete_file, with utils.py 240-243
    (remove_dirent) and 365-368 (free_sector_list). *)
Definition delete_body (im : aimg) (name : list Z) : aimg * res unit :=
  match get_directory im with
  | (im0, Err e) => (im0, Err e)
  | (im0, Ok ds) =>
      let h := a_hdr im0 in
      match find_index name ds 0 with
      | None => (im0, Err (EAtr FileNotFound))
      | Some (i, d) =>
          lift_st im0 (let! _ := start_read d in
                       read_nums (chain_fuel h) h (a_bytes im0) (d_my d) (d_num d)
                                 (d_start d) []) (fun nums =>
          lift_st im0 (get_vtoc_object im0) (fun '(start, count, smap) =>
          lift_st im0 (free_sectors nums smap) (fun smap' =>
          let (bytes1, vsec) := calc_bitmap (h_ssize h) (a_bytes im0) start count smap' in
          let im1 := with_bytes im0 bytes1 in
          lift_st im1 (atari_dir_sectors (h_ssize h) (upd ds i (mark_deleted d))) (fun dsecs =>
          let (bytes2, r2) := write_sectors (get_pos h) [vsec] bytes1 in
          lift_st (with_bytes im1 bytes2) r2 (fun _ =>
          let (bytes3, r3) := write_sectors (get_pos h) dsecs bytes2 in
          (with_bytes im1 bytes3, r3))))))
      end
  end.

(** diskimages.py 379-394: delete_file *)
Definition delete_file (im : aimg) (name : list Z) : aimg * res unit :=
  transact im (fun im0 => delete_body im0 name).

(** diskimages.py 396-402 with utils.py 314-317 (iter_free_sectors) and
    diskimages.py 57-62 (iter_sectors): [n] sectors left, current number [i].
    [self.bytes[pos:pos+size] = fill] clamps to the image. *)
Fixpoint shred_loop (n : nat) (h : hdr) (smap : list Z) (fill i : Z) (bytes : list Z)
  : list Z * res unit :=
  match n with
  | O => (bytes, Ok tt)
  | S n' =>
      match get_pos h i with
      | Err e => (bytes, Err e)
      | Ok (pos, size) =>
          if zlen smap <=? i then (bytes, Err EIndex)
          else
            let bytes' :=
              if getb smap i =? 1
              then setslice bytes pos
                     (zrepeat (u8 fill) (zlen (slice bytes pos (pos + size))))
              else bytes in
            shred_loop n' h smap fill (i + 1) bytes'
      end
  end.

Definition shred_body (im : aimg) (fill : Z) : aimg * res unit :=
  lift_st im (get_vtoc_object im) (fun '(_, _, smap) =>
  let (b, r) := shred_loop (Z.to_nat (h_max (a_hdr im))) (a_hdr im) smap fill 1 (a_bytes im) in
  (with_bytes im b, r)).

(** diskimages.py 396-407: shred *)
Definition shred (im : aimg) (fill : Z) : aimg * res unit :=
  transact im (fun im0 => shred_body im0 fill).
