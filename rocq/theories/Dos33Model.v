(** Model of atrcopy/dos33.py (disk images) together with the parts of
    atrcopy/diskimages.py and atrcopy/utils.py it runs on.  sector_size is
    always 256 (dos33.py 366, 449-452), sectors_per_track always 16
    (dos33.py 381) and header_offset 0. *)
From Verif Require Import Base DiskModel.

(* ------------------------------------------------------------------ *)
(** * Headers and sector addressing *)

(** The header attributes that vary after check_size (dos33.py 371-381,
    448-454). *)
Record hdr33 := mkH33 {
  h_fdir : Z;        (* first_directory *)
  h_max3 : Z;        (* max_sectors *)
  h_pairs : Z }.     (* ts_pairs *)

(** dos33.py 365-381: Dos33Header() and check_size *)
Definition hdr33_0 : hdr33 := mkH33 287 560 0.

(** diskimages.py 54-55: sector_is_valid, label 0 *)
Definition valid3 (h : hdr33) (n : Z) : bool :=
  (h_max3 h <? 0) || ((0 <=? n) && (n <? h_max3 h)).

(** diskimages.py 64-74: BaseHeader.get_pos.  The exception class named in
    line 71 is not imported, so an invalid sector raises NameError. *)
Definition get_pos3 (h : hdr33) (n : Z) : res (Z * Z) :=
  if negb (valid3 h n) then Err EName else Ok (n * 256, 256).

(** diskimages.py 197-199: assert_valid_sector *)
Definition assert_valid3 (h : hdr33) (n : Z) : res unit :=
  if valid3 h n then Ok tt else Err (EAtr ByteNotInFile166).

(** diskimages.py 221-249: get_raw_bytes and get_sectors for one sector *)
Definition get_raw3 (h : hdr33) (bytes : list Z) (n : Z) : res (list Z * Z) :=
  let! (pos, size) := get_pos3 h n in
  Ok (slice bytes pos (pos + size), pos).

(** diskimages.py 76-82: sector_from_track, track_from_sector *)
Definition from_ts (t s : Z) : Z := t * 16 + s.

(** [raw[1]], [raw[2]] as a track and sector: IndexError on short data *)
Definition link_of (raw : list Z) : res Z :=
  if zlen raw <? 3 then Err EIndex else Ok (from_ts (getb raw 1) (getb raw 2)).

(* ------------------------------------------------------------------ *)
(** * Catalog entries *)

(** dos33.py 161-175.  [d3_lock] is [values[2] & 0x80], 0 or 128; for a new
    entry False, i.e. 0. *)
Record ent := mkE {
  d3_type : Z; d3_lock : Z; d3_del : bool;
  d3_track : Z; d3_sector : Z;
  d3_name : list Z; d3_count : Z; d3_sane : bool }.

(** [bytes.decode("ascii", errors="ignore")] *)
Definition ascii_ignore (l : list Z) : list Z := filter (fun c => c <? 128) l.

(** dos33.py 284-294: sanity_check *)
Definition sanity3 (h : hdr33) (del : bool) (t s count : Z) : bool :=
  if del then true
  else if t =? 0 then false
  else if negb (valid3 h (from_ts t s)) then false
  else negb ((count <? 0) || (h_max3 h <? count)).

(** dos33.py 230-245: parse_raw_dirent on 35 bytes *)
Definition parse_ent (h : hdr33) (b : list Z) : ent :=
  let del := getb b 0 =? 255 in
  let track := if del then getb b 32 else getb b 0 in
  let count := le2 (getb b 33) (getb b 34) in
  mkE (getb b 2 mod 128) (128 * (getb b 2 / 128)) del track (getb b 1)
      (ascii_ignore (rstrip (map (fun c => u8 (c - 128)) (slice b 3 32))))
      count (sanity3 h del track (getb b 1) count).

(** dos33.py 219-221: flag; [|] of disjoint bits is a sum.  A locked entry has
    locked = 128, so the lock bit becomes 0x80 * 128. *)
Definition flag3 (d : ent) : Z :=
  if d3_del d then 255 else d3_type d + 128 * d3_lock d.

(** dos33.py 247-259: encode_dirent.  Names of at most 30 characters only
    (set_values cuts longer ones, parsing yields at most 29). *)
Definition encode_ent (d : ent) : res (list Z) :=
  if existsb (fun c => 127 <? c) (d3_name d) then Err EUnicode
  else
    let n := zlen (d3_name d) in
    let data := [u8 (if d3_del d then 255 else d3_track d); u8 (d3_sector d); u8 (flag3 d)]
                ++ map (fun c => c + 128) (d3_name d) ++ zrepeat 160 (30 - n)
                ++ put2 (d3_count d) in
    Ok (if d3_del d then upd data 32 (u8 (d3_track d)) else data).

(** dos33.py 183-193: text_to_type *)
Definition type_code (ft : list Z) : Z :=
  match ft with
  | [84] => 0 | [73] => 1 | [65] => 2 | [66] => 4
  | [83] => 8 | [82] => 16 | [97] => 32 | [98] => 64
  | _ => 4
  end.

(** dos33.py 161-175 and 349-353: Dos33Dirent(None) and set_values *)
Definition new_ent (name ft : list Z) : ent :=
  mkE (type_code ft) 0 false 0 0 (ljust 30 (slice name 0 30)) 0 true.

(** dos33.py 261-262: mark_deleted *)
Definition mark_del (d : ent) : ent :=
  mkE (d3_type d) (d3_lock d) true (d3_track d) (d3_sector d) (d3_name d) (d3_count d) (d3_sane d).

(** dos33.py 264-281: the entry after add_metadata_sectors and
    update_sector_info *)
Definition set_start (d : ent) (t s count : Z) : ent :=
  mkE (d3_type d) (d3_lock d) (d3_del d) t s (d3_name d) count (d3_sane d).

(* ------------------------------------------------------------------ *)
(** * Images *)

(** The attributes of a Dos33DiskImage that operations read or write. *)
Record img33 := mkI {
  i_bytes : list Z; i_hdr : hdr33; i_files : list ent; i_sane : bool }.
Definition with_bytes3 (im : img33) (b : list Z) : img33 :=
  mkI b (i_hdr im) (i_files im) (i_sane im).

(** dos33.py 409-424: get_boot_sector_info; the byte swap warning has no
    effect. *)
Definition boot_info (im : img33) : res unit :=
  let h := i_hdr im in
  let! (data, _) := get_raw3 h (i_bytes im) 0 in
  if zlist_eqb (slice data 0 4) [1; 56; 176; 3] then Err (EAtr InvalidDiskImage)
  else
    let! (v, _) := get_raw3 h (i_bytes im) 272 in
    if getb v 3 =? 3 then
      if (getb v 1 <? 35) && (getb v 2 <? 16) then
        let! _ := get_raw3 h (i_bytes im) 286 in Ok tt
      else Err (EAtr InvalidDiskImage)
    else Ok tt.

(** dos33.py 427-458: get_vtoc *)
Definition get_vtoc3 (im : img33) : img33 * res unit :=
  match get_raw3 (i_hdr im) (i_bytes im) 272 with
  | Err e => (im, Err e)
  | Ok (v, _) =>
      let h := mkH33 (from_ts (getb v 1) (getb v 2)) (getb v 0x34 * getb v 0x35) (getb v 0x27) in
      let im1 := mkI (i_bytes im) h (i_files im) (i_sane im) in
      (im1, assert_valid3 h (h_fdir h))
  end.

(** dos33.py 469-483: the entries of one catalog sector, up to the first whose
    flag is 0 *)
Fixpoint sector_ents (h : hdr33) (raw : list Z) (i : Z) (n : nat) : list ent :=
  match n with
  | O => []
  | S n' => let d := parse_ent h (slice raw i (i + 35)) in
            if flag3 d =? 0 then [] else d :: sector_ents h raw (i + 35) n'
  end.

(** dos33.py 460-484: get_directory: the loop over catalog sectors.  Returns
    the entries seen and the exception, if any.  The Python loop has no bound:
    [EFuel] means it went through more catalog sectors than the fuel. *)
Fixpoint cat_loop (fuel : nat) (h : hdr33) (bytes : list Z) (sector : Z) : list ent * option exn :=
  if 0 <? sector then
    match fuel with
    | O => ([], Some EFuel)
    | S f =>
        match assert_valid3 h sector with
        | Err e => ([], Some e)
        | Ok _ =>
            match (let! (raw, _) := get_raw3 h bytes sector in
                   let! next := link_of raw in Ok (raw, next)) with
            | Err e => ([], Some e)
            | Ok (raw, next) =>
                let (ds, err) := cat_loop f h bytes next in
                (sector_ents h raw 0x0b 7 ++ ds, err)
            end
        end
    end
  else ([], None).

(** dos33.py 460-484: get_directory; also yields the entries stored in the
    Directory object (all of them, in order, numbered from 0). *)
Definition get_directory_fuel (fuel : nat) (im : img33) : img33 * res (list ent) :=
  let (ds, err) := cat_loop fuel (i_hdr im) (i_bytes im) (h_fdir (i_hdr im)) in
  let sane := i_sane im && forallb d3_sane ds in
  match err with
  | Some e => (mkI (i_bytes im) (i_hdr im) (i_files im) sane, Err e)
  | None => (mkI (i_bytes im) (i_hdr im)
                 (filter (fun d => d3_sane d && negb (d3_del d)) ds) sane, Ok ds)
  end.
(** More fuel than there are sectors. *)
Definition fuel33 (h : hdr33) : nat := S (Z.to_nat (h_max3 h)).
Definition get_directory3 (im : img33) : img33 * res (list ent) :=
  get_directory_fuel (fuel33 (i_hdr im)) im.

(** diskimages.py 161-165 and 201-203: get_metadata and check_sane *)
Definition get_metadata3 (im : img33) : img33 * res unit :=
  match boot_info im with
  | Err e => (im, Err e)
  | Ok _ =>
      match get_vtoc3 im with
      | (im1, Err e) => (im1, Err e)
      | (im1, Ok _) =>
          match get_directory3 im1 with
          | (im2, Err e) => (im2, Err e)
          | (im2, Ok _) =>
              if i_sane im2 then (im2, Ok tt) else (im2, Err (EAtr InvalidDiskImage))
          end
      end
  end.

(** diskimages.py 103-119, 154-159 and dos33.py 371-381, 394-395: opening an image *)
Definition open33 (bytes : list Z) : res img33 :=
  if negb (zlen bytes =? 143360) then Err (EAtr InvalidDiskImage)
  else match get_metadata3 (mkI bytes hdr33_0 [] true) with
       | (im, Ok _) => Ok im
       | (_, Err e) => Err e
       end.

(* ------------------------------------------------------------------ *)
(** * Reading files *)

(** dos33.py 35-43: get_tslist: the pairs of a track/sector list sector (data
    padded with zeros to 256 bytes by WriteableSector) *)
Definition ts_entries (raw : list Z) : list Z :=
  map (fun k => from_ts (getb raw (12 + 2 * k)) (getb raw (13 + 2 * k))) (zrange 0 122).

(** dos33.py 296-308: the loop of get_track_sector_list.  Returns the sectors of
    the list and the pairs they hold.  No bound in Python. *)
Fixpoint ts_loop (fuel : nat) (h : hdr33) (bytes : list Z) (n : Z) : res (list Z * list Z) :=
  if 0 <? n then
    match fuel with
    | O => Err EFuel
    | S f =>
        let! _ := assert_valid3 h n in
        let! (raw, _) := get_raw3 h bytes n in
        let! (tl, m) := ts_loop f h bytes (from_ts (getb raw 1) (getb raw 2)) in
        Ok (n :: tl, ts_entries raw ++ m)
    end
  else Ok ([], []).

(** [l[0:n]] with Python's reading of a negative [n] *)
Definition pyslice0 {A} (l : list A) (n : Z) : list A :=
  slice l 0 (if n <? 0 then zlen l + n else n).

(** dos33.py 296-311: get_track_sector_list: the list's own sectors and
    sector_map *)
Definition get_tslist (fuel : nat) (h : hdr33) (bytes : list Z) (d : ent) : res (list Z * list Z) :=
  let! (tl, m) := ts_loop fuel h bytes (from_ts (d3_track d) (d3_sector d)) in
  Ok (tl, pyslice0 m (d3_count d - zlen tl)).

(** dos33.py 330-344 and 578-582: read_sector until the last one; runs of (position,
    length) *)
Fixpoint read_map (h : hdr33) (bytes : list Z) (m : list Z) : res (list (Z * Z)) :=
  match m with
  | [] => Ok []
  | n :: r =>
      let! (raw, pos) := get_raw3 h bytes n in
      let! rest := read_map h bytes r in
      Ok ((pos, zlen raw) :: rest)
  end.

(** dos33.py 575-597 and 322-328 with diskimages.py 294-296: get_file.  An empty map makes
    read_sector ask for sector -1 (NameError).  No bytes at all: EmptySegment,
    whose tobytes is the whole raw data.  For type B the first two bytes are
    read again (dos33.py 355-359), IndexError if there are none. *)
Definition get_file_fuel3 (fuel : nat) (im : img33) (d : ent) : res (list Z) :=
  if negb (d3_sane d) then Err (EAtr InvalidDirent)
  else
    let! (_, m) := get_tslist fuel (i_hdr im) (i_bytes im) d in
    match m with
    | [] => Err EName
    | n0 :: _ =>
        let! runs := read_map (i_hdr im) (i_bytes im) m in
        if forallb (fun r => snd r =? 0) runs then Ok (i_bytes im)
        else
          let! _ := (if d3_type d =? 4 then
                       let! (raw, _) := get_raw3 (i_hdr im) (i_bytes im) n0 in
                       if zlen raw <? 2 then Err EIndex else Ok tt
                     else Ok tt) in
          Ok (flat_map (fun r => slice (i_bytes im) (fst r) (fst r + snd r)) runs)
    end.
Definition get_file3 (im : img33) (d : ent) : res (list Z) :=
  get_file_fuel3 (fuel33 (i_hdr im)) im d.

(** diskimages.py 281-288: find_dirent by name, among the listed files *)
Fixpoint find_name3 (name : list Z) (ds : list ent) : option ent :=
  match ds with
  | [] => None
  | d :: r => if zlist_eqb name (d3_name d) then Some d else find_name3 name r
  end.
(** diskimages.py 290-292: find_file *)
Definition find_file3 (im : img33) (name : list Z) : res (list Z) :=
  match find_name3 name (i_files im) with
  | None => Err (EAtr FileNotFound)
  | Some d => get_file3 im d
  end.

(* ------------------------------------------------------------------ *)
(** * The volume table of contents *)

(** dos33.py 92: [vtoc[0x38:].reshape((-1,4))[:,:2].flatten()] *)
Fixpoint take2of4 (l : list Z) : list Z :=
  match l with a :: b :: _ :: _ :: r => a :: b :: take2of4 r | _ => [] end.
(** dos33.py 112: [vtoc[:,:2] = packed] *)
Fixpoint put2of4 (l p : list Z) : list Z :=
  match l, p with
  | _ :: _ :: c :: d :: r, x :: y :: p' => x :: y :: c :: d :: put2of4 r p'
  | _, _ => l
  end.
(** dos33.py 62, 100, 109: [bits[vtoc_bit_reorder_index]]: every group of 16 reversed *)
Fixpoint rev16 (n : nat) (l : list Z) : list Z :=
  match n with O => [] | S n' => rev (firstn 16 l) ++ rev16 n' (skipn 16 l) end.

(** dos33.py 64-101: Dos33VTOC.parse_segments with utils.py 302 *)
Definition parse_vtoc3 (v : list Z) : list Z :=
  rev16 50 (unpackbits (take2of4 (slice v 0x38 256))) ++ zrepeat 0 480.

(** dos33.py 103-118: Dos33VTOC.calc_bitmap on the 256 bytes of the VTOC *)
Definition pack_vtoc3 (v smap : list Z) : list Z :=
  slice v 0 0x38 ++ put2of4 (slice v 0x38 256) (packbits (rev16 50 smap)).
(** [self.vtoc] is a view on the image (dos33.py 84, 502-507), so the bitmap
    lands in the image at once. *)
Definition calc_bitmap3 (bytes smap : list Z) : list Z * wsector :=
  let v := pack_vtoc3 (slice bytes (272 * 256) (272 * 256 + 256)) smap in
  (setslice bytes (272 * 256) v, make_sector 256 v 272).

(** diskimages.py 332-335 with dos33.py 502-507: the VTOC object's sector map *)
Definition get_smap3 (im : img33) : res (list Z) :=
  let! (v, _) := get_raw3 (i_hdr im) (i_bytes im) 272 in Ok (parse_vtoc3 v).

(* ------------------------------------------------------------------ *)
(** * Writing, deleting, shredding *)

(** dos33.py 25-33: the data of a new track/sector list sector; IndexError
    beyond the 122nd pair *)
Definition ts_data (nums : list Z) : res (list Z) :=
  if 122 <? zlen nums then Err EIndex
  else Ok (zrepeat 0 12 ++ flat_map (fun n => [u8 (n / 16); u8 (n mod 16)]) nums
           ++ zrepeat 0 (244 - 2 * zlen nums)).

(** dos33.py 271-277: the loop of add_metadata_sectors.  Fuel: one unit per
    list sector. *)
Fixpoint ts_chunks (fuel : nat) (pairs : Z) (nums : list Z) : res (list wsector) :=
  match nums with
  | [] => Ok []
  | _ =>
      match fuel with
      | O => Err EFuel
      | S f =>
          let! d := ts_data (slice nums 0 pairs) in
          let! rest := ts_chunks f pairs (slice nums pairs (zlen nums)) in
          Ok (mkS (-1) 256 0 d 256 0 :: rest)
      end
  end.

(** dos33.py 51-56: Dos33TSSector.next_sector_num setter *)
Definition ts_setnext (s : wsector) (value : Z) : wsector :=
  set_data s (setslice (s_data s) 1 [u8 (value / 16); u8 (value mod 16)]).
(** utils.py 90-92: the setter of a plain sector does not touch the data *)
Definition plain_setnext (s : wsector) (value : Z) : wsector := s.

(** dos33.py 126-130: Dos33Directory.get_dirent_sector *)
Definition fresh_cat : wsector := fst (add_data (new_sector 256 (-1)) (zrepeat 0 11)).

(** dos33.py 140-149 and 564-573: set_sector_numbers with
    get_directory_sector_links *)
Fixpoint number_cat (h : hdr33) (bytes : list Z) (cur : Z) (l : list wsector) : res (list wsector) :=
  match l with
  | [] => Ok []
  | s :: r =>
      let c := if cur =? -1 then h_fdir h else cur in
      let! _ := assert_valid3 h c in
      let! (raw, _) := get_raw3 h bytes c in
      let! next := link_of raw in
      if next =? 0 then Err (EAtr NoSpaceInDirectory)
      else
        let! rest := number_cat h bytes next r in
        Ok (set_num (set_data s (setslice (s_data s) 1 [u8 (next / 16); u8 (next mod 16)])) c :: rest)
  end.

Fixpoint encode_all (ds : list ent) : res (list (list Z)) :=
  match ds with
  | [] => Ok []
  | d :: r => let! e := encode_ent d in let! es := encode_all r in Ok (e :: es)
  end.

(** utils.py 249-267 and 288-291: calc_sectors for the catalog *)
Definition cat_sectors (h : hdr33) (bytes : list Z) (ds : list ent) : res (list wsector) :=
  let! es := encode_all ds in
  let! l := calc_dir_sectors fresh_cat es in
  number_cat h bytes (-1) l.

Definition set_ent (ds : list ent) (i : Z) (d : ent) : list ent :=
  if i <? zlen ds then upd ds i d else ds ++ [d].

Definition lift3 {A B} (im : img33) (r : res A) (k : A -> img33 * res B) : img33 * res B :=
  match r with Ok a => k a | Err e => (im, Err e) end.

(** diskimages.py 346-355: the try block of write_file, including
    utils.py 234-238 (save_dirent), 322-343 (assign_sector_numbers) and
    dos33.py 264-281. *)
Definition write_body3 (im : img33) (name ft data : list Z) : img33 * res unit :=
  match get_directory3 im with
  | (im0, Err e) => (im0, Err e)
  | (im0, Ok ds) =>
      let h := i_hdr im0 in
      let idx := free_index (map (fun d => negb (d3_del d)) ds) 0 in
      lift3 im0 (build_sectors (length data) 256 256 data) (fun secs =>
      lift3 im0 (get_smap3 im0) (fun smap =>
      match reserve (length secs) smap with
      | None => (im0, Err (EAtr NotEnoughSpaceOnDisk))
      | Some (order, smap1) =>
          let (bytes1, vsec1) := calc_bitmap3 (i_bytes im0) smap1 in
          let im1 := with_bytes3 im0 bytes1 in
          let secs' := link_loop plain_setnext 0 None (combine secs order) in
          lift3 im1 (if h_pairs h =? 0 then Err EValue
                     else ts_chunks (length secs) (h_pairs h) (map s_num secs')) (fun ts =>
          match reserve (length ts) smap1 with
          | None => (im1, Err (EAtr NotEnoughSpaceOnDisk))
          | Some (order2, smap2) =>
              let (bytes2, vsec2) := calc_bitmap3 bytes1 smap2 in
              let im2 := with_bytes3 im0 bytes2 in
              let ts' := link_loop ts_setnext 0 None (combine ts order2) in
              match ts' with
              | [] => (im2, Err EIndex)
              | t0 :: _ =>
                  let d1 := set_start (new_ent name ft) (s_num t0 / 16) (s_num t0 mod 16)
                                      (zlen secs' + zlen ts') in
                  lift3 im2 (cat_sectors h bytes2 (set_ent ds idx d1)) (fun csecs =>
                  let (bytes3, r3) := write_sectors (get_pos3 h) (secs' ++ ts') bytes2 in
                  lift3 (with_bytes3 im2 bytes3) r3 (fun _ =>
                  let (bytes4, r4) := write_sectors (get_pos3 h) [vsec1; vsec2] bytes3 in
                  lift3 (with_bytes3 im2 bytes4) r4 (fun _ =>
                  let (bytes5, r5) := write_sectors (get_pos3 h) csecs bytes4 in
                  (with_bytes3 im2 bytes5, r5))))
              end
          end)
      end))
  end.

(** diskimages.py 324-330: the saved state consists of views, so restoring it
    copies the bytes onto themselves. *)
Definition rollback3 (im : img33) : img33 := with_bytes3 im (i_bytes im).

(** try / except AtrError: rollback, raise / finally: get_metadata *)
Definition transact3 (im : img33) (body : img33 -> img33 * res unit) : img33 * res unit :=
  let (im1, r) := body im in
  let im2 := match r with
             | Err e => if is_atr e then rollback3 im1 else im1
             | Ok _ => im1
             end in
  match get_metadata3 im2 with
  | (im3, Err e) => (im3, Err e)
  | (im3, Ok _) => (im3, r)
  end.

(** diskimages.py 337-360: write_file *)
Definition write_file3 (im : img33) (name ft data : list Z) : img33 * res unit :=
  transact3 im (fun im0 => write_body3 im0 name ft data).

(** utils.py 222-232: Directory.find_dirent by name, over all entries *)
Fixpoint find_index3 (name : list Z) (ds : list ent) (i : Z) : option (Z * ent) :=
  match ds with
  | [] => None
  | d :: r => if zlist_eqb name (d3_name d) then Some (i, d) else find_index3 name r (i + 1)
  end.

(** diskimages.py 381-389: the try block of delete_file, with utils.py 240-243
    (remove_dirent), 365-368 (free_sector_list) and dos33.py 313-320
    (get_sectors_in_vtoc). *)
Definition delete_body3 (im : img33) (name : list Z) : img33 * res unit :=
  match get_directory3 im with
  | (im0, Err e) => (im0, Err e)
  | (im0, Ok ds) =>
      let h := i_hdr im0 in
      match find_index3 name ds 0 with
      | None => (im0, Err (EAtr FileNotFound))
      | Some (i, d) =>
          lift3 im0 (get_tslist (fuel33 h) h (i_bytes im0) d) (fun '(tl, m) =>
          lift3 im0 (get_smap3 im0) (fun smap =>
          lift3 im0 (free_sectors (tl ++ m) smap) (fun smap' =>
          let (bytes1, vsec) := calc_bitmap3 (i_bytes im0) smap' in
          let im1 := with_bytes3 im0 bytes1 in
          lift3 im1 (cat_sectors h bytes1 (upd ds i (mark_del d))) (fun csecs =>
          let (bytes2, r2) := write_sectors (get_pos3 h) [vsec] bytes1 in
          lift3 (with_bytes3 im1 bytes2) r2 (fun _ =>
          let (bytes3, r3) := write_sectors (get_pos3 h) csecs bytes2 in
          (with_bytes3 im1 bytes3, r3))))))
      end
  end.

(** diskimages.py 379-394: delete_file *)
Definition delete_file3 (im : img33) (name : list Z) : img33 * res unit :=
  transact3 im (fun im0 => delete_body3 im0 name).

(** diskimages.py 396-402 with utils.py 314-317 (iter_free_sectors) and
    diskimages.py 57-62 (iter_sectors): [n] sectors left, current number [i].
    [self.bytes[pos:pos+size] = fill] clamps to the image. *)
Fixpoint shred_loop3 (n : nat) (smap : list Z) (fill i : Z) (bytes : list Z) : list Z * res unit :=
  match n with
  | O => (bytes, Ok tt)
  | S n' =>
      if zlen smap <=? i then (bytes, Err EIndex)
      else
        let bytes' :=
          if getb smap i =? 1
          then setslice bytes (i * 256)
                 (zrepeat (u8 fill) (zlen (slice bytes (i * 256) (i * 256 + 256))))
          else bytes in
        shred_loop3 n' smap fill (i + 1) bytes'
  end.
Definition shred_body3 (im : img33) (fill : Z) : img33 * res unit :=
  lift3 im (get_smap3 im) (fun smap =>
  let (b, r) := shred_loop3 (Z.to_nat (h_max3 (i_hdr im))) smap fill 0 (i_bytes im) in
  (with_bytes3 im b, r)).

(** diskimages.py 396-407: shred *)
Definition shred3 (im : img33) (fill : Z) : img33 * res unit :=
  transact3 im (fun im0 => shred_body3 im0 fill).
