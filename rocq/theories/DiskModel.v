(** Model of the code shared by all disk image formats:
    atrcopy/utils.py (sectors, sector lists, VTOC, directory) and
    atrcopy/diskimages.py (sector list writing). *)
From Verif Require Import Base.

(** utils.py 63-109, class WriteableSector.  Fields not listed
    ([_next_sector]) are never read. *)
Record wsector := mkS {
  s_num : Z;          (* _sector_num *)
  s_size : Z;         (* sector_size *)
  s_fnum : Z;         (* file_num *)
  s_data : list Z;    (* data, always sector_size bytes *)
  s_used : Z;         (* used *)
  s_ptr : Z }.        (* ptr *)

(** utils.py 64-73 without the initial data *)
Definition new_sector (size num : Z) : wsector :=
  mkS num size 0 (zrepeat 0 size) 0 0.

(** utils.py 102-109: WriteableSector.add_data.  Returns the sector and the
    data that did not fit. *)
Definition add_data (s : wsector) (d : list Z) : wsector * list Z :=
  let count := if s_size s <? s_ptr s + zlen d then s_size s - s_ptr s else zlen d in
  (mkS (s_num s) (s_size s) (s_fnum s)
       (setslice (s_data s) (s_ptr s) (slice d 0 count))
       (s_used s + count) (s_ptr s + count),
   slice d count (zlen d)).

(** utils.py 64-73: WriteableSector(sector_size, data, num) *)
Definition make_sector (size : Z) (d : list Z) (num : Z) : wsector :=
  fst (add_data (new_sector size num) d).

Definition set_num (s : wsector) (n : Z) : wsector :=
  mkS n (s_size s) (s_fnum s) (s_data s) (s_used s) (s_ptr s).
Definition set_fnum (s : wsector) (f : Z) : wsector :=
  mkS (s_num s) (s_size s) f (s_data s) (s_used s) (s_ptr s).
Definition set_data (s : wsector) (d : list Z) : wsector :=
  mkS (s_num s) (s_size s) (s_fnum s) d (s_used s) (s_ptr s).

(** utils.py 134-137: BaseSectorList.first_sector *)
Definition first_sector (l : list wsector) : Z :=
  match l with [] => -1 | s :: _ => s_num s end.

(** utils.py 353-360: VTOC.get_next_free_sector.  [None] is
    NotEnoughSpaceOnDisk. *)
Definition get_next_free (smap : list Z) : option (Z * list Z) :=
  match first_nonzero smap with
  | Some n => Some (n, upd smap n 0)
  | None => None
  end.

(** utils.py 345-351: VTOC.reserve_space up to (not including) calc_bitmap *)
Fixpoint reserve (n : nat) (smap : list Z) : option (list Z * list Z) :=
  match n with
  | O => Some ([], smap)
  | S n' =>
      match get_next_free smap with
      | None => None
      | Some (i, smap1) =>
          match reserve n' smap1 with
          | None => None
          | Some (order, smap2) => Some (i :: order, smap2)
          end
      end
  end.

(** utils.py 333-342: the linking loop of VTOC.assign_sector_numbers.
    [setnext] is the sector class's next_sector_num setter; [last] is the
    variable last_sector. *)
Fixpoint link_loop (setnext : wsector -> Z -> wsector) (fnum : Z)
    (last : option wsector) (ps : list (wsector * Z)) : list wsector :=
  match ps with
  | [] => match last with None => [] | Some l => [setnext l 0] end
  | (s, n) :: r =>
      let s' := set_fnum (set_num s n) fnum in
      let out := link_loop setnext fnum (Some s') r in
      match last with None => out | Some l => setnext l n :: out end
  end.

(** utils.py 366-367: the marking loop of VTOC.free_sector_list; IndexError
    for numbers outside the 1280-entry map. *)
Fixpoint free_sectors (nums : list Z) (smap : list Z) : res (list Z) :=
  match nums with
  | [] => Ok smap
  | n :: r => if (n <? 0) || (zlen smap <=? n) then Err EIndex
              else free_sectors r (upd smap n 1)
  end.

(** diskimages.py 362-371: DiskImageBase.build_sectors (with header.create_sector,
    diskimages.py 89-92).  Fuel: one unit per sector. *)
Fixpoint build_sectors (fuel : nat) (ssize payload : Z) (data : list Z) : res (list wsector) :=
  match data with
  | [] => Ok []
  | _ =>
      match fuel with
      | O => Err EFuel
      | S f =>
          let count := Z.min payload (zlen data) in
          let! rest := build_sectors f ssize payload (slice data count (zlen data)) in
          Ok (make_sector ssize (slice data 0 count) (-1) :: rest)
      end
  end.

(** [self.bytes[pos:pos+size] = data]: NumPy raises ValueError unless the
    lengths agree.  (Broadcasting of a one-byte source does not arise: sector
    data has sector_size >= 16 bytes.) *)
Definition np_assign (bytes : list Z) (pos size : Z) (d : list Z) : res (list Z) :=
  if zlen (slice bytes pos (pos + size)) =? zlen d
  then Ok (setslice bytes pos d) else Err EValue.

(** diskimages.py 373-377: DiskImageBase.write_sector_list.  Sectors already
    written stay written when a later one raises. *)
Fixpoint write_sectors (getpos : Z -> res (Z * Z)) (l : list wsector) (bytes : list Z)
  : list Z * res unit :=
  match l with
  | [] => (bytes, Ok tt)
  | s :: r =>
      match getpos (s_num s) with
      | Err e => (bytes, Err e)
      | Ok (pos, size) =>
          match np_assign bytes pos size (s_data s) with
          | Err e => (bytes, Err e)
          | Ok bytes' => write_sectors getpos r bytes'
          end
      end
  end.

(** utils.py 278-286: Directory.store_encoded.  State: finished sectors (in
    order) and the current one; [fresh] is get_dirent_sector().  Fuel: the
    loop adds at least one byte per turn as long as a fresh sector has room. *)
Fixpoint store_encoded (fuel : nat) (fresh : wsector) (done : list wsector)
    (cur : wsector) (d : list Z) : res (list wsector * wsector) :=
  match fuel with
  | O => Err EFuel
  | S f =>
      let (cur', d') := add_data cur d in
      match d' with
      | [] => Ok (done, cur')
      | _ => store_encoded f fresh (done ++ [cur']) fresh d'
      end
  end.

(** utils.py 254-267: the loop of Directory.calc_sectors followed by
    finish_encoding lines 289-290.  The dictionary of directory entries has the
    keys 0..n-1 without gaps (get_directory numbers entries consecutively and
    get_free_dirent returns an existing key or the next one), so it is a list
    here and encode_empty is never used. *)
Fixpoint store_all (fresh : wsector) (done : list wsector) (cur : wsector)
    (es : list (list Z)) : res (list wsector * wsector) :=
  match es with
  | [] => Ok (done, cur)
  | e :: r =>
      let! (done', cur') := store_encoded (length e + 2) fresh done cur e in
      store_all fresh done' cur' r
  end.

Definition calc_dir_sectors (fresh : wsector) (es : list (list Z)) : res (list wsector) :=
  let! (done, cur) := store_all fresh [] fresh es in
  Ok (if s_ptr cur =? 0 then done else done ++ [cur]).

(** utils.py 198-213: Directory.get_free_dirent with num_dirents = -1 (no
    format passes another value): the first entry not in use, else a new one. *)
Fixpoint free_index (in_use : list bool) (i : Z) : Z :=
  match in_use with
  | [] => i
  | b :: r => if b then free_index r (i + 1) else i
  end.
