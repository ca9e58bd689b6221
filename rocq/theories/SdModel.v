(** Model of atrcopy/standard_delivery.py and fstbt.py: Apple ][ boot disks in
    the Standard Delivery format. *)
From Verif Require Import Base.

(** fstbt.py 4: the loader *)
Definition fstbt : list Z :=
  [0x01; 0xa8; 0x8d; 0x50; 0xc0; 0x8d; 0x52; 0xc0; 0x8d; 0x57; 0xc0; 0xd0; 0x09; 0xc6; 0xfe; 0x10;
   0x36; 0xa9; 0xd0; 0x8d; 0x0b; 0x08; 0xee; 0x1a; 0x08; 0xad; 0x86; 0x08; 0xc9; 0xc0; 0xf0; 0x64;
   0xc9; 0xd0; 0xf0; 0xf2; 0xc9; 0xd1; 0xd0; 0x05; 0x8d; 0x54; 0xc0; 0xf0; 0xe9; 0xc9; 0xd2; 0xd0;
   0x05; 0x8d; 0x55; 0xc0; 0xf0; 0xe0; 0xc9; 0xe0; 0x90; 0x0b; 0x29; 0x1f; 0x85; 0xfe; 0xa9; 0x24;
   0x8d; 0x0b; 0x08; 0x10; 0xc6; 0x85; 0x27; 0xc8; 0xc0; 0x10; 0x90; 0x09; 0xf0; 0x05; 0x20; 0x67;
   0x08; 0xa8; 0x2c; 0xa0; 0x01; 0x84; 0x3d; 0xc8; 0xa5; 0x27; 0xf0; 0xba; 0x8a; 0x20; 0x7b; 0xf8;
   0x09; 0xc0; 0x48; 0xa9; 0x5b; 0x48; 0x60; 0xe6; 0x41; 0x06; 0x40; 0x20; 0x6f; 0x08; 0x18; 0x20;
   0x74; 0x08; 0xe6; 0x40; 0xa5; 0x40; 0x29; 0x03; 0x2a; 0x05; 0x2b; 0xa8; 0xb9; 0x80; 0xc0; 0xa9;
   0x30; 0x4c; 0xa8; 0xfc; 0x4c].

(** A segment as create_boot_image uses it: origin and bytes. *)
Record sdseg := mkSeg { sg_origin : Z; sg_data : list Z }.
Record chunk := mkChunk { c_start : Z; c_data : list Z; c_show : bool }.

(** standard_delivery.py 74-87: one chunk per segment *)
Definition mk_chunk (s : sdseg) : chunk :=
  let start := sg_origin s / 256 in
  let padding := sg_origin s mod 256 in
  let quiet := ((start =? 0x20) || (start =? 0x40)) && (padding =? 1) in
  let padding := if quiet then 0 else padding in
  let size := (zlen (sg_data s) + padding + 255) / 256 * 256 in
  mkChunk start (setslice (zrepeat 0 size) padding (sg_data s)) (negb quiet).

(** standard_delivery.py 100: sector_order *)
Definition sector_order : list Z := [0; 14; 13; 12; 11; 10; 9; 8; 7; 6; 5; 4; 3; 2; 1; 15].

(** standard_delivery.py 118: the page order of a hi-res screen *)
Definition hgr_order : list Z :=
  [0x20; 0x24; 0x28; 0x2c; 0x30; 0x34; 0x38; 0x3c; 0x21; 0x25; 0x29; 0x2d; 0x31; 0x35; 0x39; 0x3d;
   0x22; 0x26; 0x2a; 0x2e; 0x32; 0x36; 0x3a; 0x3e; 0x23; 0x27; 0x2b; 0x2f; 0x33; 0x37; 0x3b; 0x3f].

(** standard_delivery.py 124-129: the loop over groups of 32 pages; [l] is what
    is left of chunk_hi.  Fuel: one unit per group. *)
Fixpoint groups (fuel : nat) (l : list Z) : list Z :=
  match fuel with
  | O => []
  | S f =>
      match l with
      | [] => []
      | hi :: _ =>
          let subset := slice l 0 32 in
          (if 2 <? zlen subset then [hi; 0xe0 + zlen subset - 1] else subset) ++
          groups f (slice l 32 (zlen l))
      end
  end.

(** standard_delivery.py 114-131: chunk_hi and address_order *)
Definition chunk_hi (c : chunk) (first : bool) : list Z :=
  let count := zlen (c_data c) / 256 in
  if (c_start c =? 0x20) && (count =? 32) && first then hgr_order
  else zrange (c_start c) (c_start c + count).
Definition address_order (c : chunk) (first : bool) : list Z :=
  let count := zlen (c_data c) / 256 in
  let hi := chunk_hi c first in
  if (c_start c =? 0x20) && (count =? 32) && first then hi
  else if 2 <? zlen hi then groups (length hi) hi
  else hi.

(** standard_delivery.py 133-147: the sectors of a chunk, with the position
    (track, index into sector_order) moving on.  A sector is its number and its
    256 bytes (utils.py 63-73). *)
Fixpoint place (his : list Z) (c : chunk) (track index : Z) : list (Z * list Z) * Z * Z :=
  match his with
  | [] => ([], track, index)
  | hi :: r =>
      let i := (hi - c_start c) * 256 in
      let d := slice (c_data c) i (i + 256) in
      let d := d ++ zrepeat 0 (256 - zlen d) in
      let num := track * 16 + getb sector_order index in
      let '(track', index') := if 16 <=? index + 1 then (track + 1, 0) else (track, index + 1) in
      let '(secs, t, k) := place r c track' index' in
      ((num, d) :: secs, t, k)
  end.

(** standard_delivery.py 113-155: the loop over the chunks; sectors and
    commands *)
Fixpoint chunk_loop (cs : list chunk) (first : bool) (track index : Z)
  : list (Z * list Z) * list Z :=
  match cs with
  | [] => ([], [])
  | c :: r =>
      let '(secs, t, k) := place (chunk_hi c first) c track index in
      let show :=
        if c_show c then
          if c_start c =? 0x40 then [0xd2]
          else if c_start c =? 0x20 then (if first then [] else [0xd1])
          else []
        else [] in
      let first' := if c_show c && (c_start c =? 0x20) then false else first in
      let '(secs', cmds') := chunk_loop r first' t k in
      (secs ++ secs', address_order c first ++ show ++ cmds')
  end.

(** standard_delivery.py 166-172: get_fstbt_code on the 256 zero bytes of the
    boot sector.  Values wrap; a list that does not fit raises ValueError. *)
Definition boot_code (cmds : list Z) (run : Z) : res (list Z) :=
  let l := cmds ++ [0xc0] in
  if 256 <? 135 + zlen l then Err EValue
  else Ok (fstbt ++ [u8 (run mod 256); u8 (run / 256)] ++ map u8 l ++ zrepeat 0 (256 - (135 + zlen l))).

(** diskimages.py 64-75, 373-377: write_sector_list.  BaseHeader.get_pos raises
    NameError for a sector outside the disk (the exception it means to raise is
    not imported). *)
Fixpoint write_list (secs : list (Z * list Z)) (img : list Z) : res (list Z) :=
  match secs with
  | [] => Ok img
  | (n, d) :: r =>
      if (0 <=? n) && (n <? 560) then write_list r (setslice img (n * 256) d) else Err EName
  end.

(** standard_delivery.py 65-162: create_boot_image *)
Definition sd_create (segs : list sdseg) (run : option Z) : res (list Z) :=
  let! run := match run with
              | Some r => Ok r
              | None => match segs with s :: _ => Ok (sg_origin s) | [] => Err EIndex end
              end in
  let '(secs, cmds) := chunk_loop (map mk_chunk segs) true 0 1 in
  let! boot := boot_code (0xd1 :: cmds) run in
  write_list ((0, boot) :: secs) (zrepeat 0 143360).
