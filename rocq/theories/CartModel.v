(** Model of the cartridge and ROM images: atrcopy/cartridge.py. *)
From Coq Require Import String.
From Verif Require Import Base.
Open Scope Z_scope.

(** * The table of cartridge types: cartridge.py 15-94 *)
(** An entry is a tuple: type, name, total size in KB, then, if it has six or more
    elements, size, offset and address of the fixed bank, and, if it has nine, size, first
    offset and address of the switched banks.  The entry for type 59 has seven elements:
    its address is the sixth, 0, and the seventh is never looked at. *)
Record cart := mkC {
  ct_type : Z; ct_name : string; ct_size : Z;
  ct_main : option (Z * Z * Z); ct_bank : option (Z * Z * Z) }.

Definition c_plain t n s := mkC t n s None None.
Definition c_fixed t n s a b c := mkC t n s (Some (a, b, c)) None.
Definition c_banked t n s a b c d e f := mkC t n s (Some (a, b, c)) (Some (d, e, f)).

Open Scope string_scope.
Definition known_cart_types : list cart := [
  c_plain 0 "" 0;
  c_fixed 57 "Standard 2 KB" 2 2 0 0xb800;
  c_fixed 58 "Standard 4 KB" 4 4 0 0xb000;
  c_fixed 59 "Right slot 4 KB" 4 4 0 0;
  c_fixed 1 "Standard 8 KB" 8 8 0 0xa000;
  c_plain 21 "Right slot 8 KB" 8;
  c_fixed 2 "Standard 16 KB" 16 16 0 0x8000;
  c_plain 44 "OSS 8 KB" 8;
  c_plain 15 "OSS one chip 16 KB" 16;
  c_banked 3 "OSS two chip (034M) 16 KB" 16 4 12 0xb000 4 0 0xa000;
  c_banked 45 "OSS two chip (043M) 16 KB" 16 4 12 0xb000 4 0 0xa000;
  c_banked 12 "XEGS 32 KB" 32 8 24 0xa000 8 0 0x8000;
  c_banked 13 "XEGS (banks 0-7) 64 KB" 64 8 56 0xa000 8 0 0x8000;
  c_banked 67 "XEGS (banks 8-15) 64 KB" 64 8 56 0xa000 8 0 0x8000;
  c_banked 14 "XEGS 128 KB" 128 8 120 0xa000 8 0 0x8000;
  c_banked 23 "XEGS 256 KB" 256 8 248 0xa000 8 0 0x8000;
  c_banked 24 "XEGS 512 KB" 512 8 504 0xa000 8 0 0x8000;
  c_banked 25 "XEGS 1 MB" 1024 8 1016 0xa000 8 0 0x8000;
  c_banked 33 "Switchable XEGS 32 KB" 32 8 24 0xa000 8 0 0x8000;
  c_banked 34 "Switchable XEGS 64 KB" 64 8 56 0xa000 8 0 0x8000;
  c_banked 35 "Switchable XEGS 128 KB" 128 8 120 0xa000 8 0 0x8000;
  c_banked 36 "Switchable XEGS 256 KB" 256 8 248 0xa000 8 0 0x8000;
  c_banked 37 "Switchable XEGS 512 KB" 512 8 504 0xa000 8 0 0x8000;
  c_banked 38 "Switchable XEGS 1 MB" 1024 8 1016 0xa000 8 0 0x8000;
  c_plain 22 "Williams 32 KB" 32;
  c_plain 8 "Williams 64 KB" 64;
  c_plain 9 "Express 64 KB" 64;
  c_plain 10 "Diamond 64 KB" 64;
  c_plain 11 "SpartaDOS X 64 KB" 64;
  c_plain 43 "SpartaDOS X 128 KB" 128;
  c_plain 17 "Atrax 128 KB" 128;
  c_plain 18 "Bounty Bob 40 KB" 40;
  c_plain 26 "MegaCart 16 KB" 16;
  c_plain 27 "MegaCart 32 KB" 32;
  c_plain 28 "MegaCart 64 KB" 64;
  c_plain 29 "MegaCart 128 KB" 128;
  c_plain 30 "MegaCart 256 KB" 256;
  c_plain 31 "MegaCart 512 KB" 512;
  c_plain 32 "MegaCart 1 MB" 1024;
  c_plain 39 "Phoenix 8 KB" 8;
  c_plain 46 "Blizzard 4 KB" 4;
  c_fixed 40 "Blizzard 16 KB" 16 16 0 0x8000;
  c_plain 60 "Blizzard 32 KB" 32;
  c_plain 41 "Atarimax 128 KB Flash" 128;
  c_plain 42 "Atarimax 1 MB Flash" 1024;
  c_plain 47 "AST 32 KB" 32;
  c_plain 48 "Atrax SDX 64 KB" 64;
  c_plain 49 "Atrax SDX 128 KB" 128;
  c_plain 50 "Turbosoft 64 KB" 64;
  c_plain 51 "Turbosoft 128 KB" 128;
  c_plain 52 "Ultracart 32 KB" 32;
  c_fixed 53 "Low bank 8 KB" 8 8 0 0x8000;
  c_plain 5 "DB 32 KB" 32;
  c_plain 54 "SIC! 128 KB" 128;
  c_plain 55 "SIC! 256 KB" 256;
  c_plain 56 "SIC! 512 KB" 512;
  c_plain 61 "MegaMax 2 MB" 2048;
  c_plain 62 "The!Cart 128 MB" (128 * 1024);
  c_plain 63 "Flash MegaCart 4 MB" 4096;
  c_plain 64 "MegaCart 2 MB" 2048;
  c_plain 65 "The!Cart 32 MB" (32 * 1024);
  c_plain 66 "The!Cart 64 MB" (64 * 1024);
  c_fixed 20 "Standard 4 KB 5200" 4 4 0 0x8000;
  c_fixed 19 "Standard 8 KB 5200" 8 8 0 0x8000;
  c_fixed 4 "Standard 32 KB 5200" 32 32 0 0x4000;
  c_plain 16 "One chip 16 KB 5200" 16;
  c_plain 6 "Two chip 16 KB 5200" 16;
  c_plain 7 "Bounty Bob 40 KB 5200" 40 ].
Definition is_5200 (name : string) : bool :=
  match index 0 "5200" name with Some _ => true | None => false end.
Close Scope string_scope.

(** cartridge.py 96, 107-111: the map keeps the last entry of a type; every type occurs once
    (proved), so the first is the same. *)
Definition get_cart (t : Z) : res cart :=
  match find (fun c => ct_type c =? t) known_cart_types with
  | Some c => Ok c
  | None => Err (EAtr InvalidDiskImage)
  end.

(** * A8CartHeader: cartridge.py 114-197 *)
(** [possible_types] (set by check_size, lines 189-197) is never read. *)
Record cheader := mkH {
  h_type : Z; h_name : string; h_size : Z; h_crc : Z; h_off : Z;
  h_banks : list Z; h_bsize : Z; h_borigin : Z;
  h_msize : Z; h_moff : Z; h_morigin : Z }.
(** lines 126-141: A8CartHeader() *)
Definition no_header : cheader := mkH (-1) EmptyString 0 0 0 [] 0 0 0 0 0.
(** lines 181-187: the bank offsets.  Fuel: the number of KB that are left. *)
Fixpoint bank_loop (fuel : nat) (s offset bsize : Z) : res (list Z) :=
  if 0 <? s then
    match fuel with
    | O => Err EFuel
    | S fuel' => let! r := bank_loop fuel' (s - bsize) (offset + bsize) bsize in Ok (offset :: r)
    end
  else Ok [].
(** lines 170-187: set_type, on a new header *)
Definition set_type (h : cheader) (t : Z) : res cheader :=
  let! c := get_cart t in
  let '(ms, mo, ma) := match ct_main c with Some x => x | None => (ct_size c, h_moff h, h_morigin h) end in
  match ct_bank c with
  | None => Ok (mkH t (ct_name c) (ct_size c) (h_crc h) (h_off h) (h_banks h) (h_bsize h) (h_borigin h) ms mo ma)
  | Some (bs, bo, ba) =>
      let! banks := bank_loop (Z.to_nat (ct_size c - ms)) (ct_size c - ms) bo bs in
      Ok (mkH t (ct_name c) (ct_size c) (h_crc h) (h_off h) banks bs ba ms mo ma)
  end.
Definition be4 (a b c d : Z) : Z := 16777216 * a + 65536 * b + 256 * c + d.
Definition put_be4 (x : Z) : list Z := [u8 (x / 16777216); u8 (x / 65536); u8 (x / 256); u8 x].
Definition cart_magic : list Z := [67; 65; 82; 84].
(** lines 142-155: A8CartHeader(bytes) *)
Definition read_cart_header (b : list Z) : res cheader :=
  if zlen b =? 16 then
    if zlist_eqb (slice b 0 4) cart_magic then
      let ty := be4 (getb b 4) (getb b 5) (getb b 6) (getb b 7) in
      let crc := be4 (getb b 8) (getb b 9) (getb b 10) (getb b 11) in
      set_type (mkH ty EmptyString 0 crc 16 [] 0 0 0 0 0) ty
    else Err (EAtr InvalidCartHeader)
  else Err (EAtr InvalidCartHeader).
(** lines 161-168: to_array *)
Definition header_array (h : cheader) : list Z :=
  cart_magic ++ put_be4 (h_type h) ++ put_be4 (h_crc h) ++ [0; 0; 0; 0].

(** * Cartridge images: cartridge.py 200-303 *)
Record cimage := mkCI { ci_bytes : list Z; ci_type : Z; ci_hdr : cheader }.
(** lines 222-231: check_size *)
Definition cart_check_size (im : cimage) : res unit :=
  let h := ci_hdr im in
  if h_type h =? -1 then Ok tt
  else
    let n := zlen (ci_bytes im) - h_off h in
    let! c := get_cart (h_type h) in
    if 0 <? n mod 1024 then Err (EAtr InvalidDiskImage)
    else if negb (n / 1024 =? ct_size c) then Err (EAtr InvalidDiskImage) else Ok tt.
(** lines 204-209, 279-283 with diskimages.py 154-159 *)
Definition open_cart (b : list Z) (t : Z) : res cimage :=
  let! _ := get_cart t in
  let! h := match read_cart_header (slice b 0 16) with
            | Err (EAtr InvalidCartHeader) => Ok no_header
            | r => r
            end in
  let im := mkCI b t h in
  let! _ := cart_check_size im in Ok im.
Inductive machine := AnyMachine | HomeComputer | A5200.
(** lines 285-303: strict_check *)
Definition cart_strict (k : machine) (im : cimage) : res unit :=
  let h := ci_hdr im in
  if match k with AnyMachine => false | HomeComputer => is_5200 (h_name h) | A5200 => negb (is_5200 (h_name h)) end
  then Err (EAtr InvalidDiskImage)
  else if h_type h =? -1 then Err (EAtr InvalidDiskImage)
  else if negb (h_type h =? ci_type im) then Err (EAtr InvalidDiskImage)
  else Ok tt.
(** lines 214-220: relaxed_check *)
Definition cart_relaxed (im : cimage) : res cimage :=
  if negb (h_type (ci_hdr im) =? ci_type im) then
    let! h := set_type no_header (ci_type im) in
    let im' := mkCI (ci_bytes im) (ci_type im) h in
    let! _ := cart_check_size im' in Ok im'
  else Ok im.
(** lines 233-262: the segments, as kind, first byte, address and bytes *)
Inductive ckind := KHeader | KMain | KBank (n : Z).
Record cseg := mkCS { cs_kind : ckind; cs_start : Z; cs_origin : Z; cs_data : list Z }.
Definition main_segment (im : cimage) : cseg :=
  let h := ci_hdr im in
  let start := h_off h + h_moff h * 1024 in
  mkCS KMain start (h_morigin h) (slice (ci_bytes im) start (start + h_msize h * 1024)).
Fixpoint bank_segments (im : cimage) (n : Z) (banks : list Z) : list cseg :=
  match banks with
  | [] => []
  | o :: r =>
      let h := ci_hdr im in
      let start := h_off h + o * 1024 in
      mkCS (KBank n) start (h_borigin h) (slice (ci_bytes im) start (start + h_bsize h * 1024))
      :: bank_segments im (n + 1) r
  end.
Definition cart_segments (im : cimage) : list cseg :=
  let i := h_off (ci_hdr im) in
  (if 0 <? i then [mkCS KHeader 0 0 (slice (ci_bytes im) 0 i)] else [])
  ++ main_segment im :: bank_segments im 1 (h_banks (ci_hdr im)).
(** lines 264-276: create_emulator_boot_segment; the stored checksum becomes 0 *)
Definition boot_bytes (im : cimage) : list Z :=
  if zlen (ci_bytes im) mod 1024 =? 0 then
    let h := ci_hdr im in
    header_array (mkH (h_type h) (h_name h) (h_size h) 0 (h_off h) (h_banks h) (h_bsize h) (h_borigin h) (h_msize h) (h_moff h) (h_morigin h))
    ++ ci_bytes im
  else ci_bytes im.

(** * Recognising cartridges: parsers.py 143-166, 398-416 with 69-101 *)
(** cartridge.py 99-104 (get_known_carts): the classes made for the types, by size; within a size in table order.  The classes
    Atari8bitCartParser and Atari5200CartParser, of type 0, come first. *)
Fixpoint insert_size (c : cart) (l : list cart) : list cart :=
  match l with
  | [] => [c]
  | x :: r => if ct_size c <? ct_size x then c :: l else x :: insert_size c r
  end.
Definition by_size : list cart := fold_left (fun l c => insert_size c l) (tl known_cart_types) [].
Definition cart_parsers (k : machine) : list Z :=
  0 :: map ct_type (filter (fun c => match k with HomeComputer => negb (is_5200 (ct_name c)) | A5200 => is_5200 (ct_name c) | AnyMachine => true end) by_size).
(** SegmentParser.parse, strict *)
Definition cart_parse (k : machine) (b : list Z) (t : Z) : res cimage :=
  match (let! im := open_cart b t in let! _ := cart_strict k im in Ok im) with
  | Err (EAtr UnsupportedDiskImage) => Err (EAtr UnsupportedDiskImage)
  | Err (EAtr _) => Err (EAtr InvalidSegmentParser)
  | r => r
  end.
(** guess_parser_for_mime *)
Fixpoint guess_cart (k : machine) (b : list Z) (l : list Z) : res (option cimage) :=
  match l with
  | [] => Ok None
  | t :: r => match cart_parse k b t with
              | Ok im => Ok (Some im)
              | Err (EAtr InvalidSegmentParser) => guess_cart k b r
              | Err e => Err e
              end
  end.

(** * ROM images: cartridge.py 316-341 *)
Definition open_rom (b : list Z) : res (list Z) :=
  if negb (Z.land (zlen b) (zlen b - 1) =? 0) then Err (EAtr InvalidDiskImage) else Ok b.
(** lines 331-334: the one segment *)
Definition rom_segments (b : list Z) : list cseg := [mkCS KMain 0 0 b].
