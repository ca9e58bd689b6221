(** An Atari 8-bit computer with a disk drive, as far as a boot loader sees it: hardware
    registers, and the operating system's routine for serial input and output.  Written
    from the documentation of the computer. *)
From Verif Require Import Base ExecModel ExecSpec CpuModel.

(** Hardware registers.  What is written there has no effect on memory. *)
Definition hardware (a : Z) : bool := (0xd000 <=? a) && (a <? 0xd800).

(** Memory the operating system uses: its variables in page 0, 2 and 3 (not the two
    addresses a program leaves for the loader, and not the cells reserved for the disk
    operating system) and the stack below the stack pointer. *)
Definition os_work (sp a : Z) : bool :=
  ((0 <=? a) && (a <? 0x100) && negb ((0x18 <=? a) && (a <? 0x1c)) && negb ((0x43 <=? a) && (a <? 0x4a))) ||
  ((0x180 <=? a) && (a <=? 0x100 + sp)) ||
  ((0x200 <=? a) && (a <? 0x300) && negb ((0x2e0 <=? a) && (a <? 0x2e4))) ||
  ((0x30c <=? a) && (a <? 0x400)).

(** $E459: the request is in the device control block at $0300: device, unit, command,
    direction, buffer, timeout, length, sector.  Reading a sector of 128 bytes fills the
    buffer and returns status 1 in Y and in $0303, with flag N clear.  [img] is the disk
    as an ATR file: 16 bytes of header (with the size of the disk in units of 16 bytes
    and the size of a sector) and then the sectors, numbered from 1.  [junk]:
    what it leaves in registers, flags and its work areas.  Other requests, and sectors
    which the drive does not have, are not modelled. *)
Definition disk_size (img : list Z) : Z := 16 * (le2 (getb img 2) (getb img 3) + 65536 * getb img 6).
Definition sio (img : list Z) (junk : cpu unit -> Z -> Z) (s : cpu unit) : option (cpu unit) :=
  let m := mm s in
  let buf := le2 (m 0x304) (m 0x305) in
  let sec := le2 (m 0x30a) (m 0x30b) in
  if (m 0x300 =? 0x31) && (m 0x301 =? 1) && (m 0x302 =? 0x52) && (m 0x303 =? 0x40) && (le2 (m 0x308) (m 0x309) =? 128) &&
     (le2 (getb img 4) (getb img 5) =? 128) && (1 <=? sec) && (128 * sec <=? disk_size img) && (128 * sec <=? zlen img - 16)
  then
    let m' := fun a =>
      if (buf <=? a) && (a <? buf + 128) then getb img (16 + 128 * (sec - 1) + (a - buf))
      else if a =? 0x303 then 1
      else if os_work (rs s) a then junk s a
      else m a in
    Some (mkC (junk s (-1)) (junk s (-2)) 1 (u8 (rs s + 2))
            (u16 (le2 (m (256 + u8 (rs s + 1))) (m (256 + u8 (rs s + 2))) + 1))
            false false (junk s (-3) =? 0) m' tt)
  else None.
Definition atari_rom (img : list Z) (junk : cpu unit -> Z -> Z) (s : cpu unit) : option (option (cpu unit)) :=
  if pc s =? 0xe459 then Some (sio img junk s) else None.
Definition atari_reach (img : list Z) (junk : cpu unit -> Z -> Z) (bus : Z -> Z) : cpu unit -> cpu unit -> Prop :=
  reach unit hardware (fun d a => (bus a, d)) (fun d _ _ => d) (atari_rom img junk).

(** The operating system has read the boot sectors (the second byte of the first one
    tells how many) to the address in the third and fourth byte, and enters them at the
    seventh byte. *)
Definition booted (img : list Z) (s : cpu unit) : Prop :=
  let load := le2 (getb img 18) (getb img 19) in
  pc s = load + 6 /\ 0x90 <= rs s < 256 /\
  forall i, 0 <= i < 128 * getb img 17 -> mm s (load + i) = getb img (16 + i).

(** Memory a program may be loaded to: neither used by the operating system nor by the
    loader; and the two bytes that hold the start address. *)
Definition loadable (a : Z) : Prop := 0x400 <= a < 0x700 \/ 0x880 <= a < 0xc000 \/ 0x2e0 <= a < 0x2e2.
(** Memory after loading the pieces of an executable in order. *)
Definition place_piece (m : memory) (p : piece) : memory :=
  match p with
  | PSeg o d => fun a => if (o <=? a) && (a <? o + zlen d) then getb d (a - o) else m a
  | _ => m
  end.
Definition xex_memory (ps : list piece) (m : memory) : memory := fold_left place_piece ps m.

(** With routines that are called while loading: after each segment the routine whose address
    is at $02E2 is called, if there is one, and the address is cleared. *)
Definition writable (a : Z) : Prop := 0x400 <= a < 0x700 \/ 0x880 <= a < 0xc000 \/ 0x2e0 <= a < 0x2e4.
Definition clear_init (m : memory) : memory := upd (upd m 0x2e2 0) 0x2e3 0.
Inductive xex_loads (call : Z -> memory -> memory -> Prop) : list piece -> memory -> memory -> Prop :=
| XL_end m : xex_loads call [] m m
| XL_mark ps m m' : xex_loads call ps m m' -> xex_loads call (PMark :: ps) m m'
| XL_seg o d ps m m' : let m1 := place_piece m (PSeg o d) in
    m1 0x2e2 = 0 -> m1 0x2e3 = 0 -> xex_loads call ps m1 m' -> xex_loads call (PSeg o d :: ps) m m'
| XL_call o d ps m m2 m' : let m1 := place_piece m (PSeg o d) in
    ~ (m1 0x2e2 = 0 /\ m1 0x2e3 = 0) -> call (le2 (m1 0x2e2) (m1 0x2e3)) m1 m2 ->
    xex_loads call ps (clear_init m2) m' -> xex_loads call (PSeg o d :: ps) m m'.
(** What belongs to the loader while it calls a routine: itself, its sector buffer, its requests
    to the operating system, one cell in page 0 and the stack above the pointer. *)
Definition loaders (sp a : Z) : Prop :=
  a = 0x19 \/ 0x100 <= a < 0x180 \/ 0x100 + sp < a < 0x200 \/ 0x300 <= a < 0x303 \/ 0x304 <= a < 0x30c \/ 0x700 <= a < 0x7e3.
(** A routine at [addr] that returns to its caller and leaves these cells alone turns memory [m]
    into [m']. *)
Definition subroutine (img : list Z) (junk : cpu unit -> Z -> Z) (bus : Z -> Z) (addr : Z) (m m' : memory) : Prop :=
  forall s, pc s = addr -> 0x8e <= rs s < 254 -> (forall a, writable a -> mm s a = m a) ->
  exists s', atari_reach img junk bus s s' /\ rs s' = rs s + 2 /\
    pc s' = u16 (le2 (mm s (256 + (rs s + 1))) (mm s (256 + (rs s + 2))) + 1) /\
    (forall a, loaders (rs s) a -> mm s' a = mm s a) /\ (forall a, writable a -> mm s' a = m' a).
