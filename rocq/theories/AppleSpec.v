(** An Apple ][ with a Disk ][ drive, as far as a boot loader sees it: the screen
    switches, the stepper motor of the drive, and three routines in ROM.  Written from
    the documentation of the computer and of the drive. *)
From Verif Require Import Base SdSpec CpuModel.

(** The drive arm stands on half track [head]; track t is half track 2t.  Four magnets
    can be on or off.  The screen switches. *)
Record apple := mkA { head : Z; magnet : Z -> bool; graphics : bool; whole : bool; second : bool; hires : bool }.

(** A magnet next to the arm pulls it over by half a track, if it is not held and not
    pulled to the other side. *)
Definition pulled (h : Z) (mag : Z -> bool) : Z :=
  if mag (h mod 4) then h
  else if mag ((h + 1) mod 4) then (if mag ((h - 1) mod 4) then h else h + 1)
  else if mag ((h - 1) mod 4) then Z.max 0 (h - 1)
  else h.
Definition set_magnet (d : apple) (p : Z) (on : bool) : apple :=
  let mag := fun q => if q =? p then on else magnet d q in
  mkA (pulled (head d) mag) mag (graphics d) (whole d) (second d) (hires d).

(** What an address in the I/O page does, whether read or written.  The controller is in
    slot [slot]. *)
Definition io_page (a : Z) : bool := (0xc000 <=? a) && (a <? 0xc100).
Definition access (slot : Z) (d : apple) (a : Z) : apple :=
  if a =? 0xc050 then mkA (head d) (magnet d) true (whole d) (second d) (hires d)
  else if a =? 0xc051 then mkA (head d) (magnet d) false (whole d) (second d) (hires d)
  else if a =? 0xc052 then mkA (head d) (magnet d) (graphics d) true (second d) (hires d)
  else if a =? 0xc053 then mkA (head d) (magnet d) (graphics d) false (second d) (hires d)
  else if a =? 0xc054 then mkA (head d) (magnet d) (graphics d) (whole d) false (hires d)
  else if a =? 0xc055 then mkA (head d) (magnet d) (graphics d) (whole d) true (hires d)
  else if a =? 0xc056 then mkA (head d) (magnet d) (graphics d) (whole d) (second d) false
  else if a =? 0xc057 then mkA (head d) (magnet d) (graphics d) (whole d) (second d) true
  else let k := a - (0xc080 + 16 * slot) in
       if (0 <=? k) && (k <? 8) then set_magnet d (k / 2) (k mod 2 =? 1) else d.

(** Return from a subroutine. *)
Definition return_to (s : cpu apple) : Z := u16 (le2 (mm s (256 + u8 (rs s + 1))) (mm s (256 + u8 (rs s + 2))) + 1).

(** $F87B: the upper four bits of the accumulator. *)
Definition rom_nibble (s : cpu apple) : cpu apple :=
  let v := ra s / 16 in
  mkC v (rx s) (ry s) (u8 (rs s + 2)) (return_to s) (neg v) (zero v) (8 <=? ra s mod 16) (mm s) (dv s).
(** $FCA8: wait.  It ends with 0 in the accumulator and the carry set. *)
Definition rom_wait (s : cpu apple) : cpu apple :=
  mkC 0 (rx s) (ry s) (u8 (rs s + 2)) (return_to s) false true true (upd (mm s) (256 + rs s) 1) (dv s).

(** $Cs5C, s the slot: read sector [$3D] of track [$41] into the page [$27].  Uses page 3,
    $3C and the stack; leaves the track found in $40; adds one to $27 and $3D; goes on at
    $0801 with [$3D] in the accumulator.  If the arm is on another track it searches for
    ever.  [img] is the disk in DOS order; [junk] what it leaves in the places it uses. *)
Definition rom_read (slot : Z) (img : list Z) (junk : cpu apple -> Z -> Z) (s : cpu apple) : option (cpu apple) :=
  let m := mm s in
  let page := m 0x27 in let sec := m 0x3d in let track := m 0x41 in
  if negb ((rx s =? 16 * slot) && (head (dv s) =? 2 * track) && (m 0x26 =? 0) && (0 <=? sec) && (sec <? 16) &&
           (m 0x2b =? 16 * slot) && (4 <=? page) && (page <? 0xc0)) then None
  else
    let m' := fun a =>
      if a =? 0x27 then u8 (page + 1)
      else if a =? 0x3d then sec + 1
      else if a =? 0x40 then track
      else if (a =? 0x3c) || ((0x300 <=? a) && (a <? 0x400)) || ((0x100 <=? a) && (a <=? 0x100 + rs s)) then junk s a
      else if a / 256 =? page then getb img (256 * (16 * track + dos_place sec) + a mod 256)
      else m a in
    if sec + 1 <? m' 0x800 then None
    else Some (mkC (sec + 1) (16 * slot) (junk s (-1)) (rs s) 0x801 (neg (16 * slot)) (zero (16 * slot)) true m' (dv s)).

Definition apple_rom (slot : Z) (img : list Z) (junk : cpu apple -> Z -> Z) (s : cpu apple) : option (option (cpu apple)) :=
  if pc s =? 0xf87b then Some (Some (rom_nibble s))
  else if pc s =? 0xfca8 then Some (Some (rom_wait s))
  else if pc s =? 0xc05c + 256 * slot then Some (rom_read slot img junk s)
  else None.

(** The whole machine: [bus] is what a read of an I/O address gives. *)
Definition apple_reach (slot : Z) (img : list Z) (junk : cpu apple -> Z -> Z) (bus : apple -> Z -> Z) : cpu apple -> cpu apple -> Prop :=
  reach apple io_page (fun d a => (bus d a, access slot d a)) (fun d a _ => access slot d a) (apple_rom slot img junk).

(** The state in which the boot ROM enters a boot sector: the first sector of the disk is
    at $0800, one sector was read, the arm is on track 0, held by magnet 0. *)
Definition entered (slot : Z) (img : list Z) (s : cpu apple) : Prop :=
  1 <= slot <= 7 /\ pc s = 0x801 /\ ra s = 1 /\ rx s = 16 * slot /\ 16 <= rs s < 256 /\
  (forall i, 0 <= i < 256 -> mm s (0x800 + i) = getb img i) /\
  mm s 0x26 = 0 /\ mm s 0x27 = 9 /\ mm s 0x2b = 16 * slot /\ mm s 0x3d = 1 /\ mm s 0x40 = 0 /\ mm s 0x41 = 0 /\
  head (dv s) = 0 /\ forall q, 0 <= q < 4 -> magnet (dv s) q = (q =? 0).
(** Memory that neither the loader nor the routines in ROM use. *)
Definition spare (a : Z) : Prop := 0x200 <= a < 0xc000 /\ a / 256 <> 3 /\ a / 256 <> 8.
(** Which of the two screens the commands select last. *)
Fixpoint screen2 (cmds : list Z) (now : bool) : bool :=
  match cmds with
  | [] => now
  | c :: r => if c =? 0xc0 then now else screen2 r (if c =? 0xd1 then false else if c =? 0xd2 then true else now)
  end.
