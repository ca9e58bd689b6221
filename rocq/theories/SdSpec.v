(** What the boot loader of a Standard Delivery disk does, written from the
    documentation of the loader and of the disk format, not from the code that
    makes the disk. *)
From Verif Require Import Base.

(** The loader reads the physical sectors of a track in this order ... *)
Definition physical (i : Z) : Z := if i <? 8 then 2 * i else 2 * i - 15.
(** ... and a DOS-order image file holds physical sector [p] at this place. *)
Definition dos_place (p : Z) : Z :=
  getb [0; 7; 14; 6; 13; 5; 12; 4; 11; 3; 10; 2; 9; 1; 8; 15] p.
(** Place in the image file of the [k]-th sector the loader meets (0 is the boot
    sector). *)
Definition place_of (k : Z) : Z := 16 * (k / 16) + dos_place (physical (k mod 16)).

(** Memory of the computer. *)
Definition mem := Z -> Z.
(** Load the [k]-th sector into a page.  Page 0 is not loaded: the sector is
    passed over. *)
Definition load (img : list Z) (k page : Z) (m : mem) : mem :=
  fun a => if (a / 256 =? page) && negb (page =? 0) then getb img (256 * place_of k + a mod 256) else m a.
Fixpoint load_many (n : nat) (img : list Z) (k page : Z) (m : mem) : mem :=
  match n with
  | O => m
  | S n => load_many n img (k + 1) (page + 1) (load img k page m)
  end.

(** The command list: $C0 ends it, $D0-$D2 select the screen, $E0-$FF load
    0-31 more pages after the last one, anything else is a page to load. *)
Fixpoint run_commands (cmds img : list Z) (k page : Z) (m : mem) : option mem :=
  match cmds with
  | [] => None
  | c :: r =>
      if c =? 0xc0 then Some m
      else if (c =? 0xd0) || (c =? 0xd1) || (c =? 0xd2) then run_commands r img k page m
      else if 0xe0 <=? c
           then let n := c - 0xe0 in
                run_commands r img (k + n) (page + n) (load_many (Z.to_nat n) img k page m)
           else run_commands r img (k + 1) (c + 1) (load img k c m)
  end.
(** The boot sector holds the command list from byte $87 on. *)
Definition boot (img : list Z) (m : mem) : option mem :=
  run_commands (slice img 0x87 256) img 1 0 m.
(** The address the loader jumps to: the operand of the JMP at $84. *)
Definition jump (img : list Z) : Z := le2 (getb img 0x85) (getb img 0x86).

(** A program: pieces with their load addresses.  What the pages of the program
    should hold: a page is that of the last piece touching it, zero where the
    piece has no byte. *)
Definition first_page (o : Z) : Z := o / 256.
Definition end_page (o len : Z) : Z := (o + len + 255) / 256.
Definition touches (o : Z) (d : list Z) (a : Z) : bool :=
  (first_page o <=? a / 256) && (a / 256 <? end_page o (zlen d)).
Definition piece_byte (o : Z) (d : list Z) (a : Z) : Z :=
  if (o <=? a) && (a <? o + zlen d) then getb d (a - o) else 0.
Definition pages (o : Z) (d : list Z) : Z := end_page o (zlen d) - first_page o.

(** A piece the loader can load: on pages 4-7 or 9-$BF.  (Pages 0, 1 and 3 are
    used by the loader and by the disk ROM, page 8 is the loader itself, $C0 is
    the I/O page, and from $D0 on page numbers are commands.) *)
Definition carried (o : Z) (d : list Z) : Prop :=
  ((0x400 <= o /\ end_page o (zlen d) <= 8) \/ (0x900 <= o /\ end_page o (zlen d) <= 0xc0)) /\
  Forall (fun b => 0 <= b < 256) d.
(** Load address $2001 or $4001 asks for a hi-res screen that is loaded at $2000
    or $4000 and not shown. *)
Definition shown (o : Z) : bool := negb ((o =? 0x2001) || (o =? 0x4001)).
Definition effective (p : Z * list Z) : Z * list Z :=
  (if shown (fst p) then fst p else fst p - 1, snd p).
(** Memory after loading the pieces one after the other. *)
Definition loaded (ps : list (Z * list Z)) (m : mem) : mem :=
  fun a => fold_left (fun v p => if touches (fst p) (snd p) a then piece_byte (fst p) (snd p) a else v) ps (m a).
(** Sectors and command bytes a program needs.  [seen]: a piece shown on the
    first hi-res screen has gone before. *)
Definition npages (p : Z * list Z) : Z := pages (fst (effective p)) (snd p).
Fixpoint total_pages (ps : list (Z * list Z)) : Z :=
  match ps with [] => 0 | p :: r => npages p + total_pages r end.
Definition piece_cost (seen : bool) (p : Z * list Z) : Z :=
  (if (first_page (fst p) =? 0x20) && (npages p =? 32) && negb seen then 32
   else 2 * (npages p / 32) + Z.min (npages p mod 32) 2) +
  (if negb (shown (fst p)) then 0
   else if first_page (fst p) =? 0x40 then 1 else if (first_page (fst p) =? 0x20) && seen then 1 else 0).
Fixpoint list_cost (seen : bool) (ps : list (Z * list Z)) : Z :=
  match ps with
  | [] => 0
  | p :: r => piece_cost seen p + list_cost (seen || ((first_page (fst p) =? 0x20) && shown (fst p))) r
  end.
