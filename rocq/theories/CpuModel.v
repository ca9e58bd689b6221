(** The 6502 processor, as far as the two boot loaders of this package use it:
    atrcopy/fstbt.py 4 (Apple) and atrcopy/kboot.py 84 (Atari) hold machine code that the
    package writes to boot disks.  Written from the data sheet of the processor.
    Simplifications: decimal mode is off, the flags V, I, D and B are not
    represented, there are no interrupts, and cycles are not counted. *)
From Verif Require Import Base.

Definition memory := Z -> Z.
Definition upd (m : memory) (a v : Z) : memory := fun x => if x =? a then v else m x.

(** Registers, flags N, Z, C, memory, and the state [D] of the devices. *)
Record cpu (D : Type) := mkC {
  ra : Z; rx : Z; ry : Z; rs : Z; pc : Z; fn : bool; fz : bool; fc : bool; mm : memory; dv : D }.
Arguments mkC {D} ra rx ry rs pc fn fz fc mm dv.
Arguments ra {D}. Arguments rx {D}. Arguments ry {D}. Arguments rs {D}. Arguments pc {D}.
Arguments fn {D}. Arguments fz {D}. Arguments fc {D}. Arguments mm {D}. Arguments dv {D}.

Definition neg (v : Z) : bool := 128 <=? v.
Definition zero (v : Z) : bool := v =? 0.
(** Target of a branch: the offset is a signed byte. *)
Definition rel (next o : Z) : Z := u16 (if 128 <=? o then next + o - 256 else next + o).

Section Cpu.
Variable D : Type.
(** Device registers: which addresses, what a read gives and does, what a write does. *)
Variable io : Z -> bool.
Variable io_read : D -> Z -> Z * D.
Variable io_write : D -> Z -> Z -> D.
(** Routines in ROM, run in one step: [None] if there is none at this address, [Some
    None] if it does not return. *)
Variable rom : cpu D -> option (option (cpu D)).

Definition rd (s : cpu D) (a : Z) : Z * D := if io a then io_read (dv s) a else (mm s a, dv s).
Definition wr (s : cpu D) (a v : Z) : memory * D := if io a then (mm s, io_write (dv s) a v) else (upd (mm s) a v, dv s).

(** What instructions leave behind: accumulator, X, Y with the flags of the value; a
    compare; a store; a changed cell; a jump. *)
Definition set_a (s : cpu D) (n v : Z) (d : D) : option (cpu D) := Some (mkC v (rx s) (ry s) (rs s) n (neg v) (zero v) (fc s) (mm s) d).
Definition set_x (s : cpu D) (n v : Z) (d : D) : option (cpu D) := Some (mkC (ra s) v (ry s) (rs s) n (neg v) (zero v) (fc s) (mm s) d).
Definition set_y (s : cpu D) (n v : Z) (d : D) : option (cpu D) := Some (mkC (ra s) (rx s) v (rs s) n (neg v) (zero v) (fc s) (mm s) d).
Definition compare (s : cpu D) (n r v : Z) (d : D) : option (cpu D) :=
  Some (mkC (ra s) (rx s) (ry s) (rs s) n (neg (u8 (r - v))) (r =? v) (v <=? r) (mm s) d).
Definition store (s : cpu D) (n a v : Z) : option (cpu D) :=
  let (m, d) := wr s a v in Some (mkC (ra s) (rx s) (ry s) (rs s) n (fn s) (fz s) (fc s) m d).
Definition modify (s : cpu D) (n a v : Z) (c : bool) : option (cpu D) :=
  let (m, d) := wr s a v in Some (mkC (ra s) (rx s) (ry s) (rs s) n (neg v) (zero v) c m d).
Definition goto (s : cpu D) (n : Z) : option (cpu D) := Some (mkC (ra s) (rx s) (ry s) (rs s) n (fn s) (fz s) (fc s) (mm s) (dv s)).
Definition branch (s : cpu D) (n o : Z) (taken : bool) : option (cpu D) := goto s (if taken then rel n o else n).
Definition push (m : memory) (sp v : Z) : memory := upd m (256 + sp) v.

(** One instruction: opcode [op] at [p], followed by the bytes [o1] and [o2]. *)
Definition exec (s : cpu D) (op o1 o2 : Z) : option (cpu D) :=
  let p := pc s in
  let n1 := u16 (p + 1) in let n2 := u16 (p + 2) in let n3 := u16 (p + 3) in
  let ab := le2 o1 o2 in
  match op with
  | 0x05 => let (v, d) := rd s o1 in set_a s n2 (Z.lor (ra s) v) d                      (* ORA zp *)
  | 0x06 => let v := fst (rd s o1) in modify s n2 o1 (u8 (2 * v)) (128 <=? v)             (* ASL zp *)
  | 0x09 => set_a s n2 (Z.lor (ra s) o1) (dv s)                                          (* ORA # *)
  | 0x0d => let (v, d) := rd s ab in set_a s n3 (Z.lor (ra s) v) d                      (* ORA abs *)
  | 0x10 => branch s n2 o1 (negb (fn s))                                                 (* BPL *)
  | 0x18 => Some (mkC (ra s) (rx s) (ry s) (rs s) n1 (fn s) (fz s) false (mm s) (dv s))  (* CLC *)
  | 0x20 =>                                                                              (* JSR *)
      let r := u16 (p + 2) in
      Some (mkC (ra s) (rx s) (ry s) (u8 (rs s - 2)) ab (fn s) (fz s) (fc s)
              (push (push (mm s) (rs s) (r / 256)) (u8 (rs s - 1)) (r mod 256)) (dv s))
  | 0x24 => let (v, d) := rd s o1 in                                                     (* BIT zp *)
      Some (mkC (ra s) (rx s) (ry s) (rs s) n2 (neg v) (zero (Z.land (ra s) v)) (fc s) (mm s) d)
  | 0x25 => let (v, d) := rd s o1 in set_a s n2 (Z.land (ra s) v) d                     (* AND zp *)
  | 0x29 => set_a s n2 (Z.land (ra s) o1) (dv s)                                         (* AND # *)
  | 0x2a => let v := u8 (2 * ra s + (if fc s then 1 else 0)) in                          (* ROL A *)
      Some (mkC v (rx s) (ry s) (rs s) n1 (neg v) (zero v) (128 <=? ra s) (mm s) (dv s))
  | 0x2c => let (v, d) := rd s ab in                                                     (* BIT abs *)
      Some (mkC (ra s) (rx s) (ry s) (rs s) n3 (neg v) (zero (Z.land (ra s) v)) (fc s) (mm s) d)
  | 0x48 => Some (mkC (ra s) (rx s) (ry s) (u8 (rs s - 1)) n1 (fn s) (fz s) (fc s)       (* PHA *)
              (push (mm s) (rs s) (ra s)) (dv s))
  | 0x4c => goto s ab                                                                    (* JMP abs *)
  | 0x60 => Some (mkC (ra s) (rx s) (ry s) (u8 (rs s + 2))                               (* RTS *)
              (u16 (le2 (mm s (256 + u8 (rs s + 1))) (mm s (256 + u8 (rs s + 2))) + 1))
              (fn s) (fz s) (fc s) (mm s) (dv s))
  | 0x6c => goto s (le2 (mm s ab) (mm s (256 * (ab / 256) + u8 (ab + 1))))               (* JMP (abs), not across pages *)
  | 0x84 => store s n2 o1 (ry s)                                                         (* STY zp *)
  | 0x85 => store s n2 o1 (ra s)                                                         (* STA zp *)
  | 0x86 => store s n2 o1 (rx s)                                                         (* STX zp *)
  | 0x8a => set_a s n1 (rx s) (dv s)                                                     (* TXA *)
  | 0x8c => store s n3 ab (ry s)                                                         (* STY abs *)
  | 0x8d => store s n3 ab (ra s)                                                         (* STA abs *)
  | 0x90 => branch s n2 o1 (negb (fc s))                                                 (* BCC *)
  | 0x91 => store s n2 (u16 (le2 (mm s o1) (mm s (u8 (o1 + 1))) + ry s)) (ra s)          (* STA (zp),Y *)
  | 0xa0 => set_y s n2 o1 (dv s)                                                         (* LDY # *)
  | 0xa2 => set_x s n2 o1 (dv s)                                                         (* LDX # *)
  | 0xa5 => let (v, d) := rd s o1 in set_a s n2 v d                                      (* LDA zp *)
  | 0xa6 => let (v, d) := rd s o1 in set_x s n2 v d                                      (* LDX zp *)
  | 0xa8 => set_y s n1 (ra s) (dv s)                                                     (* TAY *)
  | 0xa9 => set_a s n2 o1 (dv s)                                                         (* LDA # *)
  | 0xaa => set_x s n1 (ra s) (dv s)                                                     (* TAX *)
  | 0xad => let (v, d) := rd s ab in set_a s n3 v d                                      (* LDA abs *)
  | 0xb0 => branch s n2 o1 (fc s)                                                        (* BCS *)
  | 0xb9 => let (v, d) := rd s (u16 (ab + ry s)) in set_a s n3 v d                       (* LDA abs,Y *)
  | 0xbd => let (v, d) := rd s (u16 (ab + rx s)) in set_a s n3 v d                       (* LDA abs,X *)
  | 0xc0 => compare s n2 (ry s) o1 (dv s)                                                (* CPY # *)
  | 0xc5 => let (v, d) := rd s o1 in compare s n2 (ra s) v d                             (* CMP zp *)
  | 0xc6 => let v := fst (rd s o1) in modify s n2 o1 (u8 (v - 1)) (fc s)                 (* DEC zp *)
  | 0xc8 => set_y s n1 (u8 (ry s + 1)) (dv s)                                            (* INY *)
  | 0xc9 => compare s n2 (ra s) o1 (dv s)                                                (* CMP # *)
  | 0xca => set_x s n1 (u8 (rx s - 1)) (dv s)                                            (* DEX *)
  | 0xce => let v := fst (rd s ab) in modify s n3 ab (u8 (v - 1)) (fc s)                 (* DEC abs *)
  | 0xd0 => branch s n2 o1 (negb (fz s))                                                 (* BNE *)
  | 0xe0 => compare s n2 (rx s) o1 (dv s)                                                (* CPX # *)
  | 0xe5 => let (v, d) := rd s o1 in                                                     (* SBC zp *)
      let r := ra s - v - (if fc s then 0 else 1) in
      Some (mkC (u8 r) (rx s) (ry s) (rs s) n2 (neg (u8 r)) (zero (u8 r)) (0 <=? r) (mm s) d)
  | 0xe6 => let v := fst (rd s o1) in modify s n2 o1 (u8 (v + 1)) (fc s)                 (* INC zp *)
  | 0xe8 => set_x s n1 (u8 (rx s + 1)) (dv s)                                            (* INX *)
  | 0xee => let v := fst (rd s ab) in modify s n3 ab (u8 (v + 1)) (fc s)                 (* INC abs *)
  | 0xf0 => branch s n2 o1 (fz s)                                                        (* BEQ *)
  | _ => None
  end.

(** One step; [None]: the machine hangs, or the instruction is not modelled. *)
Definition step (s : cpu D) : option (cpu D) :=
  match rom s with
  | Some r => r
  | None => exec s (mm s (pc s)) (mm s (u16 (pc s + 1))) (mm s (u16 (pc s + 2)))
  end.

(** The machine gets from one state to another. *)
Inductive reach : cpu D -> cpu D -> Prop :=
| reach_refl s : reach s s
| reach_step s s1 s2 : step s = Some s1 -> reach s1 s2 -> reach s s2.
End Cpu.
