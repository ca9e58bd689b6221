(** Base vocabulary shared by every model file: byte strings, NumPy-style
    slices, results with Python exceptions as values. *)
From Coq Require Export ZArith List Bool Lia.
From Coq Require Export ZifyBool ZifyNat.
Export ListNotations.
Open Scope Z_scope.

(** A byte is an integer; byte strings are lists.  [is_byte] states the range. *)
Definition is_byte (b : Z) : Prop := 0 <= b < 256.
Definition bytes_ok (l : list Z) : Prop := Forall is_byte l.
Definition is_byteb (b : Z) : bool := (0 <=? b) && (b <? 256).

(** Storing an integer in a NumPy uint8 / uint16 cell (NumPy < 1.23) wraps. *)
Definition u8 (x : Z) : Z := x mod 256.
Definition u16 (x : Z) : Z := x mod 65536.
Definition u32 (x : Z) : Z := x mod 4294967296.

Definition zlen {A} (l : list A) : Z := Z.of_nat (length l).

(** [l[a:b]] for [0 <= a]: NumPy/Python slicing clamps at the end. *)
Definition slice {A} (l : list A) (a b : Z) : list A :=
  firstn (Z.to_nat (b - a)) (skipn (Z.to_nat a) l).

(** [l[p:p+len(d)] = d] for a range inside [l]. *)
Definition setslice {A} (l : list A) (p : Z) (d : list A) : list A :=
  firstn (Z.to_nat p) l ++ d ++ skipn (Z.to_nat p + length d) l.

(** [l[i]] for [0 <= i < len(l)]; callers check the range. *)
Definition getb (l : list Z) (i : Z) : Z := nth (Z.to_nat i) l 0.

(** Little-endian words, as read by [view(dtype='<u2')] / ['<u4']. *)
Definition le2 (a b : Z) : Z := a + 256 * b.
Definition le4 (a b c d : Z) : Z := a + 256 * b + 65536 * c + 16777216 * d.
Definition put2 (x : Z) : list Z := [u8 x; u8 (x / 256)].
Definition put4 (x : Z) : list Z :=
  [u8 x; u8 (x / 256); u8 (x / 65536); u8 (x / 16777216)].

Definition zrepeat (b : Z) (n : Z) : list Z := repeat b (Z.to_nat n).

Fixpoint zseq_nat (start : Z) (n : nat) : list Z :=
  match n with O => [] | S n' => start :: zseq_nat (start + 1) n' end.
(** Python's [range(a, b)]. *)
Definition zrange (a b : Z) : list Z := zseq_nat a (Z.to_nat (b - a)).

Definition zmem (x : Z) (l : list Z) : bool := existsb (Z.eqb x) l.

Fixpoint zlist_eqb (a b : list Z) : bool :=
  match a, b with
  | [], [] => true
  | x :: a', y :: b' => (x =? y) && zlist_eqb a' b'
  | _, _ => false
  end.

(** The library's own exceptions: atrcopy/errors.py lines 1-74. *)
Inductive atrerr :=
| InvalidAtrHeader | InvalidCartHeader | InvalidDiskImage | UnsupportedDiskImage
| InvalidDirent | LastDirent | InvalidFile | FileNumberMismatch164
| ByteNotInFile166 | InvalidBinaryFile | InvalidSegmentParser
| NoSpaceInDirectory | NotEnoughSpaceOnDisk | FileNotFound
| UnsupportedContainer | InvalidContainer.

(** Every exception the modelled code can raise.  [EAtr] are the subclasses of
    [errors.AtrError]; the others are Python built-ins.  [EFuel] is not a Python
    exception: it says that the loop did not finish within the given fuel. *)
Inductive exn :=
| EAtr (e : atrerr)
| EIndex | EValue | EName | EType | EZeroDiv | EUnicode | EUnbound | EKey
| EAttribute | ERuntime | EOS | EFuel.

Inductive res (A : Type) := Ok (a : A) | Err (e : exn).
Arguments Ok {A} a.
Arguments Err {A} e.

Definition is_ok {A} (r : res A) : bool := match r with Ok _ => true | Err _ => false end.
Definition is_atr (e : exn) : bool := match e with EAtr _ => true | _ => false end.

Definition rbind {A B} (r : res A) (f : A -> res B) : res B :=
  match r with Ok a => f a | Err e => Err e end.
Notation "'let!' x ':=' r 'in' k" := (rbind r (fun x => k))
  (at level 200, x pattern, r at level 100, k at level 200).

(** [bytes.rstrip()]: ASCII whitespace. *)
Definition is_space (c : Z) : bool :=
  (c =? 32) || ((9 <=? c) && (c <=? 13)).

Fixpoint rstripf (f : Z -> bool) (l : list Z) : list Z :=
  match l with
  | [] => []
  | c :: r => match rstripf f r with
              | [] => if f c then [] else [c]
              | r' => c :: r'
              end
  end.
Definition rstrip := rstripf is_space.
(** Reading an ['S8'] field of a structured array drops trailing NULs. *)
Definition rstrip0 := rstripf (Z.eqb 0).

(** Writing a byte string into an ['Sn'] field truncates or pads with NULs. *)
Definition put_s (n : Z) (s : list Z) : list Z :=
  firstn (Z.to_nat n) s ++ zrepeat 0 (n - zlen s).

(** Python [s.ljust(n)] / ['%-8s']: pad with blanks on the right. *)
Definition ljust (n : Z) (s : list Z) : list Z := s ++ zrepeat 32 (n - zlen s).

(** [s.split(b'.', 1)] on the first occurrence of [c]. *)
Fixpoint split_at (c : Z) (s : list Z) : list Z * option (list Z) :=
  match s with
  | [] => ([], None)
  | x :: r => if x =? c then ([], Some r)
              else let (a, b) := split_at c r in (x :: a, b)
  end.

(** [np.unpackbits]: most significant bit first. *)
Definition unpack_byte (b : Z) : list Z :=
  map (fun k => (b / k) mod 2) [128; 64; 32; 16; 8; 4; 2; 1].
Definition unpackbits (l : list Z) : list Z := flat_map unpack_byte l.

(** [np.packbits]: eight cells per byte, non-zero counts as one, the last
    group padded with zeros. *)
Definition nzbit (x : Z) : Z := if x =? 0 then 0 else 1.
Fixpoint packbits (l : list Z) : list Z :=
  match l with
  | a :: b :: c :: d :: e :: f :: g :: h :: r =>
      (128 * nzbit a + 64 * nzbit b + 32 * nzbit c + 16 * nzbit d +
       8 * nzbit e + 4 * nzbit f + 2 * nzbit g + nzbit h) :: packbits r
  | [] => []
  | [a] => [128 * nzbit a]
  | [a; b] => [128 * nzbit a + 64 * nzbit b]
  | [a; b; c] => [128 * nzbit a + 64 * nzbit b + 32 * nzbit c]
  | [a; b; c; d] => [128 * nzbit a + 64 * nzbit b + 32 * nzbit c + 16 * nzbit d]
  | [a; b; c; d; e] =>
      [128 * nzbit a + 64 * nzbit b + 32 * nzbit c + 16 * nzbit d + 8 * nzbit e]
  | [a; b; c; d; e; f] =>
      [128 * nzbit a + 64 * nzbit b + 32 * nzbit c + 16 * nzbit d + 8 * nzbit e +
       4 * nzbit f]
  | [a; b; c; d; e; f; g] =>
      [128 * nzbit a + 64 * nzbit b + 32 * nzbit c + 16 * nzbit d + 8 * nzbit e +
       4 * nzbit f + 2 * nzbit g]
  end.

(** Index of the first non-zero cell, [np.nonzero(l)[0][0]]. *)
Fixpoint first_nonzero (l : list Z) : option Z :=
  match l with
  | [] => None
  | x :: r => if x =? 0 then
                match first_nonzero r with Some i => Some (i + 1) | None => None end
              else Some 0
  end.

(** Replace cell [i] of a list (no effect out of range; callers check). *)
Fixpoint upd_nat {A} (l : list A) (i : nat) (v : A) : list A :=
  match l, i with
  | [], _ => []
  | _ :: r, O => v :: r
  | x :: r, S i' => x :: upd_nat r i' v
  end.
Definition upd {A} (l : list A) (i : Z) (v : A) : list A := upd_nat l (Z.to_nat i) v.
