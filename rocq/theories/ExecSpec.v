(** The Atari executable file format as a grammar, and the memory a list of
    segments describes. *)
From Verif Require Import Base ExecModel.

(** A file is a sequence of pieces: FFFF markers, load segments, and possibly one
    truncated piece at the end. *)
Inductive piece :=
| PMark
| PSeg (origin : Z) (data : list Z)
| PCutByte (x : Z)
| PCutHead (l : list Z)
| PCutData (origin last : Z) (data : list Z).
Definition encode_piece (p : piece) : list Z :=
  match p with
  | PMark => [255; 255]
  | PSeg o d => put2 o ++ put2 (o + zlen d - 1) ++ d
  | PCutByte x => [x]
  | PCutHead l => l
  | PCutData o e d => put2 o ++ put2 e ++ d
  end.
Definition whole (p : piece) : Prop :=
  match p with
  | PMark => True
  | PSeg o d => 0 <= o < 65535 /\ 1 <= zlen d /\ o + zlen d <= 65536
  | _ => False
  end.
Definition cut (p : piece) : Prop :=
  match p with
  | PCutByte x => True
  | PCutHead l => 2 <= zlen l <= 3 /\ slice l 0 2 <> [255; 255]
  | PCutData o e d => 0 <= o < 65535 /\ o <= e < 65536 /\ zlen d < e - o + 1
  | _ => False
  end.
(** All pieces are whole, except possibly the last. *)
Fixpoint pieces_ok (ps : list piece) : Prop :=
  match ps with
  | [] => True
  | [p] => whole p \/ cut p
  | p :: r => whole p /\ pieces_ok r
  end.
Definition encode (ps : list piece) : list Z := flat_map encode_piece ps.
(** What is reported for a piece at file position [pos]. *)
Definition report (pos : Z) (p : piece) : list xseg :=
  match p with
  | PMark => []
  | PSeg o d => [mkX (o =? 0x2e0) NoName pos (pos + 4) o d]
  | PCutByte x => [mkX false IncompleteData pos (pos + 1) 0 [x]]
  | PCutHead l => [mkX false ShortHeader 0 0 0 l]
  | PCutData o e d => [mkX false IncompleteData pos (pos + 4) o d]
  end.
Fixpoint reports (pos : Z) (ps : list piece) : list xseg :=
  match ps with
  | [] => []
  | p :: r => report pos p ++ reports (pos + zlen (encode_piece p)) r
  end.
(** A file must begin with a marker, unless it is shorter than one. *)
Definition begins_ok (ps : list piece) : Prop :=
  match ps with
  | [] => True
  | PMark :: _ => True
  | [PCutByte _] => True
  | _ => False
  end.

(** The byte at address [a] after loading the segments in order into memory that
    was all zero. *)
Definition covers (s : iseg) (a : Z) : bool :=
  (i_origin s <=? a) && (a <? i_origin s + zlen (i_data s)).
Fixpoint memory (segs : list iseg) (a : Z) : Z :=
  match segs with
  | [] => 0
  | s :: r => if existsb (fun t => covers t a) r then memory r a
              else if covers s a then getb (i_data s) (a - i_origin s) else 0
  end.
Definition seg_ok (s : iseg) : Prop :=
  0 <= i_origin s < 65535 /\ 1 <= zlen (i_data s) /\ i_origin s + zlen (i_data s) <= 65536 /\
  bytes_ok (i_data s).

(** A BSAVE file that puts the bytes [m base .. m (base + len - 1)] in memory. *)
Definition loads_as (f : list Z) (base len : Z) (m : Z -> Z) : Prop :=
  le2 (getb f 0) (getb f 1) = base /\ le2 (getb f 2) (getb f 3) = len /\ zlen f = len + 4 /\
  forall a, base <= a < base + len -> getb f (4 + (a - base)) = m a.
(** [lo, hi) is the smallest address range holding all the segments. *)
Definition fits (segs : list iseg) (lo hi : Z) : Prop :=
  0 <= lo /\ hi <= 65536 /\
  (forall s, In s segs -> lo <= i_origin s /\ i_origin s + zlen (i_data s) <= hi) /\
  Exists (fun s => i_origin s = lo) segs /\ Exists (fun s => i_origin s + zlen (i_data s) = hi) segs.
