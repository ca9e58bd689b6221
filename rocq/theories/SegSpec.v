(** Independent vocabulary for windows on arrays. *)
From Verif Require Import Base SegModel.

(** Python list slicing and selection by a list of non-negative indexes. *)
Definition bound (n : Z) (dflt : Z) (i : option Z) : Z :=
  match i with
  | None => dflt
  | Some i => Z.max 0 (Z.min n (if i <? 0 then n + i else i))
  end.
Definition pyslice (l : list Z) (a b : option Z) : list Z :=
  slice l (bound (zlen l) 0 a) (bound (zlen l) (zlen l) b).
Definition pyselect (l idx : list Z) : option (list Z) :=
  if forallb (fun i => (0 <=? i) && (i <? zlen l)) idx then Some (map (getb l) idx) else None.

(** A chain of slices and selections. *)
Inductive sel := Sl (a b : option Z) | Ix (idx : list Z).
Definition choose (l : list Z) (s : sel) : option (list Z) :=
  match s with
  | Sl a b => Some (pyslice l a b)
  | Ix idx => pyselect l idx
  end.
Fixpoint choose_all (l : list Z) (c : list sel) : option (list Z) :=
  match c with
  | [] => Some l
  | s :: r => match choose l s with Some l' => choose_all l' r | None => None end
  end.
(** The same chain performed by the program. *)
Definition take (h : heap) (r : raw) (s : sel) : res raw :=
  match s with
  | Sl a b => Ok (raw_slice h r a b)
  | Ix idx => raw_indexed h r (to_numpy_list idx)
  end.
Fixpoint take_all (h : heap) (r : raw) (c : list sel) : res raw :=
  match c with
  | [] => Ok r
  | s :: c' => let! r' := take h r s in take_all h r' c'
  end.
(** Indexes that a Python program can store in a 32-bit index array. *)
Definition sel_ok (s : sel) : Prop :=
  match s with
  | Sl _ _ => True
  | Ix idx => Forall (fun i => - 2147483648 <= i < 4294967296) idx /\ zlen idx <= 2147483648
  end.

(** The base positions a window shows, in order. *)
Definition positions (n : Z) (w : win) : list Z :=
  match w with WAll => zrange 0 n | WRange a b => zrange a b | WOrder o => o end.
Definition win_ok (n : Z) (w : win) : Prop :=
  match w with
  | WAll => True
  | WRange a b => 0 <= a <= b /\ b <= n
  | WOrder o => Forall (fun p => 0 <= p < n) o
  end.
(** A segment's arrays exist, are distinct and have the same length. *)
Definition raw_ok (h : heap) (r : raw) : Prop :=
  (r_data r < length (hp_arr h))%nat /\ (r_style r < length (hp_arr h))%nat /\ r_data r <> r_style r /\
  (r_extra r < length (hp_ext h))%nat /\ zlen (arr h (r_style r)) = zlen (arr h (r_data r)) /\
  win_ok (zlen (arr h (r_data r))) (r_win r).
Definition shows (h : heap) (r : raw) : list Z := positions (zlen (arr h (r_data r))) (r_win r).

(** The last value written to position [p] by a list of writes. *)
Fixpoint last_write (p : Z) (ps vals : list Z) : option Z :=
  match ps, vals with
  | q :: ps', v :: vals' =>
      match last_write p ps' vals' with
      | Some x => Some x
      | None => if q =? p then Some v else None
      end
  | _, _ => None
  end.
(** The last index of [p] in a list. *)
Fixpoint last_index (p : Z) (l : list Z) (i : Z) : option Z :=
  match l with
  | [] => None
  | q :: r => match last_index p r (i + 1) with
              | Some j => Some j
              | None => if q =? p then Some i else None
              end
  end.

(** [rs] are exactly the maximal runs of indexes below [n] that satisfy [P]. *)
Fixpoint apart (from : Z) (rs : list (Z * Z)) : Prop :=
  match rs with
  | [] => True
  | (s, e) :: r => from < s < e /\ apart e r
  end.
Definition exact_runs (n : Z) (P : Z -> Prop) (rs : list (Z * Z)) : Prop :=
  apart (-1) rs /\ (forall s e, In (s, e) rs -> e <= n) /\
  forall i, 0 <= i < n -> (P i <-> exists s e, In (s, e) rs /\ s <= i < e).

(** Consecutive ranges from [from] to [to]. *)
Fixpoint tiles (from to : Z) (l : list ((Z * Z) * Z)) : Prop :=
  match l with
  | [] => from = to
  | ((s, e), _) :: r => s = from /\ s < e /\ tiles e to r
  end.
