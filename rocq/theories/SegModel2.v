(** Model of atrcopy/segments.py, continued: resizing containers, comments at
    lists of indexes. *)
From Verif Require Import Base SegModel.

(* ------------------------------------------------------------------ *)
(** * Resizing: segments.py 179-211, 430-462 *)

(** np.resize(a, (n,)) for n >= 0: enough copies of [a] one after the other, cut to
    [n] elements.  The result is a view (a reshaped slice) of the concatenated
    copies, except that no elements at all give a new array of zeros. *)
Fixpoint copies (k : nat) (a : list Z) : list Z :=
  match k with O => [] | S k' => a ++ copies k' a end.
Definition np_resize (a : list Z) (n : Z) : list Z :=
  if (zlen a =? 0) || (n =? 0) then zrepeat 0 n
  else copies (Z.to_nat ((n + zlen a - 1) / zlen a)) a.
Definition resized_win (a : list Z) (n : Z) : win :=
  if (zlen a =? 0) || (n =? 0) then WAll else WRange 0 n.

(** segments.py 179-191: SegmentData.resize.  The object is given new arrays; other
    objects keep the old ones.  An indexed object has no [base] unless the array it
    was made from has one; DefaultSegment.resize never gets here with one. *)
Definition raw_resize (h : heap) (r : raw) (n : Z) : heap * res raw :=
  match r_win r with
  | WAll =>
      let d := arr h (r_data r) in
      (mkHp (hp_arr h ++ [np_resize d n; np_resize (arr h (r_style r)) n]) (hp_ext h),
       Ok (mkR (length (hp_arr h)) (S (length (hp_arr h))) (r_extra r) (resized_win d n)))
  | _ => (h, Err EValue)
  end.

(** segments.py 430-458: DefaultSegment.resize.  [can] is the attribute can_resize
    of the segment.  Result: the changed object and the old and new sizes. *)
Definition seg_resize (h : heap) (r : raw) (can : bool) (n : Z) (zeros : bool)
  : heap * res (raw * (Z * Z)) :=
  if negb can then (h, Err EValue)
  else
    match r_win r with
    | WAll =>
        let orig := raw_len h r in
        match raw_resize h r n with
        | (h1, Err e) => (h1, Err e)
        | (h1, Ok r1) =>
            let new := raw_len h1 r1 in
            let h2 :=
              if zeros && (orig <? new) then
                let ps := win_slice new (r_win r1) (Some orig) None in
                let ha := set_arr h1 (r_data r1) (scatter (arr h1 (r_data r1)) ps (zrepeat 0 (zlen ps))) in
                set_arr ha (r_style r1) (scatter (arr ha (r_style r1)) ps (zrepeat 0 (zlen ps)))
              else h1 in
            (h2, Ok (r1, (orig, new)))
        end
    | _ => (h, Err EValue)
    end.

(** segments.py 193-211 and 460-462: replace_arrays, replace_data.  [base] is the
    container after resizing: a plain window that starts at the first element of its
    array.  The exception named in line 197 does not exist in errors.py, so a smaller
    container raises AttributeError. *)
Definition replace_arrays (h : heap) (r base : raw) : res raw :=
  if raw_len h base <? zlen (arr h (r_data r)) then Err EAttribute
  else
    match r_win r with
    | WOrder o => Ok (mkR (r_data base) (r_style base) (r_extra r) (WOrder o))
    | WRange a b =>
        let s := raw_slice h base (Some a) (Some b) in
        Ok (mkR (r_data s) (r_style s) (r_extra r) (r_win s))
    | WAll => Err EValue
    end.

(* ------------------------------------------------------------------ *)
(** * Comments at lists of indexes: segments.py 929-959 *)

(** lines 929-931 *)
Definition remove_comments_at (h : heap) (r : raw) (idx : list Z) : heap * res unit :=
  each (fun h i => remove_comment h r i) idx h.
(** lines 933-945; [None] and "" are both falsy.  The argument [ranges] is not used. *)
Definition set_comments_at (h : heap) (r : raw) (idx : list Z) (texts : list (option (list Z)))
  : heap * res unit :=
  each (fun h it =>
          match raw_index r (fst it) with
          | Err e => (h, Err e)
          | Ok p => (restore_item r h (p, snd it), Ok tt)
          end) (combine idx texts) h.
(** lines 947-959 *)
Fixpoint comments_of (h : heap) (r : raw) (idx : list Z) (has : list Z) : res (list (option (list Z))) :=
  match has with
  | [] => Ok []
  | w :: l => let! p := raw_index r (getb idx w) in
              let! rest := comments_of h r idx l in
              Ok (dget p (comments h r) :: rest)
  end.
Definition get_comments_at (h : heap) (r : raw) (idx : list Z) : res (list Z * list (option (list Z))) :=
  let! ps := win_pick (raw_len h r) (r_win r) idx in
  let s := gather (arr h (r_style r)) ps in
  let has := np_where (map (fun x => 0 <? Z.land x 0x40) s) in
  let! cs := comments_of h r idx has in
  Ok (has, cs).
(** lines 1038-1041: get_first_comment; reduce of an empty list raises TypeError *)
Definition first_comment (h : heap) (r : raw) (ranges : list (Z * Z)) : res (list Z) :=
  match ranges with
  | [] => Err EType
  | x :: l => get_comment h r (fold_left (fun m y => Z.min m (fst y)) l (fst x))
  end.
