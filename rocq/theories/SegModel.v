(** Model of atrcopy/segments.py: raw data windows, styles, comments, sessions. *)
From Verif Require Import Base.

(* ------------------------------------------------------------------ *)
(** * NumPy and Python helpers *)

(** Python's normalisation of a slice bound ([None] is given by its default),
    step 1 (slice.indices). *)
Definition nbound (n i : Z) : Z :=
  let j := if i <? 0 then i + n else i in
  if j <? 0 then 0 else if n <? j then n else j.
Definition nslice (n : Z) (a b : option Z) : Z * Z :=
  let st := match a with Some x => nbound n x | None => 0 end in
  let en := match b with Some x => nbound n x | None => n end in
  (* an empty NumPy slice points at the start of the array it is taken from *)
  if en <=? st then (0, 0) else (st, en).
(** An index into an array of [n] elements: negative indexes count from the end. *)
Definition nindex (n i : Z) : res Z :=
  if (- n <=? i) && (i <? n) then Ok (if i <? 0 then i + n else i) else Err EIndex.
Fixpoint nindexes (n : Z) (l : list Z) : res (list Z) :=
  match l with
  | [] => Ok []
  | i :: r => let! j := nindex n i in let! js := nindexes n r in Ok (j :: js)
  end.
(** [a[i]] with an index known to be in range, possibly negative. *)
Definition npos (n i : Z) : Z := if i <? 0 then i + n else i.
Definition gather (a ps : list Z) : list Z := map (fun p => getb a (npos (zlen a) p)) ps.
Definition setn (a : list Z) (p v : Z) : list Z := setslice a p [v].
(** [a[ps] = vals]: the last value wins where a position is repeated. *)
Fixpoint scatter (a ps vals : list Z) : list Z :=
  match ps, vals with
  | p :: ps', v :: vals' => scatter (setn a (npos (zlen a) p) v) ps' vals'
  | _, _ => a
  end.
(** [a[ps] = f(a[ps])]: all old values are read before any is written. *)
Definition update (f : Z -> Z) (a ps : list Z) : list Z := scatter a ps (map f (gather a ps)).

(** Python dicts with integer keys, in insertion order. *)
Definition dict (V : Type) := list (Z * V).
Fixpoint dget {V} (k : Z) (d : dict V) : option V :=
  match d with
  | [] => None
  | (k', v) :: r => if k =? k' then Some v else dget k r
  end.
Fixpoint dset {V} (k : Z) (v : V) (d : dict V) : dict V :=
  match d with
  | [] => [(k, v)]
  | (k', v') :: r => if k =? k' then (k', v) :: r else (k', v') :: dset k v r
  end.
Fixpoint ddel {V} (k : Z) (d : dict V) : dict V :=
  match d with
  | [] => []
  | (k', v') :: r => if k =? k' then r else (k', v') :: ddel k r
  end.

(* ------------------------------------------------------------------ *)
(** * The heap: arrays and annotations *)

(** segments.py 135-140: UserExtraData; the six dicts of user data are numbered
    1..6, position 0 of the list is not used. *)
Record extra := mkE { e_comments : dict (list Z); e_user : list (dict Z) }.
Definition extra0 : extra := mkE [] [[]; []; []; []; []; []; []].
(** NumPy arrays and UserExtraData objects live in a heap and are shared between
    segments. *)
Record heap := mkHp { hp_arr : list (list Z); hp_ext : list extra }.
Definition arr (h : heap) (n : nat) : list Z := nth n (hp_arr h) [].
Definition ext (h : heap) (n : nat) : extra := nth n (hp_ext h) extra0.
Fixpoint replace {A} (n : nat) (x : A) (l : list A) : list A :=
  match n, l with
  | O, _ :: r => x :: r
  | S m, y :: r => y :: replace m x r
  | _, [] => []
  end.
Definition set_arr (h : heap) (n : nat) (a : list Z) : heap :=
  mkHp (replace n a (hp_arr h)) (hp_ext h).
Definition set_ext (h : heap) (n : nat) (e : extra) : heap :=
  mkHp (hp_arr h) (replace n e (hp_ext h)).

(** segments.py 143-171: SegmentData.  A window is the whole of its base array
    ([data.base is None]), a contiguous view of it, or a list of positions in it.
    The data and style arrays are always sliced alike.  Views with a step other
    than 1 are not modelled. *)
Inductive win := WAll | WRange (a b : Z) | WOrder (o : list Z).
Record raw := mkR { r_data : nat; r_style : nat; r_extra : nat; r_win : win }.
(** lines 144-171: a new SegmentData on its own array, zero style *)
Definition new_raw (h : heap) (data : list Z) : heap * raw :=
  (mkHp (hp_arr h ++ [data; zrepeat 0 (zlen data)]) (hp_ext h ++ [extra0]),
   mkR (length (hp_arr h)) (S (length (hp_arr h))) (length (hp_ext h)) WAll).

(** lines 176-177, 213-231: len *)
Definition raw_len (h : heap) (r : raw) : Z :=
  match r_win r with
  | WAll => zlen (arr h (r_data r))
  | WRange a b => b - a
  | WOrder o => zlen o
  end.
(** lines 250-266, 131-132: the bytes and styles seen through a window *)
Definition win_read (a : list Z) (w : win) : list Z :=
  match w with
  | WAll => a
  | WRange x y => slice a x y
  | WOrder o => gather a o
  end.
Definition read_data (h : heap) (r : raw) : list Z := win_read (arr h (r_data r)) (r_win r).
Definition read_style (h : heap) (r : raw) : list Z := win_read (arr h (r_style r)) (r_win r).

(** lines 268-281: byte_bounds_offset *)
Definition byte_bounds (h : heap) (r : raw) : Z * Z :=
  match r_win r with
  | WRange a b => (a, b)
  | _ => (0, zlen (arr h (r_data r)))
  end.
(** lines 283-291: get_raw_index *)
Definition raw_index (r : raw) (i : Z) : res Z :=
  match r_win r with
  | WOrder o => let! j := nindex (zlen o) i in Ok (getb o j)
  | WAll => Ok i
  | WRange a _ => Ok (a + i)
  end.
(** lines 293-303: get_indexes_from_base.  On an indexed segment the code uses a
    local variable before it is set. *)
Definition indexes_from_base (h : heap) (r : raw) : res (list Z) :=
  match r_win r with
  | WOrder _ => Err EUnbound
  | WAll => Ok (zrange 0 (0 + raw_len h r))
  | WRange a _ => Ok (zrange (a + 0) (a + 0 + raw_len h r))
  end.
(** lines 305-315: __getitem__ with a slice *)
Definition raw_slice (h : heap) (r : raw) (a b : option Z) : raw :=
  let (st, en) := nslice (raw_len h r) a b in
  let w := match r_win r with
           | WAll => WRange st en
           | WRange x _ => WRange (x + st) (x + en)
           | WOrder o => WOrder (slice o st en)
           end in
  mkR (r_data r) (r_style r) (r_extra r) w.
(** utils.py 37-40: to_numpy_list of a Python list *)
Definition to_numpy_list (l : list Z) : list Z := map u32 l.
(** lines 344-355: get_indexed with an index array *)
Definition raw_indexed (h : heap) (r : raw) (index : list Z) : res raw :=
  match r_win r with
  | WOrder o =>
      let! js := nindexes (zlen o) index in
      Ok (mkR (r_data r) (r_style r) (r_extra r) (WOrder (gather o js)))
  | w =>
      let! _ := nindexes (raw_len h r) index in
      let first := match w with WRange a _ => a | _ => 0 end in
      Ok (mkR (r_data r) (r_style r) (r_extra r) (WOrder (map (fun i => i + first) index)))
  end.
(** lines 357-388: reverse_index_mapping, get_reverse_index *)
Definition reverse_map (h : heap) (r : raw) : list Z :=
  match r_win r with
  | WOrder o => scatter (zrepeat (-1) (zlen (arr h (r_data r)))) o (zrange 0 (zlen o))
  | WAll => zrange 0 (zlen (arr h (r_data r)))
  | WRange a b => setslice (zrepeat (-1) (zlen (arr h (r_data r)))) a (zrange 0 (b - a))
  end.
Definition reverse_index (h : heap) (r : raw) (p : Z) : res Z :=
  let m := reverse_map h r in
  let! j := nindex (zlen m) p in
  let v := getb m j in
  if v <? 0 then Err EIndex else Ok v.
(** lines 317-333: copy *)
Definition raw_copy (h : heap) (r : raw) : heap * raw :=
  (mkHp (hp_arr h ++ [arr h (r_data r); arr h (r_style r)]) (hp_ext h ++ [extra0]),
   mkR (length (hp_arr h)) (S (length (hp_arr h))) (length (hp_ext h)) (r_win r)).

(** The positions in the base array of elements [a:b] of a window, and of a list
    of indexes: how OrderWrapper (83-132) and NumPy views reach the base. *)
Definition win_slice (n : Z) (w : win) (a b : option Z) : list Z :=
  let (st, en) := nslice n a b in
  match w with
  | WAll => zrange st en
  | WRange x _ => zrange (x + st) (x + en)
  | WOrder o => slice o st en
  end.
Definition win_pick (n : Z) (w : win) (idx : list Z) : res (list Z) :=
  let! js := nindexes n idx in
  Ok match w with
     | WAll => js
     | WRange x _ => map (fun j => x + j) js
     | WOrder o => gather o js
     end.

(* ------------------------------------------------------------------ *)
(** * Editing data: DefaultSegment.__setitem__, lines 627-629 *)

Definition set_index (h : heap) (r : raw) (i v : Z) : heap * res unit :=
  match win_pick (raw_len h r) (r_win r) [i] with
  | Ok ps => (set_arr h (r_data r) (scatter (arr h (r_data r)) ps [u8 v]), Ok tt)
  | Err e => (h, Err e)
  end.
(** values are broadcast when there is one; otherwise the lengths must agree *)
Definition broadcast (n : Z) (vals : list Z) : res (list Z) :=
  if zlen vals =? n then Ok (map u8 vals)
  else match vals with
       | [v] => Ok (zrepeat (u8 v) n)
       | _ => Err EValue
       end.
Definition set_slice (h : heap) (r : raw) (a b : option Z) (vals : list Z) : heap * res unit :=
  let ps := win_slice (raw_len h r) (r_win r) a b in
  match broadcast (zlen ps) vals with
  | Ok vs => (set_arr h (r_data r) (scatter (arr h (r_data r)) ps vs), Ok tt)
  | Err e => (h, Err e)
  end.
Definition set_indexes (h : heap) (r : raw) (idx vals : list Z) : heap * res unit :=
  match win_pick (raw_len h r) (r_win r) idx with
  | Ok ps => match broadcast (zlen ps) vals with
             | Ok vs => (set_arr h (r_data r) (scatter (arr h (r_data r)) ps vs), Ok tt)
             | Err e => (h, Err e)
             end
  | Err e => (h, Err e)
  end.

(* ------------------------------------------------------------------ *)
(** * Styles *)

(** segments.py 10-57: get_style_bits, get_style_mask.  [s_user = 0] stands for a
    missing user argument. *)
Record sty := mkSty {
  s_match : bool; s_comment : bool; s_selected : bool; s_data : bool; s_diff : bool; s_user : Z }.
Definition style_bits (k : sty) : Z :=
  let b0 := if s_user k =? 0 then 0 else Z.lor 0 (Z.land (s_user k) 7) in
  let b1 := if s_diff k then Z.lor b0 0x10 else b0 in
  let b2 := if s_match k then Z.lor b1 0x20 else b1 in
  let b3 := if s_comment k then Z.lor b2 0x40 else b2 in
  let b4 := if s_data k then Z.lor b3 (Z.land 1 7) else b3 in
  if s_selected k then Z.lor b4 0x80 else b4.
Definition style_mask (k : sty) : Z :=
  let bits := style_bits k in
  let bits' := if negb (s_user k =? 0) then Z.lor bits 7 else Z.land bits (Z.lxor 0xff 7) in
  Z.lxor 0xff bits'.

(** [style[positions] op= bits] *)
Definition upd_style (f : Z -> Z) (h : heap) (r : raw) (ps : list Z) : heap :=
  set_arr h (r_style r) (update f (arr h (r_style r)) ps).
(** lines 673-687: set_style_ranges, clear_style_ranges *)
Definition on_ranges (f : Z -> Z) (h : heap) (r : raw) (ranges : list (Z * Z)) : heap :=
  fold_left (fun h se =>
    let '(s, e) := se in
    let '(s, e) := if e <? s then (e, s) else (s, e) in
    upd_style f h r (win_slice (raw_len h r) (r_win r) (Some s) (Some e))) ranges h.
Definition set_style_ranges (h : heap) (r : raw) (ranges : list (Z * Z)) (k : sty) : heap :=
  on_ranges (fun x => Z.lor x (style_bits k)) h r ranges.
Definition clear_style_ranges (h : heap) (r : raw) (ranges : list (Z * Z)) (k : sty) : heap :=
  on_ranges (fun x => Z.land x (style_mask k)) h r ranges.
(** lines 885-887: clear_style_bits *)
Definition clear_style_bits (h : heap) (r : raw) (k : sty) : heap :=
  upd_style (fun x => Z.land x (style_mask k)) h r (win_slice (raw_len h r) (r_win r) None None).
(** lines 922-927: set_style_at_indexes *)
Definition set_style_at (h : heap) (r : raw) (idx : list Z) (k : sty) : heap * res unit :=
  match win_pick (raw_len h r) (r_win r) idx with
  | Ok ps => (upd_style (fun x => Z.lor x (style_bits k)) h r ps, Ok tt)
  | Err e => (h, Err e)
  end.

(** np.where on booleans, np.diff, np.split *)
Fixpoint where_from (i : Z) (l : list bool) : list Z :=
  match l with
  | [] => []
  | b :: r => (if b then [i] else []) ++ where_from (i + 1) r
  end.
Definition np_where (l : list bool) : list Z := where_from 0 l.
Fixpoint np_diff (l : list Z) : list Z :=
  match l with
  | a :: ((b :: _) as r) => (b - a) :: np_diff r
  | _ => []
  end.
Fixpoint split_from (l : list Z) (at_ : Z) (cuts : list Z) : list (list Z) :=
  match cuts with
  | [] => [slice l at_ (zlen l)]
  | c :: r => slice l at_ c :: split_from l c r
  end.
Definition np_split (l cuts : list Z) : list (list Z) := split_from l 0 cuts.

(** lines 777-785: bool_to_ranges *)
Definition bool_to_ranges (matches : list bool) : list (Z * Z) :=
  let w := np_where matches in
  let groups := np_split w (map (fun i => i + 1) (np_where (map (fun d => negb (d =? 1)) (np_diff w)))) in
  flat_map (fun g => if 0 <? zlen g then [(getb g 0, getb g (zlen g - 1) + 1)] else []) groups.
(** lines 689-694: get_style_ranges *)
Definition ranges_of (bits : Z) (styles : list Z) : list (Z * Z) :=
  bool_to_ranges (map (fun s => Z.land s bits =? bits) styles).
Definition get_style_ranges (h : heap) (r : raw) (k : sty) : list (Z * Z) :=
  ranges_of (style_bits k) (read_style h r).

(** bisect.bisect_right and bisect_left on pairs *)
Definition plt (x y : Z * Z) : bool := (fst x <? fst y) || ((fst x =? fst y) && (snd x <? snd y)).
Fixpoint bisect (right : bool) (fuel : nat) (l : list (Z * Z)) (x : Z * Z) (lo hi : Z) : Z :=
  match fuel with
  | O => lo
  | S f =>
      if lo <? hi then
        let mid := (lo + hi) / 2 in
        let y := nth (Z.to_nat mid) l (0, 0) in
        if right
        then if plt x y then bisect right f l x lo mid else bisect right f l x (mid + 1) hi
        else if plt y x then bisect right f l x (mid + 1) hi else bisect right f l x lo mid
      else lo
  end.
Definition bisect_right (l : list (Z * Z)) (x : Z * Z) : Z := bisect true (S (length l)) l x 0 (zlen l).
Definition bisect_left (l : list (Z * Z)) (x : Z * Z) : Z := bisect false (S (length l)) l x 0 (zlen l).
(** lines 787-806: find_next, find_previous *)
Definition next_in (ranges : list (Z * Z)) (index : Z) : option Z :=
  if 0 <? zlen ranges then
    let m := bisect_right ranges (index + 1, 0) in
    let m := if zlen ranges <=? m then 0 else m in
    Some (fst (nth (Z.to_nat m) ranges (0, 0)))
  else None.
Definition prev_in (ranges : list (Z * Z)) (index : Z) : option Z :=
  if 0 <? zlen ranges then
    let m := bisect_left ranges (index - 1, 0) - 1 in
    let m := if m <? 0 then zlen ranges - 1 else m in
    Some (fst (nth (Z.to_nat m) ranges (0, 0)))
  else None.
Definition find_next (h : heap) (r : raw) (index : Z) (k : sty) : option Z :=
  next_in (get_style_ranges h r k) index.
Definition find_previous (h : heap) (r : raw) (index : Z) (k : sty) : option Z :=
  prev_in (get_style_ranges h r k) index.

(** lines 714-723: get_comment_locations; the changes happen on a copy.  A comment
    outside the base array would raise IndexError. *)
Definition comment_locations (h : heap) (r : raw) (k : sty) : list Z :=
  let base := map (fun s => Z.land s (style_bits k)) (arr h (r_style r)) in
  let keys := map fst (e_comments (ext h (r_extra r))) in
  win_read (update (fun s => Z.lor s 0x40) base keys) (r_win r).
(** lines 725-775: get_entire_style_ranges; [None] is the result for an empty
    segment.  The list is built in reverse. *)
Fixpoint entire_loop (groups : list (list Z)) (bits : Z) (split : list Z) (last_end last_style : Z)
    (acc : list ((Z * Z) * Z)) : list ((Z * Z) * Z) :=
  match groups with
  | [] => rev acc
  | g :: rest =>
      let next_end := last_end + zlen g in
      let style := getb g 0 in
      let masked := Z.land style bits in
      let extend :=
        if last_style =? masked
        then match acc with
             | ((p, _), _) :: acc' => ((p, next_end), masked) :: acc'
             | [] => []
             end
        else ((last_end, next_end), masked) :: acc in
      let acc' :=
        if negb (Z.land style 0x40 =? 0)
        then if zmem masked split then ((last_end, next_end), masked) :: acc else extend
        else extend in
      entire_loop rest bits split next_end masked acc'
  end.
Definition entire_ranges (matches : list Z) (bits : Z) (split : list Z) : option (list ((Z * Z) * Z)) :=
  let groups := np_split matches
    (map (fun i => i + 1) (np_where (map (fun d => negb (d =? 0)) (np_diff matches)))) in
  match groups with
  | [[]] => None
  | _ => Some (entire_loop groups bits split 0 (-1) [])
  end.
Definition get_entire_style_ranges (h : heap) (r : raw) (split : list Z) (k : sty) :=
  entire_ranges (comment_locations h r k) (style_bits k) split.

(** lines 808-843: get_rect_indexes; the result is start, end, r1, c1, r2, c2 *)
Definition rect_indexes (a b w : Z) : res (Z * Z * (Z * Z) * (Z * Z)) :=
  if w =? 0 then Err EZeroDiv
  else
    let r1 := a / w in let c1 := a mod w in
    let r2 := b / w in let c2 := b mod w in
    let '(r1, c1, r2, c2) :=
      if c2 <=? c1 then
        if r2 <=? r1 then (r2, c2, r1, c1 + 1)
        else if c2 =? 0 then (r1, c1, r2 - 1, w)
        else (r1, c2 - 1, r2, c1 + 1)
      else
        if r2 <? r1 then (r2, c1, r1, c2 + 1)
        else (r1, c1, r2, c2) in
    Ok (r1 * w + c1, r2 * w + c2, (r1, c1), (r2 + 1, c2)).
(** lines 845-875: set_style_ranges_rect *)
Definition rect_positions (n a b w : Z) : res (list Z) :=
  let! (start, _, rc1, rc2) := rect_indexes a b w in
  let r := fst rc2 - fst rc1 in
  let c := snd rc2 - snd rc1 in
  let idx := flat_map (fun row => map (fun col => col + row * w + start) (zrange 0 c)) (zrange 0 r) in
  Ok (filter (fun i => i <? n) idx).
Definition set_rect (h : heap) (r : raw) (a b w : Z) (k : sty) : heap * res unit :=
  match rect_positions (raw_len h r) a b w with
  | Ok idx => set_style_at h r idx k
  | Err e => (h, Err e)
  end.
(** lines 877-883: rects_to_ranges *)
Definition rect_to_range (rect : (Z * Z) * (Z * Z)) (w : Z) : Z * Z :=
  let '((r1, c1), (r2, c2)) := rect in (r1 * w + c1, (r2 - 1) * w + c2).

(* ------------------------------------------------------------------ *)
(** * Comments *)

Definition comments (h : heap) (r : raw) : dict (list Z) := e_comments (ext h (r_extra r)).
Definition set_comments (h : heap) (r : raw) (d : dict (list Z)) : heap :=
  set_ext h (r_extra r) (mkE d (e_user (ext h (r_extra r)))).
(** lines 1018-1036: set_comment_at, get_comment, remove_comment *)
Definition set_comment_at (h : heap) (r : raw) (i : Z) (text : list Z) : heap * res unit :=
  match raw_index r i with
  | Ok p => (set_comments h r (dset p text (comments h r)), Ok tt)
  | Err e => (h, Err e)
  end.
Definition get_comment (h : heap) (r : raw) (i : Z) : res (list Z) :=
  let! p := raw_index r i in
  Ok match dget p (comments h r) with Some t => t | None => [] end.
Definition remove_comment (h : heap) (r : raw) (i : Z) : heap * res unit :=
  match raw_index r i with
  | Ok p => (set_comments h r (ddel p (comments h r)), Ok tt)
  | Err e => (h, Err e)
  end.
(** loops that stop at the first exception *)
Fixpoint each {A} (f : heap -> A -> heap * res unit) (l : list A) (h : heap) : heap * res unit :=
  match l with
  | [] => (h, Ok tt)
  | x :: r => match f h x with
              | (h', Ok _) => each f r h'
              | (h', Err e) => (h', Err e)
              end
  end.
(** lines 1022-1025: set_comment *)
Definition k_comment : sty := mkSty false true false false false 0.
Definition set_comment (h : heap) (r : raw) (ranges : list (Z * Z)) (text : list Z) : heap * res unit :=
  each (fun h se => set_comment_at h r (fst se) text) ranges (set_style_ranges h r ranges k_comment).
(** lines 1043-1049: clear_comment *)
Definition clear_comment (h : heap) (r : raw) (ranges : list (Z * Z)) : heap * res unit :=
  each (fun h se => each (fun h i => remove_comment h r i) (zrange (fst se) (snd se)) h) ranges
       (clear_style_ranges h r ranges k_comment).
(** lines 961-1001: get_comment_restore_data, restore_comments *)
Definition saved := (Z * Z * list Z * list (Z * option (list Z)))%type.
Fixpoint save_items (h : heap) (r : raw) (l : list Z) : res (list (Z * option (list Z))) :=
  match l with
  | [] => Ok []
  | i :: l' => let! p := raw_index r i in
               let! rest := save_items h r l' in
               Ok ((p, dget p (comments h r)) :: rest)
  end.
Fixpoint restore_data (h : heap) (r : raw) (ranges : list (Z * Z)) : res (list saved) :=
  match ranges with
  | [] => Ok []
  | (s, e) :: l =>
      let styles := gather (arr h (r_style r)) (win_slice (raw_len h r) (r_win r) (Some s) (Some e)) in
      let! items := save_items h r (zrange s e) in
      let! rest := restore_data h r l in
      Ok ((s, e, styles, items) :: rest)
  end.
Definition restore_item (r : raw) (h : heap) (it : Z * option (list Z)) : heap :=
  match snd it with
  | Some ((_ :: _) as t) => set_comments h r (dset (fst it) t (comments h r))
  | _ => set_comments h r (ddel (fst it) (comments h r))
  end.
Fixpoint restore_comments (h : heap) (r : raw) (l : list saved) : heap * res unit :=
  match l with
  | [] => (h, Ok tt)
  | (s, e, styles, items) :: rest =>
      let ps := win_slice (raw_len h r) (r_win r) (Some s) (Some e) in
      match broadcast (zlen ps) styles with
      | Err x => (h, Err x)
      | Ok vs =>
          let h1 := set_arr h (r_style r) (scatter (arr h (r_style r)) ps vs) in
          restore_comments (fold_left (restore_item r) items h1) r rest
      end
  end.
(** lines 1003-1016: get_comments_in_range *)
Definition comments_in_range (h : heap) (r : raw) (s e : Z) : dict (list Z) :=
  fold_left (fun d kv => match reverse_index h r (fst kv) with
                         | Ok i => if (s <=? i) && (i <? e) then dset i (snd kv) d else d
                         | Err _ => d
                         end) (comments h r) [].
(** lines 696-712: fixup_comments; comments outside the base raise IndexError *)
Definition fixup_comments (h : heap) (r : raw) : heap :=
  let base := map (fun s => Z.land s (style_mask k_comment)) (arr h (r_style r)) in
  set_arr h (r_style r) (update (fun s => Z.lor s 0x40) base (map fst (comments h r))).
(** lines 1054-1069: iter_comments_in_segment, copy_user_data.  On an indexed
    segment the code looks up the element after the last one.  The two segments
    must not share their annotations (Python refuses to change a dict while
    iterating over it). *)
Definition iter_comments (h : heap) (r : raw) : res (list (Z * list Z)) :=
  let! s := raw_index r 0 in
  let! e := raw_index r (raw_len h r) in
  fold_right (fun kv acc =>
    let! l := acc in
    if (s <=? fst kv) && (fst kv <? e)
    then let! i := reverse_index h r (fst kv) in Ok ((i, snd kv) :: l)
    else Ok l) (Ok []) (comments h r).
Definition copy_comments (h : heap) (r src : raw) (offset : Z) : heap * res unit :=
  match iter_comments h src with
  | Ok l => each (fun h it => set_comment_at h r (fst it + offset) (snd it)) l h
  | Err e => (h, Err e)
  end.

(** lines 889-901: set_user_data, get_user_data for user_index 1..6 *)
Definition user_dict (h : heap) (r : raw) (u : Z) : dict Z := nth (Z.to_nat u) (e_user (ext h (r_extra r))) [].
Definition set_user_dict (h : heap) (r : raw) (u : Z) (d : dict Z) : heap :=
  set_ext h (r_extra r) (mkE (e_comments (ext h (r_extra r))) (replace (Z.to_nat u) d (e_user (ext h (r_extra r))))).
Definition set_user_data (h : heap) (r : raw) (ranges : list (Z * Z)) (u v : Z) : heap * res unit :=
  each (fun h se => each (fun h i => match raw_index r i with
                                     | Ok p => if (u <? 1) || (6 <? u) then (h, Err EKey)
                                               else (set_user_dict h r u (dset p v (user_dict h r u)), Ok tt)
                                     | Err e => (h, Err e)
                                     end) (zrange (fst se) (snd se)) h) ranges h.
Definition get_user_data (h : heap) (r : raw) (i u : Z) : res Z :=
  let! p := raw_index r i in
  Ok (if (u <? 1) || (6 <? u) then 0
      else match dget p (user_dict h r u) with Some v => v | None => 0 end).
(** lines 903-920: get_sorted_user_data *)
Fixpoint insert_key {V} (kv : Z * V) (l : dict V) : dict V :=
  match l with
  | [] => [kv]
  | x :: r => if fst kv <=? fst x then kv :: l else x :: insert_key kv r
  end.
Definition sort_dict {V} (d : dict V) : dict V := fold_right insert_key [] d.
Fixpoint user_runs (l : dict Z) (cur : option (Z * Z * Z)) : list ((Z * Z) * Z) :=
  match l, cur with
  | [], None => []
  | [], Some (s, e, v) => [((s, e), v)]
  | (i, x) :: r, None => user_runs r (Some (i, i + 1, x))
  | (i, x) :: r, Some (s, e, v) =>
      if negb (x =? v) || negb (i =? e)
      then ((s, e), v) :: user_runs r (Some (i, i + 1, x))
      else user_runs r (Some (s, i + 1, v))
  end.
Definition sorted_user_data (h : heap) (r : raw) (u : Z) : list ((Z * Z) * Z) :=
  user_runs (sort_dict (user_dict h r u)) None.

(** lines 1083-1088: compare_segment.  On an indexed segment [|=] builds a new style
    array private to this segment object; only the effect on the shared array is
    modelled.  Arrays that cannot be compared element by element compare as a single
    True, which marks every byte before len(True) raises TypeError. *)
Definition k_diff : sty := mkSty false false false false true 0.
Definition compare_segment (h : heap) (r other : raw) : heap * res unit :=
  let h1 := clear_style_bits h r k_diff in
  match r_win r with
  | WOrder _ => (h1, Ok tt)
  | _ =>
      let a := read_data h r in let b0 := read_data h other in
      let ps := win_slice (raw_len h r) (r_win r) None None in
      let mark b :=
        let marks := map (fun xy => if fst xy =? snd xy then 0 else 0x10) (combine a b) in
        set_arr h1 (r_style r)
          (scatter (arr h1 (r_style r)) ps
             (map (fun sm => Z.lor (fst sm) (snd sm)) (combine (gather (arr h1 (r_style r)) ps) marks))) in
      if zlen b0 =? zlen a then (mark b0, Ok tt)
      else match b0 with
           | [x] => (mark (zrepeat x (zlen a)), Ok tt)
           | _ => if zlen a =? 1 then (h1, Err EValue)
                  else (upd_style (fun s => Z.lor s 0x10) h1 r ps, Err EType)
           end
  end.

(* ------------------------------------------------------------------ *)
(** * Sessions: lines 556-598 *)

Record session := mkSess {
  ss_comment : list (Z * Z); ss_data : list (Z * Z);
  ss_user : list (Z * list (Z * Z)); ss_comments : dict (list Z) }.
Definition k_data : sty := mkSty false false false true false 0.
Definition k_user (u : Z) : sty := mkSty false false false false false u.
Definition serialize_session (h : heap) (r : raw) : session :=
  mkSess (get_style_ranges h r k_comment) (get_style_ranges h r k_data)
    (flat_map (fun i => match get_style_ranges h r (k_user i) with [] => [] | l => [(i, l)] end) (zrange 1 7))
    (sort_dict (comments h r)).
(** the deprecated keys "display list ranges" and "user ranges 1" are never
    written by serialize_session and are not modelled *)
Definition restore_session (h : heap) (r : raw) (s : session) : heap :=
  let h0 := fold_left (fun h kv => set_comments h r (dset (fst kv) (snd kv) (comments h r))) (ss_comments s) h in
  let h1 := set_style_ranges h0 r (ss_comment s) k_comment in
  let h2 := set_style_ranges h1 r (ss_data s) (k_user 1) in
  fold_left (fun h i => match dget i (ss_user s) with
                        | Some l => set_style_ranges h r l (k_user i)
                        | None => h
                        end) (zrange 1 7) h2.

(* ------------------------------------------------------------------ *)
(** * Saved state of a segment: lines 471-545 *)

Record state := mkState { st_bounds : Z * Z; st_order : option (list Z) }.
Definition get_state (h : heap) (r : raw) : state :=
  mkState (byte_bounds h r) (match r_win r with WOrder o => Some o | _ => None end).
(** [None] and the empty list are both falsy *)
Definition reconstruct (h : heap) (base : raw) (s : state) : res raw :=
  let r := raw_slice h base (Some (fst (st_bounds s))) (Some (snd (st_bounds s))) in
  match st_order s with
  | Some ((_ :: _) as o) => raw_indexed h r (to_numpy_list o)
  | _ => Ok r
  end.

(* ------------------------------------------------------------------ *)
(** * Interleaving: lines 1200-1234 *)

Fixpoint min_len (h : heap) (size : Z) (l : list raw) : Z :=
  match l with
  | [] => size
  | s :: r => min_len h (if raw_len h s <? size then raw_len h s else size) r
  end.
(** [l[start::step] = vals], vals of the right length *)
Definition set_step (l : list Z) (start step : Z) (vals : list Z) : list Z :=
  scatter l (map (fun j => start + step * j) (zrange 0 (zlen vals))) vals.
(** [order[i:size:n]] *)
Definition get_step (l : list Z) (i size n : Z) : list Z :=
  map (fun j => getb l (i + n * j)) (zrange 0 ((size - i + n - 1) / n)).
Fixpoint inter_bytes (order : list Z) (size n factor : Z) (ms : list Z) (start : Z) (acc : list Z) : list Z * Z :=
  match ms with
  | [] => (acc, start)
  | m :: r => inter_bytes order size n factor r (start + 1) (set_step acc start factor (get_step order m size n))
  end.
Fixpoint inter_loop (h : heap) (segs : list raw) (size n factor start : Z) (acc : list Z) : res (list Z) :=
  match segs with
  | [] => Ok acc
  | s :: r =>
      let! order := indexes_from_base h s in
      let (acc', start') := inter_bytes order size n factor (zrange 0 n) start acc in
      inter_loop h r size n factor start' acc'
  end.
(** for num_bytes >= 1; num_bytes = 0 raises ZeroDivisionError.  The cells of
    np.empty are modelled as 0; all of them are written. *)
Definition interleave_indexes (h : heap) (segs : list raw) (n : Z) : res (list Z) :=
  match segs with
  | [] => Err EIndex
  | s0 :: rest =>
      if n =? 0 then Err EZeroDiv else
      let size0 := min_len h (raw_len h s0) rest in
      let size := size0 - size0 mod n in
      if 0 <? size
      then inter_loop h segs size n (n * zlen segs) 0 (zrepeat 0 (size * zlen segs))
      else Ok (zrepeat 0 (size * zlen segs))
  end.
Definition interleave_segments (h : heap) (segs : list raw) (n : Z) : res raw :=
  let! o := interleave_indexes h segs n in
  match segs with
  | [] => Err EIndex
  | s0 :: rest =>
      if forallb (fun s => (Nat.eqb (r_data s) (r_data s0)) && (Nat.eqb (r_style s) (r_style s0))) rest
      then Ok (mkR (r_data s0) (r_style s0) (r_extra s0) (WOrder o))
      else Err EValue
  end.

(* ------------------------------------------------------------------ *)
(** * Labels: lines 1173-1197; sector number and offset, before formatting *)
Definition sector_label (first nboot bsize psize index : Z) : res (Z * Z) :=
  let boot := nboot * bsize in
  if boot <=? index then
    if psize =? 0 then Err EZeroDiv
    else Ok ((index - boot) / psize + nboot + first, (index - boot) mod psize)
  else if bsize =? 0 then Err EZeroDiv
       else Ok (index / bsize + first, index mod bsize).
Definition track_label (first nboot bsize psize index : Z) : res (Z * Z * Z) :=
  let! (s, b) := sector_label first nboot bsize psize index in
  Ok (s / 16, s mod 16, b).
