(** Finding the bytes of a segment by address, by position in the base data and by label;
    subsets, parallel data, lists of segments and the copy used for searching:
    atrcopy/segments.py 464-469, 547-554, 600-662, 1071-1082, 1104-1105, 1173-1197,
    1238-1246. *)
From Coq Require Import String.
From Verif Require Import Base SegModel TextModel SegListModel.
Open Scope Z_scope.

(** lines 621-622, 1104-1105: len *)
Definition seg_len (h : heap) (s : seg) : Z :=
  match g_kind s with KEmpty _ | KFailed _ => 0 | _ => raw_len h (g_raw s) end.
(** lines 637-638 *)
Definition is_valid_index (h : heap) (s : seg) (i : Z) : bool := (0 <=? i) && (i <? seg_len h s).
(** lines 646-650 *)
Definition raw_index_from_address (s : seg) (addr : Z) : res Z := raw_index (g_raw s) (addr - g_origin s).
(** lines 652-662: both errors are IndexError; the reverse lookup never answers a negative
    index *)
Definition index_from_base (h : heap) (s : seg) (p : Z) : res Z := reverse_index h (g_raw s) p.

(** * Labels *)
(** ['%0wX'] and ['%0wd'] *)
Definition upper (c : Z) : Z := if (97 <=? c) && (c <=? 122) then c - 32 else c.
Definition cased (lower : bool) (t : list Z) : list Z := if lower then t else map upper t.
Definition pad_dec (w n : Z) : list Z :=
  if n <? 0 then 45 :: pad0 (w - 1) (nat_text 10 (- n)) else pad0 w (nat_text 10 n).
(** lines 1071-1075, 1173-1183, 1187-1197.  The byte within a sector is not negative. *)
Definition label (s : seg) (lower : bool) (i : Z) : res (list Z) :=
  match g_kind s with
  | KRaw first _ bsize nboot psize =>
      let! (sector, byte) := sector_label first nboot bsize psize i in
      Ok (txt "s" ++ pad_dec 3 sector ++ txt ":" ++ cased lower (pad0 2 (nat_text 16 byte)))
  | KTrack first _ bsize nboot psize =>
      let! (sector, byte) := sector_label first nboot bsize psize i in
      Ok (txt "t" ++ pad_dec 2 (sector / 16) ++ txt "s" ++ pad_dec 2 (sector mod 16) ++ txt ":" ++
          cased lower (pad0 2 (nat_text 16 byte)))
  | _ => Ok (cased lower (hex4 (i + g_origin s)))
  end.

(** * New segments *)
(** lines 464-469: create_subset; its address is 0 *)
Definition create_subset (h : heap) (s : seg) (order name : list Z) : res seg :=
  let! x := raw_indexed h (g_raw s) (to_numpy_list order) in
  Ok (mkSeg KDefault name 0 x).
(** lines 547-554: get_parallel_raw_data.  For an indexed segment the code asks the segment
    for its attribute order, which only its raw data has. *)
Definition parallel_raw (h : heap) (s other : seg) : res raw :=
  let (a, b) := byte_bounds h (g_raw other) in
  match r_win (g_raw other) with
  | WOrder _ => Err EAttribute
  | _ => Ok (raw_slice h (g_raw s) (Some a) (Some b))
  end.
(** lines 1238-1246: SegmentList.add_segment *)
Definition add_segment (h : heap) (l : list seg) (data : list Z) (origin : Z) (name : option (list Z)) : heap * list seg :=
  let n := zlen data in
  let nm := match name with
            | Some t => t
            | None => hex4 origin ++ txt " - " ++ hex4 (origin + n) ++ txt ", size=" ++ hex4 n
            end in
  let (h1, x) := new_raw h data in
  (h1, l ++ [mkSeg KDefault nm origin x]).

(** * Searching: lines 422-428, 627-629, 1077-1082 *)
(** Segments with their copy of the data. *)
Record view := mkView { v_raw : raw; v_copy : option (list Z) }.
Inductive sop :=
| Look (k : nat)                          (* search_copy *)
| Put (k : nat) (i v : Z).                (* segment[i] = v *)
Definition look (h : heap) (v : view) : view * list Z :=
  match v_copy v with
  | Some c => (v, c)
  | None => let c := read_data h (v_raw v) in (mkView (v_raw v) (Some c), c)
  end.
(** An assignment that fails leaves the copy as it was. *)
Definition put (h : heap) (v : view) (i x : Z) : heap * view * res unit :=
  match set_index h (v_raw v) i x with
  | (h1, Ok _) => (h1, mkView (v_raw v) None, Ok tt)
  | (h1, Err e) => (h1, v, Err e)
  end.
Definition no_view : view := mkView (mkR 0 0 0 WAll) None.
Definition step (st : heap * list view) (o : sop) : heap * list view :=
  let (h, vs) := st in
  match o with
  | Look k => (h, replace k (fst (look h (nth k vs no_view))) vs)
  | Put k i x => let '(h1, v, _) := put h (nth k vs no_view) i x in (h1, replace k v vs)
  end.
Definition steps (st : heap * list view) (l : list sop) : heap * list view := fold_left step l st.
