(** The segments of an image file as the assemble, boot and segments commands see them:
    atrcopy/__init__.py 246-260 and 636-637, parsers.py 70-85. *)
From Verif Require Import Base ExecModel SegModel DetectModel SegListModel.

(** __init__.py 88-100, 60-85: the file is read into new raw data and given to the parser.
    Parsers that refused the data before may have left styles in it (C88_trace_refuted);
    neither command looks at styles. *)
Definition file_segments (e : env) (b : list Z) (fd : found) : res (heap * list seg) :=
  let! u := unpacked e b in
  let (h, r) := new_raw (mkHp [] []) u in
  match image_segments h r (f_class fd) (f_image fd) with
  | (h', Ok l) => Ok (h', l)
  | (_, Err x) => Err x
  end.
(** __init__.py 636-637 *)
Definition file_lines (e : env) (b : list Z) (fd : found) : res (list (list Z)) :=
  let! (h, l) := file_segments e b fd in Ok (segments_lines h l).
(** lines 252-260, segments.py 1238-1245 and 154-157: the data of an indexed segment is an
    OrderWrapper, of which SegmentData cannot be made (utils.py 28-35: TypeError).  The
    data is looked at if the segment has a positive address only. *)
Definition object_seg (h : heap) (s : seg) : res xseg :=
  let x runad := mkX runad NoName 0 0 (g_origin s) (read_data h (g_raw s)) in
  match g_kind s with
  | KRun _ _ => Ok (x true)
  | _ =>
      match r_win (g_raw s) with
      | WOrder _ => if 0 <? g_origin s then Err EType else Ok (x false)
      | _ => Ok (x false)
      end
  end.
Fixpoint object_segs (h : heap) (l : list seg) : res (list xseg) :=
  match l with
  | [] => Ok []
  | s :: r => let! x := object_seg h s in let! xs := object_segs h r in Ok (x :: xs)
  end.
Definition file_objects (e : env) (b : list Z) (fd : found) : res (list xseg) :=
  let! (h, l) := file_segments e b fd in object_segs h l.
(** The container segment, at address 0, comes first; it is left out for executables,
    whose segments are those found while parsing (C90_executable_segments). *)
Definition parser_segs (e : env) (b : list Z) (fd : found) : res (list xseg) :=
  match f_image fd with
  | IXex l => Ok l
  | IBin s => Ok [s]
  | _ => file_objects e b fd
  end.
