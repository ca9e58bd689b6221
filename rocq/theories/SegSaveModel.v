(** Model of saving and restoring a parser with its segments: parsers.py 44-68 and 87-93,
    segments.py 471-545.

    Simplifications: as in SegListModel.v; the memory map of a segment, which every parser
    leaves empty, is not modelled.  All that a kind of segment holds is saved (segments.py
    395-396, 1113, 1142). *)
From Verif Require Import Base AtariModel SpartaModel ExecModel SegModel DetectModel Dos33Model SegListModel.
From Verif Require CartModel.

(** The classes of DetectModel.v, and DefaultSegmentParser (parsers.py 105-109), which
    has no image class. *)
Inductive kclass := Raw | Format (p : pclass).
(** parsers.py 91-93, 149-151: get_image makes the image object, without the checks and
    without segments; [e_zip] says what zipfile finds *)
Definition get_image (e : env) (k : kclass) (b : list Z) : res unit :=
  match k with
  | Raw => Err EType
  | Format p =>
      match p with
      | PKBoot => let! _ := kboot_open b in Ok tt
      | PSparta => let! _ := open_sparta b in Ok tt
      | PAtariDos => let! _ := open_image b in Ok tt
      | PBoot => let! h := atari_header b in boot_check h b
      | PUnidentified => let! _ := atari_header b in Ok tt
      | PXex | PBin => Ok tt
      | PCart8 t | PCart52 t => let! _ := CartModel.open_cart b t in Ok tt
      | P2600 | PStarpath | PVectrex | PRom => let! _ := rom_image b in Ok tt
      | PMame => let! _ := mame_image (e_zip e b) in Ok tt
      | PDos33 => let! _ := open33 b in Ok tt
      | PProdos => let! _ := prodos_image b in Ok tt
      end
  end.

(** * Segments: segments.py 471-545 *)
(** A segment has either its data or, when it comes from a saved state, the attributes
    _rawdata_bounds and _order_list. *)
Inductive item := Live (s : seg) | Pending (kind : skind) (name : list Z) (origin : Z) (st : state).
Definition save_seg (h : heap) (s : seg) : item := Pending (g_kind s) (g_name s) (g_origin s) (get_state h (g_raw s)).
(** lines 528-545: reconstruct_raw reads _rawdata_bounds and deletes it *)
Definition reconstruct_raw (h : heap) (base : raw) (i : item) : res item :=
  match i with
  | Live _ => Err EAttribute
  | Pending k n o st => let! x := reconstruct h base st in Ok (Live (mkSeg k n o x))
  end.

(** * The parser *)
Record parser := mkParser { p_class : kclass; p_items : list item }.
(** parsers.py 44-58: __getstate__; strict is not looked at again *)
Definition save_parser (h : heap) (k : kclass) (l : list seg) : parser := mkParser k (map (save_seg h) l).
Fixpoint reconstruct_items (h : heap) (base : raw) (l : list item) : res (list item) :=
  match l with
  | [] => Ok []
  | i :: rest =>
      let! j := reconstruct_raw h base i in
      let! js := reconstruct_items h base rest in
      Ok (j :: js)
  end.
(** lines 85-89: reconstruct_segments *)
Definition reconstruct_segments (e : env) (h : heap) (base : raw) (p : parser) : res parser :=
  let! _ := get_image e (p_class p) (read_data h base) in
  let! l := reconstruct_items h base (p_items p) in
  Ok (mkParser (p_class p) l).
