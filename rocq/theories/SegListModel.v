(** Model of the segments of an image: SegmentParser.parse (parsers.py 70-85) and
    parse_segments of the image classes, on the raw data of SegModel.v.  [r] is the raw
    data given to the parser; diskimages.py 103-105 keeps it as self.rawdata and uses its
    array as self.bytes.

    Simplifications: a segment's uuid, map width, savers and verbose name are not
    modelled; the message of the exception kept in a segment that could not be made is
    represented by the exception. *)
From Coq Require Import String.
From Verif Require Import Base DiskModel AtariModel SpartaModel ExecModel SegModel CliModel TextModel DetectModel.
From Verif Require Import Dos33Model EditModel.
From Verif Require CartModel.

(** * Segments: segments.py 1075-1197 *)
Inductive skind :=
| KDefault                                          (* DefaultSegment *)
| KObj                                              (* ObjSegment, XexSegment; data_start is 0 *)
| KRaw (first num bsize nboot psize : Z)            (* RawSectorsSegment *)
| KTrack (first num bsize nboot psize : Z)          (* RawTrackSectorSegment *)
| KAt (meta start : Z)                              (* ObjSegment with metadata_start and data_start *)
| KRun (meta start : Z)                             (* RunAddressSegment *)
| KEmpty (note : list Z)                            (* EmptySegment of a file without bytes, its error text *)
| KFailed (e : exn).                                (* EmptySegment of a file that cannot be read *)
Record seg := mkSeg { g_kind : skind; g_name : list Z; g_origin : Z; g_raw : raw }.

(** ['%x'] and ['%04x'] *)
Definition hexn (n : Z) : list Z := if n <? 0 then 45 :: nat_text 16 (- n) else nat_text 16 n.
Definition hex4 (n : Z) : list Z := if n <? 0 then 45 :: pad0 3 (nat_text 16 (- n)) else pad0 4 (nat_text 16 n).
(** segments.py 590-598, 1095-1099, 1120-1125, 1152-1159: __str__ (without the error
    message of a file that cannot be read) *)
Definition sectors_text (name : list Z) (first num : Z) : list Z :=
  if 1 <? num then name ++ txt " (sectors " ++ dec first ++ txt "-" ++ dec (first + num - 1) ++ txt ")"
  else name ++ txt " (sector " ++ dec first ++ txt ")".
Definition seg_text (h : heap) (s : seg) : list Z :=
  let n := raw_len h (g_raw s) in
  match g_kind s with
  | KDefault => g_name s ++ txt " ($" ++ hexn n ++ txt " bytes" ++
      (if 0 <? g_origin s then txt " @ " ++ hex4 (g_origin s) else []) ++ txt ")"
  | KObj => g_name s ++ txt " $" ++ hex4 (g_origin s) ++ txt "-$" ++ hex4 (g_origin s + n) ++
      txt " ($" ++ hex4 n ++ txt " @ $0000)"
  | KAt _ start | KRun _ start => g_name s ++ txt " $" ++ hex4 (g_origin s) ++ txt "-$" ++ hex4 (g_origin s + n) ++
      txt " ($" ++ hex4 n ++ txt " @ $" ++ hex4 start ++ txt ")"
  | KRaw first num _ _ _ | KTrack first num _ _ _ => sectors_text (g_name s) first num
  | KEmpty [] | KFailed _ => g_name s ++ txt " (empty file)"
  | KEmpty note => g_name s ++ txt " (empty file)" ++ txt " " ++ note
  end.
(** __init__.py 636-637: the segments command *)
Definition segments_lines (h : heap) (l : list seg) : list (list Z) := map (seg_text h) l.
(** segments.py 1173-1197: label, before formatting *)
Definition seg_label (s : seg) (i : Z) : option (res (Z * Z)) :=
  match g_kind s with
  | KRaw first _ bsize nboot psize | KTrack first _ bsize nboot psize => Some (sector_label first nboot bsize psize i)
  | _ => None
  end.

(** Steps that change annotations and may fail. *)
Definition hbind {A B} (m : heap * res A) (f : heap -> A -> heap * res B) : heap * res B :=
  match m with
  | (h, Ok x) => f h x
  | (h, Err e) => (h, Err e)
  end.
Definition pure {A} (h : heap) (x : res A) : heap * res A := (h, x).
Notation "'let@' ( h , x ) := m 'in' k" := (hbind m (fun h x => k)) (at level 200, h name, x name, m at level 100, k at level 200).

(** * Parts shared by the formats *)
(** diskimages.py 261-266: the header and the sectors *)
Definition header_seg (h : heap) (r : raw) (format : string) (off : Z) : seg :=
  mkSeg KObj (txt format ++ txt " Header") 0 (raw_slice h r (Some 0) (Some off)).
Definition atari_format (hd : hdr) : string := if h_offset hd =? 0 then "XFD" else "ATR".
Definition atari_head_segs (h : heap) (r : raw) (hd : hdr) : list seg :=
  (if 0 <? h_image_size hd then [header_seg h r (atari_format hd) (h_offset hd)] else []) ++
  [mkSeg (KRaw 1 (h_max hd) (h_isize hd) (h_ninit hd) (h_ssize hd)) (txt "Raw disk sectors") 0
         (raw_slice h r (Some (h_offset hd)) None)].
(** ataridos.py 592-606 and 757-772: get_boot_segments, on the sector holding the record
    ([rec]) whose size is [n] *)
Definition boot_segs (h : heap) (r : raw) (hd : hdr) (b : list Z) (rec n : Z) : res (list seg) :=
  let! data := get_sectors hd b rec rec in
  let! v := view_rec (slice data 0 n) n in
  if getb v 0 =? 0 then
    let addr := le2 (getb v 2) (getb v 3) in
    let! (x, y) := get_sector_slice hd 1 (getb v 1) in
    let s := raw_slice h r (Some x) (Some y) in
    Ok [mkSeg KObj (txt "Boot Sectors") addr s;
        mkSeg KObj (txt "Boot Header") addr (raw_slice h s (Some 0) (Some n));
        mkSeg KObj (txt "Boot Code") (addr + n) (raw_slice h s (Some n) None)]
  else Ok [].
(** [segment.style[:] = get_style_bits(data=True)] *)
Definition mark_data (h : heap) (s : raw) : heap :=
  upd_style (fun _ => style_bits k_data) h s (win_slice (raw_len h s) (r_win s) None None).
(** the same followed by set_comment_at, one after the other *)
Definition annotate (h : heap) (s : raw) (notes : list (Z * list Z)) : heap * res unit :=
  each (fun h it => set_comment_at h s (fst it) (snd it)) notes (mark_data h s).
(** diskimages.py 301-310: get_file_segments *)
Fixpoint each_file {D} (name : D -> list Z) (make : heap -> D -> heap * res seg) (r : raw) (h : heap) (ds : list D)
  : heap * res (list seg) :=
  match ds with
  | [] => (h, Ok [])
  | d :: rest =>
      match make h d with
      | (h1, Ok s) => let@ (h2, l) := each_file name make r h1 rest in (h2, Ok (s :: l))
      | (h1, Err e) =>
          if is_invalid_file e
          then let@ (h2, l) := each_file name make r h1 rest in (h2, Ok (mkSeg (KFailed e) (name d) 0 r :: l))
          else (h1, Err e)
      end
  end.

(** * Atari DOS: ataridos.py 608-679 *)
(** lines 613-621 *)
Definition vtoc_notes : list (Z * list Z) :=
  [(0x00, txt "Type code"); (0x01, txt "Total number of sectors"); (0x03, txt "Number of free sectors");
   (0x05, txt "reserved"); (0x06, txt "unused"); (0x0a, txt "Sector bit map"); (0x64, txt "unused")].
(** lines 626-629 *)
Definition vtoc2_notes : list (Z * list Z) :=
  [(0x00, txt "Repeat of sectors 48-719"); (0x44, txt "Sector bit map 720-1023");
   (0x7a, txt "Number of free sectors above 720"); (0x7c, txt "unused")].
(** lines 641-648 *)
Definition file_note (n : Z) (s : string) : list Z := txt "FILE #" ++ dec n ++ txt ": " ++ txt s.
Fixpoint dir_notes (count : nat) (n index : Z) : list (Z * list Z) :=
  match count with
  | O => []
  | S c =>
      [(index + 0x00, file_note n "Flag"); (index + 0x01, file_note n "Number of sectors in file");
       (index + 0x03, file_note n "Starting sector number"); (index + 0x05, file_note n "Filename");
       (index + 0x0d, file_note n "Extension")] ++ dir_notes c (n + 1) (index + 16)
  end.
(** lines 608-632: get_vtoc_segments *)
Definition atari_vtoc_segs (h : heap) (r : raw) (im : aimg) : heap * res (list seg) :=
  let hd := a_hdr im in
  let@ (h, p) := pure h (get_contiguous hd (a_fvtoc im) (a_nvtoc im)) in
  let s := raw_slice h r (Some (fst p)) (Some (fst p + snd p)) in
  let v := mkSeg (KRaw (a_fvtoc im) (a_nvtoc im) 128 3 (h_ssize hd)) (txt "VTOC") 0 s in
  let@ (h, _) := annotate h s vtoc_notes in
  if 0 <? a_vtoc2 im then
    let@ (h, p) := pure h (get_contiguous hd (a_vtoc2 im) 1) in
    let s := raw_slice h r (Some (fst p)) (Some (fst p + snd p)) in
    let@ (h, _) := annotate h s vtoc2_notes in
    (h, Ok [v; mkSeg (KRaw (a_vtoc2 im) 1 128 3 (h_ssize hd)) (txt "VTOC2") 0 s])
  else (h, Ok [v]).
(** lines 634-650: get_directory_segments *)
Definition atari_dir_segs (h : heap) (r : raw) (im : aimg) : heap * res (list seg) :=
  let hd := a_hdr im in
  let@ (h, p) := pure h (get_contiguous hd 361 8) in
  let s := raw_slice h r (Some (fst p)) (Some (fst p + snd p)) in
  let@ (h, _) := annotate h s (dir_notes 64 0 0) in
  (h, Ok [mkSeg (KRaw 361 8 128 3 (h_ssize hd)) (txt "Directory") 0 s]).
(** lines 652-667: get_file_segment *)
Definition atari_file_seg (r : raw) (im : aimg) (h : heap) (d : dirent) : heap * res seg :=
  pure h
    (let! x := file_segment h r im d in
     let! runs := read_runs (chain_fuel (a_hdr im)) (a_hdr im) (a_bytes im) (d_my d) (d_num d) (d_start d) [] in
     match run_positions runs with
     | [] => Ok (mkSeg (KEmpty []) (filename d) 0 x)
     | _ => Ok (mkSeg KDefault (filename d ++ txt " " ++ dec (d_count d) ++ txt "s@" ++ dec (d_start d)) 0 x)
     end).
(** diskimages.py 261-270, ataridos.py 669-679: parse_segments.  AtariDosFile(rawdata),
    lines 277-281, does not look at the data: its list of segments is empty. *)
Definition atari_parse_segments (h : heap) (r : raw) (im : aimg) : heap * res (list seg) :=
  let a := atari_head_segs h r (a_hdr im) in
  let@ (h, b) := pure h (boot_segs h r (a_hdr im) (a_bytes im) 360 20) in
  let@ (h, c) := atari_vtoc_segs h r im in
  let@ (h, d) := atari_dir_segs h r im in
  let@ (h, e) := each_file filename (atari_file_seg r im) r h (a_files im) in
  (h, Ok (a ++ b ++ c ++ d ++ e)).

(** * Boot disks (ataridos.py 682-772) and unidentified ones (775-785): there are no files *)
Definition boot_parse_segments (h : heap) (r : raw) (hd : hdr) (b : list Z) : heap * res (list seg) :=
  let@ (h, l) := pure h (boot_segs h r hd b 1 6) in (h, Ok (atari_head_segs h r hd ++ l)).
Definition plain_parse_segments (h : heap) (r : raw) (hd : hdr) : heap * res (list seg) :=
  (h, Ok (atari_head_segs h r hd)).

(** * KBoot: kboot.py 49-63 *)
Definition kboot_parse_segments (h : heap) (r : raw) (k : kboot) : heap * res (list seg) :=
  (h, Ok (atari_head_segs h r (k_hdr k) ++
          [mkSeg KObj (txt "KBoot Executable") (k_start k)
                 (raw_slice h r (Some (k_start k)) (Some (k_start k + k_size k)))])).

(** * DOS 3.3: dos33.py 486-597 *)
(** diskimages.py 225-239: get_sector_slice *)
Fixpoint more_size3 (h : hdr33) (more : nat) (n : Z) : res Z :=
  match more with
  | O => Ok 0
  | S m => let! (_, sz) := get_pos3 h (n + 1) in
           let! rest := more_size3 h m (n + 1) in
           Ok (sz + rest)
  end.
Definition slice_bounds3 (h : hdr33) (a b : Z) : res (Z * Z) :=
  let! (pos, size) := get_pos3 h a in
  let! more := more_size3 h (Z.to_nat (b - a)) a in
  Ok (pos, pos + (size + more)).
(** lines 486-500: get_boot_segments *)
Fixpoint boot_list3 (h : heap) (r : raw) (hd : hdr33) (l : list (Z * Z * Z * string)) : res (list seg) :=
  match l with
  | [] => Ok []
  | (a, b, addr, name) :: rest =>
      let! (x, y) := slice_bounds3 hd a b in
      let! s := boot_list3 h r hd rest in
      Ok (mkSeg KObj (txt name) addr (raw_slice h r (Some x) (Some y)) :: s)
  end.
Definition boot_segs3 (h : heap) (r : raw) (hd : hdr33) : res (list seg) :=
  boot_list3 h r hd [(0, 0, 0x800, "Boot 1"%string); (1, 9, 0x3700, "Boot 2"%string);
                     (0x0a, 0x0b, 0x1b00, "Relocator"%string); (0x0c, 0x0c + 25, 0x1d00, "Boot 3"%string)].
(** lines 509-528 *)
Fixpoint track_notes (count : nat) (track index : Z) : list (Z * list Z) :=
  match count with
  | O => []
  | S c => (index, txt "Free sectors in track " ++ dec track) :: track_notes c (track + 1) (index + 4)
  end.
Definition vtoc_notes3 : list (Z * list Z) :=
  [(0x00, txt "unused"); (0x01, txt "Track number of next catalog sector"); (0x02, txt "Sector number of next catalog sector");
   (0x03, txt "Release number of DOS used to format"); (0x04, txt "unused"); (0x06, txt "Volume number"); (0x07, txt "unused");
   (0x27, txt "Number of track/sector pairs per t/s list sector"); (0x28, txt "unused");
   (0x30, txt "Last track that sectors allocated"); (0x31, txt "Track allocation direction"); (0x32, txt "unused");
   (0x34, txt "Tracks per disk"); (0x35, txt "Sectors per track"); (0x36, txt "Bytes per sector")] ++
  track_notes 35 0 0x38.
(** lines 502-530: get_vtoc_segments; header.first_vtoc is 272 *)
Definition vtoc_segs3 (h : heap) (r : raw) (im : img33) : heap * res (list seg) :=
  let@ (h, p) := pure h (get_pos3 (i_hdr im) 272) in
  let s := raw_slice h r (Some (fst p)) (Some (fst p + (0 + snd p))) in
  let@ (h, _) := annotate h s vtoc_notes3 in
  (h, Ok [mkSeg (KTrack 272 1 0 0 256) (txt "VTOC") 0 s]).
(** lines 532-542: the catalog sectors, following the links *)
Fixpoint catalog_runs (fuel : nat) (h : hdr33) (bytes : list Z) (sector : Z) : res (list (Z * Z)) :=
  if 0 <? sector then
    match fuel with
    | O => Err EFuel
    | S f =>
        let! _ := assert_valid3 h sector in
        let! (s, pos) := get_raw3 h bytes sector in
        let! next := link_of s in
        let! rest := catalog_runs f h bytes next in
        Ok ((pos, 256) :: rest)
    end
  else Ok [].
(** lines 546-562 *)
Fixpoint entry_notes3 (count : nat) (n index : Z) : list (Z * list Z) :=
  match count with
  | O => []
  | S c =>
      [(index + 0x00, file_note n "Track number of next catalog sector");
       (index + 0x01, file_note n "Sector number of next catalog sector");
       (index + 0x02, file_note n "File type"); (index + 0x03, file_note n "Filename");
       (index + 0x21, file_note n "Number of sectors in file")] ++ entry_notes3 c (n + 1) (index + 0x23)
  end.
Fixpoint catalog_notes3 (fuel : nat) (len n index : Z) : list (Z * list Z) :=
  match fuel with
  | O => []
  | S f =>
      if index <? len then
        [(index + 0x00, txt "unused"); (index + 0x01, txt "Track number of next catalog sector");
         (index + 0x02, txt "Sector number of next catalog sector"); (index + 0x03, txt "unused")] ++
        entry_notes3 7 n (index + 0x0b) ++ catalog_notes3 f len (n + 7) (index + 0x0b + 7 * 0x23)
      else []
  end.
(** lines 532-564: get_directory_segments *)
Definition catalog_segs3 (h : heap) (r : raw) (im : img33) : heap * res (list seg) :=
  let@ (h, runs) := pure h (catalog_runs (fuel33 (i_hdr im)) (i_hdr im) (i_bytes im) (h_fdir (i_hdr im))) in
  let@ (h, s) := pure h (raw_indexed h r (to_numpy_list (run_positions runs))) in
  let n := raw_len h s in
  let@ (h, _) := annotate h s (catalog_notes3 (Z.to_nat n) n 0 0) in
  (h, Ok [mkSeg KDefault (txt "Catalog") 0 s]).
(** lines 575-597: get_file_segment *)
Definition file_seg3 (r : raw) (im : img33) (h : heap) (d : ent) : heap * res seg :=
  let@ (h1, x) := file_segment3 h r im d in
  pure h1
    (let! (_, m) := get_tslist (fuel33 (i_hdr im)) (i_hdr im) (i_bytes im) d in
     let! runs := read_map (i_hdr im) (i_bytes im) m in
     match run_positions runs with
     | [] => Ok (mkSeg (KEmpty []) (d3_name d) 0 x)
     | _ =>
         let name := dos33_summary d ++ txt " " ++ pad0 3 (dec (d3_count d)) ++ txt " " ++ d3_name d in
         if d3_type d =? 4 then
           let! (s, _) := get_raw3 (i_hdr im) (i_bytes im) (hd 0 m) in
           Ok (mkSeg KObj name (getb s 0 + 256 * getb s 1 - 4) x)
         else Ok (mkSeg KObj name 0 x)
     end).
(** diskimages.py 261-270: the header has no bytes, image_size is 143360 *)
Definition head_segs3 (h : heap) (r : raw) (hd : hdr33) : list seg :=
  [header_seg h r "DOS 3.3" 0; mkSeg (KTrack 0 (h_max3 hd) 0 0 256) (txt "Raw disk sectors") 0 (raw_slice h r (Some 0) None)].
Definition parse_segments3 (h : heap) (r : raw) (im : img33) : heap * res (list seg) :=
  let a := head_segs3 h r (i_hdr im) in
  let@ (h, b) := pure h (boot_segs3 h r (i_hdr im)) in
  let@ (h, c) := vtoc_segs3 h r im in
  let@ (h, d) := catalog_segs3 h r im in
  let@ (h, e) := each_file d3_name (file_seg3 r im) r h (i_files im) in
  (h, Ok (a ++ b ++ c ++ d ++ e)).

(** * SpartaDOS: spartados.py 181-246 *)
(** lines 181-193: get_boot_segments.  The segment of all boot sectors is made but not
    put into the list; the header is, twice. *)
Definition sparta_boot_segs (h : heap) (r : raw) (im : simg) : res (list seg) :=
  let! (x, y) := get_sector_slice (s_hdr im) 1 (Z.min (s_numboot im) 1) in
  let s := raw_slice h r (Some x) (Some y) in
  let addr := s_bootaddr im in
  let header := mkSeg KObj (txt "Boot Header") addr (raw_slice h s (Some 0) (Some 43)) in
  let code := mkSeg KObj (txt "Boot Code") (addr + 43) (raw_slice h s (Some 43) None) in
  Ok (header :: if 0 <? s_numboot im then [header; code] else []).
(** lines 195-208: get_vtoc_segments *)
Definition sparta_vtoc_segs (h : heap) (r : raw) (im : simg) : res (list seg) :=
  let! (start, count) := sbitmap_bounds im in
  Ok [mkSeg (KRaw (s_bitmap im) (s_nbitmap im) 0 0 (s_ssize im)) (txt "Bitmap") 0
            (raw_slice h r (Some start) (Some (start + count)))].
(** lines 229-246: get_file_segment; [t] are the bytes of the time stamp *)
Definition sparta_file_seg (r : raw) (im : simg) (h : heap) (dt : sdirent * list Z) : heap * res seg :=
  let (d, t) := dt in
  pure h
    (let! runs := sfile_runs (sfuel (s_bytes im)) (s_hdr im) (s_bytes im) d in
     match run_positions runs with
     | [] => Ok (mkSeg (KEmpty (stamp_text t)) (sfilename d) 0 r)
     | o => let! x := raw_indexed h r (to_numpy_list o) in
            Ok (mkSeg KDefault (sfilename d ++ txt " " ++ dec (sd_length d) ++ txt "@" ++ dec (sd_start d) ++ txt " " ++ stamp_text t) 0 x)
     end).
(** lines 165-179: the root directory's entry is read from the first sector of its map *)
Definition root_stamp (im : simg) (d : sdirent) : list Z :=
  match sector_map (sfuel (s_bytes im)) (s_hdr im) (s_bytes im) (sd_start d) with
  | Ok (Some (s :: _)) =>
      match get_pos (s_hdr im) s with
      | Ok (pos, size) => slice (slice (slice (s_bytes im) pos (pos + size)) 0 23) 17 23
      | Err _ => []
      end
  | _ => []
  end.
(** lines 221-227: get_directory_segments.  Without a root entry the code reads attributes
    of None. *)
Definition sparta_dir_segs (h : heap) (r : raw) (im : simg) : heap * res (list seg) :=
  match s_rootd im with
  | None => (h, Err EAttribute)
  | Some d =>
      let@ (h, s) := sparta_file_seg r im h (d, root_stamp im d) in
      (h, Ok [mkSeg (g_kind s) (sfilename d) (g_origin s) (g_raw s)])
  end.
Definition sparta_parse_segments (h : heap) (r : raw) (im : simg) : heap * res (list seg) :=
  let a := atari_head_segs h r (s_hdr im) in
  let@ (h, b) := pure h (sparta_boot_segs h r im) in
  let@ (h, c) := pure h (sparta_vtoc_segs h r im) in
  let@ (h, d) := sparta_dir_segs h r im in
  let@ (h, l) := pure h (stamps im) in
  let@ (h, e) := each_file (fun dt => sfilename (fst dt)) (sparta_file_seg r im) r h l in
  (h, Ok (a ++ b ++ c ++ d ++ e)).

(** * Executables *)
(** [s[a:b] = get_style_bits(data=True)] on the styles of the parser's data *)
Definition mark_slice (h : heap) (r : raw) (a b : Z) : heap :=
  upd_style (fun _ => style_bits k_data) h r (win_slice (raw_len h r) (r_win r) (Some a) (Some b)).
(** ataridos.py 292-333: AtariDosFile.parse_segments, [b] are the bytes of [r] *)
Fixpoint xex_loop (fuel : nat) (h : heap) (r : raw) (b : list Z) (pos spos : Z) (first : bool) : heap * res (list seg) :=
  match fuel with
  | O => (h, Err EFuel)
  | S f =>
      if negb (pos <? zlen b) then (h, Ok [])
      else if negb (pos + 1 <? zlen b)
      then (h, Ok [mkSeg (KAt pos (pos + 1)) (txt "Incomplete Data") 0 (raw_slice h r (Some pos) (Some (pos + 1)))])
      else if le2 (getb b pos) (getb b (pos + 1)) =? 0xffff then xex_loop f h r b (pos + 2) spos false
      else if first then (h, Err (EAtr InvalidBinaryFile))
      else if zlen (slice b pos (pos + 4)) <? 4
      then (h, Ok [mkSeg KObj (txt "Short Segment Header") 0 (raw_slice h r (Some pos) (Some (pos + 4)))])
      else
        let start := le2 (getb b pos) (getb b (pos + 1)) in
        let end_ := le2 (getb b (pos + 2)) (getb b (pos + 3)) in
        let h1 := mark_slice h r spos (pos + 4) in
        if end_ <? start then (h1, Err (EAtr InvalidBinaryFile))
        else
          let count := end_ - start + 1 in
          let x := raw_slice h1 r (Some (pos + 4)) (Some (pos + 4 + count)) in
          if zlen (slice b (pos + 4) (pos + 4 + count)) <? count
          then (h1, Ok [mkSeg (KAt pos (pos + 4)) (txt "Incomplete Data") start x])
          else
            let@ (h2, l) := xex_loop f h1 r b (pos + (4 + count)) (pos + (4 + count)) first in
            (h2, Ok (mkSeg (if start =? 0x2e0 then KRun pos (pos + 4) else KAt pos (pos + 4)) [] start x :: l))
  end.
Definition xex_parse_segments (h : heap) (r : raw) : heap * res (list seg) :=
  let b := read_data h r in xex_loop (S (length b)) h r b 0 0 true.
(** dos33.py 620-641: Dos33BinFile.parse_segments *)
Definition bin_parse_segments (h : heap) (r : raw) : heap * res (list seg) :=
  let b := read_data h r in
  if zlen (slice b 0 4) =? 4 then
    let start := le2 (getb b 0) (getb b 1) in
    let count := le2 (getb b 2) (getb b 3) in
    if negb (count =? zlen b - 4) then (h, Err (EAtr InvalidBinaryFile))
    else
      let h1 := mark_slice h r 0 4 in
      if zlen (slice b 4 (4 + count)) =? count
      then (h1, Ok [mkSeg (KAt 0 4) (txt "BSAVE data") start (raw_slice h1 r (Some 4) (Some (4 + count)))])
      else (h1, Err (EAtr InvalidBinaryFile))
  else (h, Err (EAtr InvalidBinaryFile)).

(** * Cartridges and ROM images: cartridge.py 233-262, 331-334 *)
Fixpoint bank_segs (h : heap) (r : raw) (c : CartModel.cheader) (n : Z) (banks : list Z) : list seg :=
  match banks with
  | [] => []
  | o :: rest =>
      let start := CartModel.h_off c + o * 1024 in
      mkSeg KObj (txt "Bank #" ++ dec n) (CartModel.h_borigin c) (raw_slice h r (Some start) (Some (start + CartModel.h_bsize c * 1024)))
      :: bank_segs h r c (n + 1) rest
  end.
Definition cart_parse_segments (h : heap) (r : raw) (c : CartModel.cheader) : heap * res (list seg) :=
  let i := CartModel.h_off c in
  let start := i + CartModel.h_moff c * 1024 in
  (h, Ok ((if 0 <? i then [mkSeg KObj (txt "Cart Header") 0 (raw_slice h r (Some 0) (Some i))] else []) ++
          mkSeg KObj (txt "Main Bank") (CartModel.h_morigin c) (raw_slice h r (Some start) (Some (start + CartModel.h_msize c * 1024))) ::
          bank_segs h r c 1 (CartModel.h_banks c))).
(** main_origin of a header that was not read is 0 *)
Definition rom_parse_segments (h : heap) (r : raw) : heap * res (list seg) := (h, Ok [mkSeg KObj (txt "Main Bank") 0 r]).

(** * MAME: mame.py 43-67.  The members are unpacked into data of their own. *)
Fixpoint mame_segs (h : heap) (x : raw) (offset : Z) (l : list zipent) : list seg :=
  match l with
  | [] => []
  | z :: rest =>
      mkSeg (KAt 0 offset) (z_name z) offset (raw_slice h x (Some offset) (Some (offset + z_size z)))
      :: mame_segs h x (offset + z_size z) rest
  end.
Definition mame_parse_segments (h : heap) (l : list zipent) : heap * res (list seg) :=
  let (h1, x) := new_raw h (flat_map z_data l) in (h1, Ok (mame_segs h1 x 0 l)).

(** * The parser: parsers.py 70-85 *)
(** lines 105-204 and 398-416: the names of the classes *)
Definition menu_name (p : pclass) : list Z :=
  match p with
  | PKBoot => txt "KBoot Disk Image"
  | PSparta => txt "Sparta DOS Disk Image"
  | PAtariDos => txt "Atari DOS Disk Image"
  | PBoot => txt "Atari Boot Disk Image"
  | PUnidentified => txt "Atari Disk Image"
  | PXex => txt "XEX (Atari 8-bit executable)"
  | PCart8 t | PCart52 t =>
      match find (fun c => CartModel.ct_type c =? t) (tl CartModel.known_cart_types), p with
      | Some c, _ => txt (CartModel.ct_name c) ++ txt " Cartridge"
      | None, PCart8 _ => txt "Atari Home Computer Cartridge"
      | None, _ => txt "Atari 5200 Cartridge"
      end
  | P2600 => txt "Atari 2600 Cartridge"
  | PStarpath => txt "Atari 2600 Starpath Cassette"
  | PVectrex => txt "Vectrex Cartridge"
  | PMame => txt "MAME ROM Zipfile"
  | PRom => txt "ROM Image"
  | PDos33 => txt "DOS 3.3 Disk Image"
  | PProdos => txt "ProDOS Disk Image"
  | PBin => txt "BIN (Apple ][ executable)"
  end.
Definition whole_seg (r : raw) (menu : list Z) : seg := mkSeg KDefault menu 0 r.
Definition with_whole (r : raw) (menu : list Z) (m : heap * res (list seg)) : heap * res (list seg) :=
  let@ (h, l) := m in (h, Ok (whole_seg r menu :: l)).
(** The segments of an image that a parser accepted (DetectModel.v). *)
Definition parse_segments (h : heap) (r : raw) (i : image) : heap * res (list seg) :=
  match i with
  | IKBoot k => kboot_parse_segments h r k
  | ISparta a => sparta_parse_segments h r a
  | IAtariDos a => atari_parse_segments h r a
  | IBoot hd b => boot_parse_segments h r hd b
  | IUnidentified hd b => plain_parse_segments h r hd
  | IXex _ => xex_parse_segments h r
  | ICart c => cart_parse_segments h r (CartModel.ci_hdr c)
  | IMame l => mame_parse_segments h l
  | IRom _ => rom_parse_segments h r
  | IDos33 a => parse_segments3 h r a
  | IBin _ => bin_parse_segments h r
  end.
Definition image_segments (h : heap) (r : raw) (p : pclass) (i : image) : heap * res (list seg) :=
  with_whole r (menu_name p) (parse_segments h r i).
