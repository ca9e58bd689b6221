(** Model of files as segments: get_file_segment of ataridos.py 652-667 and dos33.py
    575-597 on the raw data of SegModel.v.  [r] is the raw data of the image object:
    diskimages.py 103-105 keeps it as self.rawdata and uses its array as self.bytes. *)
From Verif Require Import Base DiskModel AtariModel SegModel SegSpec.
From Verif Require Import Dos33Model.

(** ataridos.py 658, dos33.py 580: [byte_order.extend(range(pos, pos + size))] *)
Definition run_positions (runs : list (Z * Z)) : list Z :=
  flat_map (fun r => zrange (fst r) (fst r + snd r)) runs.

(** ataridos.py 652-667: get_file_segment; without bytes EmptySegment(self.rawdata).
    Names of segments are not modelled. *)
Definition file_segment (h : heap) (r : raw) (im : aimg) (d : dirent) : res raw :=
  let! _ := start_read d in
  let! runs := read_runs (chain_fuel (a_hdr im)) (a_hdr im) (a_bytes im) (d_my d) (d_num d) (d_start d) [] in
  match run_positions runs with
  | [] => Ok r
  | o => raw_indexed h r (to_numpy_list o)
  end.

(** dos33.py 594-595: [segment.style[0:4] = get_style_bits(data=True)] *)
Definition mark_four (h : heap) (seg : raw) : heap :=
  upd_style (fun _ => style_bits (mkSty false false false true false 0)) h seg
    (win_slice (raw_len h seg) (r_win seg) (Some 0) (Some 4)).
(** dos33.py 575-597, 322-328, 355-359: get_file_segment.  An empty map makes
    read_sector ask for sector -1 (NameError); a type B file's address is read from its
    first sector (IndexError if it has fewer than two bytes). *)
Definition file_segment3 (h : heap) (r : raw) (im : img33) (d : ent) : heap * res raw :=
  if negb (d3_sane d) then (h, Err (EAtr InvalidDirent))
  else match get_tslist (fuel33 (i_hdr im)) (i_hdr im) (i_bytes im) d with
  | Err e => (h, Err e)
  | Ok (_, []) => (h, Err EName)
  | Ok (_, n0 :: m) =>
      match read_map (i_hdr im) (i_bytes im) (n0 :: m) with
      | Err e => (h, Err e)
      | Ok runs =>
          match run_positions runs with
          | [] => (h, Ok r)
          | o =>
              match raw_indexed h r (to_numpy_list o) with
              | Err e => (h, Err e)
              | Ok seg =>
                  if d3_type d =? 4 then
                    match get_raw3 (i_hdr im) (i_bytes im) n0 with
                    | Err e => (h, Err e)
                    | Ok (s, _) =>
                        if zlen s <? 2 then (h, Err EIndex)
                        else (if 0 <? getb s 0 + 256 * getb s 1 - 4 then mark_four h seg else h, Ok seg)
                    end
                  else (h, Ok seg)
              end
          end
      end
  end.

(** segments.py 627-629: assignment to an element, to a list of elements, to a slice *)
Inductive how := One (i v : Z) | Many (idx vals : list Z) | Part (a b : option Z) (vals : list Z).
Definition assign (h : heap) (x : raw) (e : how) : heap * res unit :=
  match e with
  | One i v => set_index h x i v
  | Many idx vals => set_indexes h x idx vals
  | Part a b vals => set_slice h x a b vals
  end.
(** The same through a chain of slices and selections of a segment. *)
Definition assign_in (h : heap) (seg : raw) (c : list sel) (e : how) : heap * res unit :=
  match take_all h seg c with
  | Ok x => assign h x e
  | Err e => (h, Err e)
  end.

(** A client's edit of the file called [n]: diskimages.py 281-288 (find_dirent), the
    file's segment, and an assignment through a window of it.  self.bytes is the array of
    self.rawdata (diskimages.py 103-105), so the image object sees the bytes at once. *)
Definition edit_file (h : heap) (r : raw) (im : aimg) (n : list Z) (c : list sel) (e : how) : heap * aimg * res unit :=
  match find_name n (a_files im) with
  | None => (h, im, Err (EAtr FileNotFound))
  | Some d =>
      match file_segment h r im d with
      | Err x => (h, im, Err x)
      | Ok seg => let (h', x) := assign_in h seg c e in (h', with_bytes im (read_data h' r), x)
      end
  end.
Definition edit_file3 (h : heap) (r : raw) (im : img33) (n : list Z) (c : list sel) (e : how) : heap * img33 * res unit :=
  match find_name3 n (i_files im) with
  | None => (h, im, Err (EAtr FileNotFound))
  | Some d =>
      let (h1, s) := file_segment3 h r im d in
      match s with
      | Err x => (h1, im, Err x)
      | Ok seg => let (h', x) := assign_in h1 seg c e in (h', with_bytes3 im (read_data h' r), x)
      end
  end.
(** Edits one after the other, until one fails. *)
Definition edit := (list Z * list sel * how)%type.
Fixpoint edit_all (h : heap) (r : raw) (im : aimg) (l : list edit) : heap * aimg * res unit :=
  match l with
  | [] => (h, im, Ok tt)
  | (n, c, e) :: l' =>
      match edit_file h r im n c e with
      | (h', im', Ok _) => edit_all h' r im' l'
      | x => x
      end
  end.
Fixpoint edit_all3 (h : heap) (r : raw) (im : img33) (l : list edit) : heap * img33 * res unit :=
  match l with
  | [] => (h, im, Ok tt)
  | (n, c, e) :: l' =>
      match edit_file3 h r im n c e with
      | (h', im', Ok _) => edit_all3 h' r im' l'
      | x => x
      end
  end.
