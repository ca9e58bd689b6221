(** Headers for bare data (cartridge.py), and the loader for an editor (omnivore_loader.py). *)
From Coq Require Import String.
From Verif Require Import Base DiskModel CartModel DetectModel.
Import List.

(** cartridge.py 189-197: check_size.  The numbers of the lines of the table, in their order;
    the first field of a line is the type of the cartridge, not its size. *)
Definition possible_types (size : Z) : list Z :=
  let k := size / 1024 in
  let r := size mod 1024 in
  if (r =? 0) || (r =? 16)
  then map fst (filter (fun ic => k =? ct_type (snd ic)) (combine (zrange 0 (zlen known_cart_types)) known_cart_types))
  else [].
(** cartridge.py 306-313 with 126-143: add_cart_header.  check_size does not set the type. *)
Definition created_header : cheader := mkH (-1) EmptyString 0 0 16 [] 0 0 0 0 0.
Definition add_cart_header (data : list Z) : list Z := header_array created_header ++ data.

(** omnivore_loader.py 7-27: identify_mime.  The argument is what reading the file gives
    (None: OSError).  The name of a mime type is not empty. *)
Definition identify_mime (e : env) (data : option (list Z)) : res (option found) :=
  match data with
  | None => Ok None
  | Some b =>
      match find_diskimage e b with
      | Ok fd => Ok (Some fd)
      | Err (EAtr UnsupportedContainer) | Err (EAtr UnsupportedDiskImage) | Err EOS => Ok None
      | Err x => Err x
      end
  end.
