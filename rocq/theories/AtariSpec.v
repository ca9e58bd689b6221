(** Specification of a disk of Atari DOS 2, which may hold MyDOS files, written from the disk format and not
    from the code: where a sector lies in the image, what a directory slot and a
    sector link mean, and when a disk is consistent.  Only [slice], [getb],
    [le2] and the string trimming of [Base] are used. *)
From Verif Require Import Base.

(** Geometry: image offset of sector 1, sector size, bytes saved by the short
    boot sectors, number of the last sector. *)
Record geom := mkG { g_off : Z; g_ss : Z; g_skew : Z; g_max : Z }.

(** Position of sector [n] (for [n >= 4]) and its bytes. *)
Definition spos (g : geom) (n : Z) : Z := g_off g + (n - 1) * g_ss g - g_skew g.
Definition sector (g : geom) (b : list Z) (n : Z) : list Z :=
  slice b (spos g n) (spos g n + g_ss g).

(** The last three bytes of a file sector: file number and link, byte count. *)
Definition link_file (s : list Z) : Z := getb s (zlen s - 3) / 4.
Definition link_next (s : list Z) : Z :=
  (getb s (zlen s - 3) mod 4) * 256 + getb s (zlen s - 2).
Definition link_used (s : list Z) : Z := getb s (zlen s - 1).

(** Sectors that may hold file data: not the boot sectors, not the VTOC (360)
    or directory (361-368), and reachable through a ten-bit link. *)
Definition data_sector (g : geom) (n : Z) : Prop :=
  4 <= n <= g_max g /\ n < 1024 /\ ~ (360 <= n <= 368).

(** The free-sector bitmap: bit [n] (MSB first) from byte 10 of sector 360. *)
Definition free_bit (g : geom) (b : list Z) (n : Z) : Z :=
  (getb (sector g b 360) (10 + n / 8) / 2 ^ (7 - n mod 8)) mod 2.

(** Number of sectors marked free. *)
Definition free_count (g : geom) (b : list Z) : Z :=
  fold_right Z.add 0 (map (free_bit g b) (zrange 0 720)).

(** Directory slot [i]: 16 bytes, the slots follow one another from sector 361. *)
Definition slot (g : geom) (b : list Z) (i : Z) : list Z :=
  slice b (spos g 361 + 16 * i) (spos g 361 + 16 * i + 16).
Definition num_slots (g : geom) : Z := g_ss g / 2.
Definition e_flag (e : list Z) : Z := getb e 0.
Definition flag_has (e : list Z) (k : Z) : Prop := (e_flag e / k) mod 2 = 1.
Definition e_live (e : list Z) : Prop := flag_has e 64.
Definition e_count (e : list Z) : Z := le2 (getb e 1) (getb e 2).
Definition e_start (e : list Z) : Z := le2 (getb e 3) (getb e 4).
Definition trim (s : list Z) : list Z := rstrip (rstrip0 s).
(** The last byte, if any, is not NUL. *)
Definition no_nul_end (s : list Z) : Prop := rstrip0 s = s.
Definition join_name (base ext : list Z) : list Z :=
  base ++ match ext with [] => [] | _ => 46 :: ext end.
Definition e_base (e : list Z) : list Z := trim (slice e 5 13).
Definition e_ext (e : list Z) : list Z := trim (slice e 13 16).
Definition e_name (e : list Z) : list Z := join_name (e_base e) (e_ext e).

(** The sectors of a file, starting at a sector.  [f] is the number that each
    sector of a DOS 2 file carries, or -1 for a MyDOS file: its sectors carry no
    number, the link having two whole bytes. *)
Definition carries (f : Z) (s : list Z) : Prop := f = -1 \/ link_file s = f.
Definition next_link (f : Z) (s : list Z) : Z :=
  if f =? -1 then getb s (zlen s - 3) * 256 + getb s (zlen s - 2) else link_next s.
Inductive chain (g : geom) (b : list Z) (f : Z) : Z -> list Z -> Prop :=
| chain_end n :
    data_sector g n -> carries f (sector g b n) ->
    link_used (sector g b n) <= g_ss g - 3 ->
    next_link f (sector g b n) = 0 -> chain g b f n [n]
| chain_more n c :
    data_sector g n -> carries f (sector g b n) ->
    link_used (sector g b n) <= g_ss g - 3 ->
    ~ In n c -> chain g b f (next_link f (sector g b n)) c ->
    chain g b f n (n :: c).

(** What the sectors of the file in slot [i], whose entry is [e], carry. *)
Definition owner (e : list Z) (i : Z) : Z := if (e_flag e / 4) mod 2 =? 1 then -1 else i.
Definition slot_chain (g : geom) (b : list Z) (i : Z) (c : list Z) : Prop :=
  chain g b (owner (slot g b i) i) (e_start (slot g b i)) c.

Definition contents (g : geom) (b : list Z) (c : list Z) : list Z :=
  flat_map (fun n => slice (sector g b n) 0 (link_used (sector g b n))) c.

(** A consistent disk.  [k] is the number of directory slots ever used. *)
Record dos2_disk (g : geom) (b : list Z) (k : Z) : Prop := mkDisk {
  dk_bytes : bytes_ok b;
  dk_ss : 128 <= g_ss g <= 256 /\ g_ss g mod 16 = 0;
  dk_max : 368 <= g_max g;
  dk_first : 16 <= spos g 4;
  dk_fit : spos g (g_max g) + g_ss g <= zlen b;
  (* one-sector VTOC *)
  dk_vtoc : getb (sector g b 360) 0 = 0 \/ getb (sector g b 360) 0 = 2;
  (* only data sectors are marked free *)
  dk_free : forall n, 0 <= n < 720 -> free_bit g b n = 1 -> data_sector g n;
  (* used slots come first, the others were never used *)
  dk_k : 0 <= k <= 64;
  dk_used : forall i, 0 <= i < k ->
      e_flag (slot g b i) <> 0 /\ ~ flag_has (slot g b i) 8 /\
      no_nul_end (e_base (slot g b i)) /\ no_nul_end (e_ext (slot g b i));
  dk_unused : forall i, k <= i < num_slots g -> e_flag (slot g b i) = 0;
  (* a live file's name does not occur in an earlier slot *)
  dk_names : forall i j, 0 <= i < j -> j < k -> e_live (slot g b j) ->
      e_name (slot g b i) <> e_name (slot g b j);
  (* every live file is a DOS 2 or MyDOS file, shares no sector with another
     one, and has an intact, non-empty chain of allocated sectors *)
  dk_files : forall i, 0 <= i < k -> e_live (slot g b i) ->
      (forall j c c' n, 0 <= j < k -> j <> i -> e_live (slot g b j) ->
         slot_chain g b i c -> slot_chain g b j c' -> In n c -> ~ In n c') /\
      e_count (slot g b i) <= g_max g /\
      exists c, slot_chain g b i c /\ contents g b c <> [] /\
                (forall n, In n c -> n < 720 -> free_bit g b n = 0)
}.

(** File names the API can store without altering them: at most 8 characters,
    and optionally a dot and at most 3 more; all Latin-1 codes; no dot in the
    base; neither part ends in a blank or NUL (which padding would swallow). *)
Definition clean_end (s : list Z) : Prop :=
  forall p c, s = p ++ [c] -> is_space c = false /\ c <> 0.
Definition valid_name (name : list Z) : Prop :=
  exists base ext, name = join_name base ext /\
    zlen base <= 8 /\ zlen ext <= 3 /\ ~ In 46 base /\
    bytes_ok base /\ bytes_ok ext /\ clean_end base /\ clean_end ext.

(** How a name is stored: at most 8 characters before the first dot, at most 3
    after it, without trailing blanks.  Any Latin-1 name can be stored unless a
    NUL survives at the end of a part. *)
Definition stored_base (name : list Z) : list Z :=
  trim (ljust 8 (slice (fst (split_at 46 name)) 0 8)).
Definition stored_ext (name : list Z) : list Z :=
  match snd (split_at 46 name) with None => [] | Some e => trim (slice e 0 3) end.
Definition stored_name (name : list Z) : list Z := join_name (stored_base name) (stored_ext name).
Definition storable (name : list Z) : Prop :=
  bytes_ok name /\ no_nul_end (stored_base name) /\ no_nul_end (stored_ext name).

(** The file system as a map from names to contents. *)
Definition fsmap := list Z -> option (list Z).
Definition fs_put (m : fsmap) (name data : list Z) : fsmap :=
  fun n => if zlist_eqb n name then Some data else m n.
Definition fs_del (m : fsmap) (name : list Z) : fsmap :=
  fun n => if zlist_eqb n name then None else m n.

(** Sectors needed for [len] bytes with [payload] bytes per sector. *)
Definition sectors_needed (payload len : Z) : Z := (len + payload - 1) / payload.

(** The system area: boot sectors, VTOC, directory. *)
Definition system_sector (n : Z) : Prop := 1 <= n <= 3 \/ 360 <= n <= 368.

(** A disk without stray links: no sector outside the system area links into
    it, there is no MyDOS file, and deleted entries do not start in it.  Holds of
    formatted disks and is only needed to say what deleting a name that is *not*
    on the disk does (the code then follows the links of a deleted file). *)
Record tidy (g : geom) (b : list Z) (k : Z) : Prop := mkTidy {
  td_links : forall n, 4 <= n <= g_max g -> ~ system_sector n ->
      ~ system_sector (link_next (sector g b n));
  td_dos2 : forall i, 0 <= i < k -> ~ flag_has (slot g b i) 4;
  td_dead : forall i, 0 <= i < k -> ~ e_live (slot g b i) ->
      ~ system_sector (e_start (slot g b i))
}.

(** Byte [p] of the image lies in sector [n]. *)
Definition in_sector (g : geom) (n p : Z) : Prop := spos g n <= p < spos g n + g_ss g.
