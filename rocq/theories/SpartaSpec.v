(** Specification of a SpartaDOS disk, written from the disk format and not from
    the code: boot record, sector maps, directory entries and file contents. *)
From Verif Require Import Base AtariSpec.

(** Sectors whose place in the image is given by [spos]: every sector of a disk
    without short boot sectors, else those from 4 on. *)
Definition usable (g : geom) (n : Z) : Prop :=
  1 <= n <= g_max g /\ (g_skew g = 0 \/ 4 <= n).

(** A sector map is a chain of sectors.  Bytes 0-1 name the next sector of the
    map (0: none), bytes 2-3 the previous one, the other words are entries. *)
Definition map_next (s : list Z) : Z := le2 (getb s 0) (getb s 1).
Definition map_entries (s : list Z) : list Z :=
  map (fun i => le2 (getb s (4 + 2 * i)) (getb s (5 + 2 * i))) (zrange 0 ((zlen s - 4) / 2)).

(** [map_chain g b n cs m]: the map starting at sector [n] consists of the
    sectors [cs] and has the entries [m]. *)
Inductive map_chain (g : geom) (b : list Z) : Z -> list Z -> list Z -> Prop :=
| map_end n :
    usable g n -> map_next (sector g b n) = 0 ->
    map_chain g b n [n] (map_entries (sector g b n))
| map_more n cs m :
    usable g n -> map_next (sector g b n) <> 0 ->
    map_chain g b (map_next (sector g b n)) cs m ->
    map_chain g b n (n :: cs) (map_entries (sector g b n) ++ m).

(** The data sectors named by a map: the entries before the first 0. *)
Definition names (m ds : list Z) : Prop := exists rest, m = ds ++ 0 :: rest /\ ~ In 0 ds.

(** The contents of a file of [len] bytes in the sectors [ds]. *)
Definition file_bytes (g : geom) (b : list Z) (len : Z) (ds : list Z) : list Z :=
  firstn (Z.to_nat len) (flat_map (sector g b) ds).

(** A directory entry: 23 bytes. *)
Definition se_bit (e : list Z) (k : Z) : Prop := (getb e 0 / k) mod 2 = 1.
Definition se_live (e : list Z) : Prop := se_bit e 8.
Definition se_start (e : list Z) : Z := le2 (getb e 1) (getb e 2).
Definition se_len (e : list Z) : Z := getb e 3 + 256 * getb e 4 + 65536 * getb e 5.
Definition se_name (e : list Z) : list Z :=
  join_name (trim (slice e 6 14)) (if (getb e 0 / 32) mod 2 =? 1 then [] else trim (slice e 14 17)).

(** Entry [i] of a directory; entry 0 describes the directory itself. *)
Definition s_entry (dir : list Z) (i : Z) : list Z := slice dir (23 * i) (23 * i + 23).

(** The words and bytes of the boot record. *)
Definition boot_byte (g : geom) (b : list Z) (i : Z) : Z := getb b (g_off g + i).
Definition boot_word (g : geom) (b : list Z) (i : Z) : Z := le2 (boot_byte g b i) (boot_byte g b (i + 1)).

(** A file: its map is complete and names its sectors. *)
Definition is_file (g : geom) (b : list Z) (start : Z) (ds : list Z) : Prop :=
  exists cs m, map_chain g b start cs m /\ names m ds /\ Forall (usable g) ds.

(** A disk with root directory [dir] of [k] entries besides its own. *)
Record sparta_disk (g : geom) (b : list Z) (dir : list Z) (k : Z) : Prop := mkSparta {
  sk_bytes : bytes_ok b;
  sk_ss : 34 <= g_ss g /\ g_ss g mod 2 = 0;
  sk_max : 1 <= g_max g;
  sk_total : boot_word g b 11 = g_max g;
  sk_bitmap : boot_word g b 16 <= g_max g;
  sk_first : boot_word g b 18 <= g_max g;
  sk_code : boot_byte g b 31 = 0 \/ boot_byte g b 31 = 1 \/ boot_byte g b 31 = 128;
  sk_version : boot_byte g b 32 = 0x11 \/ boot_byte g b 32 = 0x20 \/ boot_byte g b 32 = 0x21;
  sk_root : exists ds, is_file g b (boot_word g b 9) ds /\ ds <> [] /\
     dir = file_bytes g b (se_len (s_entry dir 0)) ds;
  sk_k : 0 <= k;
  sk_dir : zlen dir = 23 * (k + 1);
  sk_len : se_len (s_entry dir 0) = zlen dir;
  sk_small : zlen dir < 8388608 }.

(** The free-sector bitmap: bit [n] (MSB first) from the first bitmap sector. *)
Definition s_free_bit (g : geom) (b : list Z) (n : Z) : Z :=
  (getb b (spos g (boot_word g b 16) + n / 8) / 2 ^ (7 - n mod 8)) mod 2.
