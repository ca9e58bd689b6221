(** Specification of an Apple DOS 3.3 disk, written from the disk format and not
    from the code: 35 tracks of 16 sectors of 256 bytes, sector [s] of track [t]
    being number [16 t + s]; the volume table of contents (VTOC) in sector 272;
    a chain of catalog sectors; one or more track/sector list sectors per file.
    Only [slice], [getb], [le2] and [rstrip] of [Base] are used. *)
From Verif Require Import Base.

Definition sec (b : list Z) (n : Z) : list Z := slice b (256 * n) (256 * n + 256).

(** Bytes 1 and 2 of the VTOC, of a catalog sector and of a track/sector list
    name the next sector of the chain; 0 ends it. *)
Definition lnk (s : list Z) : Z := 16 * getb s 1 + getb s 2.

(** A chain of distinct sectors. *)
Inductive links (b : list Z) : Z -> list Z -> Prop :=
| links_nil : links b 0 []
| links_cons n l :
    0 < n < 560 -> ~ In n l -> links b (lnk (sec b n)) l -> links b n (n :: l).

Definition vtoc (b : list Z) : list Z := sec b 272.

(** Bit [s] of the big-endian word at 0x38 + 4t is set when the sector is free. *)
Definition free_bit3 (b : list Z) (n : Z) : Z :=
  ((256 * getb (vtoc b) (56 + 4 * (n / 16)) + getb (vtoc b) (57 + 4 * (n / 16)))
   / 2 ^ (n mod 16)) mod 2.
Definition free_count3 (b : list Z) : Z :=
  fold_right Z.add 0 (map (free_bit3 b) (zrange 0 800)).

(** The catalog: seven 35-byte entries from byte 11 of every catalog sector. *)
Definition catalog (b : list Z) (cat : list Z) : list Z :=
  flat_map (fun n => slice (sec b n) 11 256) cat.
Definition slot3 (b : list Z) (cat : list Z) (i : Z) : list Z :=
  slice (catalog b cat) (35 * i) (35 * i + 35).

Definition x_dead (e : list Z) : Prop := getb e 0 = 255.
Definition x_live (e : list Z) : Prop := getb e 0 <> 255 /\ getb e 2 <> 0.
Definition x_used (e : list Z) : Prop := x_dead e \/ x_live e.
Definition x_type (e : list Z) : Z := getb e 2 mod 128.
Definition x_locked (e : list Z) : Prop := 128 <= getb e 2.
Definition x_start (e : list Z) : Z := 16 * getb e 0 + getb e 1.
Definition x_count (e : list Z) : Z := le2 (getb e 33) (getb e 34).
(** Names are stored with bit 7 set and padded with blanks; what is left after
    dropping the blanks and any character that is not ASCII. *)
Definition x_name (e : list Z) : list Z :=
  filter (fun c => c <? 128) (rstrip (map (fun c => (c - 128) mod 256) (slice e 3 32))).

(** The 122 pairs of a track/sector list sector. *)
Definition pairs (s : list Z) : list Z :=
  map (fun k => 16 * getb s (12 + 2 * k) + getb s (13 + 2 * k)) (zrange 0 122).

(** The file of entry [e] has track/sector list sectors [tl] and data sectors
    [dl]; the sector count of the entry covers both. *)
Definition file_at (b e : list Z) (tl dl : list Z) : Prop :=
  links b (x_start e) tl /\ zlen tl + zlen dl = x_count e /\
  exists rest, flat_map (fun n => pairs (sec b n)) tl = dl ++ rest.
(** A deleted entry keeps its track in byte 32: where its track/sector list
    was, and what is there now. *)
Definition x_stale (e : list Z) : Z := 16 * getb e 32 + getb e 1.
Definition stale_at (b e : list Z) (tl dl : list Z) : Prop :=
  links b (x_stale e) tl /\ zlen tl + zlen dl = x_count e /\
  exists rest, flat_map (fun n => pairs (sec b n)) tl = dl ++ rest.
Definition contents3 (b dl : list Z) : list Z := flat_map (sec b) dl.

(** Sectors that may belong to a file: not on track 0, not the VTOC, not in the
    catalog. *)
Definition data_sector3 (cat : list Z) (n : Z) : Prop :=
  16 <= n < 560 /\ n <> 272 /\ ~ In n cat.

(** A consistent disk.  [cat] are the catalog sectors, [k] the number of
    catalog entries ever used. *)
Record dos33_disk (b : list Z) (cat : list Z) (k : Z) : Prop := mkDisk3 {
  k3_bytes : bytes_ok b;
  k3_size : zlen b = 143360;
  (* not a ProDOS boot sector *)
  k3_boot : slice b 0 4 <> [1; 56; 176; 3];
  k3_release : getb (vtoc b) 3 = 3 -> getb (vtoc b) 1 < 35 /\ getb (vtoc b) 2 < 16;
  k3_pairs : getb (vtoc b) 39 = 122;
  k3_geom : getb (vtoc b) 52 * getb (vtoc b) 53 = 560;
  k3_cat : links b (lnk (vtoc b)) cat;
  k3_cat_vtoc : ~ In 272 cat;
  (* only data sectors are marked free *)
  k3_free : forall n, 0 <= n < 800 -> free_bit3 b n = 1 -> data_sector3 cat n;
  (* used entries come first, and the last catalog sector is empty *)
  k3_k : 0 <= k <= 7 * (zlen cat - 1);
  k3_used : forall i, 0 <= i < k ->
      x_used (slot3 b cat i) /\ rstrip (x_name (slot3 b cat i)) = x_name (slot3 b cat i);
  k3_unused : forall i, k <= i < 7 * zlen cat -> ~ x_used (slot3 b cat i);
  (* a live file's name does not occur in an earlier entry *)
  k3_names : forall i j, 0 <= i < j -> j < k -> x_live (slot3 b cat j) ->
      x_name (slot3 b cat i) <> x_name (slot3 b cat j);
  (* every live file has a track of its own, is not of type T, and consists of
     allocated data sectors; no holes, at least one sector of data *)
  k3_files : forall i, 0 <= i < k -> x_live (slot3 b cat i) ->
      getb (slot3 b cat i) 0 <> 0 /\ x_type (slot3 b cat i) <> 0 /\
      exists tl dl, file_at b (slot3 b cat i) tl dl /\ dl <> [] /\ NoDup (tl ++ dl) /\
        (forall n, In n (tl ++ dl) -> data_sector3 cat n /\ free_bit3 b n = 0);
  (* no sector belongs to two files *)
  k3_own : forall i j tl dl tl' dl' n,
      0 <= i < k -> x_live (slot3 b cat i) -> file_at b (slot3 b cat i) tl dl -> In n (tl ++ dl) ->
      0 <= j < k -> x_live (slot3 b cat j) -> file_at b (slot3 b cat j) tl' dl' -> In n (tl' ++ dl') ->
      i = j
}.

(** How a name is stored: the first 29 characters without trailing blanks. *)
Definition stored_name3 (name : list Z) : list Z := rstrip (slice name 0 29).
Definition ascii (name : list Z) : Prop := Forall (fun c => 0 <= c < 128) name.

(** Data as it is read back: padded with zeros to whole sectors. *)
Definition sectors3 (len : Z) : Z := (len + 255) / 256.
Definition padded (data : list Z) : list Z :=
  data ++ zrepeat 0 (256 * sectors3 (zlen data) - zlen data).
(** Track/sector list sectors for [n] data sectors, 122 pairs each. *)
Definition lists3 (n : Z) : Z := (n + 121) / 122.
(** Sectors a file of [len] bytes takes. *)
Definition need3 (len : Z) : Z := sectors3 len + lists3 (sectors3 len).

(** The file [name] is the entry in slot [i], with list sectors [tl] and data
    sectors [dl]. *)
Definition file_in3 (b cat : list Z) (k : Z) (name : list Z) (i : Z) (tl dl : list Z) : Prop :=
  0 <= i < k /\ x_live (slot3 b cat i) /\ x_name (slot3 b cat i) = name /\
  file_at b (slot3 b cat i) tl dl.
Definition listed3 (b cat : list Z) (k : Z) (name : list Z) : Prop :=
  exists i, 0 <= i < k /\ x_live (slot3 b cat i) /\ x_name (slot3 b cat i) = name.
(** There is room for another entry: a deleted one, or an unused one that is
    not in the last catalog sector. *)
Definition room3 (b cat : list Z) (k : Z) : Prop :=
  (exists i, 0 <= i < k /\ x_dead (slot3 b cat i)) \/ k < 7 * (zlen cat - 1).
(** The free sectors, lowest first. *)
Definition free_list3 (b : list Z) : list Z :=
  filter (fun n => free_bit3 b n =? 1) (zrange 0 800).
