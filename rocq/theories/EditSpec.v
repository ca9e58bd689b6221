(** What an assignment through a window of a file means for the file's bytes. *)
From Verif Require Import Base AtariSpec SegSpec EditModel.

(** The elements of [l] an assignment goes to, and the values. *)
Definition targets (l : list Z) (e : how) : list Z :=
  match e with
  | One i _ => [getb l i]
  | Many idx _ => map (getb l) idx
  | Part a b _ => pyslice l a b
  end.
Definition values (e : how) : list Z :=
  match e with One _ v => [v] | Many _ vals => vals | Part _ _ vals => vals end.
(** Indexes in range, one byte for every element. *)
Definition how_ok (l : list Z) (e : how) : Prop :=
  bytes_ok (values e) /\ zlen (values e) = zlen (targets l e) /\
  match e with
  | One i _ => 0 <= i < zlen l
  | Many idx _ => Forall (fun i => 0 <= i < zlen l) idx
  | Part _ _ _ => True
  end.
(** [data] with the values stored at the indexes [q]; a later value wins. *)
Definition patch (data q vals : list Z) : list Z :=
  map (fun i => match last_write i q vals with Some v => v | None => getb data i end) (zrange 0 (zlen data)).

(** Legal edits of files held in a map, and the map they give. *)
Inductive edits : fsmap -> list edit -> fsmap -> Prop :=
| edits_nil m m' : (forall n, m n = m' n) -> edits m [] m'
| edits_cons m n data c ps e l m' :
    m n = Some data -> Forall sel_ok c -> choose_all (zrange 0 (zlen data)) c = Some ps -> how_ok ps e ->
    edits (fs_put m n (patch data (targets ps e) (values e))) l m' -> edits m ((n, c, e) :: l) m'.
