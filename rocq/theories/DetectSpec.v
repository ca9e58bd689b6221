(** Statements about format detection that do not use the search loops of the
    model. *)
From Verif Require Import Base AtariModel DetectModel.
From Verif Require CartModel.

(** A parser refuses data by raising InvalidSegmentParser. *)
Definition refuses {A} (r : res A) : Prop := r = Err (EAtr InvalidSegmentParser).

(** [p] is the first of the list that does not refuse. *)
Definition first_choice {P A} (parse : P -> res A) (ps : list P) (p : P) : Prop :=
  exists before after, ps = before ++ p :: after /\
    (forall q, In q before -> refuses (parse q)) /\ ~ refuses (parse p).

(** The documented order (parsers.py, mime_parse_order and mime_parsers). *)
Definition documented_order : list (mime * pclass) :=
  [(M_atr, PKBoot); (M_atr, PSparta); (M_atr, PAtariDos); (M_atr, PBoot); (M_atr, PUnidentified);
   (M_xex, PXex)]
  ++ map (fun t => (M_cart8, PCart8 t)) (CartModel.cart_parsers CartModel.HomeComputer)
  ++ map (fun t => (M_cart52, PCart52 t)) (CartModel.cart_parsers CartModel.A5200)
  ++ [(M_mame, PMame); (M_dsk, PDos33); (M_dsk, PProdos); (M_bin, PBin); (M_rom, PRom)].

(** Data that none of the container formats claims. *)
Definition not_container (e : env) (b : list Z) : Prop :=
  e_gzip e b = NotPacked /\ e_bzip e b = NotPacked /\ e_lzma e b = NotPacked /\
  ~ (2 <= zlen b /\ (getb b 0 = 0xf9 \/ getb b 0 = 0xfa) /\
     getb b 1 mod 32 = 1 /\ (getb b 1 / 32) mod 4 <> 3).

(** The data starts with an ATR header. *)
Definition has_atr_header (b : list Z) : Prop :=
  16 <= zlen b /\ getb b 0 = 0x96 /\ getb b 1 = 0x02.

(** If there is an ATR header, the file has one of the three standard sizes or the
    sector size in the header is even and at least 128. *)
Definition usual_sectors (b : list Z) : Prop :=
  has_atr_header b ->
  In (zlen b - 16) [92160; 92176; 184320; 184336; 183936; 183952] \/
  128 <= le2 (getb b 4) (getb b 5) /\ le2 (getb b 4) (getb b 5) mod 2 = 0.

(** The exceptions that detection may raise without breaking its promise. *)
Definition library_error {A} (r : res A) : Prop :=
  match r with Ok _ => True | Err e => is_atr e = true end.
