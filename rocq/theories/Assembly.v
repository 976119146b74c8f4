(** Whole fonts: a table directory followed by the tables it lists.  Nothing of the code
    is modelled here; src has no writer. *)

From Verif Require Export Written SpecAccess.

(** A table, filled up with zeros to a multiple of four bytes. *)
Definition padded (l : list byte) : list byte :=
  l ++ repeat x00 (N.to_nat ((4 - size l mod 4) mod 4)).

(** The records of the tables, one after another from [p] on.  [sum] is the checksum. *)
Fixpoint placed (sum : tag -> list byte -> N) (p : N) (tables : list (tag * list byte))
    : list OffsetRecord :=
  match tables with
  | [] => []
  | (t, l) :: tables => mkOffsetRecord t (sum t l) p (size l) :: placed sum (p + size (padded l)) tables
  end.

(** The directory: version, three numbers for searching, records. *)
Definition assembled_font (sum : tag -> list byte -> N) (version : tag) (a b c : N)
    (tables : list (tag * list byte)) : Font :=
  let n := N.of_nat (length tables) in
  mkFont (mkOffsets (mkOffsetsHeader version n a b c) (placed sum (12 + 16 * n) tables)).

(** The file. *)
Definition assembled (sum : tag -> list byte -> N) (version : tag) (a b c : N)
    (tables : list (tag * list byte)) : list byte :=
  offsets_bytes (font_offsets (assembled_font sum version a b c tables)) ++
  flat_map (fun table => padded (snd table)) tables.

(** The dependency computes [sum] of the bytes that a record of this tag points to. *)
Definition sums (d : deps) (sum : tag -> list byte -> N) (t : tag) : Prop :=
  forall f checksum p l, bytes_at f p l ->
    record_checksum d f (mkOffsetRecord t checksum p (size l)) = Ok (sum t l).

(** The first of the tables with this tag. *)
Definition first_table (tables : list (tag * list byte)) (t : tag) (l : list byte) : Prop :=
  exists i, nth_error tables i = Some (t, l) /\
    forall j l', (j < i)%nat -> nth_error tables j <> Some (t, l').

(** What the font has to be for its file to be readable: a known version, numbers within
    their fields, and less than 4 GiB. *)
Definition assembles (d : deps) (sum : tag -> list byte -> N) (version : tag) (a b c : N)
    (tables : list (tag * list byte)) : Prop :=
  truetype_accept d version = true /\ version <> Tag "t" "t" "c" "f" /\
  a < 65536 /\ b < 65536 /\ c < 65536 /\ N.of_nat (length tables) < 65536 /\
  (forall t l, sum t l < 4294967296) /\
  size (assembled sum version a b c tables) < 4294967296.
