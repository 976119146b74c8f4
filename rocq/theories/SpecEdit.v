(** Editing a file, and putting the table directory in another order. *)

From Verif Require Export SpecAccess Requests.
From Coq Require Export Permutation.

(** The bytes [l] at [a], whatever was there before. *)
Definition overwrite (a : N) (l : list byte) (f : file) : file := fun i =>
  if (a <=? i) && (i <? a + N.of_nat (length l)) then nth_error l (N.to_nat (i - a)) else f i.

(** The [n] bytes at [a] and the [m] bytes at [b] have none in common. *)
Definition disjoint (a n b m : N) : Prop := a + n <= b \/ b + m <= a.

(** The checksum of the table, if anyone asks, is the one in the directory. *)
Definition accepted (d : deps) (o : options) (f : file) (record : OffsetRecord) : Prop :=
  ignore_invalid_checksums o = true \/ record_checksum d f record = Ok (offset_record_checksum record).

(** The same records in any order, each tag once. *)
Definition reordered (x y : Font) : Prop :=
  Permutation (offsets_records (font_offsets x)) (offsets_records (font_offsets y)) /\
  NoDup (map offset_record_tag (offsets_records (font_offsets x))).

(** The same headers with the same records in any order, each tag once. *)
Definition rearranged {H R} (tag_of : H -> tag) (headers headers' : list H) (records records' : list R) : Prop :=
  length headers = length records /\ length headers' = length records' /\
  Permutation (combine headers records) (combine headers' records') /\ NoDup (map tag_of headers).
