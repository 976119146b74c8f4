(** Fonts that do not begin where the tape does, in terms of the bytes alone. *)

From Verif Require Export SpecOpen Tape.

(** [f] is [g] with [k] bytes in front. *)
Definition embedded (k : N) (f g : file) : Prop := forall q, g q = f (k + q).

(** A record of a table that is [k] bytes further on. *)
Definition moved_record (k : N) (r : OffsetRecord) : OffsetRecord :=
  mkOffsetRecord (offset_record_tag r) (offset_record_checksum r)
    (k + offset_record_offset r) (offset_record_length r).

(** [f] is [g] with [k] bytes in front, but in the directory of the font at [p], which has [n] records,
    [k] was added to the offset of each. *)
Definition adjusted (k : N) (f g : file) (p n : N) : Prop :=
  (forall q, q < p + 12 \/ p + 12 + 16 * n <= q -> g q = f (k + q)) /\
  (forall i r, i < n -> listed g p i r -> listed f (k + p) i (moved_record k r)).

(** What there is besides the directory. *)
Definition outside (g : file) (p n : N) : file := fun q =>
  if (p <=? q) && (q <? p + 12 + 16 * n) then None else g q.

(** The header of a collection, whose fonts are at [positions]: version 1 or 2. *)
Definition collection_at (f : file) (positions : list N) : Prop :=
  tag_at f 0 (Tag "t" "t" "c" "f") /\
  (u16_at f 4 1 \/ u16_at f 4 2) /\ u16_at f 6 0 /\
  u32_at f 8 (N.of_nat (length positions)) /\
  u32s_at f 12 (N.of_nat (length positions)) positions.

(** What a caller does to read something at the beginning of the font with the index [i] of a collection. *)
Definition member {A} (i : nat) (m : M A) : M A :=
  _ <- jump (12 + 4 * N.of_nat i);;
  p <- take_u32;;
  _ <- jump p;;
  m.

(** The bytes of a table are not in the directory. *)
Definition apart (p n : N) (r : OffsetRecord) : Prop :=
  offset_record_offset r + offset_record_length r <= p \/ p + 12 + 16 * n <= offset_record_offset r.
