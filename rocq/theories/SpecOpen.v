(** A table of a font in a file, in terms of the bytes of the file alone. *)

From Verif Require Export Bytes Types.

(** At [p] there is a font with [n] tables, with a version tag among [versions] that is
    not the one of a collection. *)
Definition font_in (versions : tag -> bool) (f : file) (p n : N) : Prop :=
  exists version, tag_at f p version /\ version <> Tag "t" "t" "c" "f" /\ versions version = true /\
    u16_at f (p + 4) n /\
    forall q, p <= q < p + 12 + 16 * n -> f q <> None.

(** The table listed at the index [i]. *)
Definition listed (f : file) (p i : N) (r : OffsetRecord) : Prop :=
  tag_at f (p + 12 + 16 * i) (offset_record_tag r) /\
  u32_at f (p + 16 + 16 * i) (offset_record_checksum r) /\
  u32_at f (p + 20 + 16 * i) (offset_record_offset r) /\
  u32_at f (p + 24 + 16 * i) (offset_record_length r).

(** [r] is the first one of [n] with the tag [t]. *)
Definition lists (f : file) (p n : N) (t : tag) (r : OffsetRecord) : Prop :=
  exists i, i < n /\ listed f p i r /\ offset_record_tag r = t /\
    forall j, j < i -> ~ tag_at f (p + 12 + 16 * j) t.

(** None of [n] has the tag [t]. *)
Definition lacks (f : file) (p n : N) (t : tag) : Prop :=
  forall j, j < n -> ~ tag_at f (p + 12 + 16 * j) t.
