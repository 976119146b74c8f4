(** The binary format of the table directory; see SpecLayout.v for the conventions. *)

From Verif Require Export Bytes Types.

Definition offset_record_at (f : file) (p : N) (v : OffsetRecord) : Prop :=
  let '(mkOffsetRecord tag checksum offset length) := v in
  tag_at f p tag /\
  u32_at f (p + 4) checksum /\
  u32_at f (p + 8) offset /\
  u32_at f (p + 12) length.

Definition offsets_header_at (f : file) (p : N) (v : OffsetsHeader) : Prop :=
  let '(mkOffsetsHeader tag table_count search_range entry_selector range_shift) := v in
  tag_at f p tag /\
  u16_at f (p + 4) table_count /\
  u16_at f (p + 6) search_range /\
  u16_at f (p + 8) entry_selector /\
  u16_at f (p + 10) range_shift.

(** The table directory at the start of a font. *)
Definition offsets_at (f : file) (p : N) (v : Offsets) : Prop :=
  let '(mkOffsets header records) := v in
  offsets_header_at f p header /\
  vec_at (offset_record_at f) 16 (p + 12) (offsets_header_table_count header) records.
