(** The OpenType specification where the code departs from it; see SpecLayout.v for the
    conventions. *)

From Verif Require Export SpecGdef SpecFvar.

(** ** Caret values (C39) *)

(** [CaretValue]: a 16-bit format, then what that format prescribes. *)
Definition standard_caret_at (f : file) (p : N) (v : Caret) : Prop :=
  match v with
  | CaretFormat1 (mkCaret1 format coordinate) =>
      format = 1 /\ u16_at f p 1 /\ i16_at f (p + 2) coordinate
  | CaretFormat2 (mkCaret2 format index) =>
      format = 2 /\ u16_at f p 2 /\ u16_at f (p + 2) index
  | CaretFormat3 (mkCaret3 format coordinate correction_offset correction) =>
      format = 3 /\ u16_at f p 3 /\ i16_at f (p + 2) coordinate /\
      u16_at f (p + 4) correction_offset /\
      correction_at f (p + correction_offset) correction
  end.

(** The [GDEF] table at [p] has at [q] a caret of a ligature: caret [j] of the ligature
    glyph [i] of the ligature caret list. *)
Definition caret_position (f : file) (p q : N) : Prop :=
  exists list_offset glyph_count i glyph_offset caret_count j caret_offset,
    u16_at f (p + 8) list_offset /\ list_offset <> 0 /\
    u16_at f (p + list_offset + 2) glyph_count /\ i < glyph_count /\
    u16_at f (p + list_offset + 4 + 2 * i) glyph_offset /\
    u16_at f (p + list_offset + glyph_offset) caret_count /\ j < caret_count /\
    u16_at f (p + list_offset + glyph_offset + 2 + 2 * j) caret_offset /\
    q = p + list_offset + glyph_offset + caret_offset.

(** ** Device tables (C40) *)

(** The number of 16-bit words that hold a number of bits. *)
Definition words_for (bits : N) : N := (bits + 15) / 16.

(** [Device]. *)
Definition standard_device_at (f : file) (p : N) (v : Device) : Prop :=
  let '(mkDevice start_size end_size format deltas) := v in
  u16_at f p start_size /\
  u16_at f (p + 2) end_size /\
  start_size <= end_size /\
  u16_at f (p + 4) format /\
  1 <= format <= 3 /\
  u16s_at f (p + 6) (words_for (device_bits start_size end_size format)) deltas.

(** ** The variations of [GDEF] (C41) *)

(** The offset the header declares for them. *)
Definition standard_variation_offset (v : GdefHeader) : N :=
  let '(_, _, _, _, _, offset) := gdef_offsets v in offset.

Definition standard_glyph_definition_at : options -> file -> N -> GlyphDefinition -> Prop :=
  glyph_definition_with standard_variation_offset.

(** ** Instances of [fvar] (C42) *)

(** The end of the table at [p]: of its last axis or its last instance as declared. *)
Definition fvar_end (p : N) (v : FvarHeader) : N :=
  let '(mkFvarHeader _ _ axis_offset _ axis_count axis_size instance_count instance_size) := v in
  p + axis_offset + axis_count * axis_size + instance_count * instance_size.

(** Two files with the same bytes from [p] up to [q]. *)
Definition same_between (p q : N) (f g : file) : Prop := forall r, p <= r -> r < q -> f r = g r.

(** ** Feature parameters (C43) *)

(** The parameters are the bytes at their offset. *)
Definition parameters_at (f : file) (p : N) (v : FeatureRecord) : Prop :=
  match feature_record_parameters v with
  | None => feature_record_parameter_offset v = 0
  | Some bytes => feature_record_parameter_offset v <> 0 /\ bytes <> [] /\
      u8s_at f (p + feature_record_parameter_offset v) (N.of_nat (length bytes)) bytes
  end.

(** ** Deltas of variations (C46) *)

(** The bit [LONG_WORDS] of [wordDeltaCount] and the rest of it. *)
Definition long_words (word_delta_count : N) : bool := N.testbit word_delta_count 15.
Definition word_count (word_delta_count : N) : N := word_delta_count mod 2 ^ 15.

(** The size of a row of deltas: words for the first regions and bytes for the others,
    or twice as much. *)
Definition row_size (word_delta_count region_count : N) : N :=
  (if long_words word_delta_count then 2 else 1) *
  (2 * word_count word_delta_count + (region_count - word_count word_delta_count)).
