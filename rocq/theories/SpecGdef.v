(** The binary format of [GDEF]; see SpecLayout.v for the conventions. *)

From Verif Require Export SpecLayout.

(** [AttachPoint]. *)
Definition attachment_at (f : file) (p : N) (v : Attachment) : Prop :=
  let '(mkAttachment index_count indices) := v in
  u16_at f p index_count /\
  u16s_at f (p + 2) index_count indices.

(** [AttachList]. *)
Definition attachments_at (f : file) (p : N) (v : Attachments) : Prop :=
  let '(mkAttachments coverage_offset count offsets coverage records) := v in
  u16_at f p coverage_offset /\
  u16_at f (p + 2) count /\
  u16s_at f (p + 4) count offsets /\
  coverage_at f (p + coverage_offset) coverage /\
  linked_at (attachment_at f) p offsets records.

(** [CaretValueFormat1]. *)
Definition caret1_at (f : file) (p : N) (v : Caret1) : Prop :=
  let '(mkCaret1 format coordinate) := v in
  u16_at f p format /\
  i16_at f (p + 2) coordinate.

(** [CaretValueFormat2]. *)
Definition caret2_at (f : file) (p : N) (v : Caret2) : Prop :=
  let '(mkCaret2 format index) := v in
  u16_at f p format /\
  u16_at f (p + 2) index.

(** [CaretValueFormat3]. *)
Definition caret3_at (f : file) (p : N) (v : Caret3) : Prop :=
  let '(mkCaret3 format coordinate correction_offset correction) := v in
  u16_at f p format /\
  i16_at f (p + 2) coordinate /\
  u16_at f (p + 4) correction_offset /\
  correction_at f (p + correction_offset) correction.

(** [CaretValue], as the code understands it: the format takes 32 bits in the test of
    the format and 16 bits in the table itself, so that the first word has to be
    zero (property C39 is about that). *)
Definition caret_at (f : file) (p : N) (v : Caret) : Prop :=
  match v with
  | CaretFormat1 t => u32_at f p 1 /\ caret1_at f p t
  | CaretFormat2 t => u32_at f p 2 /\ caret2_at f p t
  | CaretFormat3 t => u32_at f p 3 /\ caret3_at f p t
  end.

(** [LigGlyph]. *)
Definition gdef_ligature_at (f : file) (p : N) (v : GdefLigature) : Prop :=
  let '(mkGdefLigature caret_count caret_offsets carets) := v in
  u16_at f p caret_count /\
  u16s_at f (p + 2) caret_count caret_offsets /\
  linked_at (caret_at f) p caret_offsets carets.

(** [LigCaretList]. *)
Definition gdef_ligatures_at (f : file) (p : N) (v : GdefLigatures) : Prop :=
  let '(mkGdefLigatures coverage_offset count offsets coverage records) := v in
  u16_at f p coverage_offset /\
  u16_at f (p + 2) count /\
  u16s_at f (p + 4) count offsets /\
  coverage_at f (p + coverage_offset) coverage /\
  linked_at (gdef_ligature_at f) p offsets records.

(** [MarkGlyphSets]. *)
Definition marks_at (f : file) (p : N) (v : Marks) : Prop :=
  let '(mkMarks format count coverage_offsets coverages) := v in
  u16_at f p format /\ format = 1 /\
  u16_at f (p + 2) count /\
  u32s_at f (p + 4) count coverage_offsets /\
  linked_at (coverage_at f) p coverage_offsets coverages.

Definition gdef_header1_at (f : file) (p : N) (v : GdefHeader1) : Prop :=
  let '(mkGdefHeader1 major_version minor_version glyph_class_offset attachment_offset
    ligature_offset mark_class_offset) := v in
  u16_at f p major_version /\ major_version = 1 /\
  u16_at f (p + 2) minor_version /\ minor_version = 0 /\
  u16_at f (p + 4) glyph_class_offset /\
  u16_at f (p + 6) attachment_offset /\
  u16_at f (p + 8) ligature_offset /\
  u16_at f (p + 10) mark_class_offset.

Definition gdef_header12_at (f : file) (p : N) (v : GdefHeader12) : Prop :=
  let '(mkGdefHeader12 major_version minor_version glyph_class_offset attachment_offset
    ligature_offset mark_class_offset mark_offset) := v in
  u16_at f p major_version /\ major_version = 1 /\
  u16_at f (p + 2) minor_version /\ minor_version = 2 /\
  u16_at f (p + 4) glyph_class_offset /\
  u16_at f (p + 6) attachment_offset /\
  u16_at f (p + 8) ligature_offset /\
  u16_at f (p + 10) mark_class_offset /\
  u16_at f (p + 12) mark_offset.

Definition gdef_header13_at (f : file) (p : N) (v : GdefHeader13) : Prop :=
  let '(mkGdefHeader13 major_version minor_version glyph_class_offset attachment_offset
    ligature_offset mark_class_offset mark_offset variation_offset) := v in
  u16_at f p major_version /\ major_version = 1 /\
  u16_at f (p + 2) minor_version /\ minor_version = 3 /\
  u16_at f (p + 4) glyph_class_offset /\
  u16_at f (p + 6) attachment_offset /\
  u16_at f (p + 8) ligature_offset /\
  u16_at f (p + 10) mark_class_offset /\
  u16_at f (p + 12) mark_offset /\
  u32_at f (p + 14) variation_offset.

(** The header of [GDEF]: the variant is the one its version names. *)
Definition gdef_header_at (f : file) (p : N) (v : GdefHeader) : Prop :=
  match v with
  | GdefVersion1 t => gdef_header1_at f p t
  | GdefVersion12 t => gdef_header12_at f p t
  | GdefVersion13 t => gdef_header13_at f p t
  end.

(** The offsets of the glyph classes, attachments, ligature carets, mark classes,
    mark glyph sets and item variations. *)
Definition gdef_offsets (v : GdefHeader) : N * N * N * N * N * N :=
  match v with
  | GdefVersion1 (mkGdefHeader1 _ _ a b c d) => (a, b, c, d, 0, 0)
  | GdefVersion12 (mkGdefHeader12 _ _ a b c d m) => (a, b, c, d, m, 0)
  | GdefVersion13 (mkGdefHeader13 _ _ a b c d m i) => (a, b, c, d, m, i)
  end.

(** The offset at which the code looks for the item variations: in version 1.3 that
    of the mark glyph sets (property C41 is about that). *)
Definition gdef_variation_offset (v : GdefHeader) : N :=
  match v with
  | GdefVersion13 (mkGdefHeader13 _ _ _ _ _ _ m _) => m
  | _ => 0
  end.

(** [GDEF]; [variation_offset] selects the offset of the item variations. *)
Definition glyph_definition_with (variation_offset : GdefHeader -> N) (o : options)
    (f : file) (p : N) (v : GlyphDefinition) : Prop :=
  let '(mkGlyphDefinition header glyph_class attachments ligatures mark_class marks variations) := v in
  let '(glyph_class_offset, attachment_offset, ligature_offset, mark_class_offset, mark_offset, _)
    := gdef_offsets header in
  gdef_header_at f p header /\
  maybe_at (class_at f) p glyph_class_offset glyph_class /\
  maybe_at (attachments_at f) p attachment_offset attachments /\
  maybe_at (gdef_ligatures_at f) p ligature_offset ligatures /\
  maybe_at (class_at f) p mark_class_offset mark_class /\
  maybe_at (marks_at f) p mark_offset marks /\
  maybe_at (store_at o f) p (variation_offset header) variations.

(** [GDEF] as the code reads it. *)
Definition glyph_definition_at : options -> file -> N -> GlyphDefinition -> Prop :=
  glyph_definition_with gdef_variation_offset.
