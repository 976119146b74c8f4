(** Model of src/tables/glyph_definition. *)

From Verif Require Export ModelLayout.

(** [Attachment::read], src/tables/glyph_definition/element.rs:4-13. *)
Definition read_attachment : M Attachment :=
  index_count <- take_u16;;
  indices <- take_vec index_count take_u16;;
  ret (mkAttachment index_count indices).

(** [Attachments::read], src/tables/glyph_definition/element.rs:15-34. *)
Definition read_attachments : M Attachments :=
  position <- get_position;;
  coverage_offset <- take_u16;;
  count <- take_u16;;
  offsets <- take_vec count take_u16;;
  coverage <- jump_take position coverage_offset read_coverage;;
  records <- jump_take_n position count offsets read_attachment;;
  ret (mkAttachments coverage_offset count offsets coverage records).

(** [Caret1::read], src/tables/glyph_definition/element.rs:47-54. *)
Definition read_caret1 : M Caret1 :=
  format <- take_u16;;
  coordinate <- take_i16;;
  ret (mkCaret1 format coordinate).

(** [Caret2::read], src/tables/glyph_definition/element.rs:56-63. *)
Definition read_caret2 : M Caret2 :=
  format <- take_u16;;
  index <- take_u16;;
  ret (mkCaret2 format index).

(** [Caret3::read], src/tables/glyph_definition/element.rs:65-77. *)
Definition read_caret3 : M Caret3 :=
  position <- get_position;;
  format <- take_u16;;
  coordinate <- take_i16;;
  correction_offset <- take_u16;;
  correction <- jump_take position correction_offset read_correction;;
  ret (mkCaret3 format coordinate correction_offset correction).

(** [Caret::read], src/tables/glyph_definition/element.rs:133-142.  The code peeks at 32 bits. *)
Definition read_caret : M Caret :=
  value <- peek take_u32;;
  match value with
  | 1 => v <- read_caret1;; ret (CaretFormat1 v)
  | 2 => v <- read_caret2;; ret (CaretFormat2 v)
  | 3 => v <- read_caret3;; ret (CaretFormat3 v)
  | _ => raise UnknownFormat
  end.

(** [Ligature::read], src/tables/glyph_definition/element.rs:79-93. *)
Definition read_gdef_ligature : M GdefLigature :=
  position <- get_position;;
  caret_count <- take_u16;;
  caret_offsets <- take_vec caret_count take_u16;;
  carets <- jump_take_n position caret_count caret_offsets read_caret;;
  ret (mkGdefLigature caret_count caret_offsets carets).

(** [Ligatures::read], src/tables/glyph_definition/element.rs:95-114. *)
Definition read_gdef_ligatures : M GdefLigatures :=
  position <- get_position;;
  coverage_offset <- take_u16;;
  count <- take_u16;;
  offsets <- take_vec count take_u16;;
  coverage <- jump_take position coverage_offset read_coverage;;
  records <- jump_take_n position count offsets read_gdef_ligature;;
  ret (mkGdefLigatures coverage_offset count offsets coverage records).

(** [Marks::read], src/tables/glyph_definition/element.rs:116-131. *)
Definition read_marks : M Marks :=
  position <- get_position;;
  format <- take_const take_u16 1;;
  count <- take_u16;;
  coverage_offsets <- take_vec count take_u32;;
  coverages <- jump_take_n position count coverage_offsets read_coverage;;
  ret (mkMarks format count coverage_offsets coverages).

(** [Header1::read], src/tables/glyph_definition/mod.rs:94-105. *)
Definition read_gdef_header1 : M GdefHeader1 :=
  major_version <- take_const take_u16 1;;
  minor_version <- take_const take_u16 0;;
  glyph_class_offset <- take_u16;;
  attachment_offset <- take_u16;;
  ligature_offset <- take_u16;;
  mark_class_offset <- take_u16;;
  ret (mkGdefHeader1 major_version minor_version glyph_class_offset attachment_offset
    ligature_offset mark_class_offset).

(** [Header12::read], src/tables/glyph_definition/mod.rs:107-119. *)
Definition read_gdef_header12 : M GdefHeader12 :=
  major_version <- take_const take_u16 1;;
  minor_version <- take_const take_u16 2;;
  glyph_class_offset <- take_u16;;
  attachment_offset <- take_u16;;
  ligature_offset <- take_u16;;
  mark_class_offset <- take_u16;;
  mark_offset <- take_u16;;
  ret (mkGdefHeader12 major_version minor_version glyph_class_offset attachment_offset
    ligature_offset mark_class_offset mark_offset).

(** [Header13::read], src/tables/glyph_definition/mod.rs:121-134. *)
Definition read_gdef_header13 : M GdefHeader13 :=
  major_version <- take_const take_u16 1;;
  minor_version <- take_const take_u16 3;;
  glyph_class_offset <- take_u16;;
  attachment_offset <- take_u16;;
  ligature_offset <- take_u16;;
  mark_class_offset <- take_u16;;
  mark_offset <- take_u16;;
  variation_offset <- take_u32;;
  ret (mkGdefHeader13 major_version minor_version glyph_class_offset attachment_offset
    ligature_offset mark_class_offset mark_offset variation_offset).

(** [Header::read], src/tables/glyph_definition/mod.rs:143-152. *)
Definition read_gdef_header : M GdefHeader :=
  value <- peek take_u32;;
  match value with
  | 0x00010000 => v <- read_gdef_header1;; ret (GdefVersion1 v)
  | 0x00010002 => v <- read_gdef_header12;; ret (GdefVersion12 v)
  | 0x00010003 => v <- read_gdef_header13;; ret (GdefVersion13 v)
  | _ => raise UnknownFormat
  end.

(** The macro [field!], src/tables/glyph_definition/mod.rs:13-25, at its uses in
    line 37: the offset field of whichever header version. *)
Definition gdef_glyph_class_offset (header : GdefHeader) : N :=
  match header with
  | GdefVersion1 table => gdef_header1_glyph_class_offset table
  | GdefVersion12 table => gdef_header12_glyph_class_offset table
  | GdefVersion13 table => gdef_header13_glyph_class_offset table
  end.

(** The same macro, src/tables/glyph_definition/mod.rs, line 45. *)
Definition gdef_attachment_offset (header : GdefHeader) : N :=
  match header with
  | GdefVersion1 table => gdef_header1_attachment_offset table
  | GdefVersion12 table => gdef_header12_attachment_offset table
  | GdefVersion13 table => gdef_header13_attachment_offset table
  end.

(** The same macro, src/tables/glyph_definition/mod.rs, line 53. *)
Definition gdef_ligature_offset (header : GdefHeader) : N :=
  match header with
  | GdefVersion1 table => gdef_header1_ligature_offset table
  | GdefVersion12 table => gdef_header12_ligature_offset table
  | GdefVersion13 table => gdef_header13_ligature_offset table
  end.

(** The same macro, src/tables/glyph_definition/mod.rs, line 61. *)
Definition gdef_mark_class_offset (header : GdefHeader) : N :=
  match header with
  | GdefVersion1 table => gdef_header1_mark_class_offset table
  | GdefVersion12 table => gdef_header12_mark_class_offset table
  | GdefVersion13 table => gdef_header13_mark_class_offset table
  end.

(** src/tables/glyph_definition/mod.rs, line 69: [mark_offset(0)] over versions 1.2 and 1.3. *)
Definition gdef_mark_offset (header : GdefHeader) : N :=
  match header with
  | GdefVersion12 table => gdef_header12_mark_offset table
  | GdefVersion13 table => gdef_header13_mark_offset table
  | _ => 0
  end.

(** src/tables/glyph_definition/mod.rs, line 77: [mark_offset(0)] over version 1.3 only; the code names
    [mark_offset], not [variation_offset], here. *)
Definition gdef_mark_offset_of_version13 (header : GdefHeader) : N :=
  match header with
  | GdefVersion13 table => gdef_header13_mark_offset table
  | _ => 0
  end.

(** [GlyphDefinition::read], src/tables/glyph_definition/mod.rs:27-81. *)
Definition read_glyph_definition : M GlyphDefinition :=
  position <- get_position;;
  header <- read_gdef_header;;
  glyph_class <- jump_take_maybe position (gdef_glyph_class_offset header) read_class;;
  attachments <- jump_take_maybe position (gdef_attachment_offset header) read_attachments;;
  ligatures <- jump_take_maybe position (gdef_ligature_offset header) read_gdef_ligatures;;
  mark_class <- jump_take_maybe position (gdef_mark_class_offset header) read_class;;
  marks <- jump_take_maybe position (gdef_mark_offset header) read_marks;;
  variations <- jump_take_maybe position (gdef_mark_offset_of_version13 header) read_store;;
  ret (mkGlyphDefinition header glyph_class attachments ligatures mark_class marks variations).
