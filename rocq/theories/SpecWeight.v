(** How much a value holds (C76): the number of elements of all its vectors, those of the
    values in them included. *)

From Verif Require Export Requests SpecCursor.

Definition count {A} (l : list A) : N := N.of_nat (length l).

(** The elements of a vector and what each of them holds. *)
Definition load {A} (weight : A -> N) (l : list A) : N := sum (map (fun x => 1 + weight x) l).

Definition maybe_weight {A} (weight : A -> N) (v : option A) : N :=
  match v with Some x => weight x | None => 0 end.

(** ** src/layout *)

Definition coverage_weight (v : Coverage) : N :=
  match v with
  | CoverageFormat1 t => count (coverage1_glyph_ids t)
  | CoverageFormat2 t => count (coverage2_records t)
  end.

Definition class_weight (v : Class) : N :=
  match v with
  | ClassFormat1 t => count (class1_indices t)
  | ClassFormat2 t => count (class2_records t)
  end.

Definition correction_weight (v : Correction) : N :=
  match v with
  | CorrectionDevice t => count (device_deltas t)
  | CorrectionVariation _ => 0
  end.

Definition context_record_weight (v : ContextRecord) : N :=
  count (context_record_glyph_ids v) + count (context_record_actions v).

Definition context_records_weight (v : ContextRecords) : N :=
  count (context_records_offsets v) + load context_record_weight (context_records_records v).

Definition context_class_record_weight (v : ContextClassRecord) : N :=
  count (context_class_record_indices v) + count (context_class_record_actions v).

Definition context_class_records_weight (v : ContextClassRecords) : N :=
  count (context_class_records_offsets v) +
  load context_class_record_weight (context_class_records_records v).

Definition context_weight (v : Context) : N :=
  match v with
  | ContextFormat1 t =>
      count (context1_record_offsets t) + coverage_weight (context1_coverage t) +
      load context_records_weight (context1_records t)
  | ContextFormat2 t =>
      count (context2_record_offsets t) + coverage_weight (context2_coverage t) +
      class_weight (context2_class t) +
      load (maybe_weight context_class_records_weight) (context2_records t)
  | ContextFormat3 t =>
      count (context3_coverage_offsets t) + count (context3_actions t) +
      load coverage_weight (context3_coverages t)
  end.

Definition chained_record_weight (v : ChainedRecord) : N :=
  count (chained_record_backward_glyph_ids v) + count (chained_record_glyph_ids v) +
  count (chained_record_forward_glyph_ids v) + count (chained_record_actions v).

Definition chained_records_weight (v : ChainedRecords) : N :=
  count (chained_records_offsets v) + load chained_record_weight (chained_records_records v).

Definition chained_class_record_weight (v : ChainedClassRecord) : N :=
  count (chained_class_record_backward_indices v) + count (chained_class_record_indices v) +
  count (chained_class_record_forward_indices v) + count (chained_class_record_actions v).

Definition chained_class_records_weight (v : ChainedClassRecords) : N :=
  count (chained_class_records_offsets v) +
  load chained_class_record_weight (chained_class_records_records v).

Definition chained_context_weight (v : ChainedContext) : N :=
  match v with
  | ChainedContextFormat1 t =>
      count (chained_context1_record_offsets t) + coverage_weight (chained_context1_coverage t) +
      load chained_records_weight (chained_context1_records t)
  | ChainedContextFormat2 t =>
      count (chained_context2_record_offsets t) + coverage_weight (chained_context2_coverage t) +
      class_weight (chained_context2_backward_class t) + class_weight (chained_context2_class t) +
      class_weight (chained_context2_forward_class t) +
      load (maybe_weight chained_class_records_weight) (chained_context2_records t)
  | ChainedContextFormat3 t =>
      count (chained_context3_backward_coverage_offsets t) + count (chained_context3_coverage_offsets t) +
      count (chained_context3_forward_coverage_offsets t) + count (chained_context3_actions t) +
      load coverage_weight (chained_context3_backward_coverages t) +
      load coverage_weight (chained_context3_coverages t) +
      load coverage_weight (chained_context3_forward_coverages t)
  end.

Definition language_record_weight (v : LanguageRecord) : N := count (language_record_feature_indices v).

Definition script_record_weight (v : ScriptRecord) : N :=
  count (script_record_language_headers v) +
  maybe_weight language_record_weight (script_record_default_language v) +
  load language_record_weight (script_record_language_records v).

Definition scripts_weight (v : Scripts) : N :=
  count (scripts_headers v) + load script_record_weight (scripts_records v).

Definition feature_record_weight (v : FeatureRecord) : N :=
  count (feature_record_lookup_indices v) + maybe_weight count (feature_record_parameters v).

Definition features_weight (v : Features) : N :=
  count (features_headers v) + load feature_record_weight (features_records v).

Definition lookup_record_weight {T} (table_weight : T -> N) (v : LookupRecord T) : N :=
  count (lookup_record_table_offsets v) + load table_weight (lookup_record_tables v).

Definition lookups_weight {T} (table_weight : T -> N) (v : Lookups T) : N :=
  count (lookups_offsets v) + load (lookup_record_weight table_weight) (lookups_records v).

Definition directory_weight {T} (table_weight : T -> N) (v : Directory T) : N :=
  scripts_weight (directory_scripts v) + features_weight (directory_features v) +
  lookups_weight table_weight (directory_lookups v).

(** ** src/variations *)

Definition store_record_weight (v : StoreRecord) : N :=
  count (store_record_region_indices v) + count (store_record_deltas v).

Definition store_weight (v : Store) : N :=
  count (store_offsets v) + load store_record_weight (store_records v).

(** ** src/tables/glyph_definition *)

Definition attachment_weight (v : Attachment) : N := count (attachment_indices v).

Definition attachments_weight (v : Attachments) : N :=
  count (attachments_offsets v) + coverage_weight (attachments_coverage v) +
  load attachment_weight (attachments_records v).

Definition caret_weight (v : Caret) : N :=
  match v with
  | CaretFormat3 t => correction_weight (caret3_correction t)
  | _ => 0
  end.

Definition gdef_ligature_weight (v : GdefLigature) : N :=
  count (gdef_ligature_caret_offsets v) + load caret_weight (gdef_ligature_carets v).

Definition gdef_ligatures_weight (v : GdefLigatures) : N :=
  count (gdef_ligatures_offsets v) + coverage_weight (gdef_ligatures_coverage v) +
  load gdef_ligature_weight (gdef_ligatures_records v).

Definition marks_weight (v : Marks) : N :=
  count (marks_coverage_offsets v) + load coverage_weight (marks_coverages v).

Definition definition_weight (v : GlyphDefinition) : N :=
  maybe_weight class_weight (glyph_definition_glyph_class v) +
  maybe_weight attachments_weight (glyph_definition_attachments v) +
  maybe_weight gdef_ligatures_weight (glyph_definition_ligatures v) +
  maybe_weight class_weight (glyph_definition_mark_class v) +
  maybe_weight marks_weight (glyph_definition_marks v) +
  maybe_weight store_weight (glyph_definition_variations v).

(** ** src/tables/glyph_substitution *)

Definition ligature_weight (v : Ligature) : N := count (ligature_glyph_ids v).

Definition ligatures_weight (v : Ligatures) : N :=
  count (ligatures_offsets v) + load ligature_weight (ligatures_records v).

Definition gsub_type_weight (v : GsubType) : N :=
  match v with
  | GsubSingleSubstitution (SingleSubstitutionFormat1 t) =>
      coverage_weight (single_substitution1_coverage t)
  | GsubSingleSubstitution (SingleSubstitutionFormat2 t) =>
      count (single_substitution2_glyph_ids t) + coverage_weight (single_substitution2_coverage t)
  | GsubMultipleSubstitution t =>
      count (multiple_substitution_record_offsets t) +
      coverage_weight (multiple_substitution_coverage t) +
      load (fun r => count (sequence_glyph_ids r)) (multiple_substitution_records t)
  | GsubAlternateSubstitution t =>
      count (alternate_substitution_record_offsets t) +
      coverage_weight (alternate_substitution_coverage t) +
      load (fun r => count (alternates_glyph_ids r)) (alternate_substitution_records t)
  | GsubLigatureSubstitution t =>
      count (ligature_substitution_record_offsets t) +
      coverage_weight (ligature_substitution_coverage t) +
      load ligatures_weight (ligature_substitution_records t)
  | GsubContextualSubstitution t => context_weight t
  | GsubChainedContextualSubstitution t => chained_context_weight t
  | GsubExtensionSubstitution _ => 0
  | GsubReverseChainedContextualSubstibution t =>
      count (reverse_chained_contextual_substibution_backward_coverage_offsets t) +
      count (reverse_chained_contextual_substibution_forward_coverage_offsets t) +
      count (reverse_chained_contextual_substibution_glyph_ids t) +
      coverage_weight (reverse_chained_contextual_substibution_coverage t) +
      load coverage_weight (reverse_chained_contextual_substibution_backward_coverages t) +
      load coverage_weight (reverse_chained_contextual_substibution_forward_coverages t)
  end.

(** ** src/tables/glyph_positioning *)

Definition anchor_weight (v : Anchor) : N :=
  match v with
  | AnchorFormat3 t =>
      maybe_weight correction_weight (anchor3_x_correction t) +
      maybe_weight correction_weight (anchor3_y_correction t)
  | _ => 0
  end.

Definition single_weight (v : Single) : N :=
  maybe_weight correction_weight (single_x_placement_correction v) +
  maybe_weight correction_weight (single_y_placement_correction v) +
  maybe_weight correction_weight (single_x_advance_correction v) +
  maybe_weight correction_weight (single_y_advance_correction v).

Definition pair1_weight (v : Pair1) : N :=
  maybe_weight single_weight (pair1_value1 v) + maybe_weight single_weight (pair1_value2 v).

Definition pair1s_weight (v : Pair1s) : N := load pair1_weight (pair1s_records v).

Definition pair2_weight (v : Pair2) : N :=
  maybe_weight single_weight (pair2_value1 v) + maybe_weight single_weight (pair2_value2 v).

Definition pair2s_weight (v : Pair2s) : N := load pair2_weight (pair2s_records v).

(** A row of anchors and of the offsets to them. *)
Definition row_weight (offsets : list N) (anchors : list (option Anchor)) : N :=
  count offsets + load (maybe_weight anchor_weight) anchors.

Definition bases_weight (v : Bases) : N :=
  load (fun r => row_weight (base_anchor_offsets r) (base_anchors r)) (bases_records v).

Definition mark2s_weight (v : Mark2s) : N :=
  load (fun r => row_weight (mark2_anchor_offsets r) (mark2_anchors r)) (mark2s_records v).

Definition gpos_ligature_weight (v : GposLigature) : N :=
  load (fun r => row_weight (component_anchor_offsets r) (component_anchors r)) (gpos_ligature_components v).

Definition gpos_ligatures_weight (v : GposLigatures) : N :=
  count (gpos_ligatures_offsets v) + load gpos_ligature_weight (gpos_ligatures_records v).

Definition mark1s_weight (v : Mark1s) : N :=
  load (fun r => anchor_weight (mark1_anchor r)) (mark1s_records v).

Definition connection_weight (v : Connection) : N :=
  maybe_weight anchor_weight (connection_start_anchor v) +
  maybe_weight anchor_weight (connection_end_anchor v).

Definition gpos_type_weight (v : GposType) : N :=
  match v with
  | GposSingleAdjustment (SingleAdjustmentFormat1 t) =>
      single_weight (single_adjustment1_value t) + coverage_weight (single_adjustment1_coverage t)
  | GposSingleAdjustment (SingleAdjustmentFormat2 t) =>
      load single_weight (single_adjustment2_values t) + coverage_weight (single_adjustment2_coverage t)
  | GposPairAdjustment (PairAdjustmentFormat1 t) =>
      count (pair_adjustment1_record_offsets t) + coverage_weight (pair_adjustment1_coverage t) +
      load pair1s_weight (pair_adjustment1_records t)
  | GposPairAdjustment (PairAdjustmentFormat2 t) =>
      load pair2s_weight (pair_adjustment2_records t) + coverage_weight (pair_adjustment2_coverage t) +
      class_weight (pair_adjustment2_class1 t) + class_weight (pair_adjustment2_class2 t)
  | GposCursiveAttachment t =>
      load connection_weight (cursive_attachment_connections t) +
      coverage_weight (cursive_attachment_coverage t)
  | GposMarkToBaseAttachment t =>
      coverage_weight (mark_to_base_attachment_mark_coverage t) +
      coverage_weight (mark_to_base_attachment_base_coverage t) +
      mark1s_weight (mark_to_base_attachment_marks t) + bases_weight (mark_to_base_attachment_bases t)
  | GposMarkToLigatureAttachment t =>
      coverage_weight (mark_to_ligature_attachment_mark_coverage t) +
      coverage_weight (mark_to_ligature_attachment_ligature_coverage t) +
      mark1s_weight (mark_to_ligature_attachment_marks t) +
      gpos_ligatures_weight (mark_to_ligature_attachment_ligatures t)
  | GposMarkToMarkAttachment t =>
      coverage_weight (mark_to_mark_attachment_mark1_coverage t) +
      coverage_weight (mark_to_mark_attachment_mark2_coverage t) +
      mark1s_weight (mark_to_mark_attachment_mark1s t) + mark2s_weight (mark_to_mark_attachment_mark2s t)
  | GposContextualPositioning t => context_weight t
  | GposChainedContextualPositioning t => chained_context_weight t
  | GposExtensionPositioning _ => 0
  end.

(** ** src/tables/color_palettes.rs, src/tables/font_variations and src/file.rs *)

Definition color_weight (v : ColorPalettes) : N :=
  match color_palettes_header v with
  | CpalVersion0 h => count (cpal_header0_color_indices h)
  | CpalVersion1 h => count (cpal_header1_color_indices h)
  end + count (color_palettes_colors v).

Definition variation_weight (v : FontVariations) : N :=
  count (font_variations_axis_records v) +
  load (fun r => count (instance_record_coordinates r)) (font_variations_instance_records v).

Definition font_weight (v : Font) : N := count (offsets_records (font_offsets v)).

(** ** All reads *)

Definition weight {A} (r : request A) : A -> N :=
  match r in request A return A -> N with
  | RequestFile _ => fun v => load font_weight (file_fonts v)
  | RequestFont _ => font_weight
  | RequestGdef => definition_weight
  | RequestGpos => directory_weight gpos_type_weight
  | RequestGsub => directory_weight gsub_type_weight
  | RequestCpal => color_weight
  | RequestFvar => variation_weight
  end.

(** The most that a value can hold whose extent is [n]. *)
Definition capacity {A} (r : request A) (n : N) : N :=
  match r with
  | RequestFile _ | RequestFont _ | RequestCpal => n
  | RequestFvar => 2 ^ 16 * n
  | RequestGdef => n ^ 3
  | RequestGsub => n ^ 5
  | RequestGpos => n ^ 5 + 2 ^ 32 * n ^ 2
  end.
