(** The extent of every value, counted from where it starts: where the part of it
    ends that is farthest away. *)

From Verif Require Export SpecCursor.

(** Without the bytes from [n] on. *)
Definition cut (n : N) (f : file) : file := fun p => if p <? n then f p else None.

Definition most (l : list N) : N := fold_right N.max 0 l.

(** The farthest end of several parts that are found by offsets. *)
Fixpoint farthest (offsets extents : list N) : N :=
  match offsets, extents with
  | o :: offsets, n :: extents => N.max (o + n) (farthest offsets extents)
  | _, _ => 0
  end.

Definition maybe_far (offset : N) (part : option N) : N :=
  match part with Some n => offset + n | None => 0 end.

Fixpoint farthest_some (offsets : list N) (extents : list (option N)) : N :=
  match offsets, extents with
  | o :: offsets, n :: extents => N.max (maybe_far o n) (farthest_some offsets extents)
  | _, _ => 0
  end.

(** ** src/layout *)

Definition context_records_extent (v : ContextRecords) : N :=
  N.max (2 + 2 * context_records_count v)
    (farthest (context_records_offsets v)
      (map (fun r => size (context_record_bytes r)) (context_records_records v))).

Definition context_class_records_extent (v : ContextClassRecords) : N :=
  N.max (2 + 2 * context_class_records_count v)
    (farthest (context_class_records_offsets v)
      (map (fun r => size (context_class_record_bytes r)) (context_class_records_records v))).

Definition chained_records_extent (v : ChainedRecords) : N :=
  N.max (2 + 2 * chained_records_count v)
    (farthest (chained_records_offsets v)
      (map (fun r => size (chained_record_bytes r)) (chained_records_records v))).

Definition chained_class_records_extent (v : ChainedClassRecords) : N :=
  N.max (2 + 2 * chained_class_records_count v)
    (farthest (chained_class_records_offsets v)
      (map (fun r => size (chained_class_record_bytes r)) (chained_class_records_records v))).

Definition context_extent (v : Context) : N :=
  match v with
  | ContextFormat1 t =>
      N.max (6 + 2 * context1_record_count t)
        (N.max (context1_coverage_offset t + coverage_end (context1_coverage t))
          (farthest (context1_record_offsets t) (map context_records_extent (context1_records t))))
  | ContextFormat2 t =>
      N.max (8 + 2 * context2_record_count t)
        (N.max (context2_coverage_offset t + coverage_end (context2_coverage t))
          (N.max (context2_class_offset t + class_end (context2_class t))
            (farthest_some (context2_record_offsets t)
              (map (option_map context_class_records_extent) (context2_records t)))))
  | ContextFormat3 t =>
      N.max (6 + 2 * context3_glyph_count t + 4 * context3_action_count t)
        (farthest (context3_coverage_offsets t) (map coverage_end (context3_coverages t)))
  end.

Definition chained_context_extent (v : ChainedContext) : N :=
  match v with
  | ChainedContextFormat1 t =>
      N.max (6 + 2 * chained_context1_record_count t)
        (N.max (chained_context1_coverage_offset t + coverage_end (chained_context1_coverage t))
          (farthest (chained_context1_record_offsets t) (map chained_records_extent (chained_context1_records t))))
  | ChainedContextFormat2 t =>
      N.max (12 + 2 * chained_context2_record_count t)
        (N.max (chained_context2_coverage_offset t + coverage_end (chained_context2_coverage t))
          (N.max (chained_context2_backward_class_offset t + class_end (chained_context2_backward_class t))
            (N.max (chained_context2_class_offset t + class_end (chained_context2_class t))
              (N.max (chained_context2_forward_class_offset t + class_end (chained_context2_forward_class t))
                (farthest_some (chained_context2_record_offsets t)
                  (map (option_map chained_class_records_extent) (chained_context2_records t)))))))
  | ChainedContextFormat3 t =>
      N.max (10 + 2 * chained_context3_backward_glyph_count t + 2 * chained_context3_glyph_count t +
          2 * chained_context3_forward_glyph_count t + 4 * chained_context3_action_count t)
        (N.max (farthest (chained_context3_backward_coverage_offsets t)
            (map coverage_end (chained_context3_backward_coverages t)))
          (N.max (farthest (chained_context3_coverage_offsets t) (map coverage_end (chained_context3_coverages t)))
            (farthest (chained_context3_forward_coverage_offsets t)
              (map coverage_end (chained_context3_forward_coverages t)))))
  end.

Definition script_record_extent (v : ScriptRecord) : N :=
  N.max (4 + 6 * script_record_language_count v)
    (N.max (maybe_far (script_record_default_language_offset v)
        (option_map language_record_end (script_record_default_language v)))
      (farthest (map language_header_offset (script_record_language_headers v))
        (map language_record_end (script_record_language_records v)))).

Definition scripts_extent (v : Scripts) : N :=
  N.max (2 + 6 * scripts_count v)
    (farthest (map script_header_offset (scripts_headers v)) (map script_record_extent (scripts_records v))).

(** No byte of the parameters is read. *)
Definition feature_record_extent (v : FeatureRecord) : N := 4 + 2 * feature_record_lookup_index_count v.

Definition features_extent (v : Features) : N :=
  N.max (2 + 6 * features_count v)
    (farthest (map feature_header_offset (features_headers v)) (map feature_record_extent (features_records v))).

Definition lookup_record_extent {T} (table_extent : T -> N) (v : LookupRecord T) : N :=
  N.max (6 + 2 * lookup_record_table_count v +
      match lookup_record_mark_filtering_set v with Some _ => 2 | None => 0 end)
    (farthest (lookup_record_table_offsets v) (map table_extent (lookup_record_tables v))).

Definition lookups_extent {T} (table_extent : T -> N) (v : Lookups T) : N :=
  N.max (2 + 2 * lookups_count v)
    (farthest (lookups_offsets v) (map (lookup_record_extent table_extent) (lookups_records v))).

Definition list_far (o : options) (offset n : N) : N :=
  if ignore_incomplete_directories o && (offset =? 0) then 0 else offset + n.

Definition directory_extent {T} (o : options) (table_extent : T -> N) (v : Directory T) : N :=
  N.max (if directory_minor_version v =? 1 then 14 else 10)
    (N.max (list_far o (directory_script_offset v) (scripts_extent (directory_scripts v)))
      (N.max (list_far o (directory_feature_offset v) (features_extent (directory_features v)))
        (N.max (list_far o (directory_lookup_offset v) (lookups_extent table_extent (directory_lookups v)))
          (maybe_far (directory_variation_offset v) (option_map (fun _ => 8) (directory_variations v)))))).

(** ** src/variations *)

Definition store_extent (v : Store) : N :=
  N.max (8 + 4 * store_count v) (farthest (store_offsets v) (map store_record_end (store_records v))).

(** ** src/tables/glyph_definition *)

Definition attachments_extent (v : Attachments) : N :=
  N.max (4 + 2 * attachments_count v)
    (N.max (attachments_coverage_offset v + coverage_end (attachments_coverage v))
      (farthest (attachments_offsets v) (map attachment_end (attachments_records v)))).

Definition caret_extent (v : Caret) : N :=
  match v with
  | CaretFormat1 _ => 4
  | CaretFormat2 _ => 4
  | CaretFormat3 t => N.max 6 (caret3_correction_offset t + correction_end (caret3_correction t))
  end.

Definition gdef_ligature_extent (v : GdefLigature) : N :=
  N.max (2 + 2 * gdef_ligature_caret_count v)
    (farthest (gdef_ligature_caret_offsets v) (map caret_extent (gdef_ligature_carets v))).

Definition gdef_ligatures_extent (v : GdefLigatures) : N :=
  N.max (4 + 2 * gdef_ligatures_count v)
    (N.max (gdef_ligatures_coverage_offset v + coverage_end (gdef_ligatures_coverage v))
      (farthest (gdef_ligatures_offsets v) (map gdef_ligature_extent (gdef_ligatures_records v)))).

Definition marks_extent (v : Marks) : N :=
  N.max (4 + 4 * marks_count v) (farthest (marks_coverage_offsets v) (map coverage_end (marks_coverages v))).

Definition definition_extent (v : GlyphDefinition) : N :=
  let '(start, a, b, c, d, e, g) :=
    match glyph_definition_header v with
    | GdefVersion1 h => (12, gdef_header1_glyph_class_offset h, gdef_header1_attachment_offset h,
        gdef_header1_ligature_offset h, gdef_header1_mark_class_offset h, 0, 0)
    | GdefVersion12 h => (14, gdef_header12_glyph_class_offset h, gdef_header12_attachment_offset h,
        gdef_header12_ligature_offset h, gdef_header12_mark_class_offset h, gdef_header12_mark_offset h, 0)
    | GdefVersion13 h => (18, gdef_header13_glyph_class_offset h, gdef_header13_attachment_offset h,
        gdef_header13_ligature_offset h, gdef_header13_mark_class_offset h, gdef_header13_mark_offset h,
        gdef_header13_mark_offset h)
    end in
  N.max start
    (N.max (maybe_far a (option_map class_end (glyph_definition_glyph_class v)))
      (N.max (maybe_far b (option_map attachments_extent (glyph_definition_attachments v)))
        (N.max (maybe_far c (option_map gdef_ligatures_extent (glyph_definition_ligatures v)))
          (N.max (maybe_far d (option_map class_end (glyph_definition_mark_class v)))
            (N.max (maybe_far e (option_map marks_extent (glyph_definition_marks v)))
              (maybe_far g (option_map store_extent (glyph_definition_variations v)))))))).

(** ** src/tables/glyph_substitution *)

Definition ligatures_extent (v : Ligatures) : N :=
  N.max (2 + 2 * ligatures_count v)
    (farthest (ligatures_offsets v) (map (fun r => size (ligature_bytes r)) (ligatures_records v))).

Definition gsub_type_extent (v : GsubType) : N :=
  match v with
  | GsubSingleSubstitution (SingleSubstitutionFormat1 t) =>
      N.max 6 (single_substitution1_coverage_offset t + coverage_end (single_substitution1_coverage t))
  | GsubSingleSubstitution (SingleSubstitutionFormat2 t) =>
      N.max (6 + 2 * single_substitution2_glyph_count t)
        (single_substitution2_coverage_offset t + coverage_end (single_substitution2_coverage t))
  | GsubMultipleSubstitution t =>
      N.max (6 + 2 * multiple_substitution_record_count t)
        (N.max (multiple_substitution_coverage_offset t + coverage_end (multiple_substitution_coverage t))
          (farthest (multiple_substitution_record_offsets t)
            (map (fun r => size (sequence_bytes r)) (multiple_substitution_records t))))
  | GsubAlternateSubstitution t =>
      N.max (6 + 2 * alternate_substitution_record_count t)
        (N.max (alternate_substitution_coverage_offset t + coverage_end (alternate_substitution_coverage t))
          (farthest (alternate_substitution_record_offsets t)
            (map (fun r => size (alternates_bytes r)) (alternate_substitution_records t))))
  | GsubLigatureSubstitution t =>
      N.max (6 + 2 * ligature_substitution_record_count t)
        (N.max (ligature_substitution_coverage_offset t + coverage_end (ligature_substitution_coverage t))
          (farthest (ligature_substitution_record_offsets t)
            (map ligatures_extent (ligature_substitution_records t))))
  | GsubContextualSubstitution t => context_extent t
  | GsubChainedContextualSubstitution t => chained_context_extent t
  | GsubExtensionSubstitution _ => 8
  | GsubReverseChainedContextualSubstibution t =>
      N.max (10 + 2 * reverse_chained_contextual_substibution_backward_glyph_count t +
          2 * reverse_chained_contextual_substibution_forward_glyph_count t +
          2 * reverse_chained_contextual_substibution_glyph_count t)
        (N.max (reverse_chained_contextual_substibution_coverage_offset t +
            coverage_end (reverse_chained_contextual_substibution_coverage t))
          (N.max (farthest (reverse_chained_contextual_substibution_backward_coverage_offsets t)
              (map coverage_end (reverse_chained_contextual_substibution_backward_coverages t)))
            (farthest (reverse_chained_contextual_substibution_forward_coverage_offsets t)
              (map coverage_end (reverse_chained_contextual_substibution_forward_coverages t)))))
  end.

(** ** src/tables/glyph_positioning *)

Definition anchor_extent (v : Anchor) : N :=
  match v with
  | AnchorFormat1 _ => 6
  | AnchorFormat2 _ => 8
  | AnchorFormat3 t =>
      N.max 10
        (N.max (maybe_far (anchor3_x_correction_offset t) (option_map correction_end (anchor3_x_correction t)))
          (maybe_far (anchor3_y_correction_offset t) (option_map correction_end (anchor3_y_correction t))))
  end.

(** The farthest end of what a record in an array refers to, counted from where the
    offsets are counted from. *)
Definition link (offset : option N) (correction : option Correction) : N :=
  match offset, correction with
  | Some o, Some c => o + correction_end c
  | _, _ => 0
  end.

Definition single_links (v : Single) : N :=
  N.max (link (single_x_placement_correction_offset v) (single_x_placement_correction v))
    (N.max (link (single_y_placement_correction_offset v) (single_y_placement_correction v))
      (N.max (link (single_x_advance_correction_offset v) (single_x_advance_correction v))
        (link (single_y_advance_correction_offset v) (single_y_advance_correction v)))).

Definition value_links (v : option Single) : N := match v with Some v => single_links v | None => 0 end.

Definition pair1s_extent (v : Pair1s) : N :=
  N.max (pair1s_end v)
    (most (map (fun r => N.max (value_links (pair1_value1 r)) (value_links (pair1_value2 r))) (pair1s_records v))).

Definition pair2s_end (v : Pair2s) : N :=
  sum (map (fun r => value_end (pair2_value1 r) + value_end (pair2_value2 r)) (pair2s_records v)).

Definition pair2s_links (v : Pair2s) : N :=
  most (map (fun r => N.max (value_links (pair2_value1 r)) (value_links (pair2_value2 r))) (pair2s_records v)).

Definition anchors_links (offsets : list N) (anchors : list (option Anchor)) : N :=
  farthest_some offsets (map (option_map anchor_extent) anchors).

Definition bases_extent (v : Bases) : N :=
  N.max (bases_end v) (most (map (fun r => anchors_links (base_anchor_offsets r) (base_anchors r)) (bases_records v))).

Definition mark2s_extent (v : Mark2s) : N :=
  N.max (mark2s_end v) (most (map (fun r => anchors_links (mark2_anchor_offsets r) (mark2_anchors r)) (mark2s_records v))).

Definition gpos_ligature_extent (v : GposLigature) : N :=
  N.max (2 + sum (map (fun r => 2 * N.of_nat (length (component_anchor_offsets r))) (gpos_ligature_components v)))
    (most (map (fun r => anchors_links (component_anchor_offsets r) (component_anchors r)) (gpos_ligature_components v))).

Definition gpos_ligatures_extent (v : GposLigatures) : N :=
  N.max (2 + 2 * gpos_ligatures_count v)
    (farthest (gpos_ligatures_offsets v) (map gpos_ligature_extent (gpos_ligatures_records v))).

(** With [ignore-incomplete-marks] a mark without an anchor has the default anchor,
    which is nowhere. *)
Definition mark1_links (o : options) (v : Mark1) : N :=
  if ignore_incomplete_marks o && (mark1_anchor_offset v =? 0) then 0
  else mark1_anchor_offset v + anchor_extent (mark1_anchor v).

Definition mark1s_extent (o : options) (v : Mark1s) : N :=
  N.max (2 + 4 * N.of_nat (length (mark1s_records v))) (most (map (mark1_links o) (mark1s_records v))).

Definition connection_links (v : Connection) : N :=
  N.max (maybe_far (connection_start_anchor_offset v) (option_map anchor_extent (connection_start_anchor v)))
    (maybe_far (connection_end_anchor_offset v) (option_map anchor_extent (connection_end_anchor v))).

Definition gpos_type_extent (o : options) (v : GposType) : N :=
  match v with
  | GposSingleAdjustment (SingleAdjustmentFormat1 t) =>
      N.max (6 + single_end (single_adjustment1_value t))
        (N.max (single_links (single_adjustment1_value t))
          (single_adjustment1_coverage_offset t + coverage_end (single_adjustment1_coverage t)))
  | GposSingleAdjustment (SingleAdjustmentFormat2 t) =>
      N.max (8 + sum (map single_end (single_adjustment2_values t)))
        (N.max (most (map single_links (single_adjustment2_values t)))
          (single_adjustment2_coverage_offset t + coverage_end (single_adjustment2_coverage t)))
  | GposPairAdjustment (PairAdjustmentFormat1 t) =>
      N.max (10 + 2 * pair_adjustment1_record_count t)
        (N.max (pair_adjustment1_coverage_offset t + coverage_end (pair_adjustment1_coverage t))
          (farthest (pair_adjustment1_record_offsets t) (map pair1s_extent (pair_adjustment1_records t))))
  | GposPairAdjustment (PairAdjustmentFormat2 t) =>
      N.max (16 + sum (map pair2s_end (pair_adjustment2_records t)))
        (N.max (most (map pair2s_links (pair_adjustment2_records t)))
          (N.max (pair_adjustment2_coverage_offset t + coverage_end (pair_adjustment2_coverage t))
            (N.max (pair_adjustment2_class1_offset t + class_end (pair_adjustment2_class1 t))
              (pair_adjustment2_class2_offset t + class_end (pair_adjustment2_class2 t)))))
  | GposCursiveAttachment t =>
      N.max (6 + 4 * N.of_nat (length (cursive_attachment_connections t)))
        (N.max (most (map connection_links (cursive_attachment_connections t)))
          (cursive_attachment_coverage_offset t + coverage_end (cursive_attachment_coverage t)))
  | GposMarkToBaseAttachment t =>
      N.max 12
        (N.max (mark_to_base_attachment_mark_coverage_offset t + coverage_end (mark_to_base_attachment_mark_coverage t))
          (N.max (mark_to_base_attachment_base_coverage_offset t + coverage_end (mark_to_base_attachment_base_coverage t))
            (N.max (mark_to_base_attachment_marks_offset t + mark1s_extent o (mark_to_base_attachment_marks t))
              (mark_to_base_attachment_bases_offset t + bases_extent (mark_to_base_attachment_bases t)))))
  | GposMarkToLigatureAttachment t =>
      N.max 12
        (N.max (mark_to_ligature_attachment_mark_coverage_offset t + coverage_end (mark_to_ligature_attachment_mark_coverage t))
          (N.max (mark_to_ligature_attachment_ligature_coverage_offset t + coverage_end (mark_to_ligature_attachment_ligature_coverage t))
            (N.max (mark_to_ligature_attachment_marks_offset t + mark1s_extent o (mark_to_ligature_attachment_marks t))
              (mark_to_ligature_attachment_ligatures_offset t + gpos_ligatures_extent (mark_to_ligature_attachment_ligatures t)))))
  | GposMarkToMarkAttachment t =>
      N.max 12
        (N.max (mark_to_mark_attachment_mark1_coverage_offset t + coverage_end (mark_to_mark_attachment_mark1_coverage t))
          (N.max (mark_to_mark_attachment_mark2_coverage_offset t + coverage_end (mark_to_mark_attachment_mark2_coverage t))
            (N.max (mark_to_mark_attachment_mark1s_offset t + mark1s_extent o (mark_to_mark_attachment_mark1s t))
              (mark_to_mark_attachment_mark2s_offset t + mark2s_extent (mark_to_mark_attachment_mark2s t)))))
  | GposContextualPositioning t => context_extent t
  | GposChainedContextualPositioning t => chained_context_extent t
  | GposExtensionPositioning _ => 8
  end.

(** ** src/tables/color_palettes.rs and src/tables/font_variations *)

(** The end of [count] parts at distance [step], each of the given size. *)
Definition steps_far (start step count size : N) : N :=
  if count =? 0 then 0 else start + (count - 1) * step + size.

Definition color_extent (v : ColorPalettes) : N :=
  match color_palettes_header v with
  | CpalVersion0 h =>
      N.max (12 + 2 * cpal_header0_palette_count h)
        (steps_far (cpal_header0_color_offset h) 4 (cpal_header0_color_count h) 4)
  | CpalVersion1 h =>
      N.max (12 + 2 * cpal_header1_palette_count h)
        (steps_far (cpal_header1_color_offset h) 4 (cpal_header1_color_count h) 4)
  end.

Definition variation_extent (v : FontVariations) : N :=
  let h := font_variations_header v in
  let n := fvar_header_axis_count h in
  N.max 16
    (N.max (steps_far (fvar_header_axis_offset h) (fvar_header_axis_size h) n 20)
      (steps_far (fvar_header_axis_offset h + n * fvar_header_axis_size h) (fvar_header_instance_size h)
        (fvar_header_instance_count h) (6 + 4 * n))).

(** ** All reads *)

Definition extent {A} (o : options) (r : request A) : A -> N :=
  match r in request A return A -> N with
  | RequestFile _ => fun v => size (flat_map (fun font => offsets_bytes (font_offsets font)) (file_fonts v))
  | RequestFont _ => fun v => size (offsets_bytes (font_offsets v))
  | RequestGdef => definition_extent
  | RequestGpos => directory_extent o (gpos_type_extent o)
  | RequestGsub => directory_extent o gsub_type_extent
  | RequestCpal => color_extent
  | RequestFvar => variation_extent
  end.
