(** The end of every value, counted from where it starts: where the part of it ends that is
    read last. *)

From Verif Require Export SpecPositions Requests.

(** The end of the last of several parts that are found by offsets; [start] without parts. *)
Fixpoint last_end (start : N) (offsets ends : list N) : N :=
  match offsets, ends with
  | o :: offsets, n :: ends => last_end (o + n) offsets ends
  | _, _ => start
  end.

Definition maybe_end (start offset : N) (part : option N) : N :=
  match part with Some n => offset + n | None => start end.

Fixpoint last_some_end (start : N) (offsets : list N) (ends : list (option N)) : N :=
  match offsets, ends with
  | o :: offsets, n :: ends => last_some_end (maybe_end start o n) offsets ends
  | _, _ => start
  end.

Definition sum (l : list N) : N := fold_right N.add 0 l.

(** ** src/layout *)

Definition coverage_end (v : Coverage) : N := size (coverage_bytes v).
Definition class_end (v : Class) : N := size (class_bytes v).
Definition correction_end (v : Correction) : N := size (correction_bytes v).

Definition context_records_end (v : ContextRecords) : N :=
  last_end (2 + 2 * context_records_count v) (context_records_offsets v)
    (map (fun r => size (context_record_bytes r)) (context_records_records v)).

Definition context_class_records_end (v : ContextClassRecords) : N :=
  last_end (2 + 2 * context_class_records_count v) (context_class_records_offsets v)
    (map (fun r => size (context_class_record_bytes r)) (context_class_records_records v)).

Definition chained_records_end (v : ChainedRecords) : N :=
  last_end (2 + 2 * chained_records_count v) (chained_records_offsets v)
    (map (fun r => size (chained_record_bytes r)) (chained_records_records v)).

Definition chained_class_records_end (v : ChainedClassRecords) : N :=
  last_end (2 + 2 * chained_class_records_count v) (chained_class_records_offsets v)
    (map (fun r => size (chained_class_record_bytes r)) (chained_class_records_records v)).

Definition context_end (v : Context) : N :=
  match v with
  | ContextFormat1 t =>
      last_end (context1_coverage_offset t + coverage_end (context1_coverage t))
        (context1_record_offsets t) (map context_records_end (context1_records t))
  | ContextFormat2 t =>
      last_some_end (context2_class_offset t + class_end (context2_class t))
        (context2_record_offsets t) (map (option_map context_class_records_end) (context2_records t))
  | ContextFormat3 t =>
      last_end (6 + 2 * context3_glyph_count t + 4 * context3_action_count t)
        (context3_coverage_offsets t) (map coverage_end (context3_coverages t))
  end.

Definition chained_context_end (v : ChainedContext) : N :=
  match v with
  | ChainedContextFormat1 t =>
      last_end (chained_context1_coverage_offset t + coverage_end (chained_context1_coverage t))
        (chained_context1_record_offsets t) (map chained_records_end (chained_context1_records t))
  | ChainedContextFormat2 t =>
      last_some_end (chained_context2_forward_class_offset t + class_end (chained_context2_forward_class t))
        (chained_context2_record_offsets t)
        (map (option_map chained_class_records_end) (chained_context2_records t))
  | ChainedContextFormat3 t =>
      last_end
        (last_end
          (last_end (10 + 2 * chained_context3_backward_glyph_count t + 2 * chained_context3_glyph_count t +
              2 * chained_context3_forward_glyph_count t + 4 * chained_context3_action_count t)
            (chained_context3_backward_coverage_offsets t)
            (map coverage_end (chained_context3_backward_coverages t)))
          (chained_context3_coverage_offsets t) (map coverage_end (chained_context3_coverages t)))
        (chained_context3_forward_coverage_offsets t)
        (map coverage_end (chained_context3_forward_coverages t))
  end.

Definition language_record_end (v : LanguageRecord) : N := size (language_record_bytes v).

Definition script_record_end (v : ScriptRecord) : N :=
  last_end
    (maybe_end (4 + 6 * script_record_language_count v) (script_record_default_language_offset v)
      (option_map language_record_end (script_record_default_language v)))
    (map language_header_offset (script_record_language_headers v))
    (map language_record_end (script_record_language_records v)).

Definition scripts_end (v : Scripts) : N :=
  last_end (2 + 6 * scripts_count v) (map script_header_offset (scripts_headers v))
    (map script_record_end (scripts_records v)).

(** The parameters of a feature are found and not read. *)
Definition feature_record_end (v : FeatureRecord) : N :=
  maybe_end (4 + 2 * feature_record_lookup_index_count v) (feature_record_parameter_offset v)
    (option_map (fun _ => 0) (feature_record_parameters v)).

Definition features_end (v : Features) : N :=
  last_end (2 + 6 * features_count v) (map feature_header_offset (features_headers v))
    (map feature_record_end (features_records v)).

Definition lookup_record_end {T} (table_end : T -> N) (v : LookupRecord T) : N :=
  last_end (6 + 2 * lookup_record_table_count v + match lookup_record_mark_filtering_set v with Some _ => 2 | None => 0 end)
    (lookup_record_table_offsets v) (map table_end (lookup_record_tables v)).

Definition lookups_end {T} (table_end : T -> N) (v : Lookups T) : N :=
  last_end (2 + 2 * lookups_count v) (lookups_offsets v)
    (map (lookup_record_end table_end) (lookups_records v)).

(** With [ignore-incomplete-directories] a list without an offset is not looked for. *)
Definition list_end (o : options) (start offset n : N) : N :=
  if ignore_incomplete_directories o && (offset =? 0) then start else offset + n.

Definition directory_end {T} (o : options) (table_end : T -> N) (v : Directory T) : N :=
  maybe_end
    (list_end o
      (list_end o
        (list_end o (if directory_minor_version v =? 1 then 14 else 10)
          (directory_script_offset v) (scripts_end (directory_scripts v)))
        (directory_feature_offset v) (features_end (directory_features v)))
      (directory_lookup_offset v) (lookups_end table_end (directory_lookups v)))
    (directory_variation_offset v) (option_map (fun _ => 8) (directory_variations v)).

(** ** src/variations *)

Definition store_record_end (v : StoreRecord) : N :=
  6 + 2 * store_record_region_count v + N.of_nat (length (store_record_deltas v)).

Definition store_end (v : Store) : N :=
  last_end (8 + 4 * store_count v) (store_offsets v) (map store_record_end (store_records v)).

(** ** src/tables/glyph_definition *)

Definition attachment_end (v : Attachment) : N := size (attachment_bytes v).

Definition attachments_end (v : Attachments) : N :=
  last_end (attachments_coverage_offset v + coverage_end (attachments_coverage v))
    (attachments_offsets v) (map attachment_end (attachments_records v)).

Definition caret_end (v : Caret) : N :=
  match v with
  | CaretFormat1 _ => 4
  | CaretFormat2 _ => 4
  | CaretFormat3 t => caret3_correction_offset t + correction_end (caret3_correction t)
  end.

Definition gdef_ligature_end (v : GdefLigature) : N :=
  last_end (2 + 2 * gdef_ligature_caret_count v) (gdef_ligature_caret_offsets v)
    (map caret_end (gdef_ligature_carets v)).

Definition gdef_ligatures_end (v : GdefLigatures) : N :=
  last_end (gdef_ligatures_coverage_offset v + coverage_end (gdef_ligatures_coverage v))
    (gdef_ligatures_offsets v) (map gdef_ligature_end (gdef_ligatures_records v)).

Definition marks_end (v : Marks) : N :=
  last_end (4 + 4 * marks_count v) (marks_coverage_offsets v) (map coverage_end (marks_coverages v)).

(** The offsets of the six parts in the order in which they are read. *)
Definition definition_end (v : GlyphDefinition) : N :=
  let '(start, a, b, c, d, e, g) :=
    match glyph_definition_header v with
    | GdefVersion1 h => (12, gdef_header1_glyph_class_offset h, gdef_header1_attachment_offset h,
        gdef_header1_ligature_offset h, gdef_header1_mark_class_offset h, 0, 0)
    | GdefVersion12 h => (14, gdef_header12_glyph_class_offset h, gdef_header12_attachment_offset h,
        gdef_header12_ligature_offset h, gdef_header12_mark_class_offset h, gdef_header12_mark_offset h, 0)
    | GdefVersion13 h => (18, gdef_header13_glyph_class_offset h, gdef_header13_attachment_offset h,
        gdef_header13_ligature_offset h, gdef_header13_mark_class_offset h, gdef_header13_mark_offset h,
        gdef_header13_mark_offset h)
    end in
  maybe_end
    (maybe_end
      (maybe_end
        (maybe_end
          (maybe_end
            (maybe_end start a (option_map class_end (glyph_definition_glyph_class v)))
            b (option_map attachments_end (glyph_definition_attachments v)))
          c (option_map gdef_ligatures_end (glyph_definition_ligatures v)))
        d (option_map class_end (glyph_definition_mark_class v)))
      e (option_map marks_end (glyph_definition_marks v)))
    g (option_map store_end (glyph_definition_variations v)).

(** ** src/tables/glyph_substitution *)

Definition ligatures_end (v : Ligatures) : N :=
  last_end (2 + 2 * ligatures_count v) (ligatures_offsets v)
    (map (fun r => size (ligature_bytes r)) (ligatures_records v)).

Definition gsub_type_end (v : GsubType) : N :=
  match v with
  | GsubSingleSubstitution (SingleSubstitutionFormat1 t) =>
      single_substitution1_coverage_offset t + coverage_end (single_substitution1_coverage t)
  | GsubSingleSubstitution (SingleSubstitutionFormat2 t) =>
      single_substitution2_coverage_offset t + coverage_end (single_substitution2_coverage t)
  | GsubMultipleSubstitution t =>
      last_end (multiple_substitution_coverage_offset t + coverage_end (multiple_substitution_coverage t))
        (multiple_substitution_record_offsets t)
        (map (fun r => size (sequence_bytes r)) (multiple_substitution_records t))
  | GsubAlternateSubstitution t =>
      last_end (alternate_substitution_coverage_offset t + coverage_end (alternate_substitution_coverage t))
        (alternate_substitution_record_offsets t)
        (map (fun r => size (alternates_bytes r)) (alternate_substitution_records t))
  | GsubLigatureSubstitution t =>
      last_end (ligature_substitution_coverage_offset t + coverage_end (ligature_substitution_coverage t))
        (ligature_substitution_record_offsets t) (map ligatures_end (ligature_substitution_records t))
  | GsubContextualSubstitution t => context_end t
  | GsubChainedContextualSubstitution t => chained_context_end t
  | GsubExtensionSubstitution _ => 8
  | GsubReverseChainedContextualSubstibution t =>
      last_end
        (last_end (reverse_chained_contextual_substibution_coverage_offset t + coverage_end (reverse_chained_contextual_substibution_coverage t))
          (reverse_chained_contextual_substibution_backward_coverage_offsets t) (map coverage_end (reverse_chained_contextual_substibution_backward_coverages t)))
        (reverse_chained_contextual_substibution_forward_coverage_offsets t) (map coverage_end (reverse_chained_contextual_substibution_forward_coverages t))
  end.

(** ** src/tables/glyph_positioning *)

Definition anchor_end (v : Anchor) : N :=
  match v with
  | AnchorFormat1 _ => 6
  | AnchorFormat2 _ => 8
  | AnchorFormat3 t =>
      maybe_end
        (maybe_end 10 (anchor3_x_correction_offset t) (option_map correction_end (anchor3_x_correction t)))
        (anchor3_y_correction_offset t) (option_map correction_end (anchor3_y_correction t))
  end.

(** Two bytes for each field that is there. *)
Definition field {A} (v : option A) : N := match v with Some _ => 2 | None => 0 end.

Definition single_end (v : Single) : N :=
  field (single_x_placement v) + field (single_y_placement v) +
  field (single_x_advance v) + field (single_y_advance v) +
  field (single_x_placement_correction_offset v) + field (single_y_placement_correction_offset v) +
  field (single_x_advance_correction_offset v) + field (single_y_advance_correction_offset v).

Definition value_end (v : option Single) : N := match v with Some v => single_end v | None => 0 end.

Definition pair1s_end (v : Pair1s) : N :=
  2 + sum (map (fun r => 2 + value_end (pair1_value1 r) + value_end (pair1_value2 r)) (pair1s_records v)).

(** The anchors and ligatures found by offsets are read on the side. *)
Definition bases_end (v : Bases) : N :=
  2 + sum (map (fun r => 2 * N.of_nat (length (base_anchor_offsets r))) (bases_records v)).

Definition mark2s_end (v : Mark2s) : N :=
  2 + sum (map (fun r => 2 * N.of_nat (length (mark2_anchor_offsets r))) (mark2s_records v)).

Definition gpos_ligatures_end (v : GposLigatures) : N := 2 + 2 * gpos_ligatures_count v.

Definition gpos_type_end (v : GposType) : N :=
  match v with
  | GposSingleAdjustment (SingleAdjustmentFormat1 t) =>
      single_adjustment1_coverage_offset t + coverage_end (single_adjustment1_coverage t)
  | GposSingleAdjustment (SingleAdjustmentFormat2 t) =>
      single_adjustment2_coverage_offset t + coverage_end (single_adjustment2_coverage t)
  | GposPairAdjustment (PairAdjustmentFormat1 t) =>
      last_end (pair_adjustment1_coverage_offset t + coverage_end (pair_adjustment1_coverage t))
        (pair_adjustment1_record_offsets t) (map pair1s_end (pair_adjustment1_records t))
  | GposPairAdjustment (PairAdjustmentFormat2 t) =>
      pair_adjustment2_class2_offset t + class_end (pair_adjustment2_class2 t)
  | GposCursiveAttachment t =>
      cursive_attachment_coverage_offset t + coverage_end (cursive_attachment_coverage t)
  | GposMarkToBaseAttachment t =>
      mark_to_base_attachment_bases_offset t + bases_end (mark_to_base_attachment_bases t)
  | GposMarkToLigatureAttachment t =>
      mark_to_ligature_attachment_ligatures_offset t + gpos_ligatures_end (mark_to_ligature_attachment_ligatures t)
  | GposMarkToMarkAttachment t =>
      mark_to_mark_attachment_mark2s_offset t + mark2s_end (mark_to_mark_attachment_mark2s t)
  | GposContextualPositioning t => context_end t
  | GposChainedContextualPositioning t => chained_context_end t
  | GposExtensionPositioning _ => 8
  end.

(** ** All reads *)

Definition cursor_end {A} (o : options) (r : request A) : A -> N :=
  match r in request A return A -> N with
  | RequestFile _ => fun v => size (flat_map (fun font => offsets_bytes (font_offsets font)) (file_fonts v))
  | RequestFont _ => fun v => size (offsets_bytes (font_offsets v))
  | RequestGdef => definition_end
  | RequestGpos => directory_end o gpos_type_end
  | RequestGsub => directory_end o gsub_type_end
  | RequestCpal => color_end
  | RequestFvar => variation_end
  end.
