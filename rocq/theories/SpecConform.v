(** The tables as the OpenType specification lays them out, without regard to the code:
    no build options, every link that may not be NULL is not, reserved bits are zero,
    and versions and formats are those the specification defines; see SpecLayout.v for
    the conventions.

    The values are those of the crate.  What has no such value is not described here:
    NULL rule sets in contexts of format 1 (C44) and instances without a PostScript
    name (C42).  Structures that contain no link, no flags and nothing that the code
    takes otherwise are those of SpecLayout.v, SpecGsub.v, SpecGpos.v and SpecGdef.v. *)

From Verif Require Export SpecStandard SpecGsub SpecGpos SpecCpal.

(** ** Links and flags *)

(** A link that is not NULL. *)
Definition link_at {A} (elem : N -> A -> Prop) (base offset : N) (v : A) : Prop :=
  offset <> 0 /\ elem (base + offset) v.

Definition links_at {A} (elem : N -> A -> Prop) (base : N) (offsets : list N) (vs : list A) : Prop :=
  Forall2 (fun offset v => link_at elem base offset v) offsets vs.

(** Flags: the reserved bits are zero. *)
Definition reserved_at (reserved : N) (f : file) (p v : N) : Prop :=
  u16_at f p v /\ N.land v reserved = 0.

(** ** What [GSUB] and [GPOS] share *)

(** [SequenceRuleSet]. *)
Definition std_context_records_at (f : file) (p : N) (v : ContextRecords) : Prop :=
  let '(mkContextRecords count offsets records) := v in
  u16_at f p count /\
  u16s_at f (p + 2) count offsets /\
  links_at (context_record_at f) p offsets records.

(** [ClassSequenceRuleSet]. *)
Definition std_context_class_records_at (f : file) (p : N) (v : ContextClassRecords) : Prop :=
  let '(mkContextClassRecords count offsets records) := v in
  u16_at f p count /\
  u16s_at f (p + 2) count offsets /\
  links_at (context_class_record_at f) p offsets records.

(** [ChainedSequenceRuleSet]. *)
Definition std_chained_records_at (f : file) (p : N) (v : ChainedRecords) : Prop :=
  let '(mkChainedRecords count offsets records) := v in
  u16_at f p count /\
  u16s_at f (p + 2) count offsets /\
  links_at (chained_record_at f) p offsets records.

(** [ChainedClassSequenceRuleSet]. *)
Definition std_chained_class_records_at (f : file) (p : N) (v : ChainedClassRecords) : Prop :=
  let '(mkChainedClassRecords count offsets records) := v in
  u16_at f p count /\
  u16s_at f (p + 2) count offsets /\
  links_at (chained_class_record_at f) p offsets records.

(** [SequenceContextFormat1]. *)
Definition std_context1_at (f : file) (p : N) (v : Context1) : Prop :=
  let '(mkContext1 format coverage_offset record_count record_offsets coverage records) := v in
  u16_at f p format /\
  u16_at f (p + 2) coverage_offset /\
  u16_at f (p + 4) record_count /\
  u16s_at f (p + 6) record_count record_offsets /\
  link_at (coverage_at f) p coverage_offset coverage /\
  links_at (std_context_records_at f) p record_offsets records.

(** [SequenceContextFormat2]. *)
Definition std_context2_at (f : file) (p : N) (v : Context2) : Prop :=
  let '(mkContext2 format coverage_offset class_offset record_count record_offsets coverage
    class records) := v in
  u16_at f p format /\
  u16_at f (p + 2) coverage_offset /\
  u16_at f (p + 4) class_offset /\
  u16_at f (p + 6) record_count /\
  u16s_at f (p + 8) record_count record_offsets /\
  link_at (coverage_at f) p coverage_offset coverage /\
  link_at (class_at f) p class_offset class /\
  maybes_at (std_context_class_records_at f) p record_offsets records.

(** [SequenceContextFormat3]. *)
Definition std_context3_at (f : file) (p : N) (v : Context3) : Prop :=
  let '(mkContext3 format glyph_count action_count coverage_offsets actions coverages) := v in
  u16_at f p format /\
  u16_at f (p + 2) glyph_count /\
  u16_at f (p + 4) action_count /\
  u16s_at f (p + 6) glyph_count coverage_offsets /\
  vec_at (action_at f) 4 (p + 6 + 2 * glyph_count) action_count actions /\
  links_at (coverage_at f) p coverage_offsets coverages.

(** [SequenceContext]. *)
Definition std_context_at (f : file) (p : N) (v : Context) : Prop :=
  match v with
  | ContextFormat1 t => context1_format t = 1 /\ std_context1_at f p t
  | ContextFormat2 t => context2_format t = 2 /\ std_context2_at f p t
  | ContextFormat3 t => context3_format t = 3 /\ std_context3_at f p t
  end.

(** [ChainedSequenceContextFormat1]. *)
Definition std_chained_context1_at (f : file) (p : N) (v : ChainedContext1) : Prop :=
  let '(mkChainedContext1 format coverage_offset record_count record_offsets coverage records)
    := v in
  u16_at f p format /\
  u16_at f (p + 2) coverage_offset /\
  u16_at f (p + 4) record_count /\
  u16s_at f (p + 6) record_count record_offsets /\
  link_at (coverage_at f) p coverage_offset coverage /\
  links_at (std_chained_records_at f) p record_offsets records.

(** [ChainedSequenceContextFormat2]. *)
Definition std_chained_context2_at (f : file) (p : N) (v : ChainedContext2) : Prop :=
  let '(mkChainedContext2 format coverage_offset backward_class_offset class_offset
    forward_class_offset record_count record_offsets coverage backward_class class forward_class
    records) := v in
  u16_at f p format /\
  u16_at f (p + 2) coverage_offset /\
  u16_at f (p + 4) backward_class_offset /\
  u16_at f (p + 6) class_offset /\
  u16_at f (p + 8) forward_class_offset /\
  u16_at f (p + 10) record_count /\
  u16s_at f (p + 12) record_count record_offsets /\
  link_at (coverage_at f) p coverage_offset coverage /\
  link_at (class_at f) p backward_class_offset backward_class /\
  link_at (class_at f) p class_offset class /\
  link_at (class_at f) p forward_class_offset forward_class /\
  maybes_at (std_chained_class_records_at f) p record_offsets records.

(** [ChainedSequenceContextFormat3]. *)
Definition std_chained_context3_at (f : file) (p : N) (v : ChainedContext3) : Prop :=
  let '(mkChainedContext3 format backward_glyph_count backward_coverage_offsets glyph_count
    coverage_offsets forward_glyph_count forward_coverage_offsets action_count actions
    backward_coverages coverages forward_coverages) := v in
  u16_at f p format /\
  u16_at f (p + 2) backward_glyph_count /\
  u16s_at f (p + 4) backward_glyph_count backward_coverage_offsets /\
  u16_at f (p + 4 + 2 * backward_glyph_count) glyph_count /\
  u16s_at f (p + 6 + 2 * backward_glyph_count) glyph_count coverage_offsets /\
  u16_at f (p + 6 + 2 * backward_glyph_count + 2 * glyph_count) forward_glyph_count /\
  u16s_at f (p + 8 + 2 * backward_glyph_count + 2 * glyph_count)
    forward_glyph_count forward_coverage_offsets /\
  u16_at f (p + 8 + 2 * backward_glyph_count + 2 * glyph_count + 2 * forward_glyph_count)
    action_count /\
  vec_at (action_at f) 4 (p + 10 + 2 * backward_glyph_count + 2 * glyph_count + 2 * forward_glyph_count)
    action_count actions /\
  links_at (coverage_at f) p backward_coverage_offsets backward_coverages /\
  links_at (coverage_at f) p coverage_offsets coverages /\
  links_at (coverage_at f) p forward_coverage_offsets forward_coverages.

(** [ChainedSequenceContext]. *)
Definition std_chained_context_at (f : file) (p : N) (v : ChainedContext) : Prop :=
  match v with
  | ChainedContextFormat1 t => chained_context1_format t = 1 /\ std_chained_context1_at f p t
  | ChainedContextFormat2 t => chained_context2_format t = 2 /\ std_chained_context2_at f p t
  | ChainedContextFormat3 t => chained_context3_format t = 3 /\ std_chained_context3_at f p t
  end.

(** [Script]. *)
Definition std_script_record_at (f : file) (p : N) (v : ScriptRecord) : Prop :=
  let '(mkScriptRecord default_language_offset language_count language_headers default_language
    language_records) := v in
  u16_at f p default_language_offset /\
  u16_at f (p + 2) language_count /\
  vec_at (language_header_at f) 6 (p + 4) language_count language_headers /\
  maybe_at (language_record_at f) p default_language_offset default_language /\
  links_at (language_record_at f) p (map language_header_offset language_headers)
    language_records.

(** [ScriptList]. *)
Definition std_scripts_at (f : file) (p : N) (v : Scripts) : Prop :=
  let '(mkScripts count headers records) := v in
  u16_at f p count /\
  vec_at (script_header_at f) 6 (p + 2) count headers /\
  links_at (std_script_record_at f) p (map script_header_offset headers) records.

(** [Feature]; the parameters are the bytes at their offset. *)
Definition std_feature_record_at (f : file) (p : N) (v : FeatureRecord) : Prop :=
  let '(mkFeatureRecord parameter_offset lookup_index_count lookup_indices _) := v in
  u16_at f p parameter_offset /\
  u16_at f (p + 2) lookup_index_count /\
  u16s_at f (p + 4) lookup_index_count lookup_indices /\
  parameters_at f p v.

(** [FeatureList]. *)
Definition std_features_at (f : file) (p : N) (v : Features) : Prop :=
  let '(mkFeatures count headers records) := v in
  u16_at f p count /\
  vec_at (feature_header_at f) 6 (p + 2) count headers /\
  links_at (std_feature_record_at f) p (map feature_header_offset headers) records.

(** [Lookup]. *)
Definition std_lookup_record_at {T} (table_at : N -> file -> N -> T -> Prop)
    (f : file) (p : N) (v : LookupRecord T) : Prop :=
  let '(mkLookupRecord type_ flags table_count table_offsets mark_filtering_set tables) := v in
  u16_at f p type_ /\
  reserved_at 0x00E0 f (p + 2) flags /\
  u16_at f (p + 4) table_count /\
  u16s_at f (p + 6) table_count table_offsets /\
  match mark_filtering_set with
  | None => N.testbit flags 4 = false
  | Some set => N.testbit flags 4 = true /\ u16_at f (p + 6 + 2 * table_count) set
  end /\
  links_at (table_at type_ f) p table_offsets tables.

(** [LookupList]. *)
Definition std_lookups_at {T} (table_at : N -> file -> N -> T -> Prop)
    (f : file) (p : N) (v : Lookups T) : Prop :=
  let '(mkLookups count offsets records) := v in
  u16_at f p count /\
  u16s_at f (p + 2) count offsets /\
  links_at (std_lookup_record_at table_at f) p offsets records.

(** The header of [GSUB] and [GPOS] and what it links to. *)
Definition std_directory_at {T} (table_at : N -> file -> N -> T -> Prop)
    (f : file) (p : N) (v : Directory T) : Prop :=
  let '(mkDirectory major_version minor_version script_offset feature_offset lookup_offset
    variation_offset scripts features lookups variations) := v in
  u16_at f p major_version /\ major_version = 1 /\
  u16_at f (p + 2) minor_version /\ (minor_version = 0 \/ minor_version = 1) /\
  u16_at f (p + 4) script_offset /\
  u16_at f (p + 6) feature_offset /\
  u16_at f (p + 8) lookup_offset /\
  (minor_version = 0 -> variation_offset = 0) /\
  (minor_version = 1 -> u32_at f (p + 10) variation_offset) /\
  link_at (std_scripts_at f) p script_offset scripts /\
  link_at (std_features_at f) p feature_offset features /\
  link_at (std_lookups_at table_at f) p lookup_offset lookups /\
  maybe_at (feature_variations_at f) p variation_offset variations.

(** ** [GSUB] *)

(** [LigatureSet]. *)
Definition std_ligatures_at (f : file) (p : N) (v : Ligatures) : Prop :=
  let '(mkLigatures count offsets records) := v in
  u16_at f p count /\
  u16s_at f (p + 2) count offsets /\
  links_at (ligature_at f) p offsets records.

(** [SingleSubstFormat1]. *)
Definition std_single_substitution1_at (f : file) (p : N) (v : SingleSubstitution1) : Prop :=
  let '(mkSingleSubstitution1 format coverage_offset delta_glyph_id coverage) := v in
  u16_at f p format /\
  u16_at f (p + 2) coverage_offset /\
  i16_at f (p + 4) delta_glyph_id /\
  link_at (coverage_at f) p coverage_offset coverage.

(** [SingleSubstFormat2]. *)
Definition std_single_substitution2_at (f : file) (p : N) (v : SingleSubstitution2) : Prop :=
  let '(mkSingleSubstitution2 format coverage_offset glyph_count glyph_ids coverage) := v in
  u16_at f p format /\
  u16_at f (p + 2) coverage_offset /\
  u16_at f (p + 4) glyph_count /\
  u16s_at f (p + 6) glyph_count glyph_ids /\
  link_at (coverage_at f) p coverage_offset coverage.

(** [SingleSubst]. *)
Definition std_single_substitution_at (f : file) (p : N) (v : SingleSubstitution) : Prop :=
  match v with
  | SingleSubstitutionFormat1 t =>
      single_substitution1_format t = 1 /\ std_single_substitution1_at f p t
  | SingleSubstitutionFormat2 t =>
      single_substitution2_format t = 2 /\ std_single_substitution2_at f p t
  end.

(** [MultipleSubstFormat1]. *)
Definition std_multiple_substitution_at (f : file) (p : N) (v : MultipleSubstitution) : Prop :=
  let '(mkMultipleSubstitution format coverage_offset record_count record_offsets coverage
    records) := v in
  u16_at f p format /\ format = 1 /\
  u16_at f (p + 2) coverage_offset /\
  u16_at f (p + 4) record_count /\
  u16s_at f (p + 6) record_count record_offsets /\
  link_at (coverage_at f) p coverage_offset coverage /\
  links_at (sequence_at f) p record_offsets records.

(** [AlternateSubstFormat1]. *)
Definition std_alternate_substitution_at (f : file) (p : N) (v : AlternateSubstitution) : Prop :=
  let '(mkAlternateSubstitution format coverage_offset record_count record_offsets coverage
    records) := v in
  u16_at f p format /\ format = 1 /\
  u16_at f (p + 2) coverage_offset /\
  u16_at f (p + 4) record_count /\
  u16s_at f (p + 6) record_count record_offsets /\
  link_at (coverage_at f) p coverage_offset coverage /\
  links_at (alternates_at f) p record_offsets records.

(** [LigatureSubstFormat1]. *)
Definition std_ligature_substitution_at (f : file) (p : N) (v : LigatureSubstitution) : Prop :=
  let '(mkLigatureSubstitution format coverage_offset record_count record_offsets coverage
    records) := v in
  u16_at f p format /\ format = 1 /\
  u16_at f (p + 2) coverage_offset /\
  u16_at f (p + 4) record_count /\
  u16s_at f (p + 6) record_count record_offsets /\
  link_at (coverage_at f) p coverage_offset coverage /\
  links_at (std_ligatures_at f) p record_offsets records.

(** [ReverseChainSingleSubstFormat1]. *)
Definition std_reverse_chained_contextual_substibution_at (f : file) (p : N)
    (v : ReverseChainedContextualSubstibution) : Prop :=
  let '(mkReverseChainedContextualSubstibution format coverage_offset backward_glyph_count
    backward_coverage_offsets forward_glyph_count forward_coverage_offsets glyph_count glyph_ids
    coverage backward_coverages forward_coverages) := v in
  u16_at f p format /\ format = 1 /\
  u16_at f (p + 2) coverage_offset /\
  u16_at f (p + 4) backward_glyph_count /\
  u16s_at f (p + 6) backward_glyph_count backward_coverage_offsets /\
  u16_at f (p + 6 + 2 * backward_glyph_count) forward_glyph_count /\
  u16s_at f (p + 8 + 2 * backward_glyph_count) forward_glyph_count forward_coverage_offsets /\
  u16_at f (p + 8 + 2 * backward_glyph_count + 2 * forward_glyph_count) glyph_count /\
  u16s_at f (p + 10 + 2 * backward_glyph_count + 2 * forward_glyph_count)
    glyph_count glyph_ids /\
  link_at (coverage_at f) p coverage_offset coverage /\
  links_at (coverage_at f) p backward_coverage_offsets backward_coverages /\
  links_at (coverage_at f) p forward_coverage_offsets forward_coverages.

(** A subtable of [GSUB]: the variant is the one the lookup type names. *)
Definition std_gsub_type_at (type_ : N) (f : file) (p : N) (v : GsubType) : Prop :=
  match v with
  | GsubSingleSubstitution t => type_ = 1 /\ std_single_substitution_at f p t
  | GsubMultipleSubstitution t => type_ = 2 /\ std_multiple_substitution_at f p t
  | GsubAlternateSubstitution t => type_ = 3 /\ std_alternate_substitution_at f p t
  | GsubLigatureSubstitution t => type_ = 4 /\ std_ligature_substitution_at f p t
  | GsubContextualSubstitution t => type_ = 5 /\ std_context_at f p t
  | GsubChainedContextualSubstitution t => type_ = 6 /\ std_chained_context_at f p t
  | GsubExtensionSubstitution t => type_ = 7 /\ extension_substitution_at f p t
  | GsubReverseChainedContextualSubstibution t =>
      type_ = 8 /\ std_reverse_chained_contextual_substibution_at f p t
  end.

(** [GSUB]. *)
Definition std_glyph_substitution_at : file -> N -> GlyphSubstitution -> Prop :=
  std_directory_at std_gsub_type_at.

(** ** [GPOS] *)

(** [Device] or [VariationIndex]. *)
Definition std_correction_at (f : file) (p : N) (v : Correction) : Prop :=
  match v with
  | CorrectionDevice t => standard_device_at f p t
  | CorrectionVariation t => variation_format t = 0x8000 /\ variation_at f p t
  end.

(** [AnchorFormat3]. *)
Definition std_anchor3_at (f : file) (p : N) (v : Anchor3) : Prop :=
  let '(mkAnchor3 format x y x_correction_offset y_correction_offset x_correction y_correction)
    := v in
  u16_at f p format /\
  i16_at f (p + 2) x /\
  i16_at f (p + 4) y /\
  u16_at f (p + 6) x_correction_offset /\
  u16_at f (p + 8) y_correction_offset /\
  maybe_at (std_correction_at f) p x_correction_offset x_correction /\
  maybe_at (std_correction_at f) p y_correction_offset y_correction.

(** [Anchor]. *)
Definition std_anchor_at (f : file) (p : N) (v : Anchor) : Prop :=
  match v with
  | AnchorFormat1 t => anchor1_format t = 1 /\ anchor1_at f p t
  | AnchorFormat2 t => anchor2_format t = 2 /\ anchor2_at f p t
  | AnchorFormat3 t => anchor3_format t = 3 /\ std_anchor3_at f p t
  end.

(** [BaseRecord]: one nullable anchor per mark class, its offset counted from [base]. *)
Definition std_base_at (f : file) (base mark_class_count : N) (p : N) (v : Base) : Prop :=
  let '(mkBase anchor_offsets anchors) := v in
  u16s_at f p mark_class_count anchor_offsets /\
  maybes_at (std_anchor_at f) base anchor_offsets anchors.

(** [BaseArray]. *)
Definition std_bases_at (f : file) (mark_class_count : N) (p : N) (v : Bases) : Prop :=
  let '(mkBases count records) := v in
  u16_at f p count /\
  vec_at (std_base_at f p mark_class_count) (2 * mark_class_count) (p + 2) count records.

(** [ComponentRecord]: one nullable anchor per mark class, its offset counted from [base]. *)
Definition std_component_at (f : file) (base mark_class_count : N) (p : N) (v : Component) : Prop :=
  let '(mkComponent anchor_offsets anchors) := v in
  u16s_at f p mark_class_count anchor_offsets /\
  maybes_at (std_anchor_at f) base anchor_offsets anchors.

(** [LigatureAttach]. *)
Definition std_gpos_ligature_at (f : file) (mark_class_count : N) (p : N) (v : GposLigature) : Prop :=
  let '(mkGposLigature count components) := v in
  u16_at f p count /\
  vec_at (std_component_at f p mark_class_count) (2 * mark_class_count) (p + 2) count components.

(** [LigatureArray]. *)
Definition std_gpos_ligatures_at (f : file) (mark_class_count : N) (p : N) (v : GposLigatures) : Prop :=
  let '(mkGposLigatures count offsets records) := v in
  u16_at f p count /\
  u16s_at f (p + 2) count offsets /\
  links_at (std_gpos_ligature_at f mark_class_count) p offsets records.

(** [Mark2Record]: one nullable anchor per mark class, its offset counted from [base]. *)
Definition std_mark2_at (f : file) (base mark_class_count : N) (p : N) (v : Mark2) : Prop :=
  let '(mkMark2 anchor_offsets anchors) := v in
  u16s_at f p mark_class_count anchor_offsets /\
  maybes_at (std_anchor_at f) base anchor_offsets anchors.

(** [Mark2Array]. *)
Definition std_mark2s_at (f : file) (mark_class_count : N) (p : N) (v : Mark2s) : Prop :=
  let '(mkMark2s count records) := v in
  u16_at f p count /\
  vec_at (std_mark2_at f p mark_class_count) (2 * mark_class_count) (p + 2) count records.

(** [MarkRecord], its offset counted from [base]. *)
Definition std_mark1_at (f : file) (base : N) (p : N) (v : Mark1) : Prop :=
  let '(mkMark1 class_id anchor_offset anchor) := v in
  u16_at f p class_id /\
  u16_at f (p + 2) anchor_offset /\
  link_at (std_anchor_at f) base anchor_offset anchor.

(** [MarkArray]. *)
Definition std_mark1s_at (f : file) (p : N) (v : Mark1s) : Prop :=
  let '(mkMark1s count records) := v in
  u16_at f p count /\
  vec_at (std_mark1_at f p) 4 (p + 2) count records.

(** [EntryExitRecord], its offsets counted from [base]. *)
Definition std_connection_at (f : file) (base : N) (p : N) (v : Connection) : Prop :=
  let '(mkConnection start_anchor_offset end_anchor_offset start_anchor end_anchor) := v in
  u16_at f p start_anchor_offset /\
  u16_at f (p + 2) end_anchor_offset /\
  maybe_at (std_anchor_at f) base start_anchor_offset start_anchor /\
  maybe_at (std_anchor_at f) base end_anchor_offset end_anchor.

(** A correction whose offset field may be absent. *)
Definition std_corrected_at (f : file) (base : N) (offset : option N) (v : option Correction) : Prop :=
  match offset with
  | None => v = None
  | Some offset => maybe_at (std_correction_at f) base offset v
  end.

(** [ValueRecord] with format [flags]; the offsets count from [base]. *)
Definition std_single_at (f : file) (base flags : N) (p : N) (v : Single) : Prop :=
  let '(mkSingle x_placement y_placement x_advance y_advance
    x_placement_correction_offset y_placement_correction_offset
    x_advance_correction_offset y_advance_correction_offset
    x_placement_correction y_placement_correction
    x_advance_correction y_advance_correction) := v in
  field_at (i16_at f) flags 0 p x_placement /\
  field_at (i16_at f) flags 1 p y_placement /\
  field_at (i16_at f) flags 2 p x_advance /\
  field_at (i16_at f) flags 3 p y_advance /\
  field_at (u16_at f) flags 4 p x_placement_correction_offset /\
  field_at (u16_at f) flags 5 p y_placement_correction_offset /\
  field_at (u16_at f) flags 6 p x_advance_correction_offset /\
  field_at (u16_at f) flags 7 p y_advance_correction_offset /\
  std_corrected_at f base x_placement_correction_offset x_placement_correction /\
  std_corrected_at f base y_placement_correction_offset y_placement_correction /\
  std_corrected_at f base x_advance_correction_offset x_advance_correction /\
  std_corrected_at f base y_advance_correction_offset y_advance_correction.

(** A value record of a pair: absent when its format is zero. *)
Definition std_value_at (f : file) (base flags : N) (p : N) (v : option Single) : Prop :=
  match v with
  | None => flags = 0
  | Some x => flags <> 0 /\ std_single_at f base flags p x
  end.

(** [PairValueRecord]. *)
Definition std_pair1_at (f : file) (base flags1 flags2 : N) (p : N) (v : Pair1) : Prop :=
  let '(mkPair1 glyph2_id value1 value2) := v in
  u16_at f p glyph2_id /\
  std_value_at f base flags1 (p + 2) value1 /\
  std_value_at f base flags2 (p + 2 + value_size flags1) value2.

(** [PairSet]: the offsets of its value records count from the set. *)
Definition std_pair1s_at (f : file) (flags1 flags2 : N) (p : N) (v : Pair1s) : Prop :=
  let '(mkPair1s count records) := v in
  u16_at f p count /\
  vec_at (std_pair1_at f p flags1 flags2) (2 + value_size flags1 + value_size flags2) (p + 2)
    count records.

(** [Class2Record]. *)
Definition std_pair2_at (f : file) (base flags1 flags2 : N) (p : N) (v : Pair2) : Prop :=
  let '(mkPair2 value1 value2) := v in
  std_value_at f base flags1 p value1 /\
  std_value_at f base flags2 (p + value_size flags1) value2.

(** [Class1Record]. *)
Definition std_pair2s_at (f : file) (base count2 flags1 flags2 : N) (p : N) (v : Pair2s) : Prop :=
  let '(mkPair2s records) := v in
  vec_at (std_pair2_at f base flags1 flags2) (value_size flags1 + value_size flags2) p count2 records.

(** [SinglePosFormat1]. *)
Definition std_single_adjustment1_at (f : file) (p : N) (v : SingleAdjustment1) : Prop :=
  let '(mkSingleAdjustment1 format coverage_offset value_flags value coverage) := v in
  u16_at f p format /\
  u16_at f (p + 2) coverage_offset /\
  reserved_at 0xFF00 f (p + 4) value_flags /\
  std_single_at f p value_flags (p + 6) value /\
  link_at (coverage_at f) p coverage_offset coverage.

(** [SinglePosFormat2]. *)
Definition std_single_adjustment2_at (f : file) (p : N) (v : SingleAdjustment2) : Prop :=
  let '(mkSingleAdjustment2 format coverage_offset value_flags value_count values coverage)
    := v in
  u16_at f p format /\
  u16_at f (p + 2) coverage_offset /\
  reserved_at 0xFF00 f (p + 4) value_flags /\
  u16_at f (p + 6) value_count /\
  vec_at (std_single_at f p value_flags) (value_size value_flags) (p + 8) value_count values /\
  link_at (coverage_at f) p coverage_offset coverage.

(** [SinglePos]. *)
Definition std_single_adjustment_at (f : file) (p : N) (v : SingleAdjustment) : Prop :=
  match v with
  | SingleAdjustmentFormat1 t => single_adjustment1_format t = 1 /\ std_single_adjustment1_at f p t
  | SingleAdjustmentFormat2 t => single_adjustment2_format t = 2 /\ std_single_adjustment2_at f p t
  end.

(** [PairPosFormat1]. *)
Definition std_pair_adjustment1_at (f : file) (p : N) (v : PairAdjustment1) : Prop :=
  let '(mkPairAdjustment1 format coverage_offset value1_flags value2_flags record_count
    record_offsets coverage records) := v in
  u16_at f p format /\
  u16_at f (p + 2) coverage_offset /\
  reserved_at 0xFF00 f (p + 4) value1_flags /\
  reserved_at 0xFF00 f (p + 6) value2_flags /\
  u16_at f (p + 8) record_count /\
  u16s_at f (p + 10) record_count record_offsets /\
  link_at (coverage_at f) p coverage_offset coverage /\
  links_at (std_pair1s_at f value1_flags value2_flags) p record_offsets records.

(** [PairPosFormat2]. *)
Definition std_pair_adjustment2_at (f : file) (p : N) (v : PairAdjustment2) : Prop :=
  let '(mkPairAdjustment2 format coverage_offset value1_flags value2_flags class1_offset
    class2_offset class1_count class2_count records coverage class1 class2) := v in
  u16_at f p format /\
  u16_at f (p + 2) coverage_offset /\
  reserved_at 0xFF00 f (p + 4) value1_flags /\
  reserved_at 0xFF00 f (p + 6) value2_flags /\
  u16_at f (p + 8) class1_offset /\
  u16_at f (p + 10) class2_offset /\
  u16_at f (p + 12) class1_count /\
  u16_at f (p + 14) class2_count /\
  vec_at (std_pair2s_at f p class2_count value1_flags value2_flags)
    ((value_size value1_flags + value_size value2_flags) * class2_count)
    (p + 16) class1_count records /\
  link_at (coverage_at f) p coverage_offset coverage /\
  link_at (class_at f) p class1_offset class1 /\
  link_at (class_at f) p class2_offset class2.

(** [PairPos]. *)
Definition std_pair_adjustment_at (f : file) (p : N) (v : PairAdjustment) : Prop :=
  match v with
  | PairAdjustmentFormat1 t => pair_adjustment1_format t = 1 /\ std_pair_adjustment1_at f p t
  | PairAdjustmentFormat2 t => pair_adjustment2_format t = 2 /\ std_pair_adjustment2_at f p t
  end.

(** [CursivePosFormat1]. *)
Definition std_cursive_attachment_at (f : file) (p : N) (v : CursiveAttachment) : Prop :=
  let '(mkCursiveAttachment format coverage_offset connection_count connections coverage) :=
    v in
  u16_at f p format /\ format = 1 /\
  u16_at f (p + 2) coverage_offset /\
  u16_at f (p + 4) connection_count /\
  vec_at (std_connection_at f p) 4 (p + 6) connection_count connections /\
  link_at (coverage_at f) p coverage_offset coverage.

(** [MarkBasePosFormat1]. *)
Definition std_mark_to_base_attachment_at (f : file) (p : N)
    (v : MarkToBaseAttachment) : Prop :=
  let '(mkMarkToBaseAttachment format mark_coverage_offset base_coverage_offset
    mark_class_count
    marks_offset bases_offset mark_coverage base_coverage marks bases) := v in
  u16_at f p format /\ format = 1 /\
  u16_at f (p + 2) mark_coverage_offset /\
  u16_at f (p + 4) base_coverage_offset /\
  u16_at f (p + 6) mark_class_count /\
  u16_at f (p + 8) marks_offset /\
  u16_at f (p + 10) bases_offset /\
  link_at (coverage_at f) p mark_coverage_offset mark_coverage /\
  link_at (coverage_at f) p base_coverage_offset base_coverage /\
  link_at (std_mark1s_at f) p marks_offset marks /\
  link_at (std_bases_at f mark_class_count) p bases_offset bases.

(** [MarkLigPosFormat1]. *)
Definition std_mark_to_ligature_attachment_at (f : file) (p : N)
    (v : MarkToLigatureAttachment) : Prop :=
  let '(mkMarkToLigatureAttachment format mark_coverage_offset ligature_coverage_offset
    mark_class_count
    marks_offset ligatures_offset mark_coverage ligature_coverage marks ligatures) := v in
  u16_at f p format /\ format = 1 /\
  u16_at f (p + 2) mark_coverage_offset /\
  u16_at f (p + 4) ligature_coverage_offset /\
  u16_at f (p + 6) mark_class_count /\
  u16_at f (p + 8) marks_offset /\
  u16_at f (p + 10) ligatures_offset /\
  link_at (coverage_at f) p mark_coverage_offset mark_coverage /\
  link_at (coverage_at f) p ligature_coverage_offset ligature_coverage /\
  link_at (std_mark1s_at f) p marks_offset marks /\
  link_at (std_gpos_ligatures_at f mark_class_count) p ligatures_offset ligatures.

(** [MarkMarkPosFormat1]. *)
Definition std_mark_to_mark_attachment_at (f : file) (p : N)
    (v : MarkToMarkAttachment) : Prop :=
  let '(mkMarkToMarkAttachment format mark1_coverage_offset mark2_coverage_offset
    mark_class_count
    mark1s_offset mark2s_offset mark1_coverage mark2_coverage mark1s mark2s) := v in
  u16_at f p format /\ format = 1 /\
  u16_at f (p + 2) mark1_coverage_offset /\
  u16_at f (p + 4) mark2_coverage_offset /\
  u16_at f (p + 6) mark_class_count /\
  u16_at f (p + 8) mark1s_offset /\
  u16_at f (p + 10) mark2s_offset /\
  link_at (coverage_at f) p mark1_coverage_offset mark1_coverage /\
  link_at (coverage_at f) p mark2_coverage_offset mark2_coverage /\
  link_at (std_mark1s_at f) p mark1s_offset mark1s /\
  link_at (std_mark2s_at f mark_class_count) p mark2s_offset mark2s.

(** A subtable of [GPOS]: the variant is the one the lookup type names. *)
Definition std_gpos_type_at (type_ : N) (f : file) (p : N) (v : GposType) : Prop :=
  match v with
  | GposSingleAdjustment t => type_ = 1 /\ std_single_adjustment_at f p t
  | GposPairAdjustment t => type_ = 2 /\ std_pair_adjustment_at f p t
  | GposCursiveAttachment t => type_ = 3 /\ std_cursive_attachment_at f p t
  | GposMarkToBaseAttachment t => type_ = 4 /\ std_mark_to_base_attachment_at f p t
  | GposMarkToLigatureAttachment t => type_ = 5 /\ std_mark_to_ligature_attachment_at f p t
  | GposMarkToMarkAttachment t => type_ = 6 /\ std_mark_to_mark_attachment_at f p t
  | GposContextualPositioning t => type_ = 7 /\ std_context_at f p t
  | GposChainedContextualPositioning t => type_ = 8 /\ std_chained_context_at f p t
  | GposExtensionPositioning t => type_ = 9 /\ extension_positioning_at f p t
  end.

(** [GPOS]. *)
Definition std_glyph_positioning_at : file -> N -> GlyphPositioning -> Prop :=
  std_directory_at std_gpos_type_at.

(** ** [GDEF] *)

(** [CaretValue]. *)
Definition std_caret_at (f : file) (p : N) (v : Caret) : Prop :=
  match v with
  | CaretFormat1 (mkCaret1 format coordinate) =>
      u16_at f p format /\ format = 1 /\ i16_at f (p + 2) coordinate
  | CaretFormat2 (mkCaret2 format index) =>
      u16_at f p format /\ format = 2 /\ u16_at f (p + 2) index
  | CaretFormat3 (mkCaret3 format coordinate correction_offset correction) =>
      u16_at f p format /\ format = 3 /\ i16_at f (p + 2) coordinate /\
      u16_at f (p + 4) correction_offset /\
      link_at (std_correction_at f) p correction_offset correction
  end.

(** [AttachList]. *)
Definition std_attachments_at (f : file) (p : N) (v : Attachments) : Prop :=
  let '(mkAttachments coverage_offset count offsets coverage records) := v in
  u16_at f p coverage_offset /\
  u16_at f (p + 2) count /\
  u16s_at f (p + 4) count offsets /\
  link_at (coverage_at f) p coverage_offset coverage /\
  links_at (attachment_at f) p offsets records.

(** [LigGlyph]. *)
Definition std_gdef_ligature_at (f : file) (p : N) (v : GdefLigature) : Prop :=
  let '(mkGdefLigature caret_count caret_offsets carets) := v in
  u16_at f p caret_count /\
  u16s_at f (p + 2) caret_count caret_offsets /\
  links_at (std_caret_at f) p caret_offsets carets.

(** [LigCaretList]. *)
Definition std_gdef_ligatures_at (f : file) (p : N) (v : GdefLigatures) : Prop :=
  let '(mkGdefLigatures coverage_offset count offsets coverage records) := v in
  u16_at f p coverage_offset /\
  u16_at f (p + 2) count /\
  u16s_at f (p + 4) count offsets /\
  link_at (coverage_at f) p coverage_offset coverage /\
  links_at (std_gdef_ligature_at f) p offsets records.

(** [MarkGlyphSets]. *)
Definition std_marks_at (f : file) (p : N) (v : Marks) : Prop :=
  let '(mkMarks format count coverage_offsets coverages) := v in
  u16_at f p format /\ format = 1 /\
  u16_at f (p + 2) count /\
  u32s_at f (p + 4) count coverage_offsets /\
  links_at (coverage_at f) p coverage_offsets coverages.

(** [ItemVariationData]. *)
Definition std_store_record_at (f : file) (p : N) (v : StoreRecord) : Prop :=
  let '(mkStoreRecord item_count word_delta_count region_count region_indices deltas) := v in
  u16_at f p item_count /\
  u16_at f (p + 2) word_delta_count /\
  u16_at f (p + 4) region_count /\
  u16s_at f (p + 6) region_count region_indices /\
  word_count word_delta_count <= region_count /\
  u8s_at f (p + 6 + 2 * region_count)
    (item_count * row_size word_delta_count region_count) deltas.

(** [ItemVariationStore]. *)
Definition std_store_at (f : file) (p : N) (v : Store) : Prop :=
  let '(mkStore format region_offset count offsets records) := v in
  u16_at f p format /\ format = 1 /\
  u32_at f (p + 2) region_offset /\
  u16_at f (p + 6) count /\
  u32s_at f (p + 8) count offsets /\
  links_at (std_store_record_at f) p offsets records.

(** [GDEF]. *)
Definition std_glyph_definition_at (f : file) (p : N) (v : GlyphDefinition) : Prop :=
  let '(mkGlyphDefinition header glyph_class attachments ligatures mark_class marks
    variations) := v in
  let '(glyph_class_offset, attachment_offset, ligature_offset, mark_class_offset, mark_offset,
    variation_offset) := gdef_offsets header in
  gdef_header_at f p header /\
  maybe_at (class_at f) p glyph_class_offset glyph_class /\
  maybe_at (std_attachments_at f) p attachment_offset attachments /\
  maybe_at (std_gdef_ligatures_at f) p ligature_offset ligatures /\
  maybe_at (class_at f) p mark_class_offset mark_class /\
  maybe_at (std_marks_at f) p mark_offset marks /\
  maybe_at (std_store_at f) p variation_offset variations.

(** ** [fvar] *)

(** [VariationAxisRecord]. *)
Definition std_axis_record_at (f : file) (p : N) (v : AxisRecord) : Prop :=
  let '(mkAxisRecord tag min_value default_value max_value flags name_id) := v in
  tag_at f p tag /\
  i32_at f (p + 4) min_value /\
  i32_at f (p + 8) default_value /\
  i32_at f (p + 12) max_value /\
  reserved_at 0xFFFE f (p + 16) flags /\
  u16_at f (p + 18) name_id.

(** [InstanceRecord] with a PostScript name. *)
Definition std_instance_record_at (f : file) (axis_count p : N) (v : InstanceRecord) : Prop :=
  let '(mkInstanceRecord subfamily_name_id flags coordinates postscript_name_id) := v in
  u16_at f p subfamily_name_id /\
  reserved_at 0xFFFF f (p + 2) flags /\
  i32s_at f (p + 4) axis_count coordinates /\
  u16_at f (p + 4 + 4 * axis_count) postscript_name_id.

(** [fvar]: the instances follow the axes; they have a PostScript name unless their size
    leaves no room for it. *)
Definition std_font_variations_at (f : file) (p : N) (v : FontVariations) : Prop :=
  let '(mkFontVariations header axis_records instance_records) := v in
  let '(mkFvarHeader major_version minor_version axis_offset _ axis_count axis_size
    instance_count instance_size) := header in
  fvar_header_at f p header /\
  (major_version = 1 /\ minor_version = 0 /\ axis_offset <> 0 /\ axis_size = 20 /\
   (instance_size = 4 * axis_count + 6 \/
    instance_size = 4 * axis_count + 4 /\ instance_count = 0)) /\
  vec_at (std_axis_record_at f) 20 (p + axis_offset) axis_count axis_records /\
  vec_at (std_instance_record_at f axis_count) (4 * axis_count + 6)
    (p + axis_offset + 20 * axis_count) instance_count instance_records.

(** ** [CPAL] *)

Definition std_color_palettes_at (f : file) (p : N) (v : ColorPalettes) : Prop :=
  let '(mkColorPalettes header colors) := v in
  let '(_, color_count, color_offset, _) := cpal_layout header in
  cpal_header_at f p header /\
  link_at (fun q => vec_at (color_at f) 4 q color_count) p color_offset colors.
