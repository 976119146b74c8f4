(** The value types of the crate: one record per Rust struct, one inductive per
    Rust enum, in dependency order, with the source of each.

    Integers: [u8], [u16], [u32], [GlyphID] and flag sets are [N]; [i16] and
    [q32] (the raw [i32] of a 16.16 fixed-point number) are [Z].  [NameID] is
    kept as the 16-bit number it is read from (simplification: the Rust enum
    gives names to some of the numbers). *)

From Verif Require Export Bytes.

(** [Coverage1], src/layout/coverage.rs:16-26. *)
Record Coverage1 := mkCoverage1 {
  coverage1_format : N;
  coverage1_glyph_count : N;
  coverage1_glyph_ids : list N }.

(** [Record], src/layout/coverage.rs:40-48. *)
Record CoverageRecord := mkCoverageRecord {
  coverage_record_start_glyph_id : N;
  coverage_record_end_glyph_id : N;
  coverage_record_index : N }.

(** [Coverage2], src/layout/coverage.rs:28-38. *)
Record Coverage2 := mkCoverage2 {
  coverage2_format : N;
  coverage2_record_count : N;
  coverage2_records : list CoverageRecord }.

(** [Class1], src/layout/class.rs:16-27. *)
Record Class1 := mkClass1 {
  class1_format : N;
  class1_start_glyph_id : N;
  class1_glyph_count : N;
  class1_indices : list N }.

(** [Record], src/layout/class.rs:41-49. *)
Record ClassRecord := mkClassRecord {
  class_record_start_glyph_id : N;
  class_record_end_glyph_id : N;
  class_record_index : N }.

(** [Class2], src/layout/class.rs:29-39. *)
Record Class2 := mkClass2 {
  class2_format : N;
  class2_record_count : N;
  class2_records : list ClassRecord }.

(** [Device], src/layout/correction.rs:14-23. *)
Record Device := mkDevice {
  device_start_size : N;
  device_end_size : N;
  device_format : N;
  device_deltas : list N }.

(** [Variation], src/layout/correction.rs:25-32. *)
Record Variation := mkVariation {
  variation_outer_index : N;
  variation_inner_index : N;
  variation_format : N }.

(** [Coverage], src/layout/coverage.rs:7-14. *)
Inductive Coverage :=
| CoverageFormat1 (value : Coverage1)
| CoverageFormat2 (value : Coverage2).

(** [Action], src/layout/context.rs:369-376. *)
Record Action := mkAction {
  action_position_index : N;
  action_lookup_index : N }.

(** [Record], src/layout/context.rs:203-220. *)
Record ContextRecord := mkContextRecord {
  context_record_glyph_count : N;
  context_record_action_count : N;
  context_record_glyph_ids : list N;
  context_record_actions : list Action }.

(** [Records], src/layout/context.rs:222-236. *)
Record ContextRecords := mkContextRecords {
  context_records_count : N;
  context_records_offsets : list N;
  context_records_records : list ContextRecord }.

(** [Context1], src/layout/context.rs:19-39. *)
Record Context1 := mkContext1 {
  context1_format : N;
  context1_coverage_offset : N;
  context1_record_count : N;
  context1_record_offsets : list N;
  context1_coverage : Coverage;
  context1_records : list ContextRecords }.

(** [Class], src/layout/class.rs:7-14. *)
Inductive Class :=
| ClassFormat1 (value : Class1)
| ClassFormat2 (value : Class2).

(** [ClassRecord], src/layout/context.rs:238-255. *)
Record ContextClassRecord := mkContextClassRecord {
  context_class_record_glyph_count : N;
  context_class_record_action_count : N;
  context_class_record_indices : list N;
  context_class_record_actions : list Action }.

(** [ClassRecords], src/layout/context.rs:257-271. *)
Record ContextClassRecords := mkContextClassRecords {
  context_class_records_count : N;
  context_class_records_offsets : list N;
  context_class_records_records : list ContextClassRecord }.

(** [Context2], src/layout/context.rs:41-66. *)
Record Context2 := mkContext2 {
  context2_format : N;
  context2_coverage_offset : N;
  context2_class_offset : N;
  context2_record_count : N;
  context2_record_offsets : list N;
  context2_coverage : Coverage;
  context2_class : Class;
  context2_records : list (option ContextClassRecords) }.

(** [Context3], src/layout/context.rs:68-88. *)
Record Context3 := mkContext3 {
  context3_format : N;
  context3_glyph_count : N;
  context3_action_count : N;
  context3_coverage_offsets : list N;
  context3_actions : list Action;
  context3_coverages : list Coverage }.

(** [ChainedRecord], src/layout/context.rs:273-303. *)
Record ChainedRecord := mkChainedRecord {
  chained_record_backward_glyph_count : N;
  chained_record_backward_glyph_ids : list N;
  chained_record_glyph_count : N;
  chained_record_glyph_ids : list N;
  chained_record_forward_glyph_count : N;
  chained_record_forward_glyph_ids : list N;
  chained_record_action_count : N;
  chained_record_actions : list Action }.

(** [ChainedRecords], src/layout/context.rs:305-319. *)
Record ChainedRecords := mkChainedRecords {
  chained_records_count : N;
  chained_records_offsets : list N;
  chained_records_records : list ChainedRecord }.

(** [ChainedContext1], src/layout/context.rs:101-121. *)
Record ChainedContext1 := mkChainedContext1 {
  chained_context1_format : N;
  chained_context1_coverage_offset : N;
  chained_context1_record_count : N;
  chained_context1_record_offsets : list N;
  chained_context1_coverage : Coverage;
  chained_context1_records : list ChainedRecords }.

(** [ChainedClassRecord], src/layout/context.rs:321-351. *)
Record ChainedClassRecord := mkChainedClassRecord {
  chained_class_record_backward_glyph_count : N;
  chained_class_record_backward_indices : list N;
  chained_class_record_glyph_count : N;
  chained_class_record_indices : list N;
  chained_class_record_forward_glyph_count : N;
  chained_class_record_forward_indices : list N;
  chained_class_record_action_count : N;
  chained_class_record_actions : list Action }.

(** [ChainedClassRecords], src/layout/context.rs:353-367. *)
Record ChainedClassRecords := mkChainedClassRecords {
  chained_class_records_count : N;
  chained_class_records_offsets : list N;
  chained_class_records_records : list ChainedClassRecord }.

(** [ChainedContext2], src/layout/context.rs:123-158. *)
Record ChainedContext2 := mkChainedContext2 {
  chained_context2_format : N;
  chained_context2_coverage_offset : N;
  chained_context2_backward_class_offset : N;
  chained_context2_class_offset : N;
  chained_context2_forward_class_offset : N;
  chained_context2_record_count : N;
  chained_context2_record_offsets : list N;
  chained_context2_coverage : Coverage;
  chained_context2_backward_class : Class;
  chained_context2_class : Class;
  chained_context2_forward_class : Class;
  chained_context2_records : list (option ChainedClassRecords) }.

(** [ChainedContext3], src/layout/context.rs:160-201. *)
Record ChainedContext3 := mkChainedContext3 {
  chained_context3_format : N;
  chained_context3_backward_glyph_count : N;
  chained_context3_backward_coverage_offsets : list N;
  chained_context3_glyph_count : N;
  chained_context3_coverage_offsets : list N;
  chained_context3_forward_glyph_count : N;
  chained_context3_forward_coverage_offsets : list N;
  chained_context3_action_count : N;
  chained_context3_actions : list Action;
  chained_context3_backward_coverages : list Coverage;
  chained_context3_coverages : list Coverage;
  chained_context3_forward_coverages : list Coverage }.

(** [Header], src/layout/language.rs:5-11. *)
Record LanguageHeader := mkLanguageHeader {
  language_header_tag : tag;
  language_header_offset : N }.

(** [Record], src/layout/language.rs:13-24. *)
Record LanguageRecord := mkLanguageRecord {
  language_record_lookup_order_offset : N;
  language_record_required_feature_index : N;
  language_record_feature_index_count : N;
  language_record_feature_indices : list N }.

(** [Header], src/layout/script.rs:23-30. *)
Record ScriptHeader := mkScriptHeader {
  script_header_tag : tag;
  script_header_offset : N }.

(** [Record], src/layout/script.rs:32-51. *)
Record ScriptRecord := mkScriptRecord {
  script_record_default_language_offset : N;
  script_record_language_count : N;
  script_record_language_headers : list LanguageHeader;
  script_record_default_language : option LanguageRecord;
  script_record_language_records : list LanguageRecord }.

(** [Scripts], src/layout/script.rs:7-21. *)
Record Scripts := mkScripts {
  scripts_count : N;
  scripts_headers : list ScriptHeader;
  scripts_records : list ScriptRecord }.

(** [Header], src/layout/feature.rs:21-28. *)
Record FeatureHeader := mkFeatureHeader {
  feature_header_tag : tag;
  feature_header_offset : N }.

(** [Record], src/layout/feature.rs:30-50. *)
Record FeatureRecord := mkFeatureRecord {
  feature_record_parameter_offset : N;
  feature_record_lookup_index_count : N;
  feature_record_lookup_indices : list N;
  feature_record_parameters : option (list N) }.

(** [Features], src/layout/feature.rs:5-19. *)
Record Features := mkFeatures {
  features_count : N;
  features_headers : list FeatureHeader;
  features_records : list FeatureRecord }.

(** [Variations], src/layout/feature.rs:52-60. *)
Record FeatureVariations := mkFeatureVariations {
  feature_variations_major_version : N;
  feature_variations_minor_version : N;
  feature_variations_count : N }.

(** [Record], src/variations/item.rs:21-37. *)
Record StoreRecord := mkStoreRecord {
  store_record_item_count : N;
  store_record_short_delta_count : N;
  store_record_region_count : N;
  store_record_region_indices : list N;
  store_record_deltas : list N }.

(** [Store], src/variations/item.rs:3-19. *)
Record Store := mkStore {
  store_format : N;
  store_region_offset : N;
  store_count : N;
  store_offsets : list N;
  store_records : list StoreRecord }.

(** [Attachment], src/tables/glyph_definition/element.rs:4-13. *)
Record Attachment := mkAttachment {
  attachment_index_count : N;
  attachment_indices : list N }.

(** [Attachments], src/tables/glyph_definition/element.rs:15-34. *)
Record Attachments := mkAttachments {
  attachments_coverage_offset : N;
  attachments_count : N;
  attachments_offsets : list N;
  attachments_coverage : Coverage;
  attachments_records : list Attachment }.

(** [Caret1], src/tables/glyph_definition/element.rs:47-54. *)
Record Caret1 := mkCaret1 {
  caret1_format : N;
  caret1_coordinate : Z }.

(** [Caret2], src/tables/glyph_definition/element.rs:56-63. *)
Record Caret2 := mkCaret2 {
  caret2_format : N;
  caret2_index : N }.

(** [Correction], src/layout/correction.rs:5-12. *)
Inductive Correction :=
| CorrectionDevice (value : Device)
| CorrectionVariation (value : Variation).

(** [Caret3], src/tables/glyph_definition/element.rs:65-77. *)
Record Caret3 := mkCaret3 {
  caret3_format : N;
  caret3_coordinate : Z;
  caret3_correction_offset : N;
  caret3_correction : Correction }.

(** [Caret], src/tables/glyph_definition/element.rs:36-45. *)
Inductive Caret :=
| CaretFormat1 (value : Caret1)
| CaretFormat2 (value : Caret2)
| CaretFormat3 (value : Caret3).

(** [Ligature], src/tables/glyph_definition/element.rs:79-93. *)
Record GdefLigature := mkGdefLigature {
  gdef_ligature_caret_count : N;
  gdef_ligature_caret_offsets : list N;
  gdef_ligature_carets : list Caret }.

(** [Ligatures], src/tables/glyph_definition/element.rs:95-114. *)
Record GdefLigatures := mkGdefLigatures {
  gdef_ligatures_coverage_offset : N;
  gdef_ligatures_count : N;
  gdef_ligatures_offsets : list N;
  gdef_ligatures_coverage : Coverage;
  gdef_ligatures_records : list GdefLigature }.

(** [Marks], src/tables/glyph_definition/element.rs:116-131. *)
Record Marks := mkMarks {
  marks_format : N;
  marks_count : N;
  marks_coverage_offsets : list N;
  marks_coverages : list Coverage }.

(** [Header1], src/tables/glyph_definition/mod.rs:94-105. *)
Record GdefHeader1 := mkGdefHeader1 {
  gdef_header1_major_version : N;
  gdef_header1_minor_version : N;
  gdef_header1_glyph_class_offset : N;
  gdef_header1_attachment_offset : N;
  gdef_header1_ligature_offset : N;
  gdef_header1_mark_class_offset : N }.

(** [Header12], src/tables/glyph_definition/mod.rs:107-119. *)
Record GdefHeader12 := mkGdefHeader12 {
  gdef_header12_major_version : N;
  gdef_header12_minor_version : N;
  gdef_header12_glyph_class_offset : N;
  gdef_header12_attachment_offset : N;
  gdef_header12_ligature_offset : N;
  gdef_header12_mark_class_offset : N;
  gdef_header12_mark_offset : N }.

(** [Header13], src/tables/glyph_definition/mod.rs:121-134. *)
Record GdefHeader13 := mkGdefHeader13 {
  gdef_header13_major_version : N;
  gdef_header13_minor_version : N;
  gdef_header13_glyph_class_offset : N;
  gdef_header13_attachment_offset : N;
  gdef_header13_ligature_offset : N;
  gdef_header13_mark_class_offset : N;
  gdef_header13_mark_offset : N;
  gdef_header13_variation_offset : N }.

(** [Header], src/tables/glyph_definition/mod.rs:83-92. *)
Inductive GdefHeader :=
| GdefVersion1 (value : GdefHeader1)
| GdefVersion12 (value : GdefHeader12)
| GdefVersion13 (value : GdefHeader13).

(** [GlyphDefinition], src/tables/glyph_definition/mod.rs:27-81. *)
Record GlyphDefinition := mkGlyphDefinition {
  glyph_definition_header : GdefHeader;
  glyph_definition_glyph_class : option Class;
  glyph_definition_attachments : option Attachments;
  glyph_definition_ligatures : option GdefLigatures;
  glyph_definition_mark_class : option Class;
  glyph_definition_marks : option Marks;
  glyph_definition_variations : option Store }.

(** [Alternates], src/tables/glyph_substitution/element.rs:3-12. *)
Record Alternates := mkAlternates {
  alternates_glyph_count : N;
  alternates_glyph_ids : list N }.

(** [Ligature], src/tables/glyph_substitution/element.rs:14-27. *)
Record Ligature := mkLigature {
  ligature_glyph_id : N;
  ligature_glyph_count : N;
  ligature_glyph_ids : list N }.

(** [Ligatures], src/tables/glyph_substitution/element.rs:29-43. *)
Record Ligatures := mkLigatures {
  ligatures_count : N;
  ligatures_offsets : list N;
  ligatures_records : list Ligature }.

(** [Sequence], src/tables/glyph_substitution/element.rs:45-54. *)
Record Sequence := mkSequence {
  sequence_glyph_count : N;
  sequence_glyph_ids : list N }.

(** [SingleSubstitution1], src/tables/glyph_substitution/mod.rs:39-51. *)
Record SingleSubstitution1 := mkSingleSubstitution1 {
  single_substitution1_format : N;
  single_substitution1_coverage_offset : N;
  single_substitution1_delta_glyph_id : Z;
  single_substitution1_coverage : Coverage }.

(** [SingleSubstitution2], src/tables/glyph_substitution/mod.rs:53-69. *)
Record SingleSubstitution2 := mkSingleSubstitution2 {
  single_substitution2_format : N;
  single_substitution2_coverage_offset : N;
  single_substitution2_glyph_count : N;
  single_substitution2_glyph_ids : list N;
  single_substitution2_coverage : Coverage }.

(** [MultipleSubstitution], src/tables/glyph_substitution/mod.rs:71-91. *)
Record MultipleSubstitution := mkMultipleSubstitution {
  multiple_substitution_format : N;
  multiple_substitution_coverage_offset : N;
  multiple_substitution_record_count : N;
  multiple_substitution_record_offsets : list N;
  multiple_substitution_coverage : Coverage;
  multiple_substitution_records : list Sequence }.

(** [AlternateSubstitution], src/tables/glyph_substitution/mod.rs:93-113. *)
Record AlternateSubstitution := mkAlternateSubstitution {
  alternate_substitution_format : N;
  alternate_substitution_coverage_offset : N;
  alternate_substitution_record_count : N;
  alternate_substitution_record_offsets : list N;
  alternate_substitution_coverage : Coverage;
  alternate_substitution_records : list Alternates }.

(** [LigatureSubstitution], src/tables/glyph_substitution/mod.rs:115-135. *)
Record LigatureSubstitution := mkLigatureSubstitution {
  ligature_substitution_format : N;
  ligature_substitution_coverage_offset : N;
  ligature_substitution_record_count : N;
  ligature_substitution_record_offsets : list N;
  ligature_substitution_coverage : Coverage;
  ligature_substitution_records : list Ligatures }.

(** [ExtensionSubstitution], src/tables/glyph_substitution/mod.rs:137-144. *)
Record ExtensionSubstitution := mkExtensionSubstitution {
  extension_substitution_format : N;
  extension_substitution_type : N;
  extension_substitution_offset : N }.

(** [ReverseChainedContextualSubstibution], src/tables/glyph_substitution/mod.rs:146-182. *)
Record ReverseChainedContextualSubstibution := mkReverseChainedContextualSubstibution {
  reverse_chained_contextual_substibution_format : N;
  reverse_chained_contextual_substibution_coverage_offset : N;
  reverse_chained_contextual_substibution_backward_glyph_count : N;
  reverse_chained_contextual_substibution_backward_coverage_offsets : list N;
  reverse_chained_contextual_substibution_forward_glyph_count : N;
  reverse_chained_contextual_substibution_forward_coverage_offsets : list N;
  reverse_chained_contextual_substibution_glyph_count : N;
  reverse_chained_contextual_substibution_glyph_ids : list N;
  reverse_chained_contextual_substibution_coverage : Coverage;
  reverse_chained_contextual_substibution_backward_coverages : list Coverage;
  reverse_chained_contextual_substibution_forward_coverages : list Coverage }.

(** [Anchor1], src/tables/glyph_positioning/element.rs:17-25. *)
Record Anchor1 := mkAnchor1 {
  anchor1_format : N;
  anchor1_x : Z;
  anchor1_y : Z }.

(** [Anchor2], src/tables/glyph_positioning/element.rs:27-36. *)
Record Anchor2 := mkAnchor2 {
  anchor2_format : N;
  anchor2_x : Z;
  anchor2_y : Z;
  anchor2_index : N }.

(** [Anchor3], src/tables/glyph_positioning/element.rs:38-56. *)
Record Anchor3 := mkAnchor3 {
  anchor3_format : N;
  anchor3_x : Z;
  anchor3_y : Z;
  anchor3_x_correction_offset : N;
  anchor3_y_correction_offset : N;
  anchor3_x_correction : option Correction;
  anchor3_y_correction : option Correction }.

(** [Anchor], src/tables/glyph_positioning/element.rs:6-15. *)
Inductive Anchor :=
| AnchorFormat1 (value : Anchor1)
| AnchorFormat2 (value : Anchor2)
| AnchorFormat3 (value : Anchor3).

(** [Base], src/tables/glyph_positioning/element.rs:58-66. *)
Record Base := mkBase {
  base_anchor_offsets : list N;
  base_anchors : list (option Anchor) }.

(** [Bases], src/tables/glyph_positioning/element.rs:68-75. *)
Record Bases := mkBases {
  bases_count : N;
  bases_records : list Base }.

(** [Component], src/tables/glyph_positioning/element.rs:77-85. *)
Record Component := mkComponent {
  component_anchor_offsets : list N;
  component_anchors : list (option Anchor) }.

(** [Connection], src/tables/glyph_positioning/element.rs:87-97. *)
Record Connection := mkConnection {
  connection_start_anchor_offset : N;
  connection_end_anchor_offset : N;
  connection_start_anchor : option Anchor;
  connection_end_anchor : option Anchor }.

(** [Ligature], src/tables/glyph_positioning/element.rs:99-106. *)
Record GposLigature := mkGposLigature {
  gpos_ligature_count : N;
  gpos_ligature_components : list Component }.

(** [Ligatures], src/tables/glyph_positioning/element.rs:108-117. *)
Record GposLigatures := mkGposLigatures {
  gpos_ligatures_count : N;
  gpos_ligatures_offsets : list N;
  gpos_ligatures_records : list GposLigature }.

(** [Mark1], src/tables/glyph_positioning/element.rs:119-128. *)
Record Mark1 := mkMark1 {
  mark1_class_id : N;
  mark1_anchor_offset : N;
  mark1_anchor : Anchor }.

(** [Mark1s], src/tables/glyph_positioning/element.rs:130-140. *)
Record Mark1s := mkMark1s {
  mark1s_count : N;
  mark1s_records : list Mark1 }.

(** [Mark2], src/tables/glyph_positioning/element.rs:142-150. *)
Record Mark2 := mkMark2 {
  mark2_anchor_offsets : list N;
  mark2_anchors : list (option Anchor) }.

(** [Mark2s], src/tables/glyph_positioning/element.rs:152-159. *)
Record Mark2s := mkMark2s {
  mark2s_count : N;
  mark2s_records : list Mark2 }.

(** [Single], src/tables/glyph_positioning/element.rs:197-215. *)
Record Single := mkSingle {
  single_x_placement : option Z;
  single_y_placement : option Z;
  single_x_advance : option Z;
  single_y_advance : option Z;
  single_x_placement_correction_offset : option N;
  single_y_placement_correction_offset : option N;
  single_x_advance_correction_offset : option N;
  single_y_advance_correction_offset : option N;
  single_x_placement_correction : option Correction;
  single_y_placement_correction : option Correction;
  single_x_advance_correction : option Correction;
  single_y_advance_correction : option Correction }.

(** [Pair1], src/tables/glyph_positioning/element.rs:161-169. *)
Record Pair1 := mkPair1 {
  pair1_glyph2_id : N;
  pair1_value1 : option Single;
  pair1_value2 : option Single }.

(** [Pair1s], src/tables/glyph_positioning/element.rs:171-178. *)
Record Pair1s := mkPair1s {
  pair1s_count : N;
  pair1s_records : list Pair1 }.

(** [Pair2], src/tables/glyph_positioning/element.rs:180-187. *)
Record Pair2 := mkPair2 {
  pair2_value1 : option Single;
  pair2_value2 : option Single }.

(** [Pair2s], src/tables/glyph_positioning/element.rs:189-195. *)
Record Pair2s := mkPair2s {
  pair2s_records : list Pair2 }.

(** [SingleAdjustment1], src/tables/glyph_positioning/mod.rs:38-54. *)
Record SingleAdjustment1 := mkSingleAdjustment1 {
  single_adjustment1_format : N;
  single_adjustment1_coverage_offset : N;
  single_adjustment1_value_flags : N;
  single_adjustment1_value : Single;
  single_adjustment1_coverage : Coverage }.

(** [SingleAdjustment2], src/tables/glyph_positioning/mod.rs:56-75. *)
Record SingleAdjustment2 := mkSingleAdjustment2 {
  single_adjustment2_format : N;
  single_adjustment2_coverage_offset : N;
  single_adjustment2_value_flags : N;
  single_adjustment2_value_count : N;
  single_adjustment2_values : list Single;
  single_adjustment2_coverage : Coverage }.

(** [PairAdjustment1], src/tables/glyph_positioning/mod.rs:86-114. *)
Record PairAdjustment1 := mkPairAdjustment1 {
  pair_adjustment1_format : N;
  pair_adjustment1_coverage_offset : N;
  pair_adjustment1_value1_flags : N;
  pair_adjustment1_value2_flags : N;
  pair_adjustment1_record_count : N;
  pair_adjustment1_record_offsets : list N;
  pair_adjustment1_coverage : Coverage;
  pair_adjustment1_records : list Pair1s }.

(** [PairAdjustment2], src/tables/glyph_positioning/mod.rs:116-147. *)
Record PairAdjustment2 := mkPairAdjustment2 {
  pair_adjustment2_format : N;
  pair_adjustment2_coverage_offset : N;
  pair_adjustment2_value1_flags : N;
  pair_adjustment2_value2_flags : N;
  pair_adjustment2_class1_offset : N;
  pair_adjustment2_class2_offset : N;
  pair_adjustment2_class1_count : N;
  pair_adjustment2_class2_count : N;
  pair_adjustment2_records : list Pair2s;
  pair_adjustment2_coverage : Coverage;
  pair_adjustment2_class1 : Class;
  pair_adjustment2_class2 : Class }.

(** [CursiveAttachment], src/tables/glyph_positioning/mod.rs:149-167. *)
Record CursiveAttachment := mkCursiveAttachment {
  cursive_attachment_format : N;
  cursive_attachment_coverage_offset : N;
  cursive_attachment_connection_count : N;
  cursive_attachment_connections : list Connection;
  cursive_attachment_coverage : Coverage }.

(** [MarkToBaseAttachment], src/tables/glyph_positioning/mod.rs:169-196. *)
Record MarkToBaseAttachment := mkMarkToBaseAttachment {
  mark_to_base_attachment_format : N;
  mark_to_base_attachment_mark_coverage_offset : N;
  mark_to_base_attachment_base_coverage_offset : N;
  mark_to_base_attachment_mark_class_count : N;
  mark_to_base_attachment_marks_offset : N;
  mark_to_base_attachment_bases_offset : N;
  mark_to_base_attachment_mark_coverage : Coverage;
  mark_to_base_attachment_base_coverage : Coverage;
  mark_to_base_attachment_marks : Mark1s;
  mark_to_base_attachment_bases : Bases }.

(** [MarkToLigatureAttachment], src/tables/glyph_positioning/mod.rs:198-225. *)
Record MarkToLigatureAttachment := mkMarkToLigatureAttachment {
  mark_to_ligature_attachment_format : N;
  mark_to_ligature_attachment_mark_coverage_offset : N;
  mark_to_ligature_attachment_ligature_coverage_offset : N;
  mark_to_ligature_attachment_mark_class_count : N;
  mark_to_ligature_attachment_marks_offset : N;
  mark_to_ligature_attachment_ligatures_offset : N;
  mark_to_ligature_attachment_mark_coverage : Coverage;
  mark_to_ligature_attachment_ligature_coverage : Coverage;
  mark_to_ligature_attachment_marks : Mark1s;
  mark_to_ligature_attachment_ligatures : GposLigatures }.

(** [MarkToMarkAttachment], src/tables/glyph_positioning/mod.rs:227-254. *)
Record MarkToMarkAttachment := mkMarkToMarkAttachment {
  mark_to_mark_attachment_format : N;
  mark_to_mark_attachment_mark1_coverage_offset : N;
  mark_to_mark_attachment_mark2_coverage_offset : N;
  mark_to_mark_attachment_mark_class_count : N;
  mark_to_mark_attachment_mark1s_offset : N;
  mark_to_mark_attachment_mark2s_offset : N;
  mark_to_mark_attachment_mark1_coverage : Coverage;
  mark_to_mark_attachment_mark2_coverage : Coverage;
  mark_to_mark_attachment_mark1s : Mark1s;
  mark_to_mark_attachment_mark2s : Mark2s }.

(** [ExtensionPositioning], src/tables/glyph_positioning/mod.rs:256-263. *)
Record ExtensionPositioning := mkExtensionPositioning {
  extension_positioning_format : N;
  extension_positioning_type : N;
  extension_positioning_offset : N }.

(** [Header0], src/tables/color_palettes.rs:22-35. *)
Record CpalHeader0 := mkCpalHeader0 {
  cpal_header0_version : N;
  cpal_header0_entry_count : N;
  cpal_header0_palette_count : N;
  cpal_header0_color_count : N;
  cpal_header0_color_offset : N;
  cpal_header0_color_indices : list N }.

(** [Header1], src/tables/color_palettes.rs:37-50. *)
Record CpalHeader1 := mkCpalHeader1 {
  cpal_header1_version : N;
  cpal_header1_entry_count : N;
  cpal_header1_palette_count : N;
  cpal_header1_color_count : N;
  cpal_header1_color_offset : N;
  cpal_header1_color_indices : list N }.

(** [Color], src/tables/color_palettes.rs:52-61. *)
Record Color := mkColor {
  color_blue : N;
  color_green : N;
  color_red : N;
  color_alpha : N }.

(** [Header], src/tables/font_variations/mod.rs:18-31. *)
Record FvarHeader := mkFvarHeader {
  fvar_header_major_version : N;
  fvar_header_minor_version : N;
  fvar_header_axis_offset : N;
  fvar_header_reserved : N;
  fvar_header_axis_count : N;
  fvar_header_axis_size : N;
  fvar_header_instance_count : N;
  fvar_header_instance_size : N }.

(** [AxisRecord], src/tables/font_variations/mod.rs:33-44. *)
Record AxisRecord := mkAxisRecord {
  axis_record_tag : tag;
  axis_record_min_value : Z;
  axis_record_default_value : Z;
  axis_record_max_value : Z;
  axis_record_flags : N;
  axis_record_name_id : N }.

(** [InstanceRecord], src/tables/font_variations/mod.rs:46-55. *)
Record InstanceRecord := mkInstanceRecord {
  instance_record_subfamily_name_id : N;
  instance_record_flags : N;
  instance_record_coordinates : list Z;
  instance_record_postscript_name_id : N }.

(** [FontVariations], src/tables/font_variations/mod.rs:8-16. *)
Record FontVariations := mkFontVariations {
  font_variations_header : FvarHeader;
  font_variations_axis_records : list AxisRecord;
  font_variations_instance_records : list InstanceRecord }.

(** [Context], src/layout/context.rs:8-17. *)
Inductive Context :=
| ContextFormat1 (value : Context1)
| ContextFormat2 (value : Context2)
| ContextFormat3 (value : Context3).

(** [ChainedContext], src/layout/context.rs:90-99. *)
Inductive ChainedContext :=
| ChainedContextFormat1 (value : ChainedContext1)
| ChainedContextFormat2 (value : ChainedContext2)
| ChainedContextFormat3 (value : ChainedContext3).

(** [SingleSubstitution], src/tables/glyph_substitution/mod.rs:30-37. *)
Inductive SingleSubstitution :=
| SingleSubstitutionFormat1 (value : SingleSubstitution1)
| SingleSubstitutionFormat2 (value : SingleSubstitution2).

(** [Type], src/tables/glyph_substitution/mod.rs:17-28. *)
Inductive GsubType :=
| GsubSingleSubstitution (value : SingleSubstitution)
| GsubMultipleSubstitution (value : MultipleSubstitution)
| GsubAlternateSubstitution (value : AlternateSubstitution)
| GsubLigatureSubstitution (value : LigatureSubstitution)
| GsubContextualSubstitution (value : Context)
| GsubChainedContextualSubstitution (value : ChainedContext)
| GsubExtensionSubstitution (value : ExtensionSubstitution)
| GsubReverseChainedContextualSubstibution (value : ReverseChainedContextualSubstibution).

(** [SingleAdjustment], src/tables/glyph_positioning/mod.rs:29-36. *)
Inductive SingleAdjustment :=
| SingleAdjustmentFormat1 (value : SingleAdjustment1)
| SingleAdjustmentFormat2 (value : SingleAdjustment2).

(** [PairAdjustment], src/tables/glyph_positioning/mod.rs:77-84. *)
Inductive PairAdjustment :=
| PairAdjustmentFormat1 (value : PairAdjustment1)
| PairAdjustmentFormat2 (value : PairAdjustment2).

(** [Type], src/tables/glyph_positioning/mod.rs:15-27. *)
Inductive GposType :=
| GposSingleAdjustment (value : SingleAdjustment)
| GposPairAdjustment (value : PairAdjustment)
| GposCursiveAttachment (value : CursiveAttachment)
| GposMarkToBaseAttachment (value : MarkToBaseAttachment)
| GposMarkToLigatureAttachment (value : MarkToLigatureAttachment)
| GposMarkToMarkAttachment (value : MarkToMarkAttachment)
| GposContextualPositioning (value : Context)
| GposChainedContextualPositioning (value : ChainedContext)
| GposExtensionPositioning (value : ExtensionPositioning).

(** [Header], src/tables/color_palettes.rs:13-20. *)
Inductive CpalHeader :=
| CpalVersion0 (value : CpalHeader0)
| CpalVersion1 (value : CpalHeader1).

(** [ColorPalettes], src/tables/color_palettes.rs:7-11. *)
Record ColorPalettes := mkColorPalettes {
  color_palettes_header : CpalHeader;
  color_palettes_colors : list Color }.

(** [Record<T>], src/layout/lookup.rs:15-26; [flags] is the 16-bit value of [Flags]. *)
Record LookupRecord (T : Type) := mkLookupRecord {
  lookup_record_type : N;
  lookup_record_flags : N;
  lookup_record_table_count : N;
  lookup_record_table_offsets : list N;
  lookup_record_mark_filtering_set : option N;
  lookup_record_tables : list T }.
Arguments mkLookupRecord {T}.
Arguments lookup_record_type {T}.
Arguments lookup_record_flags {T}.
Arguments lookup_record_table_count {T}.
Arguments lookup_record_table_offsets {T}.
Arguments lookup_record_mark_filtering_set {T}.
Arguments lookup_record_tables {T}.

(** [Lookups<T>], src/layout/lookup.rs:5-13. *)
Record Lookups (T : Type) := mkLookups {
  lookups_count : N;
  lookups_offsets : list N;
  lookups_records : list (LookupRecord T) }.
Arguments mkLookups {T}.
Arguments lookups_count {T}.
Arguments lookups_offsets {T}.
Arguments lookups_records {T}.

(** [Directory<T>], src/layout/directory.rs:5-20. *)
Record Directory (T : Type) := mkDirectory {
  directory_major_version : N;
  directory_minor_version : N;
  directory_script_offset : N;
  directory_feature_offset : N;
  directory_lookup_offset : N;
  directory_variation_offset : N;
  directory_scripts : Scripts;
  directory_features : Features;
  directory_lookups : Lookups T;
  directory_variations : option FeatureVariations }.
Arguments mkDirectory {T}.
Arguments directory_major_version {T}.
Arguments directory_minor_version {T}.
Arguments directory_script_offset {T}.
Arguments directory_feature_offset {T}.
Arguments directory_lookup_offset {T}.
Arguments directory_variation_offset {T}.
Arguments directory_scripts {T}.
Arguments directory_features {T}.
Arguments directory_lookups {T}.
Arguments directory_variations {T}.

(** [GlyphSubstitution], src/tables/glyph_substitution/mod.rs:14-15. *)
Definition GlyphSubstitution := Directory GsubType.

(** [GlyphPositioning], src/tables/glyph_positioning/mod.rs:12-13. *)
Definition GlyphPositioning := Directory GposType.

(** ** Fonts and files *)

(** [truetype::tables::offsets::Record] (dependency): a table-directory record. *)
Record OffsetRecord := mkOffsetRecord {
  offset_record_tag : tag;
  offset_record_checksum : N;
  offset_record_offset : N;
  offset_record_length : N }.

(** [truetype::tables::offsets::Header] (dependency). *)
Record OffsetsHeader := mkOffsetsHeader {
  offsets_header_tag : tag;
  offsets_header_table_count : N;
  offsets_header_search_range : N;
  offsets_header_entry_selector : N;
  offsets_header_range_shift : N }.

(** [truetype::tables::offsets::Offsets] (dependency). *)
Record Offsets := mkOffsets {
  offsets_header : OffsetsHeader;
  offsets_records : list OffsetRecord }.

(** [Font], src/font.rs:6-10. *)
Record Font := mkFont { font_offsets : Offsets }.

(** [File], src/file.rs:6-10. *)
Record File := mkFile { file_fonts : list Font }.
