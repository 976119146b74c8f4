(** The parts of tables that a user of the crate can ask for by themselves, each with its
    reader and its format: every type besides those of Requests.v with an implementation of
    [value::Read] or [walue::Read]. *)

From Verif Require Export Requests SpecSteps.
From Verif Require Steps StepsReaders.

(** A parameter is that of [walue::Read], as at src/tables/glyph_positioning/element.rs:251;
    [position] is where the offsets are counted from. *)
Inductive piece : Type -> Type :=
(** [Record::read], src/layout/coverage.rs:40-48. *)
| PieceCoverageRecord : piece CoverageRecord
(** [Coverage1::read], src/layout/coverage.rs:16-26. *)
| PieceCoverage1 : piece Coverage1
(** [Coverage2::read], src/layout/coverage.rs:28-38. *)
| PieceCoverage2 : piece Coverage2
(** [Coverage::read], src/layout/coverage.rs:57-65. *)
| PieceCoverage : piece Coverage
(** [Record::read], src/layout/class.rs:41-49. *)
| PieceClassRecord : piece ClassRecord
(** [Class1::read], src/layout/class.rs:16-27. *)
| PieceClass1 : piece Class1
(** [Class2::read], src/layout/class.rs:29-39. *)
| PieceClass2 : piece Class2
(** [Class::read], src/layout/class.rs:58-66. *)
| PieceClass : piece Class
(** [Device::read], src/layout/correction.rs:51-73. *)
| PieceDevice : piece Device
(** [Variation::read], src/layout/correction.rs:25-32. *)
| PieceVariation : piece Variation
(** [Correction::read], src/layout/correction.rs:34-42. *)
| PieceCorrection : piece Correction
(** [Action::read], src/layout/context.rs:369-376. *)
| PieceAction : piece Action
(** [Record::read], src/layout/context.rs:203-220. *)
| PieceContextRecord : piece ContextRecord
(** [Records::read], src/layout/context.rs:222-236. *)
| PieceContextRecords : piece ContextRecords
(** [ClassRecord::read], src/layout/context.rs:238-255. *)
| PieceContextClassRecord : piece ContextClassRecord
(** [ClassRecords::read], src/layout/context.rs:257-271. *)
| PieceContextClassRecords : piece ContextClassRecords
(** [ChainedRecord::read], src/layout/context.rs:273-303. *)
| PieceChainedRecord : piece ChainedRecord
(** [ChainedRecords::read], src/layout/context.rs:305-319. *)
| PieceChainedRecords : piece ChainedRecords
(** [ChainedClassRecord::read], src/layout/context.rs:321-351. *)
| PieceChainedClassRecord : piece ChainedClassRecord
(** [ChainedClassRecords::read], src/layout/context.rs:353-367. *)
| PieceChainedClassRecords : piece ChainedClassRecords
(** [Context1::read], src/layout/context.rs:19-39. *)
| PieceContext1 : piece Context1
(** [Context2::read], src/layout/context.rs:41-66. *)
| PieceContext2 : piece Context2
(** [Context3::read], src/layout/context.rs:68-88. *)
| PieceContext3 : piece Context3
(** [Context::read], src/layout/context.rs:378-387. *)
| PieceContext : piece Context
(** [ChainedContext1::read], src/layout/context.rs:101-121. *)
| PieceChainedContext1 : piece ChainedContext1
(** [ChainedContext2::read], src/layout/context.rs:123-158. *)
| PieceChainedContext2 : piece ChainedContext2
(** [ChainedContext3::read], src/layout/context.rs:160-201. *)
| PieceChainedContext3 : piece ChainedContext3
(** [ChainedContext::read], src/layout/context.rs:389-400. *)
| PieceChainedContext : piece ChainedContext
(** [Header::read], src/layout/language.rs:5-11. *)
| PieceLanguageHeader : piece LanguageHeader
(** [Record::read], src/layout/language.rs:13-24. *)
| PieceLanguageRecord : piece LanguageRecord
(** [Header::read], src/layout/script.rs:23-30. *)
| PieceScriptHeader : piece ScriptHeader
(** [Record::read], src/layout/script.rs:32-51. *)
| PieceScriptRecord : piece ScriptRecord
(** [Scripts::read], src/layout/script.rs:7-21. *)
| PieceScripts : piece Scripts
(** [Header::read], src/layout/feature.rs:21-28. *)
| PieceFeatureHeader : piece FeatureHeader
(** [Record::read], src/layout/feature.rs:30-50. *)
| PieceFeatureRecord : piece FeatureRecord
(** [Features::read], src/layout/feature.rs:5-19. *)
| PieceFeatures : piece Features
(** [Variations::read], src/layout/feature.rs:52-60. *)
| PieceFeatureVariations : piece FeatureVariations
(** [Record::read], src/layout/lookup.rs:68-93. *)
| PieceGsubLookupRecord : piece (LookupRecord GsubType)
(** [Lookups::read], src/layout/lookup.rs:51-66. *)
| PieceGsubLookups : piece (Lookups GsubType)
(** [Record::read], src/layout/lookup.rs:68-93. *)
| PieceGposLookupRecord : piece (LookupRecord GposType)
(** [Lookups::read], src/layout/lookup.rs:51-66. *)
| PieceGposLookups : piece (Lookups GposType)
(** [Record::read], src/variations/item.rs:21-37. *)
| PieceStoreRecord : piece StoreRecord
(** [Store::read], src/variations/item.rs:3-19. *)
| PieceStore : piece Store
(** [Alternates::read], src/tables/glyph_substitution/element.rs:3-12. *)
| PieceAlternates : piece Alternates
(** [Ligature::read], src/tables/glyph_substitution/element.rs:14-27. *)
| PieceLigature : piece Ligature
(** [Ligatures::read], src/tables/glyph_substitution/element.rs:29-43. *)
| PieceLigatures : piece Ligatures
(** [Sequence::read], src/tables/glyph_substitution/element.rs:45-54. *)
| PieceSequence : piece Sequence
(** [SingleSubstitution1::read], src/tables/glyph_substitution/mod.rs:39-51. *)
| PieceSingleSubstitution1 : piece SingleSubstitution1
(** [SingleSubstitution2::read], src/tables/glyph_substitution/mod.rs:53-69. *)
| PieceSingleSubstitution2 : piece SingleSubstitution2
(** [SingleSubstitution::read], src/tables/glyph_substitution/mod.rs:202-210. *)
| PieceSingleSubstitution : piece SingleSubstitution
(** [MultipleSubstitution::read], src/tables/glyph_substitution/mod.rs:71-91. *)
| PieceMultipleSubstitution : piece MultipleSubstitution
(** [AlternateSubstitution::read], src/tables/glyph_substitution/mod.rs:93-113. *)
| PieceAlternateSubstitution : piece AlternateSubstitution
(** [LigatureSubstitution::read], src/tables/glyph_substitution/mod.rs:115-135. *)
| PieceLigatureSubstitution : piece LigatureSubstitution
(** [ExtensionSubstitution::read], src/tables/glyph_substitution/mod.rs:137-144. *)
| PieceExtensionSubstitution : piece ExtensionSubstitution
(** [ReverseChainedContextualSubstibution::read], src/tables/glyph_substitution/mod.rs:146-182. *)
| PieceReverseChainedContextualSubstibution : piece ReverseChainedContextualSubstibution
(** [Type::read], src/tables/glyph_substitution/mod.rs:184-200. *)
| PieceGsubType (type_ : N) : piece GsubType
(** [Anchor1::read], src/tables/glyph_positioning/element.rs:17-25. *)
| PieceAnchor1 : piece Anchor1
(** [Anchor2::read], src/tables/glyph_positioning/element.rs:27-36. *)
| PieceAnchor2 : piece Anchor2
(** [Anchor3::read], src/tables/glyph_positioning/element.rs:38-56. *)
| PieceAnchor3 : piece Anchor3
(** [Anchor::read], src/tables/glyph_positioning/element.rs:239-248. *)
| PieceAnchor : piece Anchor
(** [Base::read], src/tables/glyph_positioning/element.rs:250-265. *)
| PieceBase (position mark_class_count : N) : piece Base
(** [Bases::read], src/tables/glyph_positioning/element.rs:267-278. *)
| PieceBases (mark_class_count : N) : piece Bases
(** [Component::read], src/tables/glyph_positioning/element.rs:280-295. *)
| PieceComponent (position mark_class_count : N) : piece Component
(** [Ligature::read], src/tables/glyph_positioning/element.rs:297-308. *)
| PieceGposLigature (mark_class_count : N) : piece GposLigature
(** [Ligatures::read], src/tables/glyph_positioning/element.rs:310-325. *)
| PieceGposLigatures (mark_class_count : N) : piece GposLigatures
(** [Mark1::read], src/tables/glyph_positioning/element.rs:327-345. *)
| PieceMark1 (position : N) : piece Mark1
(** [Mark1s::read], src/tables/glyph_positioning/element.rs:130-140. *)
| PieceMark1s : piece Mark1s
(** [Mark2::read], src/tables/glyph_positioning/element.rs:347-362. *)
| PieceMark2 (position mark_class_count : N) : piece Mark2
(** [Mark2s::read], src/tables/glyph_positioning/element.rs:364-375. *)
| PieceMark2s (mark_class_count : N) : piece Mark2s
(** [Connection::read], src/tables/glyph_positioning/element.rs:452-471. *)
| PieceConnection (position : N) : piece Connection
(** [Single::read], src/tables/glyph_positioning/element.rs:473-525. *)
| PieceSingle (position flags : N) : piece Single
(** [Pair1::read], src/tables/glyph_positioning/element.rs:377-398. *)
| PiecePair1 (position value1_flags value2_flags : N) : piece Pair1
(** [Pair1s::read], src/tables/glyph_positioning/element.rs:400-414. *)
| PiecePair1s (value1_flags value2_flags : N) : piece Pair1s
(** [Pair2::read], src/tables/glyph_positioning/element.rs:416-436. *)
| PiecePair2 (position value1_flags value2_flags : N) : piece Pair2
(** [Pair2s::read], src/tables/glyph_positioning/element.rs:438-450. *)
| PiecePair2s (position class2_count value1_flags value2_flags : N) : piece Pair2s
(** [SingleAdjustment1::read], src/tables/glyph_positioning/mod.rs:38-54. *)
| PieceSingleAdjustment1 : piece SingleAdjustment1
(** [SingleAdjustment2::read], src/tables/glyph_positioning/mod.rs:56-75. *)
| PieceSingleAdjustment2 : piece SingleAdjustment2
(** [SingleAdjustment::read], src/tables/glyph_positioning/mod.rs:284-292. *)
| PieceSingleAdjustment : piece SingleAdjustment
(** [PairAdjustment1::read], src/tables/glyph_positioning/mod.rs:86-114. *)
| PiecePairAdjustment1 : piece PairAdjustment1
(** [PairAdjustment2::read], src/tables/glyph_positioning/mod.rs:116-147. *)
| PiecePairAdjustment2 : piece PairAdjustment2
(** [PairAdjustment::read], src/tables/glyph_positioning/mod.rs:294-302. *)
| PiecePairAdjustment : piece PairAdjustment
(** [CursiveAttachment::read], src/tables/glyph_positioning/mod.rs:149-167. *)
| PieceCursiveAttachment : piece CursiveAttachment
(** [MarkToBaseAttachment::read], src/tables/glyph_positioning/mod.rs:169-196. *)
| PieceMarkToBaseAttachment : piece MarkToBaseAttachment
(** [MarkToLigatureAttachment::read], src/tables/glyph_positioning/mod.rs:198-225. *)
| PieceMarkToLigatureAttachment : piece MarkToLigatureAttachment
(** [MarkToMarkAttachment::read], src/tables/glyph_positioning/mod.rs:227-254. *)
| PieceMarkToMarkAttachment : piece MarkToMarkAttachment
(** [ExtensionPositioning::read], src/tables/glyph_positioning/mod.rs:256-263. *)
| PieceExtensionPositioning : piece ExtensionPositioning
(** [Type::read], src/tables/glyph_positioning/mod.rs:265-282. *)
| PieceGposType (type_ : N) : piece GposType
(** [Attachment::read], src/tables/glyph_definition/element.rs:4-13. *)
| PieceAttachment : piece Attachment
(** [Attachments::read], src/tables/glyph_definition/element.rs:15-34. *)
| PieceAttachments : piece Attachments
(** [Caret1::read], src/tables/glyph_definition/element.rs:47-54. *)
| PieceCaret1 : piece Caret1
(** [Caret2::read], src/tables/glyph_definition/element.rs:56-63. *)
| PieceCaret2 : piece Caret2
(** [Caret3::read], src/tables/glyph_definition/element.rs:65-77. *)
| PieceCaret3 : piece Caret3
(** [Caret::read], src/tables/glyph_definition/element.rs:133-142. *)
| PieceCaret : piece Caret
(** [Ligature::read], src/tables/glyph_definition/element.rs:79-93. *)
| PieceGdefLigature : piece GdefLigature
(** [Ligatures::read], src/tables/glyph_definition/element.rs:95-114. *)
| PieceGdefLigatures : piece GdefLigatures
(** [Marks::read], src/tables/glyph_definition/element.rs:116-131. *)
| PieceMarks : piece Marks
(** [Header1::read], src/tables/glyph_definition/mod.rs:94-105. *)
| PieceGdefHeader1 : piece GdefHeader1
(** [Header12::read], src/tables/glyph_definition/mod.rs:107-119. *)
| PieceGdefHeader12 : piece GdefHeader12
(** [Header13::read], src/tables/glyph_definition/mod.rs:121-134. *)
| PieceGdefHeader13 : piece GdefHeader13
(** [Header::read], src/tables/glyph_definition/mod.rs:143-152. *)
| PieceGdefHeader : piece GdefHeader
(** [Header0::read], src/tables/color_palettes.rs:22-35. *)
| PieceCpalHeader0 : piece CpalHeader0
(** [Header1::read], src/tables/color_palettes.rs:37-50. *)
| PieceCpalHeader1 : piece CpalHeader1
(** [Header::read], src/tables/color_palettes.rs:103-111. *)
| PieceCpalHeader : piece CpalHeader
(** [Color::read], src/tables/color_palettes.rs:52-61. *)
| PieceColor : piece Color
(** [Header::read], src/tables/font_variations/mod.rs:18-31. *)
| PieceFvarHeader : piece FvarHeader
(** [AxisRecord::read], src/tables/font_variations/mod.rs:33-44. *)
| PieceAxisRecord : piece AxisRecord
(** [InstanceRecord::read], src/tables/font_variations/mod.rs:98-109. *)
| PieceInstanceRecord (axis_count : N) : piece InstanceRecord
(** [Flags::read], src/layout/lookup.rs:28-38. *)
| PieceLookupFlags : piece N
(** [Flags::read], src/tables/glyph_positioning/element.rs:217-230. *)
| PieceValueFlags : piece N
(** [AxisFlags::read], src/tables/font_variations/mod.rs:57-63. *)
| PieceAxisFlags : piece N
(** [InstanceFlags::read], src/tables/font_variations/mod.rs:65-70. *)
| PieceInstanceFlags : piece N.

(** The code that is run. *)
Definition piece_reader {A} (r : piece A) : M A :=
  match r with
  | PieceCoverageRecord => read_coverage_record
  | PieceCoverage1 => read_coverage1
  | PieceCoverage2 => read_coverage2
  | PieceCoverage => read_coverage
  | PieceClassRecord => read_class_record
  | PieceClass1 => read_class1
  | PieceClass2 => read_class2
  | PieceClass => read_class
  | PieceDevice => read_device
  | PieceVariation => read_variation
  | PieceCorrection => read_correction
  | PieceAction => read_action
  | PieceContextRecord => read_context_record
  | PieceContextRecords => read_context_records
  | PieceContextClassRecord => read_context_class_record
  | PieceContextClassRecords => read_context_class_records
  | PieceChainedRecord => read_chained_record
  | PieceChainedRecords => read_chained_records
  | PieceChainedClassRecord => read_chained_class_record
  | PieceChainedClassRecords => read_chained_class_records
  | PieceContext1 => read_context1
  | PieceContext2 => read_context2
  | PieceContext3 => read_context3
  | PieceContext => read_context
  | PieceChainedContext1 => read_chained_context1
  | PieceChainedContext2 => read_chained_context2
  | PieceChainedContext3 => read_chained_context3
  | PieceChainedContext => read_chained_context
  | PieceLanguageHeader => read_language_header
  | PieceLanguageRecord => read_language_record
  | PieceScriptHeader => read_script_header
  | PieceScriptRecord => read_script_record
  | PieceScripts => read_scripts
  | PieceFeatureHeader => read_feature_header
  | PieceFeatureRecord => read_feature_record
  | PieceFeatures => read_features
  | PieceFeatureVariations => read_feature_variations
  | PieceGsubLookupRecord => read_lookup_record read_gsub_type
  | PieceGsubLookups => read_lookups read_gsub_type
  | PieceGposLookupRecord => read_lookup_record read_gpos_type
  | PieceGposLookups => read_lookups read_gpos_type
  | PieceStoreRecord => read_store_record
  | PieceStore => read_store
  | PieceAlternates => read_alternates
  | PieceLigature => read_ligature
  | PieceLigatures => read_ligatures
  | PieceSequence => read_sequence
  | PieceSingleSubstitution1 => read_single_substitution1
  | PieceSingleSubstitution2 => read_single_substitution2
  | PieceSingleSubstitution => read_single_substitution
  | PieceMultipleSubstitution => read_multiple_substitution
  | PieceAlternateSubstitution => read_alternate_substitution
  | PieceLigatureSubstitution => read_ligature_substitution
  | PieceExtensionSubstitution => read_extension_substitution
  | PieceReverseChainedContextualSubstibution => read_reverse_chained_contextual_substibution
  | PieceGsubType type_ => read_gsub_type type_
  | PieceAnchor1 => read_anchor1
  | PieceAnchor2 => read_anchor2
  | PieceAnchor3 => read_anchor3
  | PieceAnchor => read_anchor
  | PieceBase position mark_class_count => read_base position mark_class_count
  | PieceBases mark_class_count => read_bases mark_class_count
  | PieceComponent position mark_class_count => read_component position mark_class_count
  | PieceGposLigature mark_class_count => read_gpos_ligature mark_class_count
  | PieceGposLigatures mark_class_count => read_gpos_ligatures mark_class_count
  | PieceMark1 position => read_mark1 position
  | PieceMark1s => read_mark1s
  | PieceMark2 position mark_class_count => read_mark2 position mark_class_count
  | PieceMark2s mark_class_count => read_mark2s mark_class_count
  | PieceConnection position => read_connection position
  | PieceSingle position flags => read_single position flags
  | PiecePair1 position value1_flags value2_flags => read_pair1 position value1_flags value2_flags
  | PiecePair1s value1_flags value2_flags => read_pair1s value1_flags value2_flags
  | PiecePair2 position value1_flags value2_flags => read_pair2 position value1_flags value2_flags
  | PiecePair2s position class2_count value1_flags value2_flags =>
      read_pair2s position class2_count value1_flags value2_flags
  | PieceSingleAdjustment1 => read_single_adjustment1
  | PieceSingleAdjustment2 => read_single_adjustment2
  | PieceSingleAdjustment => read_single_adjustment
  | PiecePairAdjustment1 => read_pair_adjustment1
  | PiecePairAdjustment2 => read_pair_adjustment2
  | PiecePairAdjustment => read_pair_adjustment
  | PieceCursiveAttachment => read_cursive_attachment
  | PieceMarkToBaseAttachment => read_mark_to_base_attachment
  | PieceMarkToLigatureAttachment => read_mark_to_ligature_attachment
  | PieceMarkToMarkAttachment => read_mark_to_mark_attachment
  | PieceExtensionPositioning => read_extension_positioning
  | PieceGposType type_ => read_gpos_type type_
  | PieceAttachment => read_attachment
  | PieceAttachments => read_attachments
  | PieceCaret1 => read_caret1
  | PieceCaret2 => read_caret2
  | PieceCaret3 => read_caret3
  | PieceCaret => read_caret
  | PieceGdefLigature => read_gdef_ligature
  | PieceGdefLigatures => read_gdef_ligatures
  | PieceMarks => read_marks
  | PieceGdefHeader1 => read_gdef_header1
  | PieceGdefHeader12 => read_gdef_header12
  | PieceGdefHeader13 => read_gdef_header13
  | PieceGdefHeader => read_gdef_header
  | PieceCpalHeader0 => read_cpal_header0
  | PieceCpalHeader1 => read_cpal_header1
  | PieceCpalHeader => read_cpal_header
  | PieceColor => read_color
  | PieceFvarHeader => read_fvar_header
  | PieceAxisRecord => read_axis_record
  | PieceInstanceRecord axis_count => read_instance_record axis_count
  | PieceLookupFlags => take_lookup_flags
  | PieceValueFlags => take_value_flags
  | PieceAxisFlags => take_axis_flags
  | PieceInstanceFlags => take_instance_flags
  end.

(** The format. *)
Definition piece_conforms {A} (o : options) (r : piece A) (f : file) : N -> A -> Prop :=
  match r in piece A return N -> A -> Prop with
  | PieceCoverageRecord => coverage_record_at f
  | PieceCoverage1 => coverage1_at f
  | PieceCoverage2 => coverage2_at f
  | PieceCoverage => coverage_at f
  | PieceClassRecord => class_record_at f
  | PieceClass1 => class1_at f
  | PieceClass2 => class2_at f
  | PieceClass => class_at f
  | PieceDevice => device_at f
  | PieceVariation => variation_at f
  | PieceCorrection => correction_at f
  | PieceAction => action_at f
  | PieceContextRecord => context_record_at f
  | PieceContextRecords => context_records_at f
  | PieceContextClassRecord => context_class_record_at f
  | PieceContextClassRecords => context_class_records_at f
  | PieceChainedRecord => chained_record_at f
  | PieceChainedRecords => chained_records_at f
  | PieceChainedClassRecord => chained_class_record_at f
  | PieceChainedClassRecords => chained_class_records_at f
  | PieceContext1 => context1_at f
  | PieceContext2 => context2_at f
  | PieceContext3 => context3_at f
  | PieceContext => context_at f
  | PieceChainedContext1 => chained_context1_at f
  | PieceChainedContext2 => chained_context2_at f
  | PieceChainedContext3 => chained_context3_at f
  | PieceChainedContext => chained_context_at f
  | PieceLanguageHeader => language_header_at f
  | PieceLanguageRecord => language_record_at f
  | PieceScriptHeader => script_header_at f
  | PieceScriptRecord => script_record_at f
  | PieceScripts => scripts_at f
  | PieceFeatureHeader => feature_header_at f
  | PieceFeatureRecord => feature_record_at f
  | PieceFeatures => features_at f
  | PieceFeatureVariations => feature_variations_at f
  | PieceGsubLookupRecord => lookup_record_at o gsub_type_at f
  | PieceGsubLookups => lookups_at o gsub_type_at f
  | PieceGposLookupRecord => lookup_record_at o (gpos_type_at o) f
  | PieceGposLookups => lookups_at o (gpos_type_at o) f
  | PieceStoreRecord => store_record_at o f
  | PieceStore => store_at o f
  | PieceAlternates => alternates_at f
  | PieceLigature => ligature_at f
  | PieceLigatures => ligatures_at f
  | PieceSequence => sequence_at f
  | PieceSingleSubstitution1 => single_substitution1_at f
  | PieceSingleSubstitution2 => single_substitution2_at f
  | PieceSingleSubstitution => single_substitution_at f
  | PieceMultipleSubstitution => multiple_substitution_at f
  | PieceAlternateSubstitution => alternate_substitution_at f
  | PieceLigatureSubstitution => ligature_substitution_at f
  | PieceExtensionSubstitution => extension_substitution_at f
  | PieceReverseChainedContextualSubstibution => reverse_chained_contextual_substibution_at f
  | PieceGsubType type_ => gsub_type_at type_ f
  | PieceAnchor1 => anchor1_at f
  | PieceAnchor2 => anchor2_at f
  | PieceAnchor3 => anchor3_at f
  | PieceAnchor => anchor_at f
  | PieceBase position mark_class_count => base_at f position mark_class_count
  | PieceBases mark_class_count => bases_at f mark_class_count
  | PieceComponent position mark_class_count => component_at f position mark_class_count
  | PieceGposLigature mark_class_count => gpos_ligature_at f mark_class_count
  | PieceGposLigatures mark_class_count => gpos_ligatures_at f mark_class_count
  | PieceMark1 position => mark1_at o f position
  | PieceMark1s => mark1s_at o f
  | PieceMark2 position mark_class_count => mark2_at f position mark_class_count
  | PieceMark2s mark_class_count => mark2s_at f mark_class_count
  | PieceConnection position => connection_at f position
  | PieceSingle position flags => single_at f position flags
  | PiecePair1 position value1_flags value2_flags => pair1_at f position value1_flags value2_flags
  | PiecePair1s value1_flags value2_flags => pair1s_at f value1_flags value2_flags
  | PiecePair2 position value1_flags value2_flags => pair2_at f position value1_flags value2_flags
  | PiecePair2s position class2_count value1_flags value2_flags =>
      pair2s_at f position class2_count value1_flags value2_flags
  | PieceSingleAdjustment1 => single_adjustment1_at o f
  | PieceSingleAdjustment2 => single_adjustment2_at o f
  | PieceSingleAdjustment => single_adjustment_at o f
  | PiecePairAdjustment1 => pair_adjustment1_at o f
  | PiecePairAdjustment2 => pair_adjustment2_at o f
  | PiecePairAdjustment => pair_adjustment_at o f
  | PieceCursiveAttachment => cursive_attachment_at f
  | PieceMarkToBaseAttachment => mark_to_base_attachment_at o f
  | PieceMarkToLigatureAttachment => mark_to_ligature_attachment_at o f
  | PieceMarkToMarkAttachment => mark_to_mark_attachment_at o f
  | PieceExtensionPositioning => extension_positioning_at f
  | PieceGposType type_ => gpos_type_at o type_ f
  | PieceAttachment => attachment_at f
  | PieceAttachments => attachments_at f
  | PieceCaret1 => caret1_at f
  | PieceCaret2 => caret2_at f
  | PieceCaret3 => caret3_at f
  | PieceCaret => caret_at f
  | PieceGdefLigature => gdef_ligature_at f
  | PieceGdefLigatures => gdef_ligatures_at f
  | PieceMarks => marks_at f
  | PieceGdefHeader1 => gdef_header1_at f
  | PieceGdefHeader12 => gdef_header12_at f
  | PieceGdefHeader13 => gdef_header13_at f
  | PieceGdefHeader => gdef_header_at f
  | PieceCpalHeader0 => cpal_header0_at f
  | PieceCpalHeader1 => cpal_header1_at f
  | PieceCpalHeader => cpal_header_at f
  | PieceColor => color_at f
  | PieceFvarHeader => fvar_header_at f
  | PieceAxisRecord => axis_record_at o f
  | PieceInstanceRecord axis_count => instance_record_at o f axis_count
  | PieceLookupFlags => flags_at (checked_flags o) 0x00E0 f
  | PieceValueFlags => flags_at (checked_flags o) 0xFF00 f
  | PieceAxisFlags => flags_at (checked_flags o) 0xFFFE f
  | PieceInstanceFlags => flags_at (checked_flags o) 0xFFFF f
  end.

(** Where offsets are counted from, if that is a parameter. *)
Definition piece_base {A} (r : piece A) : N :=
  match r with
  | PieceBase position _ => position
  | PieceComponent position _ => position
  | PieceMark1 position => position
  | PieceMark2 position _ => position
  | PieceConnection position => position
  | PieceSingle position _ => position
  | PiecePair1 position _ _ => position
  | PiecePair2 position _ _ => position
  | PiecePair2s position _ _ _ => position
  | _ => 0
  end.

(** The same part, in a file with [k] bytes more in front. *)
Definition shifted (k : N) {A} (r : piece A) : piece A :=
  match r with
  | PieceBase position mark_class_count => PieceBase (k + position) mark_class_count
  | PieceComponent position mark_class_count => PieceComponent (k + position) mark_class_count
  | PieceMark1 position => PieceMark1 (k + position)
  | PieceMark2 position mark_class_count => PieceMark2 (k + position) mark_class_count
  | PieceConnection position => PieceConnection (k + position)
  | PieceSingle position flags => PieceSingle (k + position) flags
  | PiecePair1 position value1_flags value2_flags => PiecePair1 (k + position) value1_flags value2_flags
  | PiecePair2 position value1_flags value2_flags => PiecePair2 (k + position) value1_flags value2_flags
  | PiecePair2s position class2_count value1_flags value2_flags =>
      PiecePair2s (k + position) class2_count value1_flags value2_flags
  | r => r
  end.

(** Item variations, whose counts are added (C33). *)
Definition has_store {A} (r : piece A) : bool :=
  match r with
  | PieceStoreRecord => true
  | PieceStore => true
  | _ => false
  end.

(** The operations on a tape that are performed (Steps.v). *)
Definition piece_steps {A} (r : piece A) : Steps.steps A :=
  match r with
  | PieceCoverageRecord => StepsReaders.read_coverage_record
  | PieceCoverage1 => StepsReaders.read_coverage1
  | PieceCoverage2 => StepsReaders.read_coverage2
  | PieceCoverage => StepsReaders.read_coverage
  | PieceClassRecord => StepsReaders.read_class_record
  | PieceClass1 => StepsReaders.read_class1
  | PieceClass2 => StepsReaders.read_class2
  | PieceClass => StepsReaders.read_class
  | PieceDevice => StepsReaders.read_device
  | PieceVariation => StepsReaders.read_variation
  | PieceCorrection => StepsReaders.read_correction
  | PieceAction => StepsReaders.read_action
  | PieceContextRecord => StepsReaders.read_context_record
  | PieceContextRecords => StepsReaders.read_context_records
  | PieceContextClassRecord => StepsReaders.read_context_class_record
  | PieceContextClassRecords => StepsReaders.read_context_class_records
  | PieceChainedRecord => StepsReaders.read_chained_record
  | PieceChainedRecords => StepsReaders.read_chained_records
  | PieceChainedClassRecord => StepsReaders.read_chained_class_record
  | PieceChainedClassRecords => StepsReaders.read_chained_class_records
  | PieceContext1 => StepsReaders.read_context1
  | PieceContext2 => StepsReaders.read_context2
  | PieceContext3 => StepsReaders.read_context3
  | PieceContext => StepsReaders.read_context
  | PieceChainedContext1 => StepsReaders.read_chained_context1
  | PieceChainedContext2 => StepsReaders.read_chained_context2
  | PieceChainedContext3 => StepsReaders.read_chained_context3
  | PieceChainedContext => StepsReaders.read_chained_context
  | PieceLanguageHeader => StepsReaders.read_language_header
  | PieceLanguageRecord => StepsReaders.read_language_record
  | PieceScriptHeader => StepsReaders.read_script_header
  | PieceScriptRecord => StepsReaders.read_script_record
  | PieceScripts => StepsReaders.read_scripts
  | PieceFeatureHeader => StepsReaders.read_feature_header
  | PieceFeatureRecord => StepsReaders.read_feature_record
  | PieceFeatures => StepsReaders.read_features
  | PieceFeatureVariations => StepsReaders.read_feature_variations
  | PieceGsubLookupRecord => StepsReaders.read_lookup_record StepsReaders.read_gsub_type
  | PieceGsubLookups => StepsReaders.read_lookups StepsReaders.read_gsub_type
  | PieceGposLookupRecord => StepsReaders.read_lookup_record StepsReaders.read_gpos_type
  | PieceGposLookups => StepsReaders.read_lookups StepsReaders.read_gpos_type
  | PieceStoreRecord => StepsReaders.read_store_record
  | PieceStore => StepsReaders.read_store
  | PieceAlternates => StepsReaders.read_alternates
  | PieceLigature => StepsReaders.read_ligature
  | PieceLigatures => StepsReaders.read_ligatures
  | PieceSequence => StepsReaders.read_sequence
  | PieceSingleSubstitution1 => StepsReaders.read_single_substitution1
  | PieceSingleSubstitution2 => StepsReaders.read_single_substitution2
  | PieceSingleSubstitution => StepsReaders.read_single_substitution
  | PieceMultipleSubstitution => StepsReaders.read_multiple_substitution
  | PieceAlternateSubstitution => StepsReaders.read_alternate_substitution
  | PieceLigatureSubstitution => StepsReaders.read_ligature_substitution
  | PieceExtensionSubstitution => StepsReaders.read_extension_substitution
  | PieceReverseChainedContextualSubstibution => StepsReaders.read_reverse_chained_contextual_substibution
  | PieceGsubType type_ => StepsReaders.read_gsub_type type_
  | PieceAnchor1 => StepsReaders.read_anchor1
  | PieceAnchor2 => StepsReaders.read_anchor2
  | PieceAnchor3 => StepsReaders.read_anchor3
  | PieceAnchor => StepsReaders.read_anchor
  | PieceBase position mark_class_count => StepsReaders.read_base position mark_class_count
  | PieceBases mark_class_count => StepsReaders.read_bases mark_class_count
  | PieceComponent position mark_class_count => StepsReaders.read_component position mark_class_count
  | PieceGposLigature mark_class_count => StepsReaders.read_gpos_ligature mark_class_count
  | PieceGposLigatures mark_class_count => StepsReaders.read_gpos_ligatures mark_class_count
  | PieceMark1 position => StepsReaders.read_mark1 position
  | PieceMark1s => StepsReaders.read_mark1s
  | PieceMark2 position mark_class_count => StepsReaders.read_mark2 position mark_class_count
  | PieceMark2s mark_class_count => StepsReaders.read_mark2s mark_class_count
  | PieceConnection position => StepsReaders.read_connection position
  | PieceSingle position flags => StepsReaders.read_single position flags
  | PiecePair1 position value1_flags value2_flags =>
      StepsReaders.read_pair1 position value1_flags value2_flags
  | PiecePair1s value1_flags value2_flags => StepsReaders.read_pair1s value1_flags value2_flags
  | PiecePair2 position value1_flags value2_flags =>
      StepsReaders.read_pair2 position value1_flags value2_flags
  | PiecePair2s position class2_count value1_flags value2_flags =>
      StepsReaders.read_pair2s position class2_count value1_flags value2_flags
  | PieceSingleAdjustment1 => StepsReaders.read_single_adjustment1
  | PieceSingleAdjustment2 => StepsReaders.read_single_adjustment2
  | PieceSingleAdjustment => StepsReaders.read_single_adjustment
  | PiecePairAdjustment1 => StepsReaders.read_pair_adjustment1
  | PiecePairAdjustment2 => StepsReaders.read_pair_adjustment2
  | PiecePairAdjustment => StepsReaders.read_pair_adjustment
  | PieceCursiveAttachment => StepsReaders.read_cursive_attachment
  | PieceMarkToBaseAttachment => StepsReaders.read_mark_to_base_attachment
  | PieceMarkToLigatureAttachment => StepsReaders.read_mark_to_ligature_attachment
  | PieceMarkToMarkAttachment => StepsReaders.read_mark_to_mark_attachment
  | PieceExtensionPositioning => StepsReaders.read_extension_positioning
  | PieceGposType type_ => StepsReaders.read_gpos_type type_
  | PieceAttachment => StepsReaders.read_attachment
  | PieceAttachments => StepsReaders.read_attachments
  | PieceCaret1 => StepsReaders.read_caret1
  | PieceCaret2 => StepsReaders.read_caret2
  | PieceCaret3 => StepsReaders.read_caret3
  | PieceCaret => StepsReaders.read_caret
  | PieceGdefLigature => StepsReaders.read_gdef_ligature
  | PieceGdefLigatures => StepsReaders.read_gdef_ligatures
  | PieceMarks => StepsReaders.read_marks
  | PieceGdefHeader1 => StepsReaders.read_gdef_header1
  | PieceGdefHeader12 => StepsReaders.read_gdef_header12
  | PieceGdefHeader13 => StepsReaders.read_gdef_header13
  | PieceGdefHeader => StepsReaders.read_gdef_header
  | PieceCpalHeader0 => StepsReaders.read_cpal_header0
  | PieceCpalHeader1 => StepsReaders.read_cpal_header1
  | PieceCpalHeader => StepsReaders.read_cpal_header
  | PieceColor => StepsReaders.read_color
  | PieceFvarHeader => StepsReaders.read_fvar_header
  | PieceAxisRecord => StepsReaders.read_axis_record
  | PieceInstanceRecord axis_count => StepsReaders.read_instance_record axis_count
  | PieceLookupFlags => StepsReaders.take_lookup_flags
  | PieceValueFlags => StepsReaders.take_value_flags
  | PieceAxisFlags => StepsReaders.take_axis_flags
  | PieceInstanceFlags => StepsReaders.take_instance_flags
  end.
