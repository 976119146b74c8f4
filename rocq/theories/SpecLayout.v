(** The binary formats shared by the layout tables, stated without a reader: which
    values are at which positions.

    [x_at f p v] says that the file [f] has at position [p] a structure [x] of value
    [v].  Linked structures are at [p] plus their offset.  The names in brackets are
    those of the OpenType specification. *)

From Verif Require Export Options Bytes Types.

(** [RangeRecord]. *)
Definition coverage_record_at (f : file) (p : N) (v : CoverageRecord) : Prop :=
  let '(mkCoverageRecord start_glyph_id end_glyph_id index) := v in
  u16_at f p start_glyph_id /\
  u16_at f (p + 2) end_glyph_id /\
  u16_at f (p + 4) index.

(** [CoverageFormat1]. *)
Definition coverage1_at (f : file) (p : N) (v : Coverage1) : Prop :=
  let '(mkCoverage1 format glyph_count glyph_ids) := v in
  u16_at f p format /\
  u16_at f (p + 2) glyph_count /\
  u16s_at f (p + 4) glyph_count glyph_ids.

(** [CoverageFormat2]. *)
Definition coverage2_at (f : file) (p : N) (v : Coverage2) : Prop :=
  let '(mkCoverage2 format record_count records) := v in
  u16_at f p format /\
  u16_at f (p + 2) record_count /\
  vec_at (coverage_record_at f) 6 (p + 4) record_count records.

(** A coverage table: the variant is the one its format names. *)
Definition coverage_at (f : file) (p : N) (v : Coverage) : Prop :=
  match v with
  | CoverageFormat1 t => coverage1_format t = 1 /\ coverage1_at f p t
  | CoverageFormat2 t => coverage2_format t = 2 /\ coverage2_at f p t
  end.

(** [ClassRangeRecord]. *)
Definition class_record_at (f : file) (p : N) (v : ClassRecord) : Prop :=
  let '(mkClassRecord start_glyph_id end_glyph_id index) := v in
  u16_at f p start_glyph_id /\
  u16_at f (p + 2) end_glyph_id /\
  u16_at f (p + 4) index.

(** [ClassDefFormat1]. *)
Definition class1_at (f : file) (p : N) (v : Class1) : Prop :=
  let '(mkClass1 format start_glyph_id glyph_count indices) := v in
  u16_at f p format /\
  u16_at f (p + 2) start_glyph_id /\
  u16_at f (p + 4) glyph_count /\
  u16s_at f (p + 6) glyph_count indices.

(** [ClassDefFormat2]. *)
Definition class2_at (f : file) (p : N) (v : Class2) : Prop :=
  let '(mkClass2 format record_count records) := v in
  u16_at f p format /\
  u16_at f (p + 2) record_count /\
  vec_at (class_record_at f) 6 (p + 4) record_count records.

(** [ClassDef]. *)
Definition class_at (f : file) (p : N) (v : Class) : Prop :=
  match v with
  | ClassFormat1 t => class1_format t = 1 /\ class1_at f p t
  | ClassFormat2 t => class2_format t = 2 /\ class2_at f p t
  end.

(** [Device].  The deltas of sizes [start_size] to [end_size] take [2 ^ format] bits
    each, packed into 16-bit words.  The code always reads one word more than the
    number of words those bits fill up (property C40 is about that). *)
Definition device_bits (start_size end_size format : N) : N :=
  2 ^ format * (end_size - start_size + 1).

Definition device_at (f : file) (p : N) (v : Device) : Prop :=
  let '(mkDevice start_size end_size format deltas) := v in
  u16_at f p start_size /\
  u16_at f (p + 2) end_size /\
  start_size <= end_size /\
  u16_at f (p + 4) format /\
  1 <= format <= 3 /\
  u16s_at f (p + 6) (device_bits start_size end_size format / 16 + 1) deltas.

(** [VariationIndex]. *)
Definition variation_at (f : file) (p : N) (v : Variation) : Prop :=
  let '(mkVariation outer_index inner_index format) := v in
  u16_at f p outer_index /\
  u16_at f (p + 2) inner_index /\
  u16_at f (p + 4) format.

(** [Device] or [VariationIndex], told apart by the format in the third word. *)
Definition correction_at (f : file) (p : N) (v : Correction) : Prop :=
  match v with
  | CorrectionDevice t => device_at f p t
  | CorrectionVariation t => variation_format t = 0x8000 /\ variation_at f p t
  end.

(** [SequenceLookupRecord]. *)
Definition action_at (f : file) (p : N) (v : Action) : Prop :=
  let '(mkAction position_index lookup_index) := v in
  u16_at f p position_index /\
  u16_at f (p + 2) lookup_index.

(** [SequenceRule]. *)
Definition context_record_at (f : file) (p : N) (v : ContextRecord) : Prop :=
  let '(mkContextRecord glyph_count action_count glyph_ids actions) := v in
  u16_at f p glyph_count /\
  u16_at f (p + 2) action_count /\
  1 <= glyph_count /\
  u16s_at f (p + 4) (glyph_count - 1) glyph_ids /\
  vec_at (action_at f) 4 (p + 4 + 2 * (glyph_count - 1)) action_count actions.

(** [SequenceRuleSet]. *)
Definition context_records_at (f : file) (p : N) (v : ContextRecords) : Prop :=
  let '(mkContextRecords count offsets records) := v in
  u16_at f p count /\
  u16s_at f (p + 2) count offsets /\
  linked_at (context_record_at f) p offsets records.

(** [ClassSequenceRule]. *)
Definition context_class_record_at (f : file) (p : N) (v : ContextClassRecord) : Prop :=
  let '(mkContextClassRecord glyph_count action_count indices actions) := v in
  u16_at f p glyph_count /\
  u16_at f (p + 2) action_count /\
  1 <= glyph_count /\
  u16s_at f (p + 4) (glyph_count - 1) indices /\
  vec_at (action_at f) 4 (p + 4 + 2 * (glyph_count - 1)) action_count actions.

(** [ClassSequenceRuleSet]. *)
Definition context_class_records_at (f : file) (p : N) (v : ContextClassRecords) : Prop :=
  let '(mkContextClassRecords count offsets records) := v in
  u16_at f p count /\
  u16s_at f (p + 2) count offsets /\
  linked_at (context_class_record_at f) p offsets records.

(** [ChainedSequenceRule]. *)
Definition chained_record_at (f : file) (p : N) (v : ChainedRecord) : Prop :=
  let '(mkChainedRecord backward_glyph_count backward_glyph_ids glyph_count glyph_ids
    forward_glyph_count forward_glyph_ids action_count actions) := v in
  u16_at f p backward_glyph_count /\
  u16s_at f (p + 2) backward_glyph_count backward_glyph_ids /\
  u16_at f (p + 2 + 2 * backward_glyph_count) glyph_count /\
  1 <= glyph_count /\
  u16s_at f (p + 4 + 2 * backward_glyph_count) (glyph_count - 1) glyph_ids /\
  u16_at f (p + 4 + 2 * backward_glyph_count + 2 * (glyph_count - 1)) forward_glyph_count /\
  u16s_at f (p + 6 + 2 * backward_glyph_count + 2 * (glyph_count - 1))
    forward_glyph_count forward_glyph_ids /\
  u16_at f (p + 6 + 2 * backward_glyph_count + 2 * (glyph_count - 1) + 2 * forward_glyph_count)
    action_count /\
  vec_at (action_at f) 4 (p + 8 + 2 * backward_glyph_count + 2 * (glyph_count - 1) + 2 * forward_glyph_count)
    action_count actions.

(** [ChainedSequenceRuleSet]. *)
Definition chained_records_at (f : file) (p : N) (v : ChainedRecords) : Prop :=
  let '(mkChainedRecords count offsets records) := v in
  u16_at f p count /\
  u16s_at f (p + 2) count offsets /\
  linked_at (chained_record_at f) p offsets records.

(** [ChainedClassSequenceRule]. *)
Definition chained_class_record_at (f : file) (p : N) (v : ChainedClassRecord) : Prop :=
  let '(mkChainedClassRecord backward_glyph_count backward_indices glyph_count indices
    forward_glyph_count forward_indices action_count actions) := v in
  u16_at f p backward_glyph_count /\
  u16s_at f (p + 2) backward_glyph_count backward_indices /\
  u16_at f (p + 2 + 2 * backward_glyph_count) glyph_count /\
  1 <= glyph_count /\
  u16s_at f (p + 4 + 2 * backward_glyph_count) (glyph_count - 1) indices /\
  u16_at f (p + 4 + 2 * backward_glyph_count + 2 * (glyph_count - 1)) forward_glyph_count /\
  u16s_at f (p + 6 + 2 * backward_glyph_count + 2 * (glyph_count - 1))
    forward_glyph_count forward_indices /\
  u16_at f (p + 6 + 2 * backward_glyph_count + 2 * (glyph_count - 1) + 2 * forward_glyph_count)
    action_count /\
  vec_at (action_at f) 4 (p + 8 + 2 * backward_glyph_count + 2 * (glyph_count - 1) + 2 * forward_glyph_count)
    action_count actions.

(** [ChainedClassSequenceRuleSet]. *)
Definition chained_class_records_at (f : file) (p : N) (v : ChainedClassRecords) : Prop :=
  let '(mkChainedClassRecords count offsets records) := v in
  u16_at f p count /\
  u16s_at f (p + 2) count offsets /\
  linked_at (chained_class_record_at f) p offsets records.

(** [SequenceContextFormat1]. *)
Definition context1_at (f : file) (p : N) (v : Context1) : Prop :=
  let '(mkContext1 format coverage_offset record_count record_offsets coverage records) := v in
  u16_at f p format /\
  u16_at f (p + 2) coverage_offset /\
  u16_at f (p + 4) record_count /\
  u16s_at f (p + 6) record_count record_offsets /\
  coverage_at f (p + coverage_offset) coverage /\
  linked_at (context_records_at f) p record_offsets records.

(** [SequenceContextFormat2]. *)
Definition context2_at (f : file) (p : N) (v : Context2) : Prop :=
  let '(mkContext2 format coverage_offset class_offset record_count record_offsets coverage
    class records) := v in
  u16_at f p format /\
  u16_at f (p + 2) coverage_offset /\
  u16_at f (p + 4) class_offset /\
  u16_at f (p + 6) record_count /\
  u16s_at f (p + 8) record_count record_offsets /\
  coverage_at f (p + coverage_offset) coverage /\
  class_at f (p + class_offset) class /\
  maybes_at (context_class_records_at f) p record_offsets records.

(** [SequenceContextFormat3]. *)
Definition context3_at (f : file) (p : N) (v : Context3) : Prop :=
  let '(mkContext3 format glyph_count action_count coverage_offsets actions coverages) := v in
  u16_at f p format /\
  u16_at f (p + 2) glyph_count /\
  u16_at f (p + 4) action_count /\
  u16s_at f (p + 6) glyph_count coverage_offsets /\
  vec_at (action_at f) 4 (p + 6 + 2 * glyph_count) action_count actions /\
  linked_at (coverage_at f) p coverage_offsets coverages.

(** [SequenceContext]. *)
Definition context_at (f : file) (p : N) (v : Context) : Prop :=
  match v with
  | ContextFormat1 t => context1_format t = 1 /\ context1_at f p t
  | ContextFormat2 t => context2_format t = 2 /\ context2_at f p t
  | ContextFormat3 t => context3_format t = 3 /\ context3_at f p t
  end.

(** [ChainedSequenceContextFormat1]. *)
Definition chained_context1_at (f : file) (p : N) (v : ChainedContext1) : Prop :=
  let '(mkChainedContext1 format coverage_offset record_count record_offsets coverage records)
    := v in
  u16_at f p format /\
  u16_at f (p + 2) coverage_offset /\
  u16_at f (p + 4) record_count /\
  u16s_at f (p + 6) record_count record_offsets /\
  coverage_at f (p + coverage_offset) coverage /\
  linked_at (chained_records_at f) p record_offsets records.

(** [ChainedSequenceContextFormat2]. *)
Definition chained_context2_at (f : file) (p : N) (v : ChainedContext2) : Prop :=
  let '(mkChainedContext2 format coverage_offset backward_class_offset class_offset
    forward_class_offset record_count record_offsets coverage backward_class class forward_class
    records) := v in
  u16_at f p format /\
  u16_at f (p + 2) coverage_offset /\
  u16_at f (p + 4) backward_class_offset /\
  u16_at f (p + 6) class_offset /\
  u16_at f (p + 8) forward_class_offset /\
  u16_at f (p + 10) record_count /\
  u16s_at f (p + 12) record_count record_offsets /\
  coverage_at f (p + coverage_offset) coverage /\
  class_at f (p + backward_class_offset) backward_class /\
  class_at f (p + class_offset) class /\
  class_at f (p + forward_class_offset) forward_class /\
  maybes_at (chained_class_records_at f) p record_offsets records.

(** [ChainedSequenceContextFormat3]. *)
Definition chained_context3_at (f : file) (p : N) (v : ChainedContext3) : Prop :=
  let '(mkChainedContext3 format backward_glyph_count backward_coverage_offsets glyph_count
    coverage_offsets forward_glyph_count forward_coverage_offsets action_count actions
    backward_coverages coverages forward_coverages) := v in
  u16_at f p format /\
  u16_at f (p + 2) backward_glyph_count /\
  u16s_at f (p + 4) backward_glyph_count backward_coverage_offsets /\
  u16_at f (p + 4 + 2 * backward_glyph_count) glyph_count /\
  u16s_at f (p + 6 + 2 * backward_glyph_count) glyph_count coverage_offsets /\
  u16_at f (p + 6 + 2 * backward_glyph_count + 2 * glyph_count) forward_glyph_count /\
  u16s_at f (p + 8 + 2 * backward_glyph_count + 2 * glyph_count)
    forward_glyph_count forward_coverage_offsets /\
  u16_at f (p + 8 + 2 * backward_glyph_count + 2 * glyph_count + 2 * forward_glyph_count)
    action_count /\
  vec_at (action_at f) 4 (p + 10 + 2 * backward_glyph_count + 2 * glyph_count + 2 * forward_glyph_count)
    action_count actions /\
  linked_at (coverage_at f) p backward_coverage_offsets backward_coverages /\
  linked_at (coverage_at f) p coverage_offsets coverages /\
  linked_at (coverage_at f) p forward_coverage_offsets forward_coverages.

(** [ChainedSequenceContext]. *)
Definition chained_context_at (f : file) (p : N) (v : ChainedContext) : Prop :=
  match v with
  | ChainedContextFormat1 t => chained_context1_format t = 1 /\ chained_context1_at f p t
  | ChainedContextFormat2 t => chained_context2_format t = 2 /\ chained_context2_at f p t
  | ChainedContextFormat3 t => chained_context3_format t = 3 /\ chained_context3_at f p t
  end.

(** [LangSysRecord]. *)
Definition language_header_at (f : file) (p : N) (v : LanguageHeader) : Prop :=
  let '(mkLanguageHeader tag offset) := v in
  tag_at f p tag /\
  u16_at f (p + 4) offset.

(** [LangSys]. *)
Definition language_record_at (f : file) (p : N) (v : LanguageRecord) : Prop :=
  let '(mkLanguageRecord lookup_order_offset required_feature_index feature_index_count
    feature_indices) := v in
  u16_at f p lookup_order_offset /\ lookup_order_offset = 0 /\
  u16_at f (p + 2) required_feature_index /\
  u16_at f (p + 4) feature_index_count /\
  u16s_at f (p + 6) feature_index_count feature_indices.

(** [ScriptRecord]. *)
Definition script_header_at (f : file) (p : N) (v : ScriptHeader) : Prop :=
  let '(mkScriptHeader tag offset) := v in
  tag_at f p tag /\
  u16_at f (p + 4) offset.

(** [Script]. *)
Definition script_record_at (f : file) (p : N) (v : ScriptRecord) : Prop :=
  let '(mkScriptRecord default_language_offset language_count language_headers default_language
    language_records) := v in
  u16_at f p default_language_offset /\
  u16_at f (p + 2) language_count /\
  vec_at (language_header_at f) 6 (p + 4) language_count language_headers /\
  maybe_at (language_record_at f) p default_language_offset default_language /\
  linked_at (language_record_at f) p (map language_header_offset language_headers)
    language_records.

(** [ScriptList]. *)
Definition scripts_at (f : file) (p : N) (v : Scripts) : Prop :=
  let '(mkScripts count headers records) := v in
  u16_at f p count /\
  vec_at (script_header_at f) 6 (p + 2) count headers /\
  linked_at (script_record_at f) p (map script_header_offset headers) records.

(** [FeatureRecord]. *)
Definition feature_header_at (f : file) (p : N) (v : FeatureHeader) : Prop :=
  let '(mkFeatureHeader tag offset) := v in
  tag_at f p tag /\
  u16_at f (p + 4) offset.

(** [Feature].  The parameters are reported as present exactly when their offset is
    not zero, but always as empty (property C43 is about that). *)
Definition feature_record_at (f : file) (p : N) (v : FeatureRecord) : Prop :=
  let '(mkFeatureRecord parameter_offset lookup_index_count lookup_indices parameters) := v in
  u16_at f p parameter_offset /\
  u16_at f (p + 2) lookup_index_count /\
  u16s_at f (p + 4) lookup_index_count lookup_indices /\
  match parameters with
  | None => parameter_offset = 0
  | Some bytes => parameter_offset <> 0 /\ bytes = []
  end.

(** [FeatureList]. *)
Definition features_at (f : file) (p : N) (v : Features) : Prop :=
  let '(mkFeatures count headers records) := v in
  u16_at f p count /\
  vec_at (feature_header_at f) 6 (p + 2) count headers /\
  linked_at (feature_record_at f) p (map feature_header_offset headers) records.

(** [FeatureVariations]. *)
Definition feature_variations_at (f : file) (p : N) (v : FeatureVariations) : Prop :=
  let '(mkFeatureVariations major_version minor_version count) := v in
  u16_at f p major_version /\ major_version = 1 /\
  u16_at f (p + 2) minor_version /\ minor_version = 0 /\
  u32_at f (p + 4) count.

(** A 16-bit set of flags.  [checked] is whether the reserved bits have to be zero. *)
Definition flags_at (checked : bool) (reserved : N) (f : file) (p v : N) : Prop :=
  u16_at f p v /\ (checked = true -> N.land v reserved = 0).

(** [Lookup]: [table_at type_] is the format of a subtable of a type; the mark
    filtering set follows the offsets when bit 4 of the flags is set. *)
Definition lookup_record_at {T} (o : options) (table_at : N -> file -> N -> T -> Prop)
    (f : file) (p : N) (v : LookupRecord T) : Prop :=
  let '(mkLookupRecord type_ flags table_count table_offsets mark_filtering_set tables) := v in
  u16_at f p type_ /\
  flags_at (checked_flags o) 0x00E0 f (p + 2) flags /\
  u16_at f (p + 4) table_count /\
  u16s_at f (p + 6) table_count table_offsets /\
  match mark_filtering_set with
  | None => N.testbit flags 4 = false
  | Some set => N.testbit flags 4 = true /\ u16_at f (p + 6 + 2 * table_count) set
  end /\
  linked_at (table_at type_ f) p table_offsets tables.

(** [LookupList]. *)
Definition lookups_at {T} (o : options) (table_at : N -> file -> N -> T -> Prop)
    (f : file) (p : N) (v : Lookups T) : Prop :=
  let '(mkLookups count offsets records) := v in
  u16_at f p count /\
  u16s_at f (p + 2) count offsets /\
  linked_at (lookup_record_at o table_at f) p offsets records.

(** A list of the directory: at its offset, or [default] when the offset is zero and
    the build ignores incomplete directories. *)
Definition list_at {A} (o : options) (elem : N -> A -> Prop) (base offset : N) (default v : A) : Prop :=
  (offset = 0 /\ ignore_incomplete_directories o = true /\ v = default) \/
  ((offset <> 0 \/ ignore_incomplete_directories o = false) /\ elem (base + offset) v).

(** The header of [GSUB] and [GPOS] and what it links to. *)
Definition directory_at {T} (o : options) (table_at : N -> file -> N -> T -> Prop)
    (f : file) (p : N) (v : Directory T) : Prop :=
  let '(mkDirectory major_version minor_version script_offset feature_offset lookup_offset
    variation_offset scripts features lookups variations) := v in
  u16_at f p major_version /\ major_version = 1 /\
  u16_at f (p + 2) minor_version /\ (minor_version = 0 \/ minor_version = 1) /\
  u16_at f (p + 4) script_offset /\
  u16_at f (p + 6) feature_offset /\
  u16_at f (p + 8) lookup_offset /\
  (minor_version = 0 -> variation_offset = 0) /\
  (minor_version = 1 -> u32_at f (p + 10) variation_offset) /\
  list_at o (scripts_at f) p script_offset (mkScripts 0 [] []) scripts /\
  list_at o (features_at f) p feature_offset (mkFeatures 0 [] []) features /\
  list_at o (lookups_at o table_at f) p lookup_offset (mkLookups 0 [] []) lookups /\
  maybe_at (feature_variations_at f) p variation_offset variations.

(** [ItemVariationData].  A row of deltas is taken to be [short_delta_count +
    region_count] bytes, a sum of 16-bit numbers: reduced modulo 2^16 in a build
    without overflow checks, and refused otherwise (C33 and C46 are about that). *)
Definition store_record_at (o : options) (f : file) (p : N) (v : StoreRecord) : Prop :=
  let '(mkStoreRecord item_count short_delta_count region_count region_indices deltas) := v in
  u16_at f p item_count /\
  u16_at f (p + 2) short_delta_count /\
  u16_at f (p + 4) region_count /\
  u16s_at f (p + 6) region_count region_indices /\
  (overflow_checks o = true -> short_delta_count + region_count < 2 ^ 16) /\
  u8s_at f (p + 6 + 2 * region_count)
    (item_count * ((short_delta_count + region_count) mod 2 ^ 16)) deltas.

(** [ItemVariationStore]. *)
Definition store_at (o : options) (f : file) (p : N) (v : Store) : Prop :=
  let '(mkStore format region_offset count offsets records) := v in
  u16_at f p format /\ format = 1 /\
  u32_at f (p + 2) region_offset /\
  u16_at f (p + 6) count /\
  u32s_at f (p + 8) count offsets /\
  linked_at (store_record_at o f) p offsets records.
