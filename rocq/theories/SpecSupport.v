(** The values that a table laid out as the specification prescribes (SpecConform.v) can
    have, and those of them that the code reads.

    [strict_x v] is what the specification demands of a value [v] and the code does not
    check: links that are not NULL, reserved bits that are zero, versions.
    [supported_x v] is that [v] has nothing that the code takes otherwise. *)

From Verif Require Export SpecConform.

(** ** Links *)

Definition nonzero (offsets : list N) : Prop := Forall (fun offset => offset <> 0) offsets.

Definition present {A} (strict : A -> Prop) (offset : N) (v : A) : Prop :=
  offset <> 0 /\ strict v.

Definition presents {A} (strict : A -> Prop) (offsets : list N) (vs : list A) : Prop :=
  nonzero offsets /\ Forall strict vs.

(** A property of what is there. *)
Definition given {A} (P : A -> Prop) (v : option A) : Prop :=
  match v with
  | None => True
  | Some x => P x
  end.

(** ** What the specification demands *)

Definition strict_context_records (v : ContextRecords) : Prop :=
  let '(mkContextRecords _ offsets _) := v in
  nonzero offsets.

Definition strict_context_class_records (v : ContextClassRecords) : Prop :=
  let '(mkContextClassRecords _ offsets _) := v in
  nonzero offsets.

Definition strict_chained_records (v : ChainedRecords) : Prop :=
  let '(mkChainedRecords _ offsets _) := v in
  nonzero offsets.

Definition strict_chained_class_records (v : ChainedClassRecords) : Prop :=
  let '(mkChainedClassRecords _ offsets _) := v in
  nonzero offsets.

Definition strict_context1 (v : Context1) : Prop :=
  let '(mkContext1 _ coverage_offset _ record_offsets _ records) := v in
  coverage_offset <> 0 /\
  presents strict_context_records record_offsets records.

Definition strict_context2 (v : Context2) : Prop :=
  let '(mkContext2 _ coverage_offset class_offset _ _ _ _ records) := v in
  coverage_offset <> 0 /\
  class_offset <> 0 /\
  Forall (given strict_context_class_records) records.

Definition strict_context3 (v : Context3) : Prop :=
  let '(mkContext3 _ _ _ coverage_offsets _ _) := v in
  nonzero coverage_offsets.

Definition strict_context (v : Context) : Prop :=
  match v with
  | ContextFormat1 t => strict_context1 t
  | ContextFormat2 t => strict_context2 t
  | ContextFormat3 t => strict_context3 t
  end.

Definition strict_chained_context1 (v : ChainedContext1) : Prop :=
  let '(mkChainedContext1 _ coverage_offset _ record_offsets _ records) := v in
  coverage_offset <> 0 /\
  presents strict_chained_records record_offsets records.

Definition strict_chained_context2 (v : ChainedContext2) : Prop :=
  let '(mkChainedContext2 _ coverage_offset backward_class_offset class_offset
    forward_class_offset _ _ _ _ _ _ records) := v in
  coverage_offset <> 0 /\
  backward_class_offset <> 0 /\
  class_offset <> 0 /\
  forward_class_offset <> 0 /\
  Forall (given strict_chained_class_records) records.

Definition strict_chained_context3 (v : ChainedContext3) : Prop :=
  let '(mkChainedContext3 _ _ backward_coverage_offsets _ coverage_offsets _
    forward_coverage_offsets _ _ _ _ _) := v in
  nonzero backward_coverage_offsets /\
  nonzero coverage_offsets /\
  nonzero forward_coverage_offsets.

Definition strict_chained_context (v : ChainedContext) : Prop :=
  match v with
  | ChainedContextFormat1 t => strict_chained_context1 t
  | ChainedContextFormat2 t => strict_chained_context2 t
  | ChainedContextFormat3 t => strict_chained_context3 t
  end.

Definition strict_script_record (v : ScriptRecord) : Prop :=
  let '(mkScriptRecord _ _ language_headers _ _) := v in
  nonzero (map language_header_offset language_headers).

Definition strict_scripts (v : Scripts) : Prop :=
  let '(mkScripts _ headers records) := v in
  presents strict_script_record (map script_header_offset headers) records.

Definition strict_features (v : Features) : Prop :=
  let '(mkFeatures _ headers _) := v in
  nonzero (map feature_header_offset headers).

Definition strict_lookup_record {T} (strict : T -> Prop) (v : LookupRecord T) : Prop :=
  let '(mkLookupRecord _ flags _ table_offsets _ tables) := v in
  N.land flags 0x00E0 = 0 /\
  presents strict table_offsets tables.

Definition strict_lookups {T} (strict : T -> Prop) (v : Lookups T) : Prop :=
  let '(mkLookups _ offsets records) := v in
  presents (strict_lookup_record strict) offsets records.

Definition strict_directory {T} (strict : T -> Prop) (v : Directory T) : Prop :=
  let '(mkDirectory _ _ script_offset feature_offset lookup_offset _ scripts features lookups
    _)
    := v in
  present strict_scripts script_offset scripts /\
  present strict_features feature_offset features /\
  present (strict_lookups strict) lookup_offset lookups.

Definition strict_ligatures (v : Ligatures) : Prop :=
  let '(mkLigatures _ offsets _) := v in
  nonzero offsets.

Definition strict_single_substitution1 (v : SingleSubstitution1) : Prop :=
  let '(mkSingleSubstitution1 _ coverage_offset _ _) := v in
  coverage_offset <> 0.

Definition strict_single_substitution2 (v : SingleSubstitution2) : Prop :=
  let '(mkSingleSubstitution2 _ coverage_offset _ _ _) := v in
  coverage_offset <> 0.

Definition strict_single_substitution (v : SingleSubstitution) : Prop :=
  match v with
  | SingleSubstitutionFormat1 t => strict_single_substitution1 t
  | SingleSubstitutionFormat2 t => strict_single_substitution2 t
  end.

Definition strict_multiple_substitution (v : MultipleSubstitution) : Prop :=
  let '(mkMultipleSubstitution _ coverage_offset _ record_offsets _ _) := v in
  coverage_offset <> 0 /\
  nonzero record_offsets.

Definition strict_alternate_substitution (v : AlternateSubstitution) : Prop :=
  let '(mkAlternateSubstitution _ coverage_offset _ record_offsets _ _) := v in
  coverage_offset <> 0 /\
  nonzero record_offsets.

Definition strict_ligature_substitution (v : LigatureSubstitution) : Prop :=
  let '(mkLigatureSubstitution _ coverage_offset _ record_offsets _ records) := v in
  coverage_offset <> 0 /\
  presents strict_ligatures record_offsets records.

Definition strict_reverse_chained_contextual_substibution
    (v : ReverseChainedContextualSubstibution) : Prop :=
  let '(mkReverseChainedContextualSubstibution format coverage_offset _
    backward_coverage_offsets _ forward_coverage_offsets _ _ _ _ _) := v in
  format = 1 /\
  coverage_offset <> 0 /\
  nonzero backward_coverage_offsets /\
  nonzero forward_coverage_offsets.

Definition strict_gsub_type (v : GsubType) : Prop :=
  match v with
  | GsubSingleSubstitution t => strict_single_substitution t
  | GsubMultipleSubstitution t => strict_multiple_substitution t
  | GsubAlternateSubstitution t => strict_alternate_substitution t
  | GsubLigatureSubstitution t => strict_ligature_substitution t
  | GsubContextualSubstitution t => strict_context t
  | GsubChainedContextualSubstitution t => strict_chained_context t
  | GsubReverseChainedContextualSubstibution t => strict_reverse_chained_contextual_substibution t
  | _ => True
  end.

Definition strict_gpos_ligatures (v : GposLigatures) : Prop :=
  let '(mkGposLigatures _ offsets _) := v in
  nonzero offsets.

Definition strict_mark1 (v : Mark1) : Prop :=
  let '(mkMark1 _ anchor_offset _) := v in
  anchor_offset <> 0.

Definition strict_mark1s (v : Mark1s) : Prop :=
  let '(mkMark1s _ records) := v in
  Forall strict_mark1 records.

Definition strict_single_adjustment1 (v : SingleAdjustment1) : Prop :=
  let '(mkSingleAdjustment1 _ coverage_offset value_flags _ _) := v in
  N.land value_flags 0xFF00 = 0 /\
  coverage_offset <> 0.

Definition strict_single_adjustment2 (v : SingleAdjustment2) : Prop :=
  let '(mkSingleAdjustment2 _ coverage_offset value_flags _ _ _) := v in
  N.land value_flags 0xFF00 = 0 /\
  coverage_offset <> 0.

Definition strict_single_adjustment (v : SingleAdjustment) : Prop :=
  match v with
  | SingleAdjustmentFormat1 t => strict_single_adjustment1 t
  | SingleAdjustmentFormat2 t => strict_single_adjustment2 t
  end.

Definition strict_pair_adjustment1 (v : PairAdjustment1) : Prop :=
  let '(mkPairAdjustment1 _ coverage_offset value1_flags value2_flags _ record_offsets _ _)
    := v in
  N.land value1_flags 0xFF00 = 0 /\
  N.land value2_flags 0xFF00 = 0 /\
  coverage_offset <> 0 /\
  nonzero record_offsets.

Definition strict_pair_adjustment2 (v : PairAdjustment2) : Prop :=
  let '(mkPairAdjustment2 _ coverage_offset value1_flags value2_flags class1_offset
    class2_offset _ _ _ _ _ _) := v in
  N.land value1_flags 0xFF00 = 0 /\
  N.land value2_flags 0xFF00 = 0 /\
  coverage_offset <> 0 /\
  class1_offset <> 0 /\
  class2_offset <> 0.

Definition strict_pair_adjustment (v : PairAdjustment) : Prop :=
  match v with
  | PairAdjustmentFormat1 t => strict_pair_adjustment1 t
  | PairAdjustmentFormat2 t => strict_pair_adjustment2 t
  end.

Definition strict_cursive_attachment (v : CursiveAttachment) : Prop :=
  let '(mkCursiveAttachment _ coverage_offset _ _ _) := v in
  coverage_offset <> 0.

Definition strict_mark_to_base_attachment (v : MarkToBaseAttachment) : Prop :=
  let '(mkMarkToBaseAttachment _ mark_coverage_offset base_coverage_offset _ marks_offset
    bases_offset _ _ marks _) := v in
  mark_coverage_offset <> 0 /\
  base_coverage_offset <> 0 /\
  present strict_mark1s marks_offset marks /\
  bases_offset <> 0.

Definition strict_mark_to_ligature_attachment (v : MarkToLigatureAttachment) : Prop :=
  let '(mkMarkToLigatureAttachment _ mark_coverage_offset ligature_coverage_offset _
    marks_offset ligatures_offset _ _ marks ligatures) := v in
  mark_coverage_offset <> 0 /\
  ligature_coverage_offset <> 0 /\
  present strict_mark1s marks_offset marks /\
  present strict_gpos_ligatures ligatures_offset ligatures.

Definition strict_mark_to_mark_attachment (v : MarkToMarkAttachment) : Prop :=
  let '(mkMarkToMarkAttachment _ mark1_coverage_offset mark2_coverage_offset _ mark1s_offset
    mark2s_offset _ _ mark1s _) := v in
  mark1_coverage_offset <> 0 /\
  mark2_coverage_offset <> 0 /\
  present strict_mark1s mark1s_offset mark1s /\
  mark2s_offset <> 0.

Definition strict_gpos_type (v : GposType) : Prop :=
  match v with
  | GposSingleAdjustment t => strict_single_adjustment t
  | GposPairAdjustment t => strict_pair_adjustment t
  | GposCursiveAttachment t => strict_cursive_attachment t
  | GposMarkToBaseAttachment t => strict_mark_to_base_attachment t
  | GposMarkToLigatureAttachment t => strict_mark_to_ligature_attachment t
  | GposMarkToMarkAttachment t => strict_mark_to_mark_attachment t
  | GposContextualPositioning t => strict_context t
  | GposChainedContextualPositioning t => strict_chained_context t
  | _ => True
  end.

Definition strict_attachments (v : Attachments) : Prop :=
  let '(mkAttachments coverage_offset _ offsets _ _) := v in
  coverage_offset <> 0 /\
  nonzero offsets.

Definition strict_gdef_ligatures (v : GdefLigatures) : Prop :=
  let '(mkGdefLigatures coverage_offset _ offsets _ _) := v in
  coverage_offset <> 0 /\
  nonzero offsets.

Definition strict_marks (v : Marks) : Prop :=
  let '(mkMarks _ _ coverage_offsets _) := v in
  nonzero coverage_offsets.

Definition strict_store_record (v : StoreRecord) : Prop :=
  let '(mkStoreRecord _ word_delta_count region_count _ _) := v in
  word_count word_delta_count <= region_count.

Definition strict_store (v : Store) : Prop :=
  let '(mkStore _ _ _ offsets records) := v in
  presents strict_store_record offsets records.

Definition strict_glyph_definition (v : GlyphDefinition) : Prop :=
  let '(mkGlyphDefinition _ _ attachments ligatures _ marks variations) := v in
  given strict_attachments attachments /\
  given strict_gdef_ligatures ligatures /\
  given strict_marks marks /\
  given strict_store variations.

Definition strict_axis_record (v : AxisRecord) : Prop :=
  let '(mkAxisRecord _ _ _ _ flags _) := v in
  N.land flags 0xFFFE = 0.

Definition strict_instance_record (v : InstanceRecord) : Prop :=
  let '(mkInstanceRecord _ flags _ _) := v in
  N.land flags 0xFFFF = 0.

Definition strict_font_variations (v : FontVariations) : Prop :=
  let '(mkFontVariations header axis_records instance_records) := v in
  let '(mkFvarHeader major_version minor_version axis_offset _ axis_count axis_size
    instance_count instance_size) := header in
  (major_version = 1 /\ minor_version = 0 /\ axis_offset <> 0 /\ axis_size = 20 /\
   (instance_size = 4 * axis_count + 6 \/
    instance_size = 4 * axis_count + 4 /\ instance_count = 0)) /\
  Forall strict_axis_record axis_records /\
  Forall strict_instance_record instance_records.

Definition strict_color_palettes (v : ColorPalettes) : Prop :=
  let '(_, _, color_offset, _) := cpal_layout (color_palettes_header v) in
  color_offset <> 0.

(** ** What the code reads *)

(** No parameters of features (C43). *)
Definition supported_features (v : Features) : Prop :=
  let '(mkFeatures _ _ records) := v in
  Forall (fun record => feature_record_parameters record = None) records.

Definition supported_lookup_record {T} (supported : T -> Prop) (v : LookupRecord T) : Prop :=
  let '(mkLookupRecord _ _ _ _ _ tables) := v in
  Forall supported tables.

Definition supported_lookups {T} (supported : T -> Prop) (v : Lookups T) : Prop :=
  let '(mkLookups _ _ records) := v in
  Forall (supported_lookup_record supported) records.

Definition supported_directory {T} (supported : T -> Prop) (v : Directory T) : Prop :=
  let '(mkDirectory _ _ _ _ _ _ _ features lookups _) := v in
  supported_features features /\
  supported_lookups supported lookups.

(** The parameters of features as the code reports them: present, but empty. *)
Definition blank_record (v : FeatureRecord) : FeatureRecord :=
  let '(mkFeatureRecord parameter_offset lookup_index_count lookup_indices parameters) := v in
  mkFeatureRecord parameter_offset lookup_index_count lookup_indices
    (option_map (fun _ => []) parameters).

Definition blank_directory {T} (v : Directory T) : Directory T :=
  let '(mkDirectory major_version minor_version script_offset feature_offset lookup_offset
    variation_offset scripts (mkFeatures count headers records) lookups variations) := v in
  mkDirectory major_version minor_version script_offset feature_offset lookup_offset
    variation_offset scripts (mkFeatures count headers (map blank_record records)) lookups variations.

(** No device whose deltas fill their last word (C40). *)
Definition supported_correction (v : Correction) : Prop :=
  match v with
  | CorrectionDevice (mkDevice start_size end_size format _) =>
      device_bits start_size end_size format mod 16 <> 0
  | CorrectionVariation _ => True
  end.

Definition supported_anchor3 (v : Anchor3) : Prop :=
  let '(mkAnchor3 _ _ _ _ _ x_correction y_correction) := v in
  given supported_correction x_correction /\
  given supported_correction y_correction.

Definition supported_anchor (v : Anchor) : Prop :=
  match v with
  | AnchorFormat3 t => supported_anchor3 t
  | _ => True
  end.

Definition supported_base (v : Base) : Prop :=
  let '(mkBase _ anchors) := v in
  Forall (given supported_anchor) anchors.

Definition supported_bases (v : Bases) : Prop :=
  let '(mkBases _ records) := v in
  Forall supported_base records.

Definition supported_component (v : Component) : Prop :=
  let '(mkComponent _ anchors) := v in
  Forall (given supported_anchor) anchors.

Definition supported_gpos_ligature (v : GposLigature) : Prop :=
  let '(mkGposLigature _ components) := v in
  Forall supported_component components.

Definition supported_gpos_ligatures (v : GposLigatures) : Prop :=
  let '(mkGposLigatures _ _ records) := v in
  Forall supported_gpos_ligature records.

Definition supported_mark2 (v : Mark2) : Prop :=
  let '(mkMark2 _ anchors) := v in
  Forall (given supported_anchor) anchors.

Definition supported_mark2s (v : Mark2s) : Prop :=
  let '(mkMark2s _ records) := v in
  Forall supported_mark2 records.

Definition supported_mark1 (v : Mark1) : Prop :=
  let '(mkMark1 _ _ anchor) := v in
  supported_anchor anchor.

Definition supported_mark1s (v : Mark1s) : Prop :=
  let '(mkMark1s _ records) := v in
  Forall supported_mark1 records.

Definition supported_connection (v : Connection) : Prop :=
  let '(mkConnection _ _ start_anchor end_anchor) := v in
  given supported_anchor start_anchor /\
  given supported_anchor end_anchor.

Definition supported_single (v : Single) : Prop :=
  let '(mkSingle _ _ _ _ _ _ _ _ x_placement_correction y_placement_correction
    x_advance_correction y_advance_correction) := v in
  given supported_correction x_placement_correction /\
  given supported_correction y_placement_correction /\
  given supported_correction x_advance_correction /\
  given supported_correction y_advance_correction.

Definition supported_pair1 (v : Pair1) : Prop :=
  let '(mkPair1 _ value1 value2) := v in
  given supported_single value1 /\
  given supported_single value2.

Definition supported_pair1s (v : Pair1s) : Prop :=
  let '(mkPair1s _ records) := v in
  Forall supported_pair1 records.

Definition supported_pair2 (v : Pair2) : Prop :=
  let '(mkPair2 value1 value2) := v in
  given supported_single value1 /\
  given supported_single value2.

Definition supported_pair2s (v : Pair2s) : Prop :=
  let '(mkPair2s records) := v in
  Forall supported_pair2 records.

Definition supported_single_adjustment1 (v : SingleAdjustment1) : Prop :=
  let '(mkSingleAdjustment1 _ _ _ value _) := v in
  supported_single value.

Definition supported_single_adjustment2 (v : SingleAdjustment2) : Prop :=
  let '(mkSingleAdjustment2 _ _ _ _ values _) := v in
  Forall supported_single values.

Definition supported_single_adjustment (v : SingleAdjustment) : Prop :=
  match v with
  | SingleAdjustmentFormat1 t => supported_single_adjustment1 t
  | SingleAdjustmentFormat2 t => supported_single_adjustment2 t
  end.

Definition supported_pair_adjustment1 (v : PairAdjustment1) : Prop :=
  let '(mkPairAdjustment1 _ _ _ _ _ _ _ records) := v in
  Forall supported_pair1s records.

Definition supported_pair_adjustment2 (v : PairAdjustment2) : Prop :=
  let '(mkPairAdjustment2 _ _ _ _ _ _ _ _ records _ _ _) := v in
  Forall supported_pair2s records.

Definition supported_pair_adjustment (v : PairAdjustment) : Prop :=
  match v with
  | PairAdjustmentFormat1 t => supported_pair_adjustment1 t
  | PairAdjustmentFormat2 t => supported_pair_adjustment2 t
  end.

Definition supported_cursive_attachment (v : CursiveAttachment) : Prop :=
  let '(mkCursiveAttachment _ _ _ connections _) := v in
  Forall supported_connection connections.

Definition supported_mark_to_base_attachment (v : MarkToBaseAttachment) : Prop :=
  let '(mkMarkToBaseAttachment _ _ _ _ _ _ _ _ marks bases) := v in
  supported_mark1s marks /\
  supported_bases bases.

Definition supported_mark_to_ligature_attachment (v : MarkToLigatureAttachment) : Prop :=
  let '(mkMarkToLigatureAttachment _ _ _ _ _ _ _ _ marks ligatures) := v in
  supported_mark1s marks /\
  supported_gpos_ligatures ligatures.

Definition supported_mark_to_mark_attachment (v : MarkToMarkAttachment) : Prop :=
  let '(mkMarkToMarkAttachment _ _ _ _ _ _ _ _ mark1s mark2s) := v in
  supported_mark1s mark1s /\
  supported_mark2s mark2s.

Definition supported_gpos_type (v : GposType) : Prop :=
  match v with
  | GposSingleAdjustment t => supported_single_adjustment t
  | GposPairAdjustment t => supported_pair_adjustment t
  | GposCursiveAttachment t => supported_cursive_attachment t
  | GposMarkToBaseAttachment t => supported_mark_to_base_attachment t
  | GposMarkToLigatureAttachment t => supported_mark_to_ligature_attachment t
  | GposMarkToMarkAttachment t => supported_mark_to_mark_attachment t
  | _ => True
  end.

(** No caret (C39). *)
Definition supported_gdef_ligature (v : GdefLigature) : Prop :=
  let '(mkGdefLigature _ _ carets) := v in
  carets = [].

Definition supported_gdef_ligatures (v : GdefLigatures) : Prop :=
  let '(mkGdefLigatures _ _ _ _ records) := v in
  Forall supported_gdef_ligature records.

(** No long words in rows of deltas that are there (C46), and no sums of counts that take
    more than 16 bits, where it makes a difference (C33). *)
Definition supported_store_record (o : options) (v : StoreRecord) : Prop :=
  let '(mkStoreRecord item_count word_delta_count region_count _ _) := v in
  (item_count <> 0 -> long_words word_delta_count = false) /\
  (item_count <> 0 \/ overflow_checks o = true -> word_delta_count + region_count < 2 ^ 16).

Definition supported_store (o : options) (v : Store) : Prop :=
  let '(mkStore _ _ _ _ records) := v in
  Forall (supported_store_record o) records.

(** The offset of the mark glyph sets, where the code looks for the item variations in
    version 1.3, leads to them just if their own offset does (C41). *)
Definition supported_glyph_definition (o : options) (f : file) (p : N) (v : GlyphDefinition) : Prop :=
  let '(mkGlyphDefinition header _ _ ligatures _ _ variations) := v in
  given supported_gdef_ligatures ligatures /\
  given (supported_store o) variations /\
  (maybe_at (std_store_at f) p (gdef_variation_offset header) variations <->
   maybe_at (std_store_at f) p (standard_variation_offset header) variations).

(** A [GDEF] table but for its item variations. *)
Definition without_variations (v : GlyphDefinition) : GlyphDefinition :=
  let '(mkGlyphDefinition header glyph_class attachments ligatures mark_class marks _) := v in
  mkGlyphDefinition header glyph_class attachments ligatures mark_class marks None.

(** Its item variations are not looked for, so that those of version 1.3 are lost: there are no
    mark glyph sets, where the code looks for them in that version (C41). *)
Definition variations_skipped (v : GlyphDefinition) : Prop :=
  match glyph_definition_header v with
  | GdefVersion13 _ => glyph_definition_marks v = None
  | _ => True
  end.
