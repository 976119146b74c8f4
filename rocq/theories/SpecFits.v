(** Values within range: every number fits the field it is written to, and reserved flags
    are zero in the builds that check them.  In Rust the ranges are those of the types.
    Offsets that are followed are not constrained. *)

From Verif Require Export Options Types.

Definition u8 (n : N) : Prop := n < 256.
Definition u16 (n : N) : Prop := n < 65536.
Definition u32 (n : N) : Prop := n < 4294967296.
Definition i16 (z : Z) : Prop := (-32768 <= z < 32768)%Z.
Definition i32 (z : Z) : Prop := (-2147483648 <= z < 2147483648)%Z.

(** Flags whose reserved bits are checked in some builds. *)
Definition flags16 (checked : bool) (reserved flags : N) : Prop :=
  u16 flags /\ (checked = true -> N.land flags reserved = 0).

(** Something that may be absent. *)
Definition maybe_fits {A} (P : A -> Prop) (v : option A) : Prop :=
  match v with Some x => P x | None => True end.

(** ** Common structures *)

Definition coverage_record_fits (v : CoverageRecord) : Prop :=
  let '(mkCoverageRecord a b c) := v in u16 a /\ u16 b /\ u16 c.

Definition coverage_fits (v : Coverage) : Prop :=
  match v with
  | CoverageFormat1 (mkCoverage1 _ n ids) => u16 n /\ Forall u16 ids
  | CoverageFormat2 (mkCoverage2 _ n records) => u16 n /\ Forall coverage_record_fits records
  end.

Definition class_record_fits (v : ClassRecord) : Prop :=
  let '(mkClassRecord a b c) := v in u16 a /\ u16 b /\ u16 c.

Definition class_fits (v : Class) : Prop :=
  match v with
  | ClassFormat1 (mkClass1 _ start n indices) => u16 start /\ u16 n /\ Forall u16 indices
  | ClassFormat2 (mkClass2 _ n records) => u16 n /\ Forall class_record_fits records
  end.

Definition correction_fits (v : Correction) : Prop :=
  match v with
  | CorrectionDevice (mkDevice start_size end_size _ deltas) =>
      u16 start_size /\ u16 end_size /\ Forall u16 deltas
  | CorrectionVariation (mkVariation outer inner _) => u16 outer /\ u16 inner
  end.

Definition action_fits (v : Action) : Prop :=
  let '(mkAction a b) := v in u16 a /\ u16 b.

Definition context_record_fits (v : ContextRecord) : Prop :=
  let '(mkContextRecord n m ids actions) := v in
  u16 n /\ u16 m /\ Forall u16 ids /\ Forall action_fits actions.

Definition context_records_fits (v : ContextRecords) : Prop :=
  let '(mkContextRecords n _ records) := v in u16 n /\ Forall context_record_fits records.

Definition context_class_record_fits (v : ContextClassRecord) : Prop :=
  let '(mkContextClassRecord n m ids actions) := v in
  u16 n /\ u16 m /\ Forall u16 ids /\ Forall action_fits actions.

Definition context_class_records_fits (v : ContextClassRecords) : Prop :=
  let '(mkContextClassRecords n _ records) := v in u16 n /\ Forall context_class_record_fits records.

Definition chained_record_fits (v : ChainedRecord) : Prop :=
  let '(mkChainedRecord a back b ids c fore d actions) := v in
  u16 a /\ Forall u16 back /\ u16 b /\ Forall u16 ids /\ u16 c /\ Forall u16 fore /\
  u16 d /\ Forall action_fits actions.

Definition chained_records_fits (v : ChainedRecords) : Prop :=
  let '(mkChainedRecords n _ records) := v in u16 n /\ Forall chained_record_fits records.

Definition chained_class_record_fits (v : ChainedClassRecord) : Prop :=
  let '(mkChainedClassRecord a back b ids c fore d actions) := v in
  u16 a /\ Forall u16 back /\ u16 b /\ Forall u16 ids /\ u16 c /\ Forall u16 fore /\
  u16 d /\ Forall action_fits actions.

Definition chained_class_records_fits (v : ChainedClassRecords) : Prop :=
  let '(mkChainedClassRecords n _ records) := v in u16 n /\ Forall chained_class_record_fits records.

Definition context_fits (v : Context) : Prop :=
  match v with
  | ContextFormat1 (mkContext1 _ _ n _ coverage records) =>
      u16 n /\ coverage_fits coverage /\ Forall context_records_fits records
  | ContextFormat2 (mkContext2 _ _ _ n _ coverage class records) =>
      u16 n /\ coverage_fits coverage /\ class_fits class /\
      Forall (maybe_fits context_class_records_fits) records
  | ContextFormat3 (mkContext3 _ n m _ actions coverages) =>
      u16 n /\ u16 m /\ Forall action_fits actions /\ Forall coverage_fits coverages
  end.

Definition chained_context_fits (v : ChainedContext) : Prop :=
  match v with
  | ChainedContextFormat1 (mkChainedContext1 _ _ n _ coverage records) =>
      u16 n /\ coverage_fits coverage /\ Forall chained_records_fits records
  | ChainedContextFormat2 (mkChainedContext2 _ _ _ _ _ n _ coverage back class fore records) =>
      u16 n /\ coverage_fits coverage /\ class_fits back /\ class_fits class /\ class_fits fore /\
      Forall (maybe_fits chained_class_records_fits) records
  | ChainedContextFormat3 (mkChainedContext3 _ a _ b _ c _ d actions back coverages fore) =>
      u16 a /\ u16 b /\ u16 c /\ u16 d /\ Forall action_fits actions /\
      Forall coverage_fits back /\ Forall coverage_fits coverages /\ Forall coverage_fits fore
  end.

(** ** The directory *)

Definition language_record_fits (v : LanguageRecord) : Prop :=
  let '(mkLanguageRecord _ required n indices) := v in u16 required /\ u16 n /\ Forall u16 indices.

Definition script_record_fits (v : ScriptRecord) : Prop :=
  let '(mkScriptRecord _ n _ default records) := v in
  u16 n /\ maybe_fits language_record_fits default /\ Forall language_record_fits records.

Definition scripts_fits (v : Scripts) : Prop :=
  let '(mkScripts n _ records) := v in u16 n /\ Forall script_record_fits records.

(** The code takes no parameters. *)
Definition feature_record_fits (v : FeatureRecord) : Prop :=
  let '(mkFeatureRecord _ n indices parameters) := v in
  u16 n /\ Forall u16 indices /\ maybe_fits (eq []) parameters.

Definition features_fits (v : Features) : Prop :=
  let '(mkFeatures n _ records) := v in u16 n /\ Forall feature_record_fits records.

Definition lookup_record_fits {T} (o : options) (P : T -> Prop) (v : LookupRecord T) : Prop :=
  let '(mkLookupRecord type_ flags n _ set tables) := v in
  u16 type_ /\ flags16 (checked_flags o) 0x00E0 flags /\ u16 n /\ maybe_fits u16 set /\ Forall P tables.

Definition lookups_fits {T} (o : options) (P : T -> Prop) (v : Lookups T) : Prop :=
  let '(mkLookups n _ records) := v in u16 n /\ Forall (lookup_record_fits o P) records.

Definition feature_variations_fits (v : FeatureVariations) : Prop :=
  let '(mkFeatureVariations _ _ n) := v in u32 n.

Definition directory_fits {T} (o : options) (P : T -> Prop) (v : Directory T) : Prop :=
  let '(mkDirectory _ _ _ _ _ _ scripts features lookups variations) := v in
  scripts_fits scripts /\ features_fits features /\ lookups_fits o P lookups /\
  maybe_fits feature_variations_fits variations.

(** ** [GSUB] *)

Definition alternates_fits (v : Alternates) : Prop :=
  let '(mkAlternates n ids) := v in u16 n /\ Forall u16 ids.

Definition sequence_fits (v : Sequence) : Prop :=
  let '(mkSequence n ids) := v in u16 n /\ Forall u16 ids.

Definition ligature_fits (v : Ligature) : Prop :=
  let '(mkLigature glyph_id n ids) := v in u16 glyph_id /\ u16 n /\ Forall u16 ids.

Definition ligatures_fits (v : Ligatures) : Prop :=
  let '(mkLigatures n _ records) := v in u16 n /\ Forall ligature_fits records.

Definition single_substitution_fits (v : SingleSubstitution) : Prop :=
  match v with
  | SingleSubstitutionFormat1 (mkSingleSubstitution1 _ _ delta coverage) =>
      i16 delta /\ coverage_fits coverage
  | SingleSubstitutionFormat2 (mkSingleSubstitution2 _ _ n ids coverage) =>
      u16 n /\ Forall u16 ids /\ coverage_fits coverage
  end.

Definition gsub_type_fits (v : GsubType) : Prop :=
  match v with
  | GsubSingleSubstitution t => single_substitution_fits t
  | GsubMultipleSubstitution (mkMultipleSubstitution _ _ n _ coverage records) =>
      u16 n /\ coverage_fits coverage /\ Forall sequence_fits records
  | GsubAlternateSubstitution (mkAlternateSubstitution _ _ n _ coverage records) =>
      u16 n /\ coverage_fits coverage /\ Forall alternates_fits records
  | GsubLigatureSubstitution (mkLigatureSubstitution _ _ n _ coverage records) =>
      u16 n /\ coverage_fits coverage /\ Forall ligatures_fits records
  | GsubContextualSubstitution t => context_fits t
  | GsubChainedContextualSubstitution t => chained_context_fits t
  | GsubExtensionSubstitution (mkExtensionSubstitution _ type_ offset) => u16 type_ /\ u32 offset
  | GsubReverseChainedContextualSubstibution (mkReverseChainedContextualSubstibution format _ a _ b _
      c ids coverage back fore) =>
      u16 format /\ u16 a /\ u16 b /\ u16 c /\ Forall u16 ids /\ coverage_fits coverage /\
      Forall coverage_fits back /\ Forall coverage_fits fore
  end.

Definition glyph_substitution_fits (o : options) : GlyphSubstitution -> Prop :=
  directory_fits o gsub_type_fits.

(** ** [GPOS] *)

Definition anchor_fits (v : Anchor) : Prop :=
  match v with
  | AnchorFormat1 (mkAnchor1 _ x y) => i16 x /\ i16 y
  | AnchorFormat2 (mkAnchor2 _ x y index) => i16 x /\ i16 y /\ u16 index
  | AnchorFormat3 (mkAnchor3 _ x y _ _ a b) =>
      i16 x /\ i16 y /\ maybe_fits correction_fits a /\ maybe_fits correction_fits b
  end.

Definition anchors_fits : list (option Anchor) -> Prop := Forall (maybe_fits anchor_fits).

Definition base_fits (v : Base) : Prop := anchors_fits (base_anchors v).

Definition bases_fits (v : Bases) : Prop :=
  let '(mkBases n records) := v in u16 n /\ Forall base_fits records.

Definition component_fits (v : Component) : Prop := anchors_fits (component_anchors v).

Definition gpos_ligature_fits (v : GposLigature) : Prop :=
  let '(mkGposLigature n components) := v in u16 n /\ Forall component_fits components.

Definition gpos_ligatures_fits (v : GposLigatures) : Prop :=
  let '(mkGposLigatures n _ records) := v in u16 n /\ Forall gpos_ligature_fits records.

Definition mark2_fits (v : Mark2) : Prop := anchors_fits (mark2_anchors v).

Definition mark2s_fits (v : Mark2s) : Prop :=
  let '(mkMark2s n records) := v in u16 n /\ Forall mark2_fits records.

Definition mark1_fits (v : Mark1) : Prop :=
  let '(mkMark1 class_id _ anchor) := v in u16 class_id /\ anchor_fits anchor.

Definition mark1s_fits (v : Mark1s) : Prop :=
  let '(mkMark1s n records) := v in u16 n /\ Forall mark1_fits records.

Definition connection_fits (v : Connection) : Prop :=
  let '(mkConnection _ _ a b) := v in maybe_fits anchor_fits a /\ maybe_fits anchor_fits b.

Definition single_fits (v : Single) : Prop :=
  let '(mkSingle x0 x1 x2 x3 _ _ _ _ c4 c5 c6 c7) := v in
  maybe_fits i16 x0 /\ maybe_fits i16 x1 /\ maybe_fits i16 x2 /\ maybe_fits i16 x3 /\
  maybe_fits correction_fits c4 /\ maybe_fits correction_fits c5 /\
  maybe_fits correction_fits c6 /\ maybe_fits correction_fits c7.

Definition pair1_fits (v : Pair1) : Prop :=
  let '(mkPair1 glyph_id a b) := v in
  u16 glyph_id /\ maybe_fits single_fits a /\ maybe_fits single_fits b.

Definition pair1s_fits (v : Pair1s) : Prop :=
  let '(mkPair1s n records) := v in u16 n /\ Forall pair1_fits records.

Definition pair2_fits (v : Pair2) : Prop :=
  let '(mkPair2 a b) := v in maybe_fits single_fits a /\ maybe_fits single_fits b.

Definition pair2s_fits (v : Pair2s) : Prop :=
  let '(mkPair2s records) := v in Forall pair2_fits records.

Definition value_flags_fits (o : options) : N -> Prop := flags16 (checked_flags o) 0xFF00.

Definition gpos_type_fits (o : options) (v : GposType) : Prop :=
  match v with
  | GposSingleAdjustment (SingleAdjustmentFormat1 (mkSingleAdjustment1 _ _ flags value coverage)) =>
      value_flags_fits o flags /\ single_fits value /\ coverage_fits coverage
  | GposSingleAdjustment (SingleAdjustmentFormat2 (mkSingleAdjustment2 _ _ flags n values coverage)) =>
      value_flags_fits o flags /\ u16 n /\ Forall single_fits values /\ coverage_fits coverage
  | GposPairAdjustment (PairAdjustmentFormat1 (mkPairAdjustment1 _ _ flags1 flags2 n _ coverage
      records)) =>
      value_flags_fits o flags1 /\ value_flags_fits o flags2 /\ u16 n /\ coverage_fits coverage /\
      Forall pair1s_fits records
  | GposPairAdjustment (PairAdjustmentFormat2 (mkPairAdjustment2 _ _ flags1 flags2 _ _ n m
      records coverage class1 class2)) =>
      value_flags_fits o flags1 /\ value_flags_fits o flags2 /\ u16 n /\ u16 m /\
      Forall pair2s_fits records /\ coverage_fits coverage /\ class_fits class1 /\ class_fits class2
  | GposCursiveAttachment (mkCursiveAttachment _ _ n connections coverage) =>
      u16 n /\ Forall connection_fits connections /\ coverage_fits coverage
  | GposMarkToBaseAttachment (mkMarkToBaseAttachment _ _ _ n _ _ coverage1 coverage2 marks bases) =>
      u16 n /\ coverage_fits coverage1 /\ coverage_fits coverage2 /\ mark1s_fits marks /\
      bases_fits bases
  | GposMarkToLigatureAttachment (mkMarkToLigatureAttachment _ _ _ n _ _ coverage1 coverage2
      marks ligatures) =>
      u16 n /\ coverage_fits coverage1 /\ coverage_fits coverage2 /\ mark1s_fits marks /\
      gpos_ligatures_fits ligatures
  | GposMarkToMarkAttachment (mkMarkToMarkAttachment _ _ _ n _ _ coverage1 coverage2
      mark1s mark2s) =>
      u16 n /\ coverage_fits coverage1 /\ coverage_fits coverage2 /\ mark1s_fits mark1s /\
      mark2s_fits mark2s
  | GposContextualPositioning t => context_fits t
  | GposChainedContextualPositioning t => chained_context_fits t
  | GposExtensionPositioning (mkExtensionPositioning _ type_ offset) => u16 type_ /\ u32 offset
  end.

Definition glyph_positioning_fits (o : options) : GlyphPositioning -> Prop :=
  directory_fits o (gpos_type_fits o).

(** ** [GDEF] *)

Definition attachment_fits (v : Attachment) : Prop :=
  let '(mkAttachment n indices) := v in u16 n /\ Forall u16 indices.

Definition attachments_fits (v : Attachments) : Prop :=
  let '(mkAttachments _ n _ coverage records) := v in
  u16 n /\ coverage_fits coverage /\ Forall attachment_fits records.

Definition caret_fits (v : Caret) : Prop :=
  match v with
  | CaretFormat1 (mkCaret1 _ coordinate) => i16 coordinate
  | CaretFormat2 (mkCaret2 _ index) => u16 index
  | CaretFormat3 (mkCaret3 _ coordinate _ correction) => i16 coordinate /\ correction_fits correction
  end.

Definition gdef_ligature_fits (v : GdefLigature) : Prop :=
  let '(mkGdefLigature n _ carets) := v in u16 n /\ Forall caret_fits carets.

Definition gdef_ligatures_fits (v : GdefLigatures) : Prop :=
  let '(mkGdefLigatures _ n _ coverage records) := v in
  u16 n /\ coverage_fits coverage /\ Forall gdef_ligature_fits records.

Definition marks_fits (v : Marks) : Prop :=
  let '(mkMarks _ n _ coverages) := v in u16 n /\ Forall coverage_fits coverages.

(** The sum of the counts is only computed without a panic if it fits. *)
Definition store_record_fits (o : options) (v : StoreRecord) : Prop :=
  let '(mkStoreRecord n m k indices deltas) := v in
  u16 n /\ u16 m /\ u16 k /\ Forall u16 indices /\ Forall u8 deltas /\
  (overflow_checks o = true -> u16 (m + k)).

Definition store_fits (o : options) (v : Store) : Prop :=
  let '(mkStore _ region_offset n _ records) := v in
  u32 region_offset /\ u16 n /\ Forall (store_record_fits o) records.

Definition gdef_header_fits (v : GdefHeader) : Prop :=
  match v with
  | GdefVersion13 (mkGdefHeader13 _ _ _ _ _ _ _ variation_offset) => u32 variation_offset
  | _ => True
  end.

Definition glyph_definition_fits (o : options) (v : GlyphDefinition) : Prop :=
  let '(mkGlyphDefinition header glyph_class attachments ligatures mark_class marks variations) := v in
  gdef_header_fits header /\ maybe_fits class_fits glyph_class /\
  maybe_fits attachments_fits attachments /\ maybe_fits gdef_ligatures_fits ligatures /\
  maybe_fits class_fits mark_class /\ maybe_fits marks_fits marks /\
  maybe_fits (store_fits o) variations.

(** ** [CPAL] and [fvar] *)

Definition color_fits (v : Color) : Prop :=
  let '(mkColor blue green red alpha) := v in u8 blue /\ u8 green /\ u8 red /\ u8 alpha.

Definition color_palettes_fits (v : ColorPalettes) : Prop :=
  match v with
  | mkColorPalettes (CpalVersion0 (mkCpalHeader0 _ k n m _ indices)) colors =>
      u16 k /\ u16 n /\ u16 m /\ Forall u16 indices /\ Forall color_fits colors
  | mkColorPalettes (CpalVersion1 (mkCpalHeader1 _ k n m _ indices)) colors =>
      u16 k /\ u16 n /\ u16 m /\ Forall u16 indices /\ Forall color_fits colors
  end.

Definition axis_record_fits (o : options) (v : AxisRecord) : Prop :=
  let '(mkAxisRecord _ a b c flags name_id) := v in
  i32 a /\ i32 b /\ i32 c /\ flags16 (checked_flags o) 0xFFFE flags /\ u16 name_id.

Definition instance_record_fits (o : options) (v : InstanceRecord) : Prop :=
  let '(mkInstanceRecord name_id flags coordinates postscript_name_id) := v in
  u16 name_id /\ flags16 (checked_flags o) 0xFFFF flags /\ Forall i32 coordinates /\
  u16 postscript_name_id.

Definition font_variations_fits (o : options) (v : FontVariations) : Prop :=
  let '(mkFontVariations (mkFvarHeader major minor _ _ n _ m _) axes instances) := v in
  u16 major /\ u16 minor /\ u16 n /\ u16 m /\
  Forall (axis_record_fits o) axes /\ Forall (instance_record_fits o) instances.

(** ** The table directory *)

Definition offset_record_fits (v : OffsetRecord) : Prop :=
  let '(mkOffsetRecord _ checksum offset length) := v in u32 checksum /\ u32 offset /\ u32 length.

Definition offsets_fits (v : Offsets) : Prop :=
  let '(mkOffsets (mkOffsetsHeader _ n a b c) records) := v in
  u16 n /\ u16 a /\ u16 b /\ u16 c /\ Forall offset_record_fits records.
