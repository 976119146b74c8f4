(** Every field within the range of its type, with the numbers of formats and the offsets, which
    SpecFits.v leaves out; and what stands in for a missing part in the builds that allow for it.
    Together with SpecLoose.v this is all that is known of a value, whatever the tape (C80). *)

From Verif Require Export SpecFits SpecLoose.

(** ** Common structures *)

Definition coverage_ranges (v : Coverage) : Prop :=
  match v with
  | CoverageFormat1 (mkCoverage1 format n ids) => u16 format /\ u16 n /\ Forall u16 ids
  | CoverageFormat2 (mkCoverage2 format n records) =>
      u16 format /\ u16 n /\ Forall coverage_record_fits records
  end.

Definition class_ranges (v : Class) : Prop :=
  match v with
  | ClassFormat1 (mkClass1 format start n indices) =>
      u16 format /\ u16 start /\ u16 n /\ Forall u16 indices
  | ClassFormat2 (mkClass2 format n records) => u16 format /\ u16 n /\ Forall class_record_fits records
  end.

Definition correction_ranges (v : Correction) : Prop :=
  match v with
  | CorrectionDevice (mkDevice start_size end_size format deltas) =>
      u16 start_size /\ u16 end_size /\ Forall u16 deltas
  | CorrectionVariation (mkVariation outer inner format) => u16 outer /\ u16 inner /\ u16 format
  end.

Definition context_records_ranges (v : ContextRecords) : Prop :=
  let '(mkContextRecords n offsets records) := v in
  u16 n /\ Forall u16 offsets /\ Forall context_record_fits records.

Definition context_class_records_ranges (v : ContextClassRecords) : Prop :=
  let '(mkContextClassRecords n offsets records) := v in
  u16 n /\ Forall u16 offsets /\ Forall context_class_record_fits records.

Definition chained_records_ranges (v : ChainedRecords) : Prop :=
  let '(mkChainedRecords n offsets records) := v in
  u16 n /\ Forall u16 offsets /\ Forall chained_record_fits records.

Definition chained_class_records_ranges (v : ChainedClassRecords) : Prop :=
  let '(mkChainedClassRecords n offsets records) := v in
  u16 n /\ Forall u16 offsets /\ Forall chained_class_record_fits records.

Definition context_ranges (v : Context) : Prop :=
  match v with
  | ContextFormat1 (mkContext1 format a n offsets coverage records) =>
      u16 format /\ u16 a /\ u16 n /\ Forall u16 offsets /\
      coverage_ranges coverage /\ Forall context_records_ranges records
  | ContextFormat2 (mkContext2 format a b n offsets coverage class records) =>
      u16 format /\ u16 a /\ u16 b /\ u16 n /\ Forall u16 offsets /\
      coverage_ranges coverage /\ class_ranges class /\
      Forall (maybe_fits context_class_records_ranges) records
  | ContextFormat3 (mkContext3 format n m offsets actions coverages) =>
      u16 format /\ u16 n /\ u16 m /\ Forall u16 offsets /\
      Forall action_fits actions /\ Forall coverage_ranges coverages
  end.

Definition chained_context_ranges (v : ChainedContext) : Prop :=
  match v with
  | ChainedContextFormat1 (mkChainedContext1 format a n offsets coverage records) =>
      u16 format /\ u16 a /\ u16 n /\ Forall u16 offsets /\
      coverage_ranges coverage /\ Forall chained_records_ranges records
  | ChainedContextFormat2 (mkChainedContext2 format a b c d n offsets coverage back class fore records) =>
      u16 format /\ u16 a /\ u16 b /\ u16 c /\ u16 d /\ u16 n /\ Forall u16 offsets /\
      coverage_ranges coverage /\ class_ranges back /\ class_ranges class /\ class_ranges fore /\
      Forall (maybe_fits chained_class_records_ranges) records
  | ChainedContextFormat3 (mkChainedContext3 format a back_offsets b offsets c fore_offsets d actions
      back coverages fore) =>
      u16 format /\ u16 a /\ Forall u16 back_offsets /\ u16 b /\ Forall u16 offsets /\
      u16 c /\ Forall u16 fore_offsets /\ u16 d /\ Forall action_fits actions /\
      Forall coverage_ranges back /\ Forall coverage_ranges coverages /\ Forall coverage_ranges fore
  end.

(** ** The directory *)

Definition script_record_ranges (v : ScriptRecord) : Prop :=
  let '(mkScriptRecord offset n headers default records) := v in
  u16 offset /\ u16 n /\ Forall (fun h => u16 (language_header_offset h)) headers /\
  maybe_fits language_record_fits default /\ Forall language_record_fits records.

Definition scripts_ranges (v : Scripts) : Prop :=
  let '(mkScripts n headers records) := v in
  u16 n /\ Forall (fun h => u16 (script_header_offset h)) headers /\ Forall script_record_ranges records.

Definition feature_record_ranges (v : FeatureRecord) : Prop :=
  let '(mkFeatureRecord offset n indices parameters) := v in
  u16 offset /\ u16 n /\ Forall u16 indices /\ maybe_fits (eq []) parameters.

Definition features_ranges (v : Features) : Prop :=
  let '(mkFeatures n headers records) := v in
  u16 n /\ Forall (fun h => u16 (feature_header_offset h)) headers /\ Forall feature_record_ranges records.

Definition lookup_record_ranges {T} (o : options) (P : T -> Prop) (v : LookupRecord T) : Prop :=
  let '(mkLookupRecord type_ flags n offsets set tables) := v in
  u16 type_ /\ flags16 (checked_flags o) 0x00E0 flags /\ u16 n /\ Forall u16 offsets /\
  maybe_fits u16 set /\ Forall P tables.

Definition lookups_ranges {T} (o : options) (P : T -> Prop) (v : Lookups T) : Prop :=
  let '(mkLookups n offsets records) := v in
  u16 n /\ Forall u16 offsets /\ Forall (lookup_record_ranges o P) records.

(** In the builds that let a part be missing, an empty one stands for it if the offset is zero. *)
Definition stands_in {A} (allowed : bool) (offset : N) (v empty : A) : Prop :=
  allowed = true -> offset = 0 -> v = empty.

Definition directory_ranges {T} (o : options) (P : T -> Prop) (v : Directory T) : Prop :=
  let '(mkDirectory _ _ a b c d scripts features lookups variations) := v in
  u16 a /\ u16 b /\ u16 c /\ u32 d /\
  scripts_ranges scripts /\ features_ranges features /\ lookups_ranges o P lookups /\
  maybe_fits feature_variations_fits variations /\
  stands_in (ignore_incomplete_directories o) a scripts (mkScripts 0 [] []) /\
  stands_in (ignore_incomplete_directories o) b features (mkFeatures 0 [] []) /\
  stands_in (ignore_incomplete_directories o) c lookups (mkLookups 0 [] []).

(** ** [GSUB] *)

Definition ligatures_ranges (v : Ligatures) : Prop :=
  let '(mkLigatures n offsets records) := v in u16 n /\ Forall u16 offsets /\ Forall ligature_fits records.

Definition single_substitution_ranges (v : SingleSubstitution) : Prop :=
  match v with
  | SingleSubstitutionFormat1 (mkSingleSubstitution1 format a delta coverage) =>
      u16 format /\ u16 a /\ i16 delta /\ coverage_ranges coverage
  | SingleSubstitutionFormat2 (mkSingleSubstitution2 format a n ids coverage) =>
      u16 format /\ u16 a /\ u16 n /\ Forall u16 ids /\ coverage_ranges coverage
  end.

Definition gsub_type_ranges (v : GsubType) : Prop :=
  match v with
  | GsubSingleSubstitution t => single_substitution_ranges t
  | GsubMultipleSubstitution (mkMultipleSubstitution _ a n offsets coverage records) =>
      u16 a /\ u16 n /\ Forall u16 offsets /\ coverage_ranges coverage /\ Forall sequence_fits records
  | GsubAlternateSubstitution (mkAlternateSubstitution _ a n offsets coverage records) =>
      u16 a /\ u16 n /\ Forall u16 offsets /\ coverage_ranges coverage /\ Forall alternates_fits records
  | GsubLigatureSubstitution (mkLigatureSubstitution _ a n offsets coverage records) =>
      u16 a /\ u16 n /\ Forall u16 offsets /\ coverage_ranges coverage /\ Forall ligatures_ranges records
  | GsubContextualSubstitution t => context_ranges t
  | GsubChainedContextualSubstitution t => chained_context_ranges t
  | GsubExtensionSubstitution (mkExtensionSubstitution _ type_ offset) => u16 type_ /\ u32 offset
  | GsubReverseChainedContextualSubstibution (mkReverseChainedContextualSubstibution format d a
      back_offsets b fore_offsets c ids coverage back fore) =>
      u16 format /\ u16 d /\ u16 a /\ Forall u16 back_offsets /\ u16 b /\ Forall u16 fore_offsets /\
      u16 c /\ Forall u16 ids /\ coverage_ranges coverage /\
      Forall coverage_ranges back /\ Forall coverage_ranges fore
  end.

(** ** [GPOS] *)

Definition anchor_ranges (v : Anchor) : Prop :=
  match v with
  | AnchorFormat1 (mkAnchor1 format x y) => u16 format /\ i16 x /\ i16 y
  | AnchorFormat2 (mkAnchor2 format x y index) => u16 format /\ i16 x /\ i16 y /\ u16 index
  | AnchorFormat3 (mkAnchor3 format x y c d a b) =>
      u16 format /\ i16 x /\ i16 y /\ u16 c /\ u16 d /\
      maybe_fits correction_ranges a /\ maybe_fits correction_ranges b
  end.

Definition anchors_ranges (offsets : list N) (anchors : list (option Anchor)) : Prop :=
  Forall u16 offsets /\ Forall (maybe_fits anchor_ranges) anchors.

Definition base_ranges (v : Base) : Prop :=
  let '(mkBase offsets anchors) := v in anchors_ranges offsets anchors.

Definition bases_ranges (v : Bases) : Prop :=
  let '(mkBases n records) := v in u16 n /\ Forall base_ranges records.

Definition component_ranges (v : Component) : Prop :=
  let '(mkComponent offsets anchors) := v in anchors_ranges offsets anchors.

Definition gpos_ligature_ranges (v : GposLigature) : Prop :=
  let '(mkGposLigature n components) := v in u16 n /\ Forall component_ranges components.

Definition gpos_ligatures_ranges (v : GposLigatures) : Prop :=
  let '(mkGposLigatures n offsets records) := v in
  u16 n /\ Forall u16 offsets /\ Forall gpos_ligature_ranges records.

Definition mark2_ranges (v : Mark2) : Prop :=
  let '(mkMark2 offsets anchors) := v in anchors_ranges offsets anchors.

Definition mark2s_ranges (v : Mark2s) : Prop :=
  let '(mkMark2s n records) := v in u16 n /\ Forall mark2_ranges records.

Definition mark1_ranges (o : options) (v : Mark1) : Prop :=
  let '(mkMark1 class_id offset anchor) := v in
  u16 class_id /\ u16 offset /\ anchor_ranges anchor /\
  stands_in (ignore_incomplete_marks o) offset anchor (AnchorFormat1 (mkAnchor1 0 0 0)).

Definition mark1s_ranges (o : options) (v : Mark1s) : Prop :=
  let '(mkMark1s n records) := v in u16 n /\ Forall (mark1_ranges o) records.

Definition connection_ranges (v : Connection) : Prop :=
  let '(mkConnection c d a b) := v in
  u16 c /\ u16 d /\ maybe_fits anchor_ranges a /\ maybe_fits anchor_ranges b.

Definition single_ranges (v : Single) : Prop :=
  let '(mkSingle x0 x1 x2 x3 x4 x5 x6 x7 c4 c5 c6 c7) := v in
  maybe_fits i16 x0 /\ maybe_fits i16 x1 /\ maybe_fits i16 x2 /\ maybe_fits i16 x3 /\
  maybe_fits u16 x4 /\ maybe_fits u16 x5 /\ maybe_fits u16 x6 /\ maybe_fits u16 x7 /\
  maybe_fits correction_ranges c4 /\ maybe_fits correction_ranges c5 /\
  maybe_fits correction_ranges c6 /\ maybe_fits correction_ranges c7.

Definition pair1_ranges (v : Pair1) : Prop :=
  let '(mkPair1 glyph_id a b) := v in
  u16 glyph_id /\ maybe_fits single_ranges a /\ maybe_fits single_ranges b.

Definition pair1s_ranges (v : Pair1s) : Prop :=
  let '(mkPair1s n records) := v in u16 n /\ Forall pair1_ranges records.

Definition pair2_ranges (v : Pair2) : Prop :=
  let '(mkPair2 a b) := v in maybe_fits single_ranges a /\ maybe_fits single_ranges b.

Definition pair2s_ranges (v : Pair2s) : Prop :=
  let '(mkPair2s records) := v in Forall pair2_ranges records.

Definition gpos_type_ranges (o : options) (v : GposType) : Prop :=
  match v with
  | GposSingleAdjustment (SingleAdjustmentFormat1 (mkSingleAdjustment1 format a flags value coverage)) =>
      u16 format /\ u16 a /\ value_flags_fits o flags /\ single_ranges value /\ coverage_ranges coverage
  | GposSingleAdjustment (SingleAdjustmentFormat2 (mkSingleAdjustment2 format a flags n values coverage)) =>
      u16 format /\ u16 a /\ value_flags_fits o flags /\ u16 n /\ Forall single_ranges values /\
      coverage_ranges coverage
  | GposPairAdjustment (PairAdjustmentFormat1 (mkPairAdjustment1 format a flags1 flags2 n offsets
      coverage records)) =>
      u16 format /\ u16 a /\ value_flags_fits o flags1 /\ value_flags_fits o flags2 /\
      u16 n /\ Forall u16 offsets /\ coverage_ranges coverage /\ Forall pair1s_ranges records
  | GposPairAdjustment (PairAdjustmentFormat2 (mkPairAdjustment2 format a flags1 flags2 b c n m
      records coverage class1 class2)) =>
      u16 format /\ u16 a /\ value_flags_fits o flags1 /\ value_flags_fits o flags2 /\
      u16 b /\ u16 c /\ u16 n /\ u16 m /\ Forall pair2s_ranges records /\
      coverage_ranges coverage /\ class_ranges class1 /\ class_ranges class2
  | GposCursiveAttachment (mkCursiveAttachment _ a n connections coverage) =>
      u16 a /\ u16 n /\ Forall connection_ranges connections /\ coverage_ranges coverage
  | GposMarkToBaseAttachment (mkMarkToBaseAttachment _ a b n c d coverage1 coverage2 marks bases) =>
      u16 a /\ u16 b /\ u16 n /\ u16 c /\ u16 d /\
      coverage_ranges coverage1 /\ coverage_ranges coverage2 /\ mark1s_ranges o marks /\
      bases_ranges bases
  | GposMarkToLigatureAttachment (mkMarkToLigatureAttachment _ a b n c d coverage1 coverage2
      marks ligatures) =>
      u16 a /\ u16 b /\ u16 n /\ u16 c /\ u16 d /\
      coverage_ranges coverage1 /\ coverage_ranges coverage2 /\ mark1s_ranges o marks /\
      gpos_ligatures_ranges ligatures
  | GposMarkToMarkAttachment (mkMarkToMarkAttachment _ a b n c d coverage1 coverage2 mark1s mark2s) =>
      u16 a /\ u16 b /\ u16 n /\ u16 c /\ u16 d /\
      coverage_ranges coverage1 /\ coverage_ranges coverage2 /\ mark1s_ranges o mark1s /\
      mark2s_ranges mark2s
  | GposContextualPositioning t => context_ranges t
  | GposChainedContextualPositioning t => chained_context_ranges t
  | GposExtensionPositioning (mkExtensionPositioning _ type_ offset) => u16 type_ /\ u32 offset
  end.

(** ** [GDEF] *)

Definition attachments_ranges (v : Attachments) : Prop :=
  let '(mkAttachments a n offsets coverage records) := v in
  u16 a /\ u16 n /\ Forall u16 offsets /\ coverage_ranges coverage /\ Forall attachment_fits records.

Definition caret_ranges (v : Caret) : Prop :=
  match v with
  | CaretFormat1 (mkCaret1 format coordinate) => u16 format /\ i16 coordinate
  | CaretFormat2 (mkCaret2 format index) => u16 format /\ u16 index
  | CaretFormat3 (mkCaret3 format coordinate offset correction) =>
      u16 format /\ i16 coordinate /\ u16 offset /\ correction_ranges correction
  end.

Definition gdef_ligature_ranges (v : GdefLigature) : Prop :=
  let '(mkGdefLigature n offsets carets) := v in
  u16 n /\ Forall u16 offsets /\ Forall caret_ranges carets.

Definition gdef_ligatures_ranges (v : GdefLigatures) : Prop :=
  let '(mkGdefLigatures a n offsets coverage records) := v in
  u16 a /\ u16 n /\ Forall u16 offsets /\ coverage_ranges coverage /\ Forall gdef_ligature_ranges records.

Definition marks_ranges (v : Marks) : Prop :=
  let '(mkMarks _ n offsets coverages) := v in
  u16 n /\ Forall u32 offsets /\ Forall coverage_ranges coverages.

Definition store_ranges (o : options) (v : Store) : Prop :=
  let '(mkStore _ region_offset n offsets records) := v in
  u32 region_offset /\ u16 n /\ Forall u32 offsets /\ Forall (store_record_fits o) records.

Definition gdef_header_ranges (v : GdefHeader) : Prop :=
  match v with
  | GdefVersion1 (mkGdefHeader1 _ _ a b c d) => u16 a /\ u16 b /\ u16 c /\ u16 d
  | GdefVersion12 (mkGdefHeader12 _ _ a b c d e) => u16 a /\ u16 b /\ u16 c /\ u16 d /\ u16 e
  | GdefVersion13 (mkGdefHeader13 _ _ a b c d e f) =>
      u16 a /\ u16 b /\ u16 c /\ u16 d /\ u16 e /\ u32 f
  end.

Definition glyph_definition_ranges (o : options) (v : GlyphDefinition) : Prop :=
  let '(mkGlyphDefinition header glyph_class attachments ligatures mark_class marks variations) := v in
  gdef_header_ranges header /\ maybe_fits class_ranges glyph_class /\
  maybe_fits attachments_ranges attachments /\ maybe_fits gdef_ligatures_ranges ligatures /\
  maybe_fits class_ranges mark_class /\ maybe_fits marks_ranges marks /\
  maybe_fits (store_ranges o) variations.

(** ** [CPAL] and [fvar] *)

Definition color_palettes_ranges (v : ColorPalettes) : Prop :=
  match v with
  | mkColorPalettes (CpalVersion0 (mkCpalHeader0 _ k n m offset indices)) colors =>
      u16 k /\ u16 n /\ u16 m /\ u32 offset /\ Forall u16 indices /\ Forall color_fits colors
  | mkColorPalettes (CpalVersion1 (mkCpalHeader1 _ k n m offset indices)) colors =>
      u16 k /\ u16 n /\ u16 m /\ u32 offset /\ Forall u16 indices /\ Forall color_fits colors
  end.

Definition font_variations_ranges (o : options) (v : FontVariations) : Prop :=
  let '(mkFontVariations (mkFvarHeader major minor offset _ n size1 m size2) axes instances) := v in
  u16 major /\ u16 minor /\ u16 offset /\ u16 n /\ u16 size1 /\ u16 m /\ u16 size2 /\
  Forall (axis_record_fits o) axes /\ Forall (instance_record_fits o) instances.

(** ** All requests *)

(** The version of a font is looked at before it is read, and need not be the same then. *)
Definition ranges {A} (o : options) (r : request A) : A -> Prop :=
  match r in request A return A -> Prop with
  | RequestFile d => fun v =>
      (exists t, truetype_accept d t = true) /\ Forall (fun font => offsets_fits (font_offsets font)) (file_fonts v)
  | RequestFont d => fun v =>
      (exists t, truetype_accept d t = true) /\ offsets_fits (font_offsets v)
  | RequestGdef => glyph_definition_ranges o
  | RequestGpos => directory_ranges o (gpos_type_ranges o)
  | RequestGsub => directory_ranges o gsub_type_ranges
  | RequestCpal => color_palettes_ranges
  | RequestFvar => font_variations_ranges o
  end.
