(** Well-formed values: every count is the length of the list it announces and every
    format is the one of its variant, at every level.  No file is mentioned. *)

From Verif Require Export Types SpecGdef.

Definition counts {A} (n : N) (l : list A) : Prop := n = N.of_nat (length l).

(** ** Common structures *)

Definition coverage_wf (v : Coverage) : Prop :=
  match v with
  | CoverageFormat1 (mkCoverage1 format n ids) => format = 1 /\ counts n ids
  | CoverageFormat2 (mkCoverage2 format n records) => format = 2 /\ counts n records
  end.

Definition class_wf (v : Class) : Prop :=
  match v with
  | ClassFormat1 (mkClass1 format _ n indices) => format = 1 /\ counts n indices
  | ClassFormat2 (mkClass2 format n records) => format = 2 /\ counts n records
  end.

Definition correction_wf (v : Correction) : Prop :=
  match v with
  | CorrectionDevice (mkDevice start_size end_size format deltas) =>
      1 <= format <= 3 /\ start_size <= end_size /\
      counts (2 ^ format * (end_size - start_size + 1) / 16 + 1) deltas
  | CorrectionVariation (mkVariation _ _ format) => format = 0x8000
  end.

(** The first glyph of a rule is not in its list. *)
Definition counts_rest {A} (n : N) (l : list A) : Prop := n = N.of_nat (length l) + 1.

Definition context_record_wf (v : ContextRecord) : Prop :=
  let '(mkContextRecord n m ids actions) := v in counts_rest n ids /\ counts m actions.

Definition context_records_wf (v : ContextRecords) : Prop :=
  let '(mkContextRecords n offsets records) := v in
  counts n offsets /\ counts n records /\ Forall context_record_wf records.

Definition context_class_record_wf (v : ContextClassRecord) : Prop :=
  let '(mkContextClassRecord n m indices actions) := v in counts_rest n indices /\ counts m actions.

Definition context_class_records_wf (v : ContextClassRecords) : Prop :=
  let '(mkContextClassRecords n offsets records) := v in
  counts n offsets /\ counts n records /\ Forall context_class_record_wf records.

Definition chained_record_wf (v : ChainedRecord) : Prop :=
  let '(mkChainedRecord a back b ids c fore d actions) := v in
  counts a back /\ counts_rest b ids /\ counts c fore /\ counts d actions.

Definition chained_records_wf (v : ChainedRecords) : Prop :=
  let '(mkChainedRecords n offsets records) := v in
  counts n offsets /\ counts n records /\ Forall chained_record_wf records.

Definition chained_class_record_wf (v : ChainedClassRecord) : Prop :=
  let '(mkChainedClassRecord a back b ids c fore d actions) := v in
  counts a back /\ counts_rest b ids /\ counts c fore /\ counts d actions.

Definition chained_class_records_wf (v : ChainedClassRecords) : Prop :=
  let '(mkChainedClassRecords n offsets records) := v in
  counts n offsets /\ counts n records /\ Forall chained_class_record_wf records.

(** Something that may be absent. *)
Definition maybe_wf {A} (P : A -> Prop) (v : option A) : Prop :=
  match v with Some x => P x | None => True end.

(** Present exactly where the offset is not zero. *)
Definition presence_wf {A} (offset : N) (v : option A) : Prop := v = None <-> offset = 0.

Definition context_wf (v : Context) : Prop :=
  match v with
  | ContextFormat1 (mkContext1 format _ n offsets coverage records) =>
      format = 1 /\ counts n offsets /\ coverage_wf coverage /\
      counts n records /\ Forall context_records_wf records
  | ContextFormat2 (mkContext2 format _ _ n offsets coverage class records) =>
      format = 2 /\ counts n offsets /\ coverage_wf coverage /\ class_wf class /\
      counts n records /\ Forall (maybe_wf context_class_records_wf) records /\
      Forall2 presence_wf offsets records
  | ContextFormat3 (mkContext3 format n m offsets actions coverages) =>
      format = 3 /\ counts n offsets /\ counts m actions /\
      counts n coverages /\ Forall coverage_wf coverages
  end.

Definition chained_context_wf (v : ChainedContext) : Prop :=
  match v with
  | ChainedContextFormat1 (mkChainedContext1 format _ n offsets coverage records) =>
      format = 1 /\ counts n offsets /\ coverage_wf coverage /\
      counts n records /\ Forall chained_records_wf records
  | ChainedContextFormat2 (mkChainedContext2 format _ _ _ _ n offsets coverage back class fore records) =>
      format = 2 /\ counts n offsets /\ coverage_wf coverage /\
      class_wf back /\ class_wf class /\ class_wf fore /\
      counts n records /\ Forall (maybe_wf chained_class_records_wf) records /\
      Forall2 presence_wf offsets records
  | ChainedContextFormat3 (mkChainedContext3 format a back_offsets b offsets c fore_offsets d actions
      back coverages fore) =>
      format = 3 /\ counts a back_offsets /\ counts b offsets /\ counts c fore_offsets /\
      counts d actions /\ counts a back /\ counts b coverages /\ counts c fore /\
      Forall coverage_wf back /\ Forall coverage_wf coverages /\ Forall coverage_wf fore
  end.

Definition language_record_wf (v : LanguageRecord) : Prop :=
  let '(mkLanguageRecord order _ n indices) := v in order = 0 /\ counts n indices.

Definition script_record_wf (v : ScriptRecord) : Prop :=
  let '(mkScriptRecord offset n headers default records) := v in
  counts n headers /\ counts n records /\ presence_wf offset default /\
  maybe_wf language_record_wf default /\ Forall language_record_wf records.

Definition scripts_wf (v : Scripts) : Prop :=
  let '(mkScripts n headers records) := v in
  counts n headers /\ counts n records /\ Forall script_record_wf records.

Definition feature_record_wf (v : FeatureRecord) : Prop :=
  let '(mkFeatureRecord offset n indices parameters) := v in
  counts n indices /\ presence_wf offset parameters.

Definition features_wf (v : Features) : Prop :=
  let '(mkFeatures n headers records) := v in
  counts n headers /\ counts n records /\ Forall feature_record_wf records.

(** [P type_ t] is what a subtable [t] of a lookup of type [type_] has to satisfy. *)
Definition lookup_record_wf {T} (P : N -> T -> Prop) (v : LookupRecord T) : Prop :=
  let '(mkLookupRecord type_ flags n offsets set tables) := v in
  counts n offsets /\ counts n tables /\ (set = None <-> N.testbit flags 4 = false) /\
  Forall (P type_) tables.

Definition lookups_wf {T} (P : N -> T -> Prop) (v : Lookups T) : Prop :=
  let '(mkLookups n offsets records) := v in
  counts n offsets /\ counts n records /\ Forall (lookup_record_wf P) records.

Definition feature_variations_wf (v : FeatureVariations) : Prop :=
  let '(mkFeatureVariations major minor _) := v in major = 1 /\ minor = 0.

Definition directory_wf {T} (P : N -> T -> Prop) (v : Directory T) : Prop :=
  let '(mkDirectory major minor _ _ _ offset scripts features lookups variations) := v in
  major = 1 /\ (minor = 0 \/ minor = 1) /\
  scripts_wf scripts /\ features_wf features /\ lookups_wf P lookups /\
  presence_wf offset variations /\ maybe_wf feature_variations_wf variations /\
  (minor = 0 -> variations = None).

(** ** [GSUB] *)

Definition alternates_wf (v : Alternates) : Prop :=
  let '(mkAlternates n ids) := v in counts n ids.

Definition sequence_wf (v : Sequence) : Prop :=
  let '(mkSequence n ids) := v in counts n ids.

Definition ligature_wf (v : Ligature) : Prop :=
  let '(mkLigature _ n ids) := v in counts_rest n ids.

Definition ligatures_wf (v : Ligatures) : Prop :=
  let '(mkLigatures n offsets records) := v in
  counts n offsets /\ counts n records /\ Forall ligature_wf records.

Definition single_substitution_wf (v : SingleSubstitution) : Prop :=
  match v with
  | SingleSubstitutionFormat1 (mkSingleSubstitution1 format _ _ coverage) =>
      format = 1 /\ coverage_wf coverage
  | SingleSubstitutionFormat2 (mkSingleSubstitution2 format _ n ids coverage) =>
      format = 2 /\ counts n ids /\ coverage_wf coverage
  end.

(** The variant is the one of the lookup type, and its content is well formed.  The
    format of a reverse chained substitution is not checked by the code. *)
Definition gsub_type_wf (type_ : N) (v : GsubType) : Prop :=
  match v with
  | GsubSingleSubstitution t => type_ = 1 /\ single_substitution_wf t
  | GsubMultipleSubstitution (mkMultipleSubstitution format _ n offsets coverage records) =>
      type_ = 2 /\ format = 1 /\ counts n offsets /\ coverage_wf coverage /\
      counts n records /\ Forall sequence_wf records
  | GsubAlternateSubstitution (mkAlternateSubstitution format _ n offsets coverage records) =>
      type_ = 3 /\ format = 1 /\ counts n offsets /\ coverage_wf coverage /\
      counts n records /\ Forall alternates_wf records
  | GsubLigatureSubstitution (mkLigatureSubstitution format _ n offsets coverage records) =>
      type_ = 4 /\ format = 1 /\ counts n offsets /\ coverage_wf coverage /\
      counts n records /\ Forall ligatures_wf records
  | GsubContextualSubstitution t => type_ = 5 /\ context_wf t
  | GsubChainedContextualSubstitution t => type_ = 6 /\ chained_context_wf t
  | GsubExtensionSubstitution (mkExtensionSubstitution format _ _) => type_ = 7 /\ format = 1
  | GsubReverseChainedContextualSubstibution (mkReverseChainedContextualSubstibution _ _ a
      back_offsets b fore_offsets c ids coverage back fore) =>
      type_ = 8 /\ counts a back_offsets /\ counts b fore_offsets /\ counts c ids /\
      coverage_wf coverage /\ counts a back /\ counts b fore /\
      Forall coverage_wf back /\ Forall coverage_wf fore
  end.

Definition glyph_substitution_wf : GlyphSubstitution -> Prop := directory_wf gsub_type_wf.

(** ** [GPOS] *)

Definition anchor_wf (v : Anchor) : Prop :=
  match v with
  | AnchorFormat1 (mkAnchor1 format _ _) => format = 1
  | AnchorFormat2 (mkAnchor2 format _ _ _) => format = 2
  | AnchorFormat3 (mkAnchor3 format _ _ a b x y) =>
      format = 3 /\ presence_wf a x /\ presence_wf b y /\
      maybe_wf correction_wf x /\ maybe_wf correction_wf y
  end.

(** A row of nullable anchors. *)
Definition anchors_wf (n : N) (offsets : list N) (anchors : list (option Anchor)) : Prop :=
  counts n offsets /\ counts n anchors /\
  Forall2 presence_wf offsets anchors /\ Forall (maybe_wf anchor_wf) anchors.

Definition base_wf (n : N) (v : Base) : Prop :=
  let '(mkBase offsets anchors) := v in anchors_wf n offsets anchors.

Definition bases_wf (n : N) (v : Bases) : Prop :=
  let '(mkBases count records) := v in counts count records /\ Forall (base_wf n) records.

Definition component_wf (n : N) (v : Component) : Prop :=
  let '(mkComponent offsets anchors) := v in anchors_wf n offsets anchors.

Definition gpos_ligature_wf (n : N) (v : GposLigature) : Prop :=
  let '(mkGposLigature count components) := v in
  counts count components /\ Forall (component_wf n) components.

Definition gpos_ligatures_wf (n : N) (v : GposLigatures) : Prop :=
  let '(mkGposLigatures count offsets records) := v in
  counts count offsets /\ counts count records /\ Forall (gpos_ligature_wf n) records.

Definition mark2_wf (n : N) (v : Mark2) : Prop :=
  let '(mkMark2 offsets anchors) := v in anchors_wf n offsets anchors.

Definition mark2s_wf (n : N) (v : Mark2s) : Prop :=
  let '(mkMark2s count records) := v in counts count records /\ Forall (mark2_wf n) records.

(** The anchor that stands in for a missing one has format 0. *)
Definition mark1_wf (o : options) (v : Mark1) : Prop :=
  let '(mkMark1 _ offset anchor) := v in
  anchor_wf anchor \/
  (ignore_incomplete_marks o = true /\ offset = 0 /\ anchor = AnchorFormat1 (mkAnchor1 0 0 0)).

Definition mark1s_wf (o : options) (v : Mark1s) : Prop :=
  let '(mkMark1s count records) := v in counts count records /\ Forall (mark1_wf o) records.

Definition connection_wf (v : Connection) : Prop :=
  let '(mkConnection a b x y) := v in
  presence_wf a x /\ presence_wf b y /\ maybe_wf anchor_wf x /\ maybe_wf anchor_wf y.

(** The fields of a value record are those the flags announce. *)
Definition announced {A} (flags k : N) (v : option A) : Prop :=
  v = None <-> N.testbit flags k = false.

Definition corrected_wf (offset : option N) (v : option Correction) : Prop :=
  match offset with
  | None => v = None
  | Some offset => presence_wf offset v /\ maybe_wf correction_wf v
  end.

Definition single_wf (flags : N) (v : Single) : Prop :=
  let '(mkSingle x0 x1 x2 x3 x4 x5 x6 x7 c4 c5 c6 c7) := v in
  announced flags 0 x0 /\ announced flags 1 x1 /\ announced flags 2 x2 /\ announced flags 3 x3 /\
  announced flags 4 x4 /\ announced flags 5 x5 /\ announced flags 6 x6 /\ announced flags 7 x7 /\
  corrected_wf x4 c4 /\ corrected_wf x5 c5 /\ corrected_wf x6 c6 /\ corrected_wf x7 c7.

Definition value_wf (flags : N) (v : option Single) : Prop :=
  (v = None <-> flags = 0) /\ maybe_wf (single_wf flags) v.

Definition pair1_wf (flags1 flags2 : N) (v : Pair1) : Prop :=
  let '(mkPair1 _ value1 value2) := v in value_wf flags1 value1 /\ value_wf flags2 value2.

Definition pair1s_wf (flags1 flags2 : N) (v : Pair1s) : Prop :=
  let '(mkPair1s count records) := v in
  counts count records /\ Forall (pair1_wf flags1 flags2) records.

Definition pair2_wf (flags1 flags2 : N) (v : Pair2) : Prop :=
  let '(mkPair2 value1 value2) := v in value_wf flags1 value1 /\ value_wf flags2 value2.

Definition pair2s_wf (n flags1 flags2 : N) (v : Pair2s) : Prop :=
  let '(mkPair2s records) := v in
  counts n records /\ Forall (pair2_wf flags1 flags2) records.

Definition gpos_type_wf (o : options) (type_ : N) (v : GposType) : Prop :=
  match v with
  | GposSingleAdjustment (SingleAdjustmentFormat1 (mkSingleAdjustment1 format _ flags value coverage)) =>
      type_ = 1 /\ format = 1 /\ single_wf flags value /\ coverage_wf coverage
  | GposSingleAdjustment (SingleAdjustmentFormat2 (mkSingleAdjustment2 format _ flags n values coverage)) =>
      type_ = 1 /\ format = 2 /\ counts n values /\ Forall (single_wf flags) values /\
      coverage_wf coverage
  | GposPairAdjustment (PairAdjustmentFormat1 (mkPairAdjustment1 format _ flags1 flags2 n offsets
      coverage records)) =>
      type_ = 2 /\ format = 1 /\ counts n offsets /\ counts n records /\
      Forall (pair1s_wf flags1 flags2) records /\ coverage_wf coverage
  | GposPairAdjustment (PairAdjustmentFormat2 (mkPairAdjustment2 format _ flags1 flags2 _ _ n m
      records coverage class1 class2)) =>
      type_ = 2 /\ format = 2 /\ counts n records /\
      Forall (pair2s_wf m flags1 flags2) records /\
      coverage_wf coverage /\ class_wf class1 /\ class_wf class2
  | GposCursiveAttachment (mkCursiveAttachment format _ n connections coverage) =>
      type_ = 3 /\ format = 1 /\ counts n connections /\ Forall connection_wf connections /\
      coverage_wf coverage
  | GposMarkToBaseAttachment (mkMarkToBaseAttachment format _ _ n _ _ coverage1 coverage2 marks bases) =>
      type_ = 4 /\ format = 1 /\ coverage_wf coverage1 /\ coverage_wf coverage2 /\
      mark1s_wf o marks /\ bases_wf n bases
  | GposMarkToLigatureAttachment (mkMarkToLigatureAttachment format _ _ n _ _ coverage1 coverage2
      marks ligatures) =>
      type_ = 5 /\ format = 1 /\ coverage_wf coverage1 /\ coverage_wf coverage2 /\
      mark1s_wf o marks /\ gpos_ligatures_wf n ligatures
  | GposMarkToMarkAttachment (mkMarkToMarkAttachment format _ _ n _ _ coverage1 coverage2
      mark1s mark2s) =>
      type_ = 6 /\ format = 1 /\ coverage_wf coverage1 /\ coverage_wf coverage2 /\
      mark1s_wf o mark1s /\ mark2s_wf n mark2s
  | GposContextualPositioning t => type_ = 7 /\ context_wf t
  | GposChainedContextualPositioning t => type_ = 8 /\ chained_context_wf t
  | GposExtensionPositioning (mkExtensionPositioning format _ _) => type_ = 9 /\ format = 1
  end.

Definition glyph_positioning_wf (o : options) : GlyphPositioning -> Prop :=
  directory_wf (gpos_type_wf o).

(** ** [GDEF] *)

Definition attachment_wf (v : Attachment) : Prop :=
  let '(mkAttachment n indices) := v in counts n indices.

Definition attachments_wf (v : Attachments) : Prop :=
  let '(mkAttachments _ n offsets coverage records) := v in
  counts n offsets /\ coverage_wf coverage /\ counts n records /\ Forall attachment_wf records.

(** The code reads the format of a caret from the upper half of what it tests, which
    is zero (C39). *)
Definition caret_wf (v : Caret) : Prop :=
  match v with
  | CaretFormat1 (mkCaret1 format coordinate) => format = 0 /\ coordinate = 1%Z
  | CaretFormat2 (mkCaret2 format index) => format = 0 /\ index = 2
  | CaretFormat3 (mkCaret3 format coordinate _ correction) =>
      format = 0 /\ coordinate = 3%Z /\ correction_wf correction
  end.

Definition gdef_ligature_wf (v : GdefLigature) : Prop :=
  let '(mkGdefLigature n offsets carets) := v in
  counts n offsets /\ counts n carets /\ Forall caret_wf carets.

Definition gdef_ligatures_wf (v : GdefLigatures) : Prop :=
  let '(mkGdefLigatures _ n offsets coverage records) := v in
  counts n offsets /\ coverage_wf coverage /\ counts n records /\ Forall gdef_ligature_wf records.

Definition marks_wf (v : Marks) : Prop :=
  let '(mkMarks format n offsets coverages) := v in
  format = 1 /\ counts n offsets /\ counts n coverages /\ Forall coverage_wf coverages.

(** A row of deltas takes the sum of the two counts modulo 2^16 (C33 and C46). *)
Definition store_record_wf (v : StoreRecord) : Prop :=
  let '(mkStoreRecord n m k indices deltas) := v in
  counts k indices /\ counts (n * ((m + k) mod 2 ^ 16)) deltas.

Definition store_wf (v : Store) : Prop :=
  let '(mkStore format _ n offsets records) := v in
  format = 1 /\ counts n offsets /\ counts n records /\ Forall store_record_wf records.

Definition gdef_header_wf (v : GdefHeader) : Prop :=
  match v with
  | GdefVersion1 (mkGdefHeader1 major minor _ _ _ _) => major = 1 /\ minor = 0
  | GdefVersion12 (mkGdefHeader12 major minor _ _ _ _ _) => major = 1 /\ minor = 2
  | GdefVersion13 (mkGdefHeader13 major minor _ _ _ _ _ _) => major = 1 /\ minor = 3
  end.

Definition glyph_definition_wf (v : GlyphDefinition) : Prop :=
  let '(mkGlyphDefinition header glyph_class attachments ligatures mark_class marks variations) := v in
  let '(a, b, c, d, m, _) := gdef_offsets header in
  gdef_header_wf header /\
  presence_wf a glyph_class /\ maybe_wf class_wf glyph_class /\
  presence_wf b attachments /\ maybe_wf attachments_wf attachments /\
  presence_wf c ligatures /\ maybe_wf gdef_ligatures_wf ligatures /\
  presence_wf d mark_class /\ maybe_wf class_wf mark_class /\
  presence_wf m marks /\ maybe_wf marks_wf marks /\
  presence_wf (gdef_variation_offset header) variations /\ maybe_wf store_wf variations.

(** ** [CPAL] and [fvar] *)

Definition color_palettes_wf (v : ColorPalettes) : Prop :=
  match v with
  | mkColorPalettes (CpalVersion0 (mkCpalHeader0 version _ n m _ indices)) colors =>
      version = 0 /\ counts n indices /\ counts m colors
  | mkColorPalettes (CpalVersion1 (mkCpalHeader1 version _ n m _ indices)) colors =>
      version = 1 /\ counts n indices /\ counts m colors
  end.

Definition font_variations_wf (v : FontVariations) : Prop :=
  let '(mkFontVariations (mkFvarHeader _ _ _ reserved n _ m _) axes instances) := v in
  reserved = 2 /\ counts n axes /\ counts m instances /\
  Forall (fun i => counts n (instance_record_coordinates i)) instances.
