(** Values without their layout: every offset the code follows, and the record sizes of
    [fvar], replaced by zero.  Two values with the same erasure hold the same data,
    possibly laid out differently in the file.

    Offsets the code does not follow are data and are kept: the offset of an extension
    subtable, that of the variation regions, and that of the item variations in version
    1.3 of [GDEF]. *)

From Verif Require Export Types.

(** An offset that may be absent is kept as present. *)
Definition present (v : option N) : option N := option_map (fun _ => 0) v.

(** ** Contexts *)

Definition context_records_erase (v : ContextRecords) : ContextRecords :=
  let '(mkContextRecords n _ records) := v in mkContextRecords n [] records.

Definition context_class_records_erase (v : ContextClassRecords) : ContextClassRecords :=
  let '(mkContextClassRecords n _ records) := v in mkContextClassRecords n [] records.

Definition chained_records_erase (v : ChainedRecords) : ChainedRecords :=
  let '(mkChainedRecords n _ records) := v in mkChainedRecords n [] records.

Definition chained_class_records_erase (v : ChainedClassRecords) : ChainedClassRecords :=
  let '(mkChainedClassRecords n _ records) := v in mkChainedClassRecords n [] records.

Definition context_erase (v : Context) : Context :=
  match v with
  | ContextFormat1 (mkContext1 format _ n _ coverage records) =>
      ContextFormat1 (mkContext1 format 0 n [] coverage (map context_records_erase records))
  | ContextFormat2 (mkContext2 format _ _ n _ coverage class records) =>
      ContextFormat2 (mkContext2 format 0 0 n [] coverage class
        (map (option_map context_class_records_erase) records))
  | ContextFormat3 (mkContext3 format n m _ actions coverages) =>
      ContextFormat3 (mkContext3 format n m [] actions coverages)
  end.

Definition chained_context_erase (v : ChainedContext) : ChainedContext :=
  match v with
  | ChainedContextFormat1 (mkChainedContext1 format _ n _ coverage records) =>
      ChainedContextFormat1 (mkChainedContext1 format 0 n [] coverage
        (map chained_records_erase records))
  | ChainedContextFormat2 (mkChainedContext2 format _ _ _ _ n _ coverage back class fore records) =>
      ChainedContextFormat2 (mkChainedContext2 format 0 0 0 0 n [] coverage back class fore
        (map (option_map chained_class_records_erase) records))
  | ChainedContextFormat3 (mkChainedContext3 format a _ b _ c _ d actions back coverages fore) =>
      ChainedContextFormat3 (mkChainedContext3 format a [] b [] c [] d actions back coverages fore)
  end.

(** ** The directory *)

Definition language_header_erase (v : LanguageHeader) : LanguageHeader :=
  let '(mkLanguageHeader tag _) := v in mkLanguageHeader tag 0.

Definition script_record_erase (v : ScriptRecord) : ScriptRecord :=
  let '(mkScriptRecord _ n headers default records) := v in
  mkScriptRecord 0 n (map language_header_erase headers) default records.

Definition script_header_erase (v : ScriptHeader) : ScriptHeader :=
  let '(mkScriptHeader tag _) := v in mkScriptHeader tag 0.

Definition scripts_erase (v : Scripts) : Scripts :=
  let '(mkScripts n headers records) := v in
  mkScripts n (map script_header_erase headers) (map script_record_erase records).

Definition feature_header_erase (v : FeatureHeader) : FeatureHeader :=
  let '(mkFeatureHeader tag _) := v in mkFeatureHeader tag 0.

Definition feature_record_erase (v : FeatureRecord) : FeatureRecord :=
  let '(mkFeatureRecord _ n indices parameters) := v in mkFeatureRecord 0 n indices parameters.

Definition features_erase (v : Features) : Features :=
  let '(mkFeatures n headers records) := v in
  mkFeatures n (map feature_header_erase headers) (map feature_record_erase records).

Definition lookup_record_erase {T} (erase : T -> T) (v : LookupRecord T) : LookupRecord T :=
  let '(mkLookupRecord type_ flags n _ set tables) := v in
  mkLookupRecord type_ flags n [] set (map erase tables).

Definition lookups_erase {T} (erase : T -> T) (v : Lookups T) : Lookups T :=
  let '(mkLookups n _ records) := v in mkLookups n [] (map (lookup_record_erase erase) records).

Definition directory_erase {T} (erase : T -> T) (v : Directory T) : Directory T :=
  let '(mkDirectory major minor _ _ _ _ scripts features lookups variations) := v in
  mkDirectory major minor 0 0 0 0 (scripts_erase scripts) (features_erase features)
    (lookups_erase erase lookups) variations.

(** ** [GSUB] *)

Definition ligatures_erase (v : Ligatures) : Ligatures :=
  let '(mkLigatures n _ records) := v in mkLigatures n [] records.

Definition single_substitution_erase (v : SingleSubstitution) : SingleSubstitution :=
  match v with
  | SingleSubstitutionFormat1 (mkSingleSubstitution1 format _ delta coverage) =>
      SingleSubstitutionFormat1 (mkSingleSubstitution1 format 0 delta coverage)
  | SingleSubstitutionFormat2 (mkSingleSubstitution2 format _ n ids coverage) =>
      SingleSubstitutionFormat2 (mkSingleSubstitution2 format 0 n ids coverage)
  end.

Definition gsub_type_erase (v : GsubType) : GsubType :=
  match v with
  | GsubSingleSubstitution t => GsubSingleSubstitution (single_substitution_erase t)
  | GsubMultipleSubstitution (mkMultipleSubstitution format _ n _ coverage records) =>
      GsubMultipleSubstitution (mkMultipleSubstitution format 0 n [] coverage records)
  | GsubAlternateSubstitution (mkAlternateSubstitution format _ n _ coverage records) =>
      GsubAlternateSubstitution (mkAlternateSubstitution format 0 n [] coverage records)
  | GsubLigatureSubstitution (mkLigatureSubstitution format _ n _ coverage records) =>
      GsubLigatureSubstitution (mkLigatureSubstitution format 0 n [] coverage
        (map ligatures_erase records))
  | GsubContextualSubstitution t => GsubContextualSubstitution (context_erase t)
  | GsubChainedContextualSubstitution t => GsubChainedContextualSubstitution (chained_context_erase t)
  | GsubExtensionSubstitution t => GsubExtensionSubstitution t
  | GsubReverseChainedContextualSubstibution (mkReverseChainedContextualSubstibution format _ a _ b _
      c ids coverage back fore) =>
      GsubReverseChainedContextualSubstibution (mkReverseChainedContextualSubstibution format 0 a []
        b [] c ids coverage back fore)
  end.

Definition glyph_substitution_erase : GlyphSubstitution -> GlyphSubstitution :=
  directory_erase gsub_type_erase.

(** ** [GPOS] *)

Definition anchor_erase (v : Anchor) : Anchor :=
  match v with
  | AnchorFormat3 (mkAnchor3 format x y _ _ a b) => AnchorFormat3 (mkAnchor3 format x y 0 0 a b)
  | _ => v
  end.

Definition anchors_erase : list (option Anchor) -> list (option Anchor) :=
  map (option_map anchor_erase).

Definition base_erase (v : Base) : Base :=
  let '(mkBase _ anchors) := v in mkBase [] (anchors_erase anchors).

Definition bases_erase (v : Bases) : Bases :=
  let '(mkBases n records) := v in mkBases n (map base_erase records).

Definition component_erase (v : Component) : Component :=
  let '(mkComponent _ anchors) := v in mkComponent [] (anchors_erase anchors).

Definition gpos_ligature_erase (v : GposLigature) : GposLigature :=
  let '(mkGposLigature n components) := v in mkGposLigature n (map component_erase components).

Definition gpos_ligatures_erase (v : GposLigatures) : GposLigatures :=
  let '(mkGposLigatures n _ records) := v in mkGposLigatures n [] (map gpos_ligature_erase records).

Definition mark2_erase (v : Mark2) : Mark2 :=
  let '(mkMark2 _ anchors) := v in mkMark2 [] (anchors_erase anchors).

Definition mark2s_erase (v : Mark2s) : Mark2s :=
  let '(mkMark2s n records) := v in mkMark2s n (map mark2_erase records).

Definition mark1_erase (v : Mark1) : Mark1 :=
  let '(mkMark1 class_id _ anchor) := v in mkMark1 class_id 0 (anchor_erase anchor).

Definition mark1s_erase (v : Mark1s) : Mark1s :=
  let '(mkMark1s n records) := v in mkMark1s n (map mark1_erase records).

Definition connection_erase (v : Connection) : Connection :=
  let '(mkConnection _ _ a b) := v in
  mkConnection 0 0 (option_map anchor_erase a) (option_map anchor_erase b).

Definition single_erase (v : Single) : Single :=
  let '(mkSingle x0 x1 x2 x3 x4 x5 x6 x7 c4 c5 c6 c7) := v in
  mkSingle x0 x1 x2 x3 (present x4) (present x5) (present x6) (present x7) c4 c5 c6 c7.

Definition pair1_erase (v : Pair1) : Pair1 :=
  let '(mkPair1 glyph_id a b) := v in
  mkPair1 glyph_id (option_map single_erase a) (option_map single_erase b).

Definition pair1s_erase (v : Pair1s) : Pair1s :=
  let '(mkPair1s n records) := v in mkPair1s n (map pair1_erase records).

Definition pair2_erase (v : Pair2) : Pair2 :=
  let '(mkPair2 a b) := v in mkPair2 (option_map single_erase a) (option_map single_erase b).

Definition pair2s_erase (v : Pair2s) : Pair2s :=
  let '(mkPair2s records) := v in mkPair2s (map pair2_erase records).

Definition gpos_type_erase (v : GposType) : GposType :=
  match v with
  | GposSingleAdjustment (SingleAdjustmentFormat1 (mkSingleAdjustment1 format _ flags value coverage)) =>
      GposSingleAdjustment (SingleAdjustmentFormat1 (mkSingleAdjustment1 format 0 flags
        (single_erase value) coverage))
  | GposSingleAdjustment (SingleAdjustmentFormat2 (mkSingleAdjustment2 format _ flags n values coverage)) =>
      GposSingleAdjustment (SingleAdjustmentFormat2 (mkSingleAdjustment2 format 0 flags n
        (map single_erase values) coverage))
  | GposPairAdjustment (PairAdjustmentFormat1 (mkPairAdjustment1 format _ flags1 flags2 n _ coverage
      records)) =>
      GposPairAdjustment (PairAdjustmentFormat1 (mkPairAdjustment1 format 0 flags1 flags2 n []
        coverage (map pair1s_erase records)))
  | GposPairAdjustment (PairAdjustmentFormat2 (mkPairAdjustment2 format _ flags1 flags2 _ _ n m
      records coverage class1 class2)) =>
      GposPairAdjustment (PairAdjustmentFormat2 (mkPairAdjustment2 format 0 flags1 flags2 0 0 n m
        (map pair2s_erase records) coverage class1 class2))
  | GposCursiveAttachment (mkCursiveAttachment format _ n connections coverage) =>
      GposCursiveAttachment (mkCursiveAttachment format 0 n (map connection_erase connections) coverage)
  | GposMarkToBaseAttachment (mkMarkToBaseAttachment format _ _ n _ _ coverage1 coverage2 marks bases) =>
      GposMarkToBaseAttachment (mkMarkToBaseAttachment format 0 0 n 0 0 coverage1 coverage2
        (mark1s_erase marks) (bases_erase bases))
  | GposMarkToLigatureAttachment (mkMarkToLigatureAttachment format _ _ n _ _ coverage1 coverage2
      marks ligatures) =>
      GposMarkToLigatureAttachment (mkMarkToLigatureAttachment format 0 0 n 0 0 coverage1 coverage2
        (mark1s_erase marks) (gpos_ligatures_erase ligatures))
  | GposMarkToMarkAttachment (mkMarkToMarkAttachment format _ _ n _ _ coverage1 coverage2
      mark1s mark2s) =>
      GposMarkToMarkAttachment (mkMarkToMarkAttachment format 0 0 n 0 0 coverage1 coverage2
        (mark1s_erase mark1s) (mark2s_erase mark2s))
  | GposContextualPositioning t => GposContextualPositioning (context_erase t)
  | GposChainedContextualPositioning t => GposChainedContextualPositioning (chained_context_erase t)
  | GposExtensionPositioning t => GposExtensionPositioning t
  end.

Definition glyph_positioning_erase : GlyphPositioning -> GlyphPositioning :=
  directory_erase gpos_type_erase.

(** ** [GDEF] *)

Definition attachments_erase (v : Attachments) : Attachments :=
  let '(mkAttachments _ n _ coverage records) := v in mkAttachments 0 n [] coverage records.

Definition caret_erase (v : Caret) : Caret :=
  match v with
  | CaretFormat3 (mkCaret3 format coordinate _ correction) =>
      CaretFormat3 (mkCaret3 format coordinate 0 correction)
  | _ => v
  end.

Definition gdef_ligature_erase (v : GdefLigature) : GdefLigature :=
  let '(mkGdefLigature n _ carets) := v in mkGdefLigature n [] (map caret_erase carets).

Definition gdef_ligatures_erase (v : GdefLigatures) : GdefLigatures :=
  let '(mkGdefLigatures _ n _ coverage records) := v in
  mkGdefLigatures 0 n [] coverage (map gdef_ligature_erase records).

Definition marks_erase (v : Marks) : Marks :=
  let '(mkMarks format n _ coverages) := v in mkMarks format n [] coverages.

Definition store_erase (v : Store) : Store :=
  let '(mkStore format region_offset n _ records) := v in mkStore format region_offset n [] records.

Definition gdef_header_erase (v : GdefHeader) : GdefHeader :=
  match v with
  | GdefVersion1 (mkGdefHeader1 major minor _ _ _ _) => GdefVersion1 (mkGdefHeader1 major minor 0 0 0 0)
  | GdefVersion12 (mkGdefHeader12 major minor _ _ _ _ _) =>
      GdefVersion12 (mkGdefHeader12 major minor 0 0 0 0 0)
  | GdefVersion13 (mkGdefHeader13 major minor _ _ _ _ _ variation_offset) =>
      GdefVersion13 (mkGdefHeader13 major minor 0 0 0 0 0 variation_offset)
  end.

Definition glyph_definition_erase (v : GlyphDefinition) : GlyphDefinition :=
  let '(mkGlyphDefinition header glyph_class attachments ligatures mark_class marks variations) := v in
  mkGlyphDefinition (gdef_header_erase header) glyph_class (option_map attachments_erase attachments)
    (option_map gdef_ligatures_erase ligatures) mark_class (option_map marks_erase marks)
    (option_map store_erase variations).

(** ** [CPAL] and [fvar] *)

Definition color_palettes_erase (v : ColorPalettes) : ColorPalettes :=
  match v with
  | mkColorPalettes (CpalVersion0 (mkCpalHeader0 version k n m _ indices)) colors =>
      mkColorPalettes (CpalVersion0 (mkCpalHeader0 version k n m 0 indices)) colors
  | mkColorPalettes (CpalVersion1 (mkCpalHeader1 version k n m _ indices)) colors =>
      mkColorPalettes (CpalVersion1 (mkCpalHeader1 version k n m 0 indices)) colors
  end.

Definition font_variations_erase (v : FontVariations) : FontVariations :=
  let '(mkFontVariations (mkFvarHeader major minor _ reserved n _ m _) axes instances) := v in
  mkFontVariations (mkFvarHeader major minor 0 reserved n 0 m 0) axes instances.
