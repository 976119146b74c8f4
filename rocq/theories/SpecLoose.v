(** What is left of the shape of values (SpecShape.v) if the bytes change while they are
    read.  A format is read twice, first to choose the variant and then as a field, so that
    the field need not be the one of the variant; all the rest stays. *)

From Verif Require Export SpecShape Requests.

Definition coverage_loose (v : Coverage) : Prop :=
  match v with
  | CoverageFormat1 (mkCoverage1 _ n ids) => counts n ids
  | CoverageFormat2 (mkCoverage2 _ n records) => counts n records
  end.

Definition class_loose (v : Class) : Prop :=
  match v with
  | ClassFormat1 (mkClass1 _ _ n indices) => counts n indices
  | ClassFormat2 (mkClass2 _ n records) => counts n records
  end.

(** The format of a device table is tested once more. *)
Definition correction_loose (v : Correction) : Prop :=
  match v with
  | CorrectionDevice _ => correction_wf v
  | CorrectionVariation _ => True
  end.

Definition context_loose (v : Context) : Prop :=
  match v with
  | ContextFormat1 (mkContext1 _ _ n offsets coverage records) =>
      counts n offsets /\ coverage_loose coverage /\
      counts n records /\ Forall context_records_wf records
  | ContextFormat2 (mkContext2 _ _ _ n offsets coverage class records) =>
      counts n offsets /\ coverage_loose coverage /\ class_loose class /\
      counts n records /\ Forall (maybe_wf context_class_records_wf) records /\
      Forall2 presence_wf offsets records
  | ContextFormat3 (mkContext3 _ n m offsets actions coverages) =>
      counts n offsets /\ counts m actions /\
      counts n coverages /\ Forall coverage_loose coverages
  end.

Definition chained_context_loose (v : ChainedContext) : Prop :=
  match v with
  | ChainedContextFormat1 (mkChainedContext1 _ _ n offsets coverage records) =>
      counts n offsets /\ coverage_loose coverage /\
      counts n records /\ Forall chained_records_wf records
  | ChainedContextFormat2 (mkChainedContext2 _ _ _ _ _ n offsets coverage back class fore records) =>
      counts n offsets /\ coverage_loose coverage /\
      class_loose back /\ class_loose class /\ class_loose fore /\
      counts n records /\ Forall (maybe_wf chained_class_records_wf) records /\
      Forall2 presence_wf offsets records
  | ChainedContextFormat3 (mkChainedContext3 _ a back_offsets b offsets c fore_offsets d actions
      back coverages fore) =>
      counts a back_offsets /\ counts b offsets /\ counts c fore_offsets /\
      counts d actions /\ counts a back /\ counts b coverages /\ counts c fore /\
      Forall coverage_loose back /\ Forall coverage_loose coverages /\ Forall coverage_loose fore
  end.

(** ** [GSUB] *)

Definition single_substitution_loose (v : SingleSubstitution) : Prop :=
  match v with
  | SingleSubstitutionFormat1 (mkSingleSubstitution1 _ _ _ coverage) => coverage_loose coverage
  | SingleSubstitutionFormat2 (mkSingleSubstitution2 _ _ n ids coverage) =>
      counts n ids /\ coverage_loose coverage
  end.

Definition gsub_type_loose (type_ : N) (v : GsubType) : Prop :=
  match v with
  | GsubSingleSubstitution t => type_ = 1 /\ single_substitution_loose t
  | GsubMultipleSubstitution (mkMultipleSubstitution format _ n offsets coverage records) =>
      type_ = 2 /\ format = 1 /\ counts n offsets /\ coverage_loose coverage /\
      counts n records /\ Forall sequence_wf records
  | GsubAlternateSubstitution (mkAlternateSubstitution format _ n offsets coverage records) =>
      type_ = 3 /\ format = 1 /\ counts n offsets /\ coverage_loose coverage /\
      counts n records /\ Forall alternates_wf records
  | GsubLigatureSubstitution (mkLigatureSubstitution format _ n offsets coverage records) =>
      type_ = 4 /\ format = 1 /\ counts n offsets /\ coverage_loose coverage /\
      counts n records /\ Forall ligatures_wf records
  | GsubContextualSubstitution t => type_ = 5 /\ context_loose t
  | GsubChainedContextualSubstitution t => type_ = 6 /\ chained_context_loose t
  | GsubExtensionSubstitution (mkExtensionSubstitution format _ _) => type_ = 7 /\ format = 1
  | GsubReverseChainedContextualSubstibution (mkReverseChainedContextualSubstibution _ _ a
      back_offsets b fore_offsets c ids coverage back fore) =>
      type_ = 8 /\ counts a back_offsets /\ counts b fore_offsets /\ counts c ids /\
      coverage_loose coverage /\ counts a back /\ counts b fore /\
      Forall coverage_loose back /\ Forall coverage_loose fore
  end.

(** ** [GPOS] *)

Definition anchor_loose (v : Anchor) : Prop :=
  match v with
  | AnchorFormat1 _ | AnchorFormat2 _ => True
  | AnchorFormat3 (mkAnchor3 _ _ _ a b x y) =>
      presence_wf a x /\ presence_wf b y /\ maybe_wf correction_loose x /\ maybe_wf correction_loose y
  end.

Definition anchors_loose (n : N) (offsets : list N) (anchors : list (option Anchor)) : Prop :=
  counts n offsets /\ counts n anchors /\
  Forall2 presence_wf offsets anchors /\ Forall (maybe_wf anchor_loose) anchors.

Definition base_loose (n : N) (v : Base) : Prop :=
  let '(mkBase offsets anchors) := v in anchors_loose n offsets anchors.

Definition bases_loose (n : N) (v : Bases) : Prop :=
  let '(mkBases count records) := v in counts count records /\ Forall (base_loose n) records.

Definition component_loose (n : N) (v : Component) : Prop :=
  let '(mkComponent offsets anchors) := v in anchors_loose n offsets anchors.

Definition gpos_ligature_loose (n : N) (v : GposLigature) : Prop :=
  let '(mkGposLigature count components) := v in
  counts count components /\ Forall (component_loose n) components.

Definition gpos_ligatures_loose (n : N) (v : GposLigatures) : Prop :=
  let '(mkGposLigatures count offsets records) := v in
  counts count offsets /\ counts count records /\ Forall (gpos_ligature_loose n) records.

Definition mark2_loose (n : N) (v : Mark2) : Prop :=
  let '(mkMark2 offsets anchors) := v in anchors_loose n offsets anchors.

Definition mark2s_loose (n : N) (v : Mark2s) : Prop :=
  let '(mkMark2s count records) := v in counts count records /\ Forall (mark2_loose n) records.

Definition mark1_loose (v : Mark1) : Prop :=
  let '(mkMark1 _ _ anchor) := v in anchor_loose anchor.

Definition mark1s_loose (v : Mark1s) : Prop :=
  let '(mkMark1s count records) := v in counts count records /\ Forall mark1_loose records.

Definition connection_loose (v : Connection) : Prop :=
  let '(mkConnection a b x y) := v in
  presence_wf a x /\ presence_wf b y /\ maybe_wf anchor_loose x /\ maybe_wf anchor_loose y.

Definition corrected_loose (offset : option N) (v : option Correction) : Prop :=
  match offset with
  | None => v = None
  | Some offset => presence_wf offset v /\ maybe_wf correction_loose v
  end.

Definition single_loose (flags : N) (v : Single) : Prop :=
  let '(mkSingle x0 x1 x2 x3 x4 x5 x6 x7 c4 c5 c6 c7) := v in
  announced flags 0 x0 /\ announced flags 1 x1 /\ announced flags 2 x2 /\ announced flags 3 x3 /\
  announced flags 4 x4 /\ announced flags 5 x5 /\ announced flags 6 x6 /\ announced flags 7 x7 /\
  corrected_loose x4 c4 /\ corrected_loose x5 c5 /\ corrected_loose x6 c6 /\ corrected_loose x7 c7.

Definition value_loose (flags : N) (v : option Single) : Prop :=
  (v = None <-> flags = 0) /\ maybe_wf (single_loose flags) v.

Definition pair1_loose (flags1 flags2 : N) (v : Pair1) : Prop :=
  let '(mkPair1 _ value1 value2) := v in value_loose flags1 value1 /\ value_loose flags2 value2.

Definition pair1s_loose (flags1 flags2 : N) (v : Pair1s) : Prop :=
  let '(mkPair1s count records) := v in
  counts count records /\ Forall (pair1_loose flags1 flags2) records.

Definition pair2_loose (flags1 flags2 : N) (v : Pair2) : Prop :=
  let '(mkPair2 value1 value2) := v in value_loose flags1 value1 /\ value_loose flags2 value2.

Definition pair2s_loose (n flags1 flags2 : N) (v : Pair2s) : Prop :=
  let '(mkPair2s records) := v in
  counts n records /\ Forall (pair2_loose flags1 flags2) records.

Definition gpos_type_loose (type_ : N) (v : GposType) : Prop :=
  match v with
  | GposSingleAdjustment (SingleAdjustmentFormat1 (mkSingleAdjustment1 _ _ flags value coverage)) =>
      type_ = 1 /\ single_loose flags value /\ coverage_loose coverage
  | GposSingleAdjustment (SingleAdjustmentFormat2 (mkSingleAdjustment2 _ _ flags n values coverage)) =>
      type_ = 1 /\ counts n values /\ Forall (single_loose flags) values /\ coverage_loose coverage
  | GposPairAdjustment (PairAdjustmentFormat1 (mkPairAdjustment1 _ _ flags1 flags2 n offsets
      coverage records)) =>
      type_ = 2 /\ counts n offsets /\ counts n records /\
      Forall (pair1s_loose flags1 flags2) records /\ coverage_loose coverage
  | GposPairAdjustment (PairAdjustmentFormat2 (mkPairAdjustment2 _ _ flags1 flags2 _ _ n m
      records coverage class1 class2)) =>
      type_ = 2 /\ counts n records /\ Forall (pair2s_loose m flags1 flags2) records /\
      coverage_loose coverage /\ class_loose class1 /\ class_loose class2
  | GposCursiveAttachment (mkCursiveAttachment format _ n connections coverage) =>
      type_ = 3 /\ format = 1 /\ counts n connections /\ Forall connection_loose connections /\
      coverage_loose coverage
  | GposMarkToBaseAttachment (mkMarkToBaseAttachment format _ _ n _ _ coverage1 coverage2 marks bases) =>
      type_ = 4 /\ format = 1 /\ coverage_loose coverage1 /\ coverage_loose coverage2 /\
      mark1s_loose marks /\ bases_loose n bases
  | GposMarkToLigatureAttachment (mkMarkToLigatureAttachment format _ _ n _ _ coverage1 coverage2
      marks ligatures) =>
      type_ = 5 /\ format = 1 /\ coverage_loose coverage1 /\ coverage_loose coverage2 /\
      mark1s_loose marks /\ gpos_ligatures_loose n ligatures
  | GposMarkToMarkAttachment (mkMarkToMarkAttachment format _ _ n _ _ coverage1 coverage2
      mark1s mark2s) =>
      type_ = 6 /\ format = 1 /\ coverage_loose coverage1 /\ coverage_loose coverage2 /\
      mark1s_loose mark1s /\ mark2s_loose n mark2s
  | GposContextualPositioning t => type_ = 7 /\ context_loose t
  | GposChainedContextualPositioning t => type_ = 8 /\ chained_context_loose t
  | GposExtensionPositioning (mkExtensionPositioning format _ _) => type_ = 9 /\ format = 1
  end.

(** ** [GDEF] *)

Definition attachments_loose (v : Attachments) : Prop :=
  let '(mkAttachments _ n offsets coverage records) := v in
  counts n offsets /\ coverage_loose coverage /\ counts n records /\ Forall attachment_wf records.

Definition caret_loose (v : Caret) : Prop :=
  match v with
  | CaretFormat1 _ | CaretFormat2 _ => True
  | CaretFormat3 (mkCaret3 _ _ _ correction) => correction_loose correction
  end.

Definition gdef_ligature_loose (v : GdefLigature) : Prop :=
  let '(mkGdefLigature n offsets carets) := v in
  counts n offsets /\ counts n carets /\ Forall caret_loose carets.

Definition gdef_ligatures_loose (v : GdefLigatures) : Prop :=
  let '(mkGdefLigatures _ n offsets coverage records) := v in
  counts n offsets /\ coverage_loose coverage /\ counts n records /\ Forall gdef_ligature_loose records.

Definition marks_loose (v : Marks) : Prop :=
  let '(mkMarks format n offsets coverages) := v in
  format = 1 /\ counts n offsets /\ counts n coverages /\ Forall coverage_loose coverages.

Definition glyph_definition_loose (v : GlyphDefinition) : Prop :=
  let '(mkGlyphDefinition header glyph_class attachments ligatures mark_class marks variations) := v in
  let '(a, b, c, d, m, _) := gdef_offsets header in
  gdef_header_wf header /\
  presence_wf a glyph_class /\ maybe_wf class_loose glyph_class /\
  presence_wf b attachments /\ maybe_wf attachments_loose attachments /\
  presence_wf c ligatures /\ maybe_wf gdef_ligatures_loose ligatures /\
  presence_wf d mark_class /\ maybe_wf class_loose mark_class /\
  presence_wf m marks /\ maybe_wf marks_loose marks /\
  presence_wf (gdef_variation_offset header) variations /\ maybe_wf store_wf variations.

(** ** All requests *)

Definition loose {A} (r : request A) : A -> Prop :=
  match r in request A return A -> Prop with
  | RequestFile _ => fun v => match file_fonts v with
      | [font] => counts (offsets_header_table_count (offsets_header (font_offsets font)))
          (offsets_records (font_offsets font))
      | _ => False
      end
  | RequestFont _ => fun v =>
      counts (offsets_header_table_count (offsets_header (font_offsets v)))
        (offsets_records (font_offsets v))
  | RequestGdef => glyph_definition_loose
  | RequestGpos => directory_wf gpos_type_loose
  | RequestGsub => directory_wf gsub_type_loose
  | RequestCpal => color_palettes_wf
  | RequestFvar => font_variations_wf
  end.
