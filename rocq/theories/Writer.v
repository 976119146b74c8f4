(** Writing values: the bytes of a table with a given content, each linked structure once,
    after the fixed part of the structure that links to it.  No part of the code is
    modelled here; src has no writer. *)

From Verif Require Export Encode Types.

(** ** Blocks *)

(** What a structure is made of: bytes, and 16-bit and 32-bit offsets of other structures. *)
Inductive piece :=
| Raw (l : list byte)
| Link (child : list byte)
| Long (child : list byte).

Definition size (l : list byte) : N := N.of_nat (length l).

(** The size of the fixed part. *)
Fixpoint width (ps : list piece) : N :=
  match ps with
  | [] => 0
  | Raw l :: ps => size l + width ps
  | Link _ :: ps => 2 + width ps
  | Long _ :: ps => 4 + width ps
  end.

(** The fixed part, where the next linked structure is at offset [k]. *)
Fixpoint front (k : N) (ps : list piece) : list byte :=
  match ps with
  | [] => []
  | Raw l :: ps => l ++ front k ps
  | Link c :: ps => be16 k ++ front (k + size c) ps
  | Long c :: ps => be32 k ++ front (k + size c) ps
  end.

(** The linked structures. *)
Fixpoint back (ps : list piece) : list byte :=
  match ps with
  | [] => []
  | Raw _ :: ps => back ps
  | Link c :: ps | Long c :: ps => c ++ back ps
  end.

Definition block (ps : list piece) : list byte := front (width ps) ps ++ back ps.

(** ** Scalars and lists *)

Definition w16 (n : N) : piece := Raw (be16 n).
Definition w32 (n : N) : piece := Raw (be32 n).
Definition ws16 (l : list N) : piece := Raw (flat_map be16 l).

Definition be_i16 (z : Z) : list byte := be16 (Z.to_N (z mod 65536)).
Definition be_i32 (z : Z) : list byte := be32 (Z.to_N (z mod 4294967296)).

Definition tag_bytes (t : tag) : list byte :=
  let '(Tag a b c d) := t in [a; b; c; d].

Definition links {A} (enc : A -> list byte) (l : list A) : list piece :=
  map (fun x => Link (enc x)) l.

Definition longs {A} (enc : A -> list byte) (l : list A) : list piece :=
  map (fun x => Long (enc x)) l.

Definition maybe_link {A} (enc : A -> list byte) (v : option A) : piece :=
  match v with
  | None => w16 0
  | Some x => Link (enc x)
  end.

(** Tags with links. *)
Definition tagged {A} (enc : A -> list byte) (l : list (tag * A)) : list piece :=
  flat_map (fun '(t, x) => [Raw (tag_bytes t); Link (enc x)]) l.

(** ** Common structures *)

Definition coverage_record_bytes (v : CoverageRecord) : list byte :=
  let '(mkCoverageRecord a b c) := v in be16 a ++ be16 b ++ be16 c.

Definition coverage_bytes (v : Coverage) : list byte :=
  match v with
  | CoverageFormat1 (mkCoverage1 format n ids) => be16 format ++ be16 n ++ flat_map be16 ids
  | CoverageFormat2 (mkCoverage2 format n records) =>
      be16 format ++ be16 n ++ flat_map coverage_record_bytes records
  end.

Definition class_record_bytes (v : ClassRecord) : list byte :=
  let '(mkClassRecord a b c) := v in be16 a ++ be16 b ++ be16 c.

Definition class_bytes (v : Class) : list byte :=
  match v with
  | ClassFormat1 (mkClass1 format start n indices) =>
      be16 format ++ be16 start ++ be16 n ++ flat_map be16 indices
  | ClassFormat2 (mkClass2 format n records) =>
      be16 format ++ be16 n ++ flat_map class_record_bytes records
  end.

Definition correction_bytes (v : Correction) : list byte :=
  match v with
  | CorrectionDevice (mkDevice start_size end_size format deltas) =>
      be16 start_size ++ be16 end_size ++ be16 format ++ flat_map be16 deltas
  | CorrectionVariation (mkVariation outer inner format) => be16 outer ++ be16 inner ++ be16 format
  end.

Definition action_bytes (v : Action) : list byte :=
  let '(mkAction a b) := v in be16 a ++ be16 b.

Definition context_record_bytes (v : ContextRecord) : list byte :=
  let '(mkContextRecord n m ids actions) := v in
  be16 n ++ be16 m ++ flat_map be16 ids ++ flat_map action_bytes actions.

Definition context_records_bytes (v : ContextRecords) : list byte :=
  let '(mkContextRecords n _ records) := v in block (w16 n :: links context_record_bytes records).

Definition context_class_record_bytes (v : ContextClassRecord) : list byte :=
  let '(mkContextClassRecord n m ids actions) := v in
  be16 n ++ be16 m ++ flat_map be16 ids ++ flat_map action_bytes actions.

Definition context_class_records_bytes (v : ContextClassRecords) : list byte :=
  let '(mkContextClassRecords n _ records) := v in
  block (w16 n :: links context_class_record_bytes records).

Definition chained_record_bytes (v : ChainedRecord) : list byte :=
  let '(mkChainedRecord a back b ids c fore d actions) := v in
  be16 a ++ flat_map be16 back ++ be16 b ++ flat_map be16 ids ++ be16 c ++ flat_map be16 fore ++
  be16 d ++ flat_map action_bytes actions.

Definition chained_records_bytes (v : ChainedRecords) : list byte :=
  let '(mkChainedRecords n _ records) := v in block (w16 n :: links chained_record_bytes records).

Definition chained_class_record_bytes (v : ChainedClassRecord) : list byte :=
  let '(mkChainedClassRecord a back b ids c fore d actions) := v in
  be16 a ++ flat_map be16 back ++ be16 b ++ flat_map be16 ids ++ be16 c ++ flat_map be16 fore ++
  be16 d ++ flat_map action_bytes actions.

Definition chained_class_records_bytes (v : ChainedClassRecords) : list byte :=
  let '(mkChainedClassRecords n _ records) := v in
  block (w16 n :: links chained_class_record_bytes records).

Definition context_bytes (v : Context) : list byte :=
  match v with
  | ContextFormat1 (mkContext1 format _ n _ coverage records) =>
      block (w16 format :: Link (coverage_bytes coverage) :: w16 n ::
        links context_records_bytes records)
  | ContextFormat2 (mkContext2 format _ _ n _ coverage class records) =>
      block (w16 format :: Link (coverage_bytes coverage) :: Link (class_bytes class) :: w16 n ::
        map (maybe_link context_class_records_bytes) records)
  | ContextFormat3 (mkContext3 format n m _ actions coverages) =>
      block ([w16 format; w16 n; w16 m] ++ links coverage_bytes coverages ++
        [Raw (flat_map action_bytes actions)])
  end.

Definition chained_context_bytes (v : ChainedContext) : list byte :=
  match v with
  | ChainedContextFormat1 (mkChainedContext1 format _ n _ coverage records) =>
      block (w16 format :: Link (coverage_bytes coverage) :: w16 n ::
        links chained_records_bytes records)
  | ChainedContextFormat2 (mkChainedContext2 format _ _ _ _ n _ coverage back class fore records) =>
      block (w16 format :: Link (coverage_bytes coverage) :: Link (class_bytes back) ::
        Link (class_bytes class) :: Link (class_bytes fore) :: w16 n ::
        map (maybe_link chained_class_records_bytes) records)
  | ChainedContextFormat3 (mkChainedContext3 format a _ b _ c _ d actions back coverages fore) =>
      block ([w16 format; w16 a] ++ links coverage_bytes back ++
        [w16 b] ++ links coverage_bytes coverages ++
        [w16 c] ++ links coverage_bytes fore ++
        [w16 d; Raw (flat_map action_bytes actions)])
  end.

(** ** The directory *)

Definition language_record_bytes (v : LanguageRecord) : list byte :=
  let '(mkLanguageRecord order required n indices) := v in
  be16 order ++ be16 required ++ be16 n ++ flat_map be16 indices.

Definition script_record_bytes (v : ScriptRecord) : list byte :=
  let '(mkScriptRecord _ n headers default records) := v in
  block (maybe_link language_record_bytes default :: w16 n ::
    tagged language_record_bytes (combine (map language_header_tag headers) records)).

Definition scripts_bytes (v : Scripts) : list byte :=
  let '(mkScripts n headers records) := v in
  block (w16 n :: tagged script_record_bytes (combine (map script_header_tag headers) records)).

Definition feature_record_bytes (v : FeatureRecord) : list byte :=
  let '(mkFeatureRecord _ n indices parameters) := v in
  block [maybe_link bytes parameters; w16 n; ws16 indices].

Definition features_bytes (v : Features) : list byte :=
  let '(mkFeatures n headers records) := v in
  block (w16 n :: tagged feature_record_bytes (combine (map feature_header_tag headers) records)).

Definition lookup_record_bytes {T} (enc : T -> list byte) (v : LookupRecord T) : list byte :=
  let '(mkLookupRecord type_ flags n _ set tables) := v in
  block ([w16 type_; w16 flags; w16 n] ++ links enc tables ++
    match set with None => [] | Some k => [w16 k] end).

Definition lookups_bytes {T} (enc : T -> list byte) (v : Lookups T) : list byte :=
  let '(mkLookups n _ records) := v in block (w16 n :: links (lookup_record_bytes enc) records).

Definition feature_variations_bytes (v : FeatureVariations) : list byte :=
  let '(mkFeatureVariations major minor n) := v in be16 major ++ be16 minor ++ be32 n.

Definition directory_bytes {T} (enc : T -> list byte) (v : Directory T) : list byte :=
  let '(mkDirectory major minor _ _ _ _ scripts features lookups variations) := v in
  block ([w16 major; w16 minor; Link (scripts_bytes scripts); Link (features_bytes features);
    Link (lookups_bytes enc lookups)] ++
    if minor =? 0 then []
    else match variations with
      | None => [w32 0]
      | Some x => [Long (feature_variations_bytes x)]
      end).

(** ** [GSUB] *)

Definition alternates_bytes (v : Alternates) : list byte :=
  let '(mkAlternates n ids) := v in be16 n ++ flat_map be16 ids.

Definition sequence_bytes (v : Sequence) : list byte :=
  let '(mkSequence n ids) := v in be16 n ++ flat_map be16 ids.

Definition ligature_bytes (v : Ligature) : list byte :=
  let '(mkLigature glyph_id n ids) := v in be16 glyph_id ++ be16 n ++ flat_map be16 ids.

Definition ligatures_bytes (v : Ligatures) : list byte :=
  let '(mkLigatures n _ records) := v in block (w16 n :: links ligature_bytes records).

Definition single_substitution_bytes (v : SingleSubstitution) : list byte :=
  match v with
  | SingleSubstitutionFormat1 (mkSingleSubstitution1 format _ delta coverage) =>
      block [w16 format; Link (coverage_bytes coverage); Raw (be_i16 delta)]
  | SingleSubstitutionFormat2 (mkSingleSubstitution2 format _ n ids coverage) =>
      block [w16 format; Link (coverage_bytes coverage); w16 n; ws16 ids]
  end.

Definition gsub_type_bytes (v : GsubType) : list byte :=
  match v with
  | GsubSingleSubstitution t => single_substitution_bytes t
  | GsubMultipleSubstitution (mkMultipleSubstitution format _ n _ coverage records) =>
      block (w16 format :: Link (coverage_bytes coverage) :: w16 n :: links sequence_bytes records)
  | GsubAlternateSubstitution (mkAlternateSubstitution format _ n _ coverage records) =>
      block (w16 format :: Link (coverage_bytes coverage) :: w16 n :: links alternates_bytes records)
  | GsubLigatureSubstitution (mkLigatureSubstitution format _ n _ coverage records) =>
      block (w16 format :: Link (coverage_bytes coverage) :: w16 n :: links ligatures_bytes records)
  | GsubContextualSubstitution t => context_bytes t
  | GsubChainedContextualSubstitution t => chained_context_bytes t
  | GsubExtensionSubstitution (mkExtensionSubstitution format type_ offset) =>
      be16 format ++ be16 type_ ++ be32 offset
  | GsubReverseChainedContextualSubstibution (mkReverseChainedContextualSubstibution format _ a _ b _
      c ids coverage back fore) =>
      block ([w16 format; Link (coverage_bytes coverage); w16 a] ++ links coverage_bytes back ++
        [w16 b] ++ links coverage_bytes fore ++ [w16 c; ws16 ids])
  end.

Definition glyph_substitution_bytes : GlyphSubstitution -> list byte :=
  directory_bytes gsub_type_bytes.

(** ** [GPOS] *)

Definition anchor_bytes (v : Anchor) : list byte :=
  match v with
  | AnchorFormat1 (mkAnchor1 format x y) => be16 format ++ be_i16 x ++ be_i16 y
  | AnchorFormat2 (mkAnchor2 format x y index) => be16 format ++ be_i16 x ++ be_i16 y ++ be16 index
  | AnchorFormat3 (mkAnchor3 format x y _ _ a b) =>
      block [w16 format; Raw (be_i16 x); Raw (be_i16 y); maybe_link correction_bytes a;
        maybe_link correction_bytes b]
  end.

Definition anchors_pieces : list (option Anchor) -> list piece := map (maybe_link anchor_bytes).

Definition bases_bytes (v : Bases) : list byte :=
  let '(mkBases n records) := v in
  block (w16 n :: flat_map (fun r => anchors_pieces (base_anchors r)) records).

Definition gpos_ligature_bytes (v : GposLigature) : list byte :=
  let '(mkGposLigature n components) := v in
  block (w16 n :: flat_map (fun r => anchors_pieces (component_anchors r)) components).

Definition gpos_ligatures_bytes (v : GposLigatures) : list byte :=
  let '(mkGposLigatures n _ records) := v in block (w16 n :: links gpos_ligature_bytes records).

Definition mark2s_bytes (v : Mark2s) : list byte :=
  let '(mkMark2s n records) := v in
  block (w16 n :: flat_map (fun r => anchors_pieces (mark2_anchors r)) records).

(** The anchor of format 0 is the one that stands in for a missing one. *)
Definition mark1_pieces (v : Mark1) : list piece :=
  let '(mkMark1 class_id _ anchor) := v in
  [w16 class_id;
   match anchor with
   | AnchorFormat1 (mkAnchor1 0 _ _) => w16 0
   | _ => Link (anchor_bytes anchor)
   end].

Definition mark1s_bytes (v : Mark1s) : list byte :=
  let '(mkMark1s n records) := v in block (w16 n :: flat_map mark1_pieces records).

Definition connection_pieces (v : Connection) : list piece :=
  let '(mkConnection _ _ a b) := v in [maybe_link anchor_bytes a; maybe_link anchor_bytes b].

Definition field_pieces (v : option Z) : list piece :=
  match v with
  | None => []
  | Some z => [Raw (be_i16 z)]
  end.

Definition corrected_pieces (offset : option N) (v : option Correction) : list piece :=
  match offset with
  | None => []
  | Some _ => [maybe_link correction_bytes v]
  end.

Definition single_pieces (v : Single) : list piece :=
  let '(mkSingle x0 x1 x2 x3 x4 x5 x6 x7 c4 c5 c6 c7) := v in
  field_pieces x0 ++ field_pieces x1 ++ field_pieces x2 ++ field_pieces x3 ++
  corrected_pieces x4 c4 ++ corrected_pieces x5 c5 ++ corrected_pieces x6 c6 ++
  corrected_pieces x7 c7.

Definition value_pieces (v : option Single) : list piece :=
  match v with
  | None => []
  | Some x => single_pieces x
  end.

Definition pair1_pieces (v : Pair1) : list piece :=
  let '(mkPair1 glyph_id a b) := v in w16 glyph_id :: value_pieces a ++ value_pieces b.

Definition pair1s_bytes (v : Pair1s) : list byte :=
  let '(mkPair1s n records) := v in block (w16 n :: flat_map pair1_pieces records).

Definition pair2_pieces (v : Pair2) : list piece :=
  let '(mkPair2 a b) := v in value_pieces a ++ value_pieces b.

Definition pair2s_pieces (v : Pair2s) : list piece :=
  let '(mkPair2s records) := v in flat_map pair2_pieces records.

Definition gpos_type_bytes (v : GposType) : list byte :=
  match v with
  | GposSingleAdjustment (SingleAdjustmentFormat1 (mkSingleAdjustment1 format _ flags value coverage)) =>
      block ([w16 format; Link (coverage_bytes coverage); w16 flags] ++ single_pieces value)
  | GposSingleAdjustment (SingleAdjustmentFormat2 (mkSingleAdjustment2 format _ flags n values coverage)) =>
      block ([w16 format; Link (coverage_bytes coverage); w16 flags; w16 n] ++
        flat_map single_pieces values)
  | GposPairAdjustment (PairAdjustmentFormat1 (mkPairAdjustment1 format _ flags1 flags2 n _ coverage
      records)) =>
      block ([w16 format; Link (coverage_bytes coverage); w16 flags1; w16 flags2; w16 n] ++
        links pair1s_bytes records)
  | GposPairAdjustment (PairAdjustmentFormat2 (mkPairAdjustment2 format _ flags1 flags2 _ _ n m
      records coverage class1 class2)) =>
      block ([w16 format; Link (coverage_bytes coverage); w16 flags1; w16 flags2;
        Link (class_bytes class1); Link (class_bytes class2); w16 n; w16 m] ++
        flat_map pair2s_pieces records)
  | GposCursiveAttachment (mkCursiveAttachment format _ n connections coverage) =>
      block ([w16 format; Link (coverage_bytes coverage); w16 n] ++
        flat_map connection_pieces connections)
  | GposMarkToBaseAttachment (mkMarkToBaseAttachment format _ _ n _ _ coverage1 coverage2 marks bases) =>
      block [w16 format; Link (coverage_bytes coverage1); Link (coverage_bytes coverage2); w16 n;
        Link (mark1s_bytes marks); Link (bases_bytes bases)]
  | GposMarkToLigatureAttachment (mkMarkToLigatureAttachment format _ _ n _ _ coverage1 coverage2
      marks ligatures) =>
      block [w16 format; Link (coverage_bytes coverage1); Link (coverage_bytes coverage2); w16 n;
        Link (mark1s_bytes marks); Link (gpos_ligatures_bytes ligatures)]
  | GposMarkToMarkAttachment (mkMarkToMarkAttachment format _ _ n _ _ coverage1 coverage2
      mark1s mark2s) =>
      block [w16 format; Link (coverage_bytes coverage1); Link (coverage_bytes coverage2); w16 n;
        Link (mark1s_bytes mark1s); Link (mark2s_bytes mark2s)]
  | GposContextualPositioning t => context_bytes t
  | GposChainedContextualPositioning t => chained_context_bytes t
  | GposExtensionPositioning (mkExtensionPositioning format type_ offset) =>
      be16 format ++ be16 type_ ++ be32 offset
  end.

Definition glyph_positioning_bytes : GlyphPositioning -> list byte :=
  directory_bytes gpos_type_bytes.

(** ** [GDEF] *)

Definition attachment_bytes (v : Attachment) : list byte :=
  let '(mkAttachment n indices) := v in be16 n ++ flat_map be16 indices.

Definition attachments_bytes (v : Attachments) : list byte :=
  let '(mkAttachments _ n _ coverage records) := v in
  block (Link (coverage_bytes coverage) :: w16 n :: links attachment_bytes records).

Definition caret_bytes (v : Caret) : list byte :=
  match v with
  | CaretFormat1 (mkCaret1 format coordinate) => be16 format ++ be_i16 coordinate
  | CaretFormat2 (mkCaret2 format index) => be16 format ++ be16 index
  | CaretFormat3 (mkCaret3 format coordinate _ correction) =>
      block [w16 format; Raw (be_i16 coordinate); Link (correction_bytes correction)]
  end.

Definition gdef_ligature_bytes (v : GdefLigature) : list byte :=
  let '(mkGdefLigature n _ carets) := v in block (w16 n :: links caret_bytes carets).

Definition gdef_ligatures_bytes (v : GdefLigatures) : list byte :=
  let '(mkGdefLigatures _ n _ coverage records) := v in
  block (Link (coverage_bytes coverage) :: w16 n :: links gdef_ligature_bytes records).

Definition marks_bytes (v : Marks) : list byte :=
  let '(mkMarks format n _ coverages) := v in
  block (w16 format :: w16 n :: longs coverage_bytes coverages).

(** The code finds the item variations at the offset of the mark glyph sets (C41), so that
    a table with either cannot be written in version 1.3 in general; both are left out. *)
Definition glyph_definition_bytes (v : GlyphDefinition) : list byte :=
  let '(mkGlyphDefinition header glyph_class attachments ligatures mark_class marks _) := v in
  let body major minor := [w16 major; w16 minor; maybe_link class_bytes glyph_class;
    maybe_link attachments_bytes attachments; maybe_link gdef_ligatures_bytes ligatures;
    maybe_link class_bytes mark_class] in
  match header with
  | GdefVersion1 (mkGdefHeader1 major minor _ _ _ _) => block (body major minor)
  | GdefVersion12 (mkGdefHeader12 major minor _ _ _ _ _) =>
      block (body major minor ++ [maybe_link marks_bytes marks])
  | GdefVersion13 (mkGdefHeader13 major minor _ _ _ _ _ variation_offset) =>
      block (body major minor ++ [w16 0; w32 variation_offset])
  end.

(** In version 1.3 without mark glyph sets, and so without item variations (C41). *)
Definition gdef_writable (v : GlyphDefinition) : Prop :=
  match glyph_definition_header v with
  | GdefVersion13 _ => glyph_definition_marks v = None
  | _ => True
  end.

(** ** [CPAL] and [fvar] *)

Definition color_bytes (v : Color) : list byte :=
  let '(mkColor blue green red alpha) := v in bytes [blue; green; red; alpha].

Definition color_palettes_bytes (v : ColorPalettes) : list byte :=
  match v with
  | mkColorPalettes (CpalVersion0 (mkCpalHeader0 version k n m _ indices)) colors =>
      block [w16 version; w16 k; w16 n; w16 m; Long (flat_map color_bytes colors); ws16 indices]
  | mkColorPalettes (CpalVersion1 (mkCpalHeader1 version k n m _ indices)) colors =>
      block [w16 version; w16 k; w16 n; w16 m; Long (flat_map color_bytes colors); ws16 indices]
  end.

Definition axis_record_bytes (v : AxisRecord) : list byte :=
  let '(mkAxisRecord tag a b c flags name_id) := v in
  tag_bytes tag ++ be_i32 a ++ be_i32 b ++ be_i32 c ++ be16 flags ++ be16 name_id.

Definition instance_record_bytes (v : InstanceRecord) : list byte :=
  let '(mkInstanceRecord name_id flags coordinates postscript_name_id) := v in
  be16 name_id ++ be16 flags ++ flat_map be_i32 coordinates ++ be16 postscript_name_id.

Definition font_variations_bytes (v : FontVariations) : list byte :=
  let '(mkFontVariations (mkFvarHeader major minor _ reserved n _ m _) axes instances) := v in
  be16 major ++ be16 minor ++ be16 16 ++ be16 reserved ++ be16 n ++ be16 20 ++ be16 m ++
  be16 (6 + 4 * n) ++ flat_map axis_record_bytes axes ++ flat_map instance_record_bytes instances.

(** ** The table directory *)

Definition offset_record_bytes (v : OffsetRecord) : list byte :=
  let '(mkOffsetRecord tag checksum offset length) := v in
  tag_bytes tag ++ be32 checksum ++ be32 offset ++ be32 length.

Definition offsets_bytes (v : Offsets) : list byte :=
  let '(mkOffsets (mkOffsetsHeader tag n a b c) records) := v in
  tag_bytes tag ++ be16 n ++ be16 a ++ be16 b ++ be16 c ++ flat_map offset_record_bytes records.
