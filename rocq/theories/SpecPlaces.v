(** Where the parts of a value are: each part that has a type of its own, with the position
    at which it can be read by itself.  The positions are sums of the position of the whole,
    of offsets in it, and of sizes of what is before. *)

From Verif Require Export Pieces.

(** A part in a file: its type with its parameters, its value and its position. *)
Record place := Place {
  place_type : Type;
  place_piece : piece place_type;
  place_value : place_type;
  place_position : N }.
Arguments Place {place_type}.

(** ** Several parts *)

(** One after the other, [stride] bytes apart. *)
Definition in_turn {A} (r : piece A) (stride p : N) (vs : list A) : list place :=
  map (fun '(i, v) => Place r v (p + stride * N.of_nat i)) (combine (seq 0 (length vs)) vs).

(** At offsets from [base]. *)
Definition by_offsets {A} (r : piece A) (base : N) (offsets : list N) (vs : list A) : list place :=
  map (fun '(offset, v) => Place r v (base + offset)) (combine offsets vs).

Definition by_offset {A} (r : piece A) (base offset : N) (v : option A) : list place :=
  match v with None => [] | Some v => [Place r v (base + offset)] end.

Definition by_some_offsets {A} (r : piece A) (base : N) (offsets : list N) (vs : list (option A)) : list place :=
  flat_map (fun '(offset, v) => by_offset r base offset v) (combine offsets vs).

Definition by_maybe_offset {A} (r : piece A) (base : N) (offset : option N) (v : option A) : list place :=
  match offset with None => [] | Some offset => by_offset r base offset v end.

(** The same value as another type. *)
Definition here {A} (r : piece A) (v : A) (p : N) : list place := [Place r v p].

(** A value record of a pair. *)
Definition value_place (base flags p : N) (v : option Single) : list place :=
  match v with None => [] | Some v => here (PieceSingle base flags) v p end.

(** ** The parts of a part *)

Definition places {A} (o : options) (r : piece A) : A -> N -> list place :=
  match r in piece A return A -> N -> list place with
  | PieceCoverage2 => fun v p => in_turn PieceCoverageRecord 6 (p + 4) (coverage2_records v)
  | PieceCoverage => fun v p =>
      match v with
      | CoverageFormat1 v => here PieceCoverage1 v p
      | CoverageFormat2 v => here PieceCoverage2 v p
      end
  | PieceClass2 => fun v p => in_turn PieceClassRecord 6 (p + 4) (class2_records v)
  | PieceClass => fun v p =>
      match v with
      | ClassFormat1 v => here PieceClass1 v p
      | ClassFormat2 v => here PieceClass2 v p
      end
  | PieceCorrection => fun v p =>
      match v with
      | CorrectionDevice v => here PieceDevice v p
      | CorrectionVariation v => here PieceVariation v p
      end
  | PieceContextRecord => fun '(mkContextRecord glyph_count _ _ actions) p =>
      in_turn PieceAction 4 (p + 4 + 2 * (glyph_count - 1)) actions
  | PieceContextRecords => fun '(mkContextRecords _ offsets records) p =>
      by_offsets PieceContextRecord p offsets records
  | PieceContextClassRecord => fun '(mkContextClassRecord glyph_count _ _ actions) p =>
      in_turn PieceAction 4 (p + 4 + 2 * (glyph_count - 1)) actions
  | PieceContextClassRecords => fun '(mkContextClassRecords _ offsets records) p =>
      by_offsets PieceContextClassRecord p offsets records
  | PieceChainedRecord => fun '(mkChainedRecord backward _ count _ forward _ _ actions) p =>
      in_turn PieceAction 4 (p + 8 + 2 * backward + 2 * (count - 1) + 2 * forward) actions
  | PieceChainedRecords => fun '(mkChainedRecords _ offsets records) p =>
      by_offsets PieceChainedRecord p offsets records
  | PieceChainedClassRecord => fun '(mkChainedClassRecord backward _ count _ forward _ _ actions) p =>
      in_turn PieceAction 4 (p + 8 + 2 * backward + 2 * (count - 1) + 2 * forward) actions
  | PieceChainedClassRecords => fun '(mkChainedClassRecords _ offsets records) p =>
      by_offsets PieceChainedClassRecord p offsets records
  | PieceContext1 => fun '(mkContext1 _ coverage_offset _ record_offsets coverage records) p =>
      here PieceCoverage coverage (p + coverage_offset) ++
      by_offsets PieceContextRecords p record_offsets records
  | PieceContext2 => fun '(mkContext2 _ coverage_offset class_offset _ record_offsets coverage class records) p =>
      here PieceCoverage coverage (p + coverage_offset) ++
      here PieceClass class (p + class_offset) ++
      by_some_offsets PieceContextClassRecords p record_offsets records
  | PieceContext3 => fun '(mkContext3 _ glyph_count _ coverage_offsets actions coverages) p =>
      in_turn PieceAction 4 (p + 6 + 2 * glyph_count) actions ++
      by_offsets PieceCoverage p coverage_offsets coverages
  | PieceContext => fun v p =>
      match v with
      | ContextFormat1 v => here PieceContext1 v p
      | ContextFormat2 v => here PieceContext2 v p
      | ContextFormat3 v => here PieceContext3 v p
      end
  | PieceChainedContext1 => fun '(mkChainedContext1 _ coverage_offset _ record_offsets coverage records) p =>
      here PieceCoverage coverage (p + coverage_offset) ++
      by_offsets PieceChainedRecords p record_offsets records
  | PieceChainedContext2 => fun '(mkChainedContext2 _ coverage_offset backward_class_offset class_offset
      forward_class_offset _ record_offsets coverage backward_class class forward_class records) p =>
      here PieceCoverage coverage (p + coverage_offset) ++
      here PieceClass backward_class (p + backward_class_offset) ++
      here PieceClass class (p + class_offset) ++
      here PieceClass forward_class (p + forward_class_offset) ++
      by_some_offsets PieceChainedClassRecords p record_offsets records
  | PieceChainedContext3 => fun '(mkChainedContext3 _ backward backward_offsets count offsets forward
      forward_offsets _ actions backward_coverages coverages forward_coverages) p =>
      in_turn PieceAction 4 (p + 10 + 2 * backward + 2 * count + 2 * forward) actions ++
      by_offsets PieceCoverage p backward_offsets backward_coverages ++
      by_offsets PieceCoverage p offsets coverages ++
      by_offsets PieceCoverage p forward_offsets forward_coverages
  | PieceChainedContext => fun v p =>
      match v with
      | ChainedContextFormat1 v => here PieceChainedContext1 v p
      | ChainedContextFormat2 v => here PieceChainedContext2 v p
      | ChainedContextFormat3 v => here PieceChainedContext3 v p
      end
  | PieceScriptRecord => fun '(mkScriptRecord default_offset _ headers default records) p =>
      in_turn PieceLanguageHeader 6 (p + 4) headers ++
      by_offset PieceLanguageRecord p default_offset default ++
      by_offsets PieceLanguageRecord p (map language_header_offset headers) records
  | PieceScripts => fun '(mkScripts _ headers records) p =>
      in_turn PieceScriptHeader 6 (p + 2) headers ++
      by_offsets PieceScriptRecord p (map script_header_offset headers) records
  | PieceFeatures => fun '(mkFeatures _ headers records) p =>
      in_turn PieceFeatureHeader 6 (p + 2) headers ++
      by_offsets PieceFeatureRecord p (map feature_header_offset headers) records
  | PieceGsubLookupRecord => fun '(mkLookupRecord type_ flags _ offsets _ tables) p =>
      here PieceLookupFlags flags (p + 2) ++ by_offsets (PieceGsubType type_) p offsets tables
  | PieceGsubLookups => fun '(mkLookups _ offsets records) p =>
      by_offsets PieceGsubLookupRecord p offsets records
  | PieceGposLookupRecord => fun '(mkLookupRecord type_ flags _ offsets _ tables) p =>
      here PieceLookupFlags flags (p + 2) ++ by_offsets (PieceGposType type_) p offsets tables
  | PieceGposLookups => fun '(mkLookups _ offsets records) p =>
      by_offsets PieceGposLookupRecord p offsets records
  | PieceStore => fun '(mkStore _ _ _ offsets records) p => by_offsets PieceStoreRecord p offsets records
  | PieceLigatures => fun '(mkLigatures _ offsets records) p => by_offsets PieceLigature p offsets records
  | PieceSingleSubstitution1 => fun '(mkSingleSubstitution1 _ coverage_offset _ coverage) p =>
      here PieceCoverage coverage (p + coverage_offset)
  | PieceSingleSubstitution2 => fun '(mkSingleSubstitution2 _ coverage_offset _ _ coverage) p =>
      here PieceCoverage coverage (p + coverage_offset)
  | PieceSingleSubstitution => fun v p =>
      match v with
      | SingleSubstitutionFormat1 v => here PieceSingleSubstitution1 v p
      | SingleSubstitutionFormat2 v => here PieceSingleSubstitution2 v p
      end
  | PieceMultipleSubstitution => fun '(mkMultipleSubstitution _ coverage_offset _ offsets coverage records) p =>
      here PieceCoverage coverage (p + coverage_offset) ++ by_offsets PieceSequence p offsets records
  | PieceAlternateSubstitution => fun '(mkAlternateSubstitution _ coverage_offset _ offsets coverage records) p =>
      here PieceCoverage coverage (p + coverage_offset) ++ by_offsets PieceAlternates p offsets records
  | PieceLigatureSubstitution => fun '(mkLigatureSubstitution _ coverage_offset _ offsets coverage records) p =>
      here PieceCoverage coverage (p + coverage_offset) ++ by_offsets PieceLigatures p offsets records
  | PieceReverseChainedContextualSubstibution => fun '(mkReverseChainedContextualSubstibution _ coverage_offset
      _ backward_offsets _ forward_offsets _ _ coverage backward_coverages forward_coverages) p =>
      here PieceCoverage coverage (p + coverage_offset) ++
      by_offsets PieceCoverage p backward_offsets backward_coverages ++
      by_offsets PieceCoverage p forward_offsets forward_coverages
  | PieceGsubType _ => fun v p =>
      match v with
      | GsubSingleSubstitution v => here PieceSingleSubstitution v p
      | GsubMultipleSubstitution v => here PieceMultipleSubstitution v p
      | GsubAlternateSubstitution v => here PieceAlternateSubstitution v p
      | GsubLigatureSubstitution v => here PieceLigatureSubstitution v p
      | GsubContextualSubstitution v => here PieceContext v p
      | GsubChainedContextualSubstitution v => here PieceChainedContext v p
      | GsubExtensionSubstitution v => here PieceExtensionSubstitution v p
      | GsubReverseChainedContextualSubstibution v => here PieceReverseChainedContextualSubstibution v p
      end
  | PieceAnchor3 => fun '(mkAnchor3 _ _ _ x_offset y_offset x_correction y_correction) p =>
      by_offset PieceCorrection p x_offset x_correction ++
      by_offset PieceCorrection p y_offset y_correction
  | PieceAnchor => fun v p =>
      match v with
      | AnchorFormat1 v => here PieceAnchor1 v p
      | AnchorFormat2 v => here PieceAnchor2 v p
      | AnchorFormat3 v => here PieceAnchor3 v p
      end
  | PieceBase base _ => fun '(mkBase offsets anchors) _ => by_some_offsets PieceAnchor base offsets anchors
  | PieceBases classes => fun '(mkBases _ records) p =>
      in_turn (PieceBase p classes) (2 * classes) (p + 2) records
  | PieceComponent base _ => fun '(mkComponent offsets anchors) _ =>
      by_some_offsets PieceAnchor base offsets anchors
  | PieceGposLigature classes => fun '(mkGposLigature _ components) p =>
      in_turn (PieceComponent p classes) (2 * classes) (p + 2) components
  | PieceGposLigatures classes => fun '(mkGposLigatures _ offsets records) p =>
      by_offsets (PieceGposLigature classes) p offsets records
  | PieceMark1 base => fun '(mkMark1 _ offset anchor) _ =>
      if (offset =? 0) && ignore_incomplete_marks o then [] else here PieceAnchor anchor (base + offset)
  | PieceMark1s => fun '(mkMark1s _ records) p => in_turn (PieceMark1 p) 4 (p + 2) records
  | PieceMark2 base _ => fun '(mkMark2 offsets anchors) _ => by_some_offsets PieceAnchor base offsets anchors
  | PieceMark2s classes => fun '(mkMark2s _ records) p =>
      in_turn (PieceMark2 p classes) (2 * classes) (p + 2) records
  | PieceConnection base => fun '(mkConnection start_offset end_offset start_anchor end_anchor) _ =>
      by_offset PieceAnchor base start_offset start_anchor ++
      by_offset PieceAnchor base end_offset end_anchor
  | PieceSingle base _ => fun '(mkSingle _ _ _ _ x_placement_offset y_placement_offset x_advance_offset
      y_advance_offset x_placement y_placement x_advance y_advance) _ =>
      by_maybe_offset PieceCorrection base x_placement_offset x_placement ++
      by_maybe_offset PieceCorrection base y_placement_offset y_placement ++
      by_maybe_offset PieceCorrection base x_advance_offset x_advance ++
      by_maybe_offset PieceCorrection base y_advance_offset y_advance
  | PiecePair1 base flags1 flags2 => fun '(mkPair1 _ value1 value2) p =>
      value_place base flags1 (p + 2) value1 ++
      value_place base flags2 (p + 2 + value_size flags1) value2
  | PiecePair1s flags1 flags2 => fun '(mkPair1s _ records) p =>
      in_turn (PiecePair1 p flags1 flags2) (2 + value_size flags1 + value_size flags2) (p + 2) records
  | PiecePair2 base flags1 flags2 => fun '(mkPair2 value1 value2) p =>
      value_place base flags1 p value1 ++ value_place base flags2 (p + value_size flags1) value2
  | PiecePair2s base _ flags1 flags2 => fun '(mkPair2s records) p =>
      in_turn (PiecePair2 base flags1 flags2) (value_size flags1 + value_size flags2) p records
  | PieceSingleAdjustment1 => fun '(mkSingleAdjustment1 _ coverage_offset flags value coverage) p =>
      here PieceValueFlags flags (p + 4) ++
      here (PieceSingle p flags) value (p + 6) ++
      here PieceCoverage coverage (p + coverage_offset)
  | PieceSingleAdjustment2 => fun '(mkSingleAdjustment2 _ coverage_offset flags _ values coverage) p =>
      here PieceValueFlags flags (p + 4) ++
      in_turn (PieceSingle p flags) (value_size flags) (p + 8) values ++
      here PieceCoverage coverage (p + coverage_offset)
  | PieceSingleAdjustment => fun v p =>
      match v with
      | SingleAdjustmentFormat1 v => here PieceSingleAdjustment1 v p
      | SingleAdjustmentFormat2 v => here PieceSingleAdjustment2 v p
      end
  | PiecePairAdjustment1 => fun '(mkPairAdjustment1 _ coverage_offset flags1 flags2 _ offsets coverage records) p =>
      here PieceValueFlags flags1 (p + 4) ++
      here PieceValueFlags flags2 (p + 6) ++
      here PieceCoverage coverage (p + coverage_offset) ++
      by_offsets (PiecePair1s flags1 flags2) p offsets records
  | PiecePairAdjustment2 => fun '(mkPairAdjustment2 _ coverage_offset flags1 flags2 class1_offset class2_offset
      _ count2 records coverage class1 class2) p =>
      here PieceValueFlags flags1 (p + 4) ++
      here PieceValueFlags flags2 (p + 6) ++
      in_turn (PiecePair2s p count2 flags1 flags2) ((value_size flags1 + value_size flags2) * count2)
        (p + 16) records ++
      here PieceCoverage coverage (p + coverage_offset) ++
      here PieceClass class1 (p + class1_offset) ++
      here PieceClass class2 (p + class2_offset)
  | PiecePairAdjustment => fun v p =>
      match v with
      | PairAdjustmentFormat1 v => here PiecePairAdjustment1 v p
      | PairAdjustmentFormat2 v => here PiecePairAdjustment2 v p
      end
  | PieceCursiveAttachment => fun '(mkCursiveAttachment _ coverage_offset _ connections coverage) p =>
      in_turn (PieceConnection p) 4 (p + 6) connections ++
      here PieceCoverage coverage (p + coverage_offset)
  | PieceMarkToBaseAttachment => fun '(mkMarkToBaseAttachment _ mark_coverage_offset base_coverage_offset classes
      marks_offset bases_offset mark_coverage base_coverage marks bases) p =>
      here PieceCoverage mark_coverage (p + mark_coverage_offset) ++
      here PieceCoverage base_coverage (p + base_coverage_offset) ++
      here PieceMark1s marks (p + marks_offset) ++
      here (PieceBases classes) bases (p + bases_offset)
  | PieceMarkToLigatureAttachment => fun '(mkMarkToLigatureAttachment _ mark_coverage_offset
      ligature_coverage_offset classes marks_offset ligatures_offset mark_coverage ligature_coverage marks
      ligatures) p =>
      here PieceCoverage mark_coverage (p + mark_coverage_offset) ++
      here PieceCoverage ligature_coverage (p + ligature_coverage_offset) ++
      here PieceMark1s marks (p + marks_offset) ++
      here (PieceGposLigatures classes) ligatures (p + ligatures_offset)
  | PieceMarkToMarkAttachment => fun '(mkMarkToMarkAttachment _ mark1_coverage_offset mark2_coverage_offset classes
      mark1s_offset mark2s_offset mark1_coverage mark2_coverage mark1s mark2s) p =>
      here PieceCoverage mark1_coverage (p + mark1_coverage_offset) ++
      here PieceCoverage mark2_coverage (p + mark2_coverage_offset) ++
      here PieceMark1s mark1s (p + mark1s_offset) ++
      here (PieceMark2s classes) mark2s (p + mark2s_offset)
  | PieceGposType _ => fun v p =>
      match v with
      | GposSingleAdjustment v => here PieceSingleAdjustment v p
      | GposPairAdjustment v => here PiecePairAdjustment v p
      | GposCursiveAttachment v => here PieceCursiveAttachment v p
      | GposMarkToBaseAttachment v => here PieceMarkToBaseAttachment v p
      | GposMarkToLigatureAttachment v => here PieceMarkToLigatureAttachment v p
      | GposMarkToMarkAttachment v => here PieceMarkToMarkAttachment v p
      | GposContextualPositioning v => here PieceContext v p
      | GposChainedContextualPositioning v => here PieceChainedContext v p
      | GposExtensionPositioning v => here PieceExtensionPositioning v p
      end
  | PieceAttachments => fun '(mkAttachments coverage_offset _ offsets coverage records) p =>
      here PieceCoverage coverage (p + coverage_offset) ++ by_offsets PieceAttachment p offsets records
  | PieceCaret3 => fun '(mkCaret3 _ _ offset correction) p => here PieceCorrection correction (p + offset)
  | PieceCaret => fun v p =>
      match v with
      | CaretFormat1 v => here PieceCaret1 v p
      | CaretFormat2 v => here PieceCaret2 v p
      | CaretFormat3 v => here PieceCaret3 v p
      end
  | PieceGdefLigature => fun '(mkGdefLigature _ offsets carets) p => by_offsets PieceCaret p offsets carets
  | PieceGdefLigatures => fun '(mkGdefLigatures coverage_offset _ offsets coverage records) p =>
      here PieceCoverage coverage (p + coverage_offset) ++ by_offsets PieceGdefLigature p offsets records
  | PieceMarks => fun '(mkMarks _ _ offsets coverages) p => by_offsets PieceCoverage p offsets coverages
  | PieceGdefHeader => fun v p =>
      match v with
      | GdefVersion1 v => here PieceGdefHeader1 v p
      | GdefVersion12 v => here PieceGdefHeader12 v p
      | GdefVersion13 v => here PieceGdefHeader13 v p
      end
  | PieceCpalHeader => fun v p =>
      match v with
      | CpalVersion0 v => here PieceCpalHeader0 v p
      | CpalVersion1 v => here PieceCpalHeader1 v p
      end
  | PieceAxisRecord => fun v p => here PieceAxisFlags (axis_record_flags v) (p + 16)
  | PieceInstanceRecord _ => fun v p => here PieceInstanceFlags (instance_record_flags v) (p + 2)
  | _ => fun _ _ => []
  end.

(** ** The parts of a table *)

(** A list of a directory: nowhere, if it is a default. *)
Definition list_place {A} (o : options) (r : piece A) (base offset : N) (v : A) : list place :=
  if (offset =? 0) && ignore_incomplete_directories o then [] else here r v (base + offset).

Definition directory_places {T} (o : options) (lookups : piece (Lookups T)) (v : Directory T) (p : N) : list place :=
  list_place o PieceScripts p (directory_script_offset v) (directory_scripts v) ++
  list_place o PieceFeatures p (directory_feature_offset v) (directory_features v) ++
  list_place o lookups p (directory_lookup_offset v) (directory_lookups v) ++
  by_offset PieceFeatureVariations p (directory_variation_offset v) (directory_variations v).

Definition table_places {A} (o : options) (r : request A) : A -> N -> list place :=
  match r in request A return A -> N -> list place with
  | RequestGdef => fun '(mkGlyphDefinition header glyph_class attachments ligatures mark_class marks variations) p =>
      let '(glyph_class_offset, attachment_offset, ligature_offset, mark_class_offset, mark_offset, _)
        := gdef_offsets header in
      here PieceGdefHeader header p ++
      by_offset PieceClass p glyph_class_offset glyph_class ++
      by_offset PieceAttachments p attachment_offset attachments ++
      by_offset PieceGdefLigatures p ligature_offset ligatures ++
      by_offset PieceClass p mark_class_offset mark_class ++
      by_offset PieceMarks p mark_offset marks ++
      by_offset PieceStore p (gdef_variation_offset header) variations
  | RequestGpos => directory_places o PieceGposLookups
  | RequestGsub => directory_places o PieceGsubLookups
  | RequestCpal => fun '(mkColorPalettes header colors) p =>
      let '(_, _, color_offset, _) := cpal_layout header in
      here PieceCpalHeader header p ++ in_turn PieceColor 4 (p + color_offset) colors
  | RequestFvar => fun '(mkFontVariations header axes instances) p =>
      let '(mkFvarHeader _ _ axis_offset _ axis_count axis_size _ instance_size) := header in
      here PieceFvarHeader header p ++
      in_turn PieceAxisRecord axis_size (p + axis_offset) axes ++
      in_turn (PieceInstanceRecord axis_count) instance_size (p + axis_offset + axis_count * axis_size) instances
  | _ => fun _ _ => []
  end.

(** The parts of a table, their parts, and so on. *)
Inductive inside (o : options) {A} (r : request A) (v : A) (p : N) : place -> Prop :=
| inside_table x : In x (table_places o r v p) -> inside o r v p x
| inside_part x y : inside o r v p x -> In y (places o (place_piece x) (place_value x) (place_position x)) ->
    inside o r v p y.
