(** Which bytes a value is made of, for property C86: those of the fields it has by itself,
    and those of the fields that its parts have. *)

From Verif Require Export SpecPlaces SpecCommon.

(** ** The fields of a part *)

(** The size of the fields that a part has by itself.  They follow one another from where the
    part begins; the parts of SpecPlaces.v are not among them, except for flags and for the
    format of a caret. *)
Definition body {A} (r : piece A) : A -> N :=
  match r in piece A return A -> N with
  | PieceCoverageRecord => fun _ => 6
  | PieceCoverage1 => fun v => 4 + 2 * coverage1_glyph_count v
  | PieceCoverage2 => fun _ => 4
  | PieceClassRecord => fun _ => 6
  | PieceClass1 => fun v => 6 + 2 * class1_glyph_count v
  | PieceClass2 => fun _ => 4
  | PieceDevice => fun '(mkDevice _ _ _ deltas) => 6 + 2 * N.of_nat (length deltas)
  | PieceVariation => fun _ => 6
  | PieceAction => fun _ => 4
  | PieceContextRecord => fun '(mkContextRecord count _ _ _) => 4 + 2 * (count - 1)
  | PieceContextRecords => fun '(mkContextRecords count _ _) => 2 + 2 * count
  | PieceContextClassRecord => fun '(mkContextClassRecord count _ _ _) => 4 + 2 * (count - 1)
  | PieceContextClassRecords => fun '(mkContextClassRecords count _ _) => 2 + 2 * count
  | PieceChainedRecord => fun '(mkChainedRecord backward _ count _ forward _ _ _) =>
      8 + 2 * backward + 2 * (count - 1) + 2 * forward
  | PieceChainedRecords => fun '(mkChainedRecords count _ _) => 2 + 2 * count
  | PieceChainedClassRecord => fun '(mkChainedClassRecord backward _ count _ forward _ _ _) =>
      8 + 2 * backward + 2 * (count - 1) + 2 * forward
  | PieceChainedClassRecords => fun '(mkChainedClassRecords count _ _) => 2 + 2 * count
  | PieceContext1 => fun '(mkContext1 _ _ count _ _ _) => 6 + 2 * count
  | PieceContext2 => fun '(mkContext2 _ _ _ count _ _ _ _) => 8 + 2 * count
  | PieceContext3 => fun '(mkContext3 _ count _ _ _ _) => 6 + 2 * count
  | PieceChainedContext1 => fun '(mkChainedContext1 _ _ count _ _ _) => 6 + 2 * count
  | PieceChainedContext2 => fun '(mkChainedContext2 _ _ _ _ _ count _ _ _ _ _ _) => 12 + 2 * count
  | PieceChainedContext3 => fun '(mkChainedContext3 _ backward _ count _ forward _ _ _ _ _ _) =>
      10 + 2 * backward + 2 * count + 2 * forward
  | PieceLanguageHeader => fun _ => 6
  | PieceLanguageRecord => fun '(mkLanguageRecord _ _ count _) => 6 + 2 * count
  | PieceScriptHeader => fun _ => 6
  | PieceScriptRecord => fun _ => 4
  | PieceScripts => fun _ => 2
  | PieceFeatureHeader => fun _ => 6
  | PieceFeatureRecord => fun '(mkFeatureRecord _ count _ _) => 4 + 2 * count
  | PieceFeatures => fun _ => 2
  | PieceFeatureVariations => fun _ => 8
  | PieceGsubLookupRecord => fun '(mkLookupRecord _ _ count _ set _) =>
      6 + 2 * count + match set with None => 0 | Some _ => 2 end
  | PieceGsubLookups => fun '(mkLookups count _ _) => 2 + 2 * count
  | PieceGposLookupRecord => fun '(mkLookupRecord _ _ count _ set _) =>
      6 + 2 * count + match set with None => 0 | Some _ => 2 end
  | PieceGposLookups => fun '(mkLookups count _ _) => 2 + 2 * count
  | PieceStoreRecord => fun '(mkStoreRecord _ _ count _ deltas) => 6 + 2 * count + N.of_nat (length deltas)
  | PieceStore => fun '(mkStore _ _ count _ _) => 8 + 4 * count
  | PieceAlternates => fun '(mkAlternates count _) => 2 + 2 * count
  | PieceLigature => fun '(mkLigature _ count _) => 4 + 2 * (count - 1)
  | PieceLigatures => fun '(mkLigatures count _ _) => 2 + 2 * count
  | PieceSequence => fun '(mkSequence count _) => 2 + 2 * count
  | PieceSingleSubstitution1 => fun _ => 6
  | PieceSingleSubstitution2 => fun '(mkSingleSubstitution2 _ _ count _ _) => 6 + 2 * count
  | PieceMultipleSubstitution => fun '(mkMultipleSubstitution _ _ count _ _ _) => 6 + 2 * count
  | PieceAlternateSubstitution => fun '(mkAlternateSubstitution _ _ count _ _ _) => 6 + 2 * count
  | PieceLigatureSubstitution => fun '(mkLigatureSubstitution _ _ count _ _ _) => 6 + 2 * count
  | PieceExtensionSubstitution => fun _ => 8
  | PieceReverseChainedContextualSubstibution => fun '(mkReverseChainedContextualSubstibution _ _ backward _
      forward _ count _ _ _ _) => 10 + 2 * backward + 2 * forward + 2 * count
  | PieceAnchor1 => fun _ => 6
  | PieceAnchor2 => fun _ => 8
  | PieceAnchor3 => fun _ => 10
  | PieceBase _ classes => fun _ => 2 * classes
  | PieceBases _ => fun _ => 2
  | PieceComponent _ classes => fun _ => 2 * classes
  | PieceGposLigature _ => fun _ => 2
  | PieceGposLigatures _ => fun '(mkGposLigatures count _ _) => 2 + 2 * count
  | PieceMark1 _ => fun _ => 4
  | PieceMark1s => fun _ => 2
  | PieceMark2 _ classes => fun _ => 2 * classes
  | PieceMark2s _ => fun _ => 2
  | PieceConnection _ => fun _ => 4
  | PieceSingle _ flags => fun _ => value_size flags
  | PiecePair1 _ _ _ => fun _ => 2
  | PiecePair1s _ _ => fun _ => 2
  | PieceSingleAdjustment1 => fun _ => 6
  | PieceSingleAdjustment2 => fun _ => 8
  | PiecePairAdjustment1 => fun '(mkPairAdjustment1 _ _ _ _ count _ _ _) => 10 + 2 * count
  | PiecePairAdjustment2 => fun _ => 16
  | PieceCursiveAttachment => fun _ => 6
  | PieceMarkToBaseAttachment => fun _ => 12
  | PieceMarkToLigatureAttachment => fun _ => 12
  | PieceMarkToMarkAttachment => fun _ => 12
  | PieceExtensionPositioning => fun _ => 8
  | PieceAttachment => fun '(mkAttachment count _) => 2 + 2 * count
  | PieceAttachments => fun '(mkAttachments _ count _ _ _) => 4 + 2 * count
  | PieceCaret1 => fun _ => 4
  | PieceCaret2 => fun _ => 4
  | PieceCaret3 => fun _ => 6
  | PieceCaret => fun _ => 4
  | PieceGdefLigature => fun '(mkGdefLigature count _ _) => 2 + 2 * count
  | PieceGdefLigatures => fun '(mkGdefLigatures _ count _ _ _) => 4 + 2 * count
  | PieceMarks => fun '(mkMarks _ count _ _) => 4 + 4 * count
  | PieceGdefHeader1 => fun _ => 12
  | PieceGdefHeader12 => fun _ => 14
  | PieceGdefHeader13 => fun _ => 18
  | PieceCpalHeader0 => fun '(mkCpalHeader0 _ _ count _ _ _) => 12 + 2 * count
  | PieceCpalHeader1 => fun '(mkCpalHeader1 _ _ count _ _ _) => 12 + 2 * count
  | PieceColor => fun _ => 4
  | PieceFvarHeader => fun _ => 16
  | PieceAxisRecord => fun _ => 20
  | PieceInstanceRecord count => fun _ => 6 + 4 * count
  | PieceLookupFlags => fun _ => 2
  | PieceValueFlags => fun _ => 2
  | PieceAxisFlags => fun _ => 2
  | PieceInstanceFlags => fun _ => 2
  (** What is one of several formats has no fields of its own, and neither has a pair of
      value records. *)
  | PieceCoverage | PieceClass | PieceCorrection | PieceContext | PieceChainedContext
  | PieceSingleSubstitution | PieceGsubType _ | PieceAnchor | PiecePair2 _ _ _ | PiecePair2s _ _ _ _
  | PieceSingleAdjustment | PiecePairAdjustment | PieceGposType _ | PieceGdefHeader | PieceCpalHeader => fun _ => 0
  end.

(** The byte at [i] is in a field of [x]. *)
Definition owns (x : place) (i : N) : Prop :=
  place_position x <= i < place_position x + body (place_piece x) (place_value x).

(** A part, a part of it, a part of that, and so on. *)
Inductive part (o : options) (x : place) : place -> Prop :=
| part_self : part o x x
| part_next y z : In y (places o (place_piece x) (place_value x) (place_position x)) -> part o y z -> part o x z.

(** ** The fields of a table *)

(** The records of the fonts are within the table directory. *)
Definition font_size (v : Font) : N := 12 + 16 * N.of_nat (length (offsets_records (font_offsets v))).

Definition directory_body {T} (v : Directory T) : N :=
  if directory_minor_version v =? 0 then 10 else 14.

Definition table_body {A} (r : request A) : A -> N :=
  match r in request A return A -> N with
  | RequestFile _ => fun v => match file_fonts v with font :: _ => font_size font | [] => 0 end
  | RequestFont _ => font_size
  | RequestGpos => directory_body
  | RequestGsub => directory_body
  | RequestGdef => fun _ => 0
  | RequestCpal => fun _ => 0
  | RequestFvar => fun _ => 0
  end.

(** The byte at [i] is in a field of the table or of a part inside. *)
Definition made_of (o : options) {A} (r : request A) (v : A) (p i : N) : Prop :=
  p <= i < p + table_body r v \/ exists x, inside o r v p x /\ owns x i.
