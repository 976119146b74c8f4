(** How reading can go wrong, whatever the tape (C80, C82) and for the files (C54). *)

From Verif Require Export SpecErrors SpecSteps Pieces.

(** ** Parts *)

(** Bits that are reserved are refused, if that is checked at all. *)
Definition flags_errors (o : options) : list error := if checked_flags o then [InvalidFlags] else [].

(** What is behind an offset that may be there. *)
Definition if_errors (b : bool) : list error := if b then [UnknownFormat; Malformed] else [].

(** A value of these flags has offsets of corrections. *)
Definition corrected (flags : N) : bool := existsb (N.testbit flags) [4; 5; 6; 7].

(** Two values; without flags there is nothing to read. *)
Definition pair2_errors (flags1 flags2 : N) : list error :=
  (if (flags1 =? 0) && (flags2 =? 0) then [] else [UnexpectedEnd]) ++
  if_errors (corrected flags1 || corrected flags2).

Definition gsub_type_errors (type_ : N) : list error :=
  match type_ with
  | 1 => [UnexpectedEnd; UnknownFormat]
  | 2 | 3 => [UnexpectedEnd; UnexpectedValue; UnknownFormat]
  | 4 => [UnexpectedEnd; UnexpectedValue; UnknownFormat; Malformed]
  | 5 | 6 => [UnexpectedEnd; UnknownFormat; Malformed]
  | 7 => [UnexpectedEnd; UnexpectedValue]
  | 8 => [UnexpectedEnd; UnknownFormat]
  | _ => [UnknownType]
  end.

Definition gpos_type_errors (o : options) (type_ : N) : list error :=
  match type_ with
  | 1 | 2 => [UnexpectedEnd; UnknownFormat; Malformed] ++ flags_errors o
  | 3 | 4 | 5 | 6 => [UnexpectedEnd; UnexpectedValue; UnknownFormat; Malformed]
  | 7 | 8 => [UnexpectedEnd; UnknownFormat; Malformed]
  | 9 => [UnexpectedEnd; UnexpectedValue]
  | _ => [UnknownType]
  end.

Definition lookup_errors (o : options) : list error :=
  [UnexpectedEnd; UnexpectedValue; UnknownFormat; UnknownType; Malformed] ++ flags_errors o.

(** The errors that reading a part can report on some tape. *)
Definition piece_errors {A} (o : options) (r : piece A) : list error :=
  match r with
  | PieceCoverageRecord => [UnexpectedEnd]
  | PieceCoverage1 => [UnexpectedEnd]
  | PieceCoverage2 => [UnexpectedEnd]
  | PieceCoverage => [UnexpectedEnd; UnknownFormat]
  | PieceClassRecord => [UnexpectedEnd]
  | PieceClass1 => [UnexpectedEnd]
  | PieceClass2 => [UnexpectedEnd]
  | PieceClass => [UnexpectedEnd; UnknownFormat]
  | PieceDevice => [UnexpectedEnd; UnknownFormat; Malformed]
  | PieceVariation => [UnexpectedEnd]
  | PieceCorrection => [UnexpectedEnd; UnknownFormat; Malformed]
  | PieceAction => [UnexpectedEnd]
  | PieceContextRecord => [UnexpectedEnd; Malformed]
  | PieceContextRecords => [UnexpectedEnd; Malformed]
  | PieceContextClassRecord => [UnexpectedEnd; Malformed]
  | PieceContextClassRecords => [UnexpectedEnd; Malformed]
  | PieceChainedRecord => [UnexpectedEnd; Malformed]
  | PieceChainedRecords => [UnexpectedEnd; Malformed]
  | PieceChainedClassRecord => [UnexpectedEnd; Malformed]
  | PieceChainedClassRecords => [UnexpectedEnd; Malformed]
  | PieceContext1 => [UnexpectedEnd; UnknownFormat; Malformed]
  | PieceContext2 => [UnexpectedEnd; UnknownFormat; Malformed]
  | PieceContext3 => [UnexpectedEnd; UnknownFormat]
  | PieceContext => [UnexpectedEnd; UnknownFormat; Malformed]
  | PieceChainedContext1 => [UnexpectedEnd; UnknownFormat; Malformed]
  | PieceChainedContext2 => [UnexpectedEnd; UnknownFormat; Malformed]
  | PieceChainedContext3 => [UnexpectedEnd; UnknownFormat]
  | PieceChainedContext => [UnexpectedEnd; UnknownFormat; Malformed]
  | PieceLanguageHeader => [UnexpectedEnd]
  | PieceLanguageRecord => [UnexpectedEnd; UnexpectedValue]
  | PieceScriptHeader => [UnexpectedEnd]
  | PieceScriptRecord => [UnexpectedEnd; UnexpectedValue]
  | PieceScripts => [UnexpectedEnd; UnexpectedValue]
  | PieceFeatureHeader => [UnexpectedEnd]
  | PieceFeatureRecord => [UnexpectedEnd]
  | PieceFeatures => [UnexpectedEnd]
  | PieceFeatureVariations => [UnexpectedEnd; UnexpectedValue]
  | PieceGsubLookupRecord => lookup_errors o
  | PieceGsubLookups => lookup_errors o
  | PieceGposLookupRecord => lookup_errors o
  | PieceGposLookups => lookup_errors o
  | PieceStoreRecord => [UnexpectedEnd]
  | PieceStore => [UnexpectedEnd; UnexpectedValue]
  | PieceAlternates => [UnexpectedEnd]
  | PieceLigature => [UnexpectedEnd; Malformed]
  | PieceLigatures => [UnexpectedEnd; Malformed]
  | PieceSequence => [UnexpectedEnd]
  | PieceSingleSubstitution1 => [UnexpectedEnd; UnknownFormat]
  | PieceSingleSubstitution2 => [UnexpectedEnd; UnknownFormat]
  | PieceSingleSubstitution => [UnexpectedEnd; UnknownFormat]
  | PieceMultipleSubstitution => [UnexpectedEnd; UnexpectedValue; UnknownFormat]
  | PieceAlternateSubstitution => [UnexpectedEnd; UnexpectedValue; UnknownFormat]
  | PieceLigatureSubstitution => [UnexpectedEnd; UnexpectedValue; UnknownFormat; Malformed]
  | PieceExtensionSubstitution => [UnexpectedEnd; UnexpectedValue]
  | PieceReverseChainedContextualSubstibution => [UnexpectedEnd; UnknownFormat]
  | PieceGsubType type_ => gsub_type_errors type_
  | PieceAnchor1 => [UnexpectedEnd]
  | PieceAnchor2 => [UnexpectedEnd]
  | PieceAnchor3 => [UnexpectedEnd; UnknownFormat; Malformed]
  | PieceAnchor => [UnexpectedEnd; UnknownFormat; Malformed]
  | PieceBase _ n => UnexpectedEnd :: if_errors (0 <? n)
  | PieceBases n => UnexpectedEnd :: if_errors (0 <? n)
  | PieceComponent _ n => UnexpectedEnd :: if_errors (0 <? n)
  | PieceGposLigature n => UnexpectedEnd :: if_errors (0 <? n)
  | PieceGposLigatures n => UnexpectedEnd :: if_errors (0 <? n)
  | PieceMark1 _ => [UnexpectedEnd; UnknownFormat; Malformed]
  | PieceMark1s => [UnexpectedEnd; UnknownFormat; Malformed]
  | PieceMark2 _ n => UnexpectedEnd :: if_errors (0 <? n)
  | PieceMark2s n => UnexpectedEnd :: if_errors (0 <? n)
  | PieceConnection _ => [UnexpectedEnd; UnknownFormat; Malformed]
  | PieceSingle _ flags => UnexpectedEnd :: if_errors (corrected flags)
  | PiecePair1 _ flags1 flags2 => UnexpectedEnd :: if_errors (corrected flags1 || corrected flags2)
  | PiecePair1s flags1 flags2 => UnexpectedEnd :: if_errors (corrected flags1 || corrected flags2)
  | PiecePair2 _ flags1 flags2 => pair2_errors flags1 flags2
  | PiecePair2s _ n flags1 flags2 => if 0 <? n then pair2_errors flags1 flags2 else []
  | PieceSingleAdjustment1 => [UnexpectedEnd; UnknownFormat; Malformed] ++ flags_errors o
  | PieceSingleAdjustment2 => [UnexpectedEnd; UnknownFormat; Malformed] ++ flags_errors o
  | PieceSingleAdjustment => [UnexpectedEnd; UnknownFormat; Malformed] ++ flags_errors o
  | PiecePairAdjustment1 => [UnexpectedEnd; UnknownFormat; Malformed] ++ flags_errors o
  | PiecePairAdjustment2 => [UnexpectedEnd; UnknownFormat; Malformed] ++ flags_errors o
  | PiecePairAdjustment => [UnexpectedEnd; UnknownFormat; Malformed] ++ flags_errors o
  | PieceCursiveAttachment => [UnexpectedEnd; UnexpectedValue; UnknownFormat; Malformed]
  | PieceMarkToBaseAttachment => [UnexpectedEnd; UnexpectedValue; UnknownFormat; Malformed]
  | PieceMarkToLigatureAttachment => [UnexpectedEnd; UnexpectedValue; UnknownFormat; Malformed]
  | PieceMarkToMarkAttachment => [UnexpectedEnd; UnexpectedValue; UnknownFormat; Malformed]
  | PieceExtensionPositioning => [UnexpectedEnd; UnexpectedValue]
  | PieceGposType type_ => gpos_type_errors o type_
  | PieceAttachment => [UnexpectedEnd]
  | PieceAttachments => [UnexpectedEnd; UnknownFormat]
  | PieceCaret1 => [UnexpectedEnd]
  | PieceCaret2 => [UnexpectedEnd]
  | PieceCaret3 => [UnexpectedEnd; UnknownFormat; Malformed]
  | PieceCaret => [UnexpectedEnd; UnknownFormat; Malformed]
  | PieceGdefLigature => [UnexpectedEnd; UnknownFormat; Malformed]
  | PieceGdefLigatures => [UnexpectedEnd; UnknownFormat; Malformed]
  | PieceMarks => [UnexpectedEnd; UnexpectedValue; UnknownFormat]
  | PieceGdefHeader1 => [UnexpectedEnd; UnexpectedValue]
  | PieceGdefHeader12 => [UnexpectedEnd; UnexpectedValue]
  | PieceGdefHeader13 => [UnexpectedEnd; UnexpectedValue]
  | PieceGdefHeader => [UnexpectedEnd; UnexpectedValue; UnknownFormat]
  | PieceCpalHeader0 => [UnexpectedEnd; UnexpectedValue]
  | PieceCpalHeader1 => [UnexpectedEnd; UnexpectedValue]
  | PieceCpalHeader => [UnexpectedEnd; UnexpectedValue; UnknownVersion]
  | PieceColor => [UnexpectedEnd]
  | PieceFvarHeader => [UnexpectedEnd; UnexpectedValue]
  | PieceAxisRecord => UnexpectedEnd :: flags_errors o
  | PieceInstanceRecord _ => UnexpectedEnd :: flags_errors o
  | PieceLookupFlags => UnexpectedEnd :: flags_errors o
  | PieceValueFlags => UnexpectedEnd :: flags_errors o
  | PieceAxisFlags => UnexpectedEnd :: flags_errors o
  | PieceInstanceFlags => UnexpectedEnd :: flags_errors o
  end.

(** A value of these flags has fields. *)
Definition valued (flags : N) : bool := existsb (N.testbit flags) [0; 1; 2; 3; 4; 5; 6; 7].

Definition values_errors (flags1 flags2 : N) : list error :=
  (if valued flags1 || valued flags2 then [UnexpectedEnd] else []) ++
  if_errors (corrected flags1 || corrected flags2).

(** The errors that reading a part can report for some file.  A file does not change, so that a
    version is still the same when it is read; and if there is nothing to read, nothing is
    missing. *)
Definition piece_file_errors {A} (o : options) (r : piece A) : list error :=
  match r with
  | PieceBase _ n | PieceComponent _ n | PieceMark2 _ n =>
      if 0 <? n then [UnexpectedEnd; UnknownFormat; Malformed] else []
  | PieceSingle _ flags => values_errors flags 0
  | PiecePair2 _ flags1 flags2 => values_errors flags1 flags2
  | PiecePair2s _ n flags1 flags2 => if 0 <? n then values_errors flags1 flags2 else []
  | PieceGdefHeader => [UnexpectedEnd; UnknownFormat]
  | PieceCpalHeader => [UnexpectedEnd; UnknownVersion]
  | _ => piece_errors o r
  end.

(** Numbers of classes of marks have sixteen bits; positions are such that there can be a file
    around them. *)
Definition piece_modest {A} (r : piece A) : Prop :=
  piece_base r < 2 ^ 62 /\
  match r with
  | PieceBase _ n | PieceBases n | PieceComponent _ n | PieceGposLigature n | PieceGposLigatures n
  | PieceMark2 _ n | PieceMark2s n => n < 2 ^ 16
  | _ => True
  end.

(** The parts for which a sum is taken that a tape can make overflow: of the position it says
    it is at and an offset or, for [PieceStoreRecord], of two counts. *)
Definition piece_sums {A} (r : piece A) : bool :=
  match r with
  | PieceContextRecords => true
  | PieceContextClassRecords => true
  | PieceChainedRecords => true
  | PieceChainedClassRecords => true
  | PieceContext1 => true
  | PieceContext2 => true
  | PieceContext3 => true
  | PieceContext => true
  | PieceChainedContext1 => true
  | PieceChainedContext2 => true
  | PieceChainedContext3 => true
  | PieceChainedContext => true
  | PieceScriptRecord => true
  | PieceScripts => true
  | PieceFeatureRecord => true
  | PieceFeatures => true
  | PieceGsubLookupRecord => true
  | PieceGsubLookups => true
  | PieceGposLookupRecord => true
  | PieceGposLookups => true
  | PieceStoreRecord => true
  | PieceStore => true
  | PieceLigatures => true
  | PieceSingleSubstitution1 => true
  | PieceSingleSubstitution2 => true
  | PieceSingleSubstitution => true
  | PieceMultipleSubstitution => true
  | PieceAlternateSubstitution => true
  | PieceLigatureSubstitution => true
  | PieceReverseChainedContextualSubstibution => true
  | PieceGsubType type_ => existsb (N.eqb type_) [1; 2; 3; 4; 5; 6; 8]
  | PieceAnchor3 => true
  | PieceAnchor => true
  | PieceBase _ n => 0 <? n
  | PieceBases n => 0 <? n
  | PieceComponent _ n => 0 <? n
  | PieceGposLigature n => 0 <? n
  | PieceGposLigatures _ => true
  | PieceMark1 _ => true
  | PieceMark1s => true
  | PieceMark2 _ n => 0 <? n
  | PieceMark2s n => 0 <? n
  | PieceConnection _ => true
  | PiecePair1s flags1 flags2 => corrected flags1 || corrected flags2
  | PieceSingleAdjustment1 => true
  | PieceSingleAdjustment2 => true
  | PieceSingleAdjustment => true
  | PiecePairAdjustment1 => true
  | PiecePairAdjustment2 => true
  | PiecePairAdjustment => true
  | PieceCursiveAttachment => true
  | PieceMarkToBaseAttachment => true
  | PieceMarkToLigatureAttachment => true
  | PieceMarkToMarkAttachment => true
  | PieceGposType type_ => existsb (N.eqb type_) [1; 2; 3; 4; 5; 6; 7; 8]
  | PieceAttachments => true
  | PieceCaret3 => true
  | PieceCaret => true
  | PieceGdefLigature => true
  | PieceGdefLigatures => true
  | PieceMarks => true
  | _ => false
  end.

(** ** Tables *)

(** The errors that reading can report on some tape.  A tape need not give the same twice, so
    that the version of a palette may be one that is known when it is looked at and another
    when it is read. *)
Definition errors_of_tapes {A} (o : options) (r : request A) (x : error) : Prop :=
  match r with
  | RequestFile _ => In x [UnexpectedEnd; Unsupported]
  | RequestFont d => x = UnexpectedEnd \/ (x = Unsupported /\ exists t, truetype_accept d t = false)
  | RequestGdef => In x [UnexpectedEnd; UnexpectedValue; UnknownFormat; Malformed]
  | RequestGpos | RequestGsub =>
      In x ([UnexpectedEnd; UnexpectedValue; UnknownFormat; UnknownVersion; UnknownType; Malformed] ++
        flags_errors o)
  | RequestCpal => In x [UnexpectedEnd; UnexpectedValue; UnknownVersion]
  | RequestFvar => In x ([UnexpectedEnd; UnexpectedValue] ++ flags_errors o)
  end.

(** The errors that reading can report for some file. *)
Definition errors_of_files {A} (o : options) (r : request A) (x : error) : Prop :=
  match r with
  | RequestCpal => In x [UnexpectedEnd; UnknownVersion]
  | _ => errors_of_tapes o r x
  end.

(** The requests for which a sum is taken that a tape can make overflow. *)
Definition request_sums {A} (r : request A) : bool :=
  match r with
  | RequestFile _ | RequestFont _ => false
  | _ => true
  end.
