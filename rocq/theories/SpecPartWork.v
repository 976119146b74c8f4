(** How much work it is to read a part by itself (C79). *)

From Verif Require Export SpecWork Pieces.

(** The most work that a file of [n] bytes can cause. *)
Definition piece_effort {A} (r : piece A) (n : N) : N :=
  let m := n + 16 in
  match r with
  | PieceLookupFlags | PieceValueFlags | PieceAxisFlags | PieceInstanceFlags => 2
  | PieceAction | PieceCaret1 | PieceCaret2 | PieceColor => 4
  | PieceCoverageRecord | PieceClassRecord | PieceVariation | PieceLanguageHeader | PieceScriptHeader |
      PieceFeatureHeader | PieceAnchor1 => 6
  | PieceFeatureVariations | PieceExtensionSubstitution | PieceAnchor2 | PieceExtensionPositioning => 8
  | PieceGdefHeader1 => 12
  | PieceGdefHeader12 => 14
  | PieceFvarHeader => 16
  | PieceGdefHeader13 => 18
  | PieceAxisRecord => 20
  | PieceGdefHeader => 24
  | PieceCoverage1 | PieceCoverage2 | PieceCoverage | PieceClass1 | PieceClass2 | PieceClass | PieceDevice |
      PieceCorrection | PieceLanguageRecord | PieceAlternates | PieceLigature | PieceSequence |
      PieceAttachment | PieceCpalHeader0 | PieceCpalHeader1 | PieceCpalHeader | PieceInstanceRecord _
      => 3 * m
  | PieceCaret3 | PieceCaret => 4 * m
  | PieceContextRecord | PieceContextClassRecord | PieceFeatureRecord | PieceStoreRecord => 5 * m
  | PieceSingleSubstitution1 | PieceSingleSubstitution2 => 6 * m
  | PieceSingleSubstitution | PieceAnchor3 => 7 * m
  | PieceAnchor => 8 * m
  | PieceChainedRecord | PieceChainedClassRecord | PieceMark1 _ => 9 * m
  | PieceSingle _ _ => 14 * m
  | PieceConnection _ => 17 * m
  | PieceSingleAdjustment1 => 18 * m
  | PiecePair1 _ _ _ | PiecePair2 _ _ _ => 29 * m
  | PieceScriptRecord | PieceLigatures | PieceMultipleSubstitution | PieceAlternateSubstitution |
      PieceAttachments | PieceMarks => 4 * m ^ 2
  | PieceGdefLigature => 5 * m ^ 2
  | PieceContextRecords | PieceContextClassRecords | PieceFeatures | PieceStore => 6 * m ^ 2
  | PieceContext3 | PieceReverseChainedContextualSubstibution => 7 * m ^ 2
  | PieceBases _ | PieceGposLigature _ | PieceMark2s _ => 8 * m ^ 2 + 2 ^ 18
  | PiecePair1s _ _ => 8 * m ^ 2 + 2 ^ 19
  | PieceBase _ _ | PieceComponent _ _ | PieceMark1s | PieceMark2 _ _ => 9 * m ^ 2
  | PieceSingleAdjustment2 => 9 * m ^ 2 + 2 ^ 18
  | PiecePair2s _ class2_count _ _ => 9 * m ^ 2 + 5 * class2_count
  | PiecePairAdjustment2 => 9 * m ^ 2 + 6 * 2 ^ 32
  | PieceChainedRecords | PieceChainedClassRecords => 10 * m ^ 2
  | PieceSingleAdjustment => 10 * m ^ 2 + 2 ^ 18
  | PieceChainedContext3 => 14 * m ^ 2
  | PieceCursiveAttachment => 18 * m ^ 2
  | PieceMarkToBaseAttachment | PieceMarkToMarkAttachment => 18 * m ^ 2 + 2 ^ 18
  | PieceScripts | PieceLigatureSubstitution => 5 * m ^ 3
  | PieceGdefLigatures => 6 * m ^ 3
  | PieceContext1 | PieceContext2 | PieceContext => 7 * m ^ 3
  | PieceGposLigatures _ | PiecePairAdjustment1 => 10 * m ^ 3 + 2 ^ 29
  | PieceChainedContext1 | PieceChainedContext2 | PieceChainedContext | PieceGsubType _ => 11 * m ^ 3
  | PieceMarkToLigatureAttachment => 11 * m ^ 3 + 2 ^ 29
  | PiecePairAdjustment | PieceGposType _ => 11 * m ^ 3 + 6 * 2 ^ 32
  | PieceGsubLookupRecord => 12 * m ^ 4
  | PieceGposLookupRecord => 12 * m ^ 4 + 6 * 2 ^ 32 * m
  | PieceGsubLookups => 13 * m ^ 5
  | PieceGposLookups => 13 * m ^ 5 + 6 * 2 ^ 32 * m ^ 2
  end.
