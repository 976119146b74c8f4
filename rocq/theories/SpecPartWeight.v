(** How much a part holds that is read by itself (C76). *)

From Verif Require Export SpecWeight SpecPartWork.

(** The elements of all vectors in a part. *)
Definition piece_weight {A} (r : piece A) : A -> N :=
  match r in piece A return A -> N with
  | PieceCoverageRecord => fun _ => 0
  | PieceCoverage1 => fun t => coverage_weight (CoverageFormat1 t)
  | PieceCoverage2 => fun t => coverage_weight (CoverageFormat2 t)
  | PieceCoverage => coverage_weight
  | PieceClassRecord => fun _ => 0
  | PieceClass1 => fun t => class_weight (ClassFormat1 t)
  | PieceClass2 => fun t => class_weight (ClassFormat2 t)
  | PieceClass => class_weight
  | PieceDevice => fun t => correction_weight (CorrectionDevice t)
  | PieceVariation => fun t => correction_weight (CorrectionVariation t)
  | PieceCorrection => correction_weight
  | PieceAction => fun _ => 0
  | PieceContextRecord => context_record_weight
  | PieceContextRecords => context_records_weight
  | PieceContextClassRecord => context_class_record_weight
  | PieceContextClassRecords => context_class_records_weight
  | PieceChainedRecord => chained_record_weight
  | PieceChainedRecords => chained_records_weight
  | PieceChainedClassRecord => chained_class_record_weight
  | PieceChainedClassRecords => chained_class_records_weight
  | PieceContext1 => fun t => context_weight (ContextFormat1 t)
  | PieceContext2 => fun t => context_weight (ContextFormat2 t)
  | PieceContext3 => fun t => context_weight (ContextFormat3 t)
  | PieceContext => context_weight
  | PieceChainedContext1 => fun t => chained_context_weight (ChainedContextFormat1 t)
  | PieceChainedContext2 => fun t => chained_context_weight (ChainedContextFormat2 t)
  | PieceChainedContext3 => fun t => chained_context_weight (ChainedContextFormat3 t)
  | PieceChainedContext => chained_context_weight
  | PieceLanguageHeader => fun _ => 0
  | PieceLanguageRecord => language_record_weight
  | PieceScriptHeader => fun _ => 0
  | PieceScriptRecord => script_record_weight
  | PieceScripts => scripts_weight
  | PieceFeatureHeader => fun _ => 0
  | PieceFeatureRecord => feature_record_weight
  | PieceFeatures => features_weight
  | PieceFeatureVariations => fun _ => 0
  | PieceGsubLookupRecord => lookup_record_weight gsub_type_weight
  | PieceGsubLookups => lookups_weight gsub_type_weight
  | PieceGposLookupRecord => lookup_record_weight gpos_type_weight
  | PieceGposLookups => lookups_weight gpos_type_weight
  | PieceStoreRecord => store_record_weight
  | PieceStore => store_weight
  | PieceAlternates => fun r => count (alternates_glyph_ids r)
  | PieceLigature => ligature_weight
  | PieceLigatures => ligatures_weight
  | PieceSequence => fun r => count (sequence_glyph_ids r)
  | PieceSingleSubstitution1 => fun t => gsub_type_weight (GsubSingleSubstitution (SingleSubstitutionFormat1 t))
  | PieceSingleSubstitution2 => fun t => gsub_type_weight (GsubSingleSubstitution (SingleSubstitutionFormat2 t))
  | PieceSingleSubstitution => fun t => gsub_type_weight (GsubSingleSubstitution t)
  | PieceMultipleSubstitution => fun t => gsub_type_weight (GsubMultipleSubstitution t)
  | PieceAlternateSubstitution => fun t => gsub_type_weight (GsubAlternateSubstitution t)
  | PieceLigatureSubstitution => fun t => gsub_type_weight (GsubLigatureSubstitution t)
  | PieceExtensionSubstitution => fun t => gsub_type_weight (GsubExtensionSubstitution t)
  | PieceReverseChainedContextualSubstibution => fun t =>
      gsub_type_weight (GsubReverseChainedContextualSubstibution t)
  | PieceGsubType _ => gsub_type_weight
  | PieceAnchor1 => fun t => anchor_weight (AnchorFormat1 t)
  | PieceAnchor2 => fun t => anchor_weight (AnchorFormat2 t)
  | PieceAnchor3 => fun t => anchor_weight (AnchorFormat3 t)
  | PieceAnchor => anchor_weight
  | PieceBase _ _ => fun r => row_weight (base_anchor_offsets r) (base_anchors r)
  | PieceBases _ => bases_weight
  | PieceComponent _ _ => fun r => row_weight (component_anchor_offsets r) (component_anchors r)
  | PieceGposLigature _ => gpos_ligature_weight
  | PieceGposLigatures _ => gpos_ligatures_weight
  | PieceMark1 _ => fun r => anchor_weight (mark1_anchor r)
  | PieceMark1s => mark1s_weight
  | PieceMark2 _ _ => fun r => row_weight (mark2_anchor_offsets r) (mark2_anchors r)
  | PieceMark2s _ => mark2s_weight
  | PieceConnection _ => connection_weight
  | PieceSingle _ _ => single_weight
  | PiecePair1 _ _ _ => pair1_weight
  | PiecePair1s _ _ => pair1s_weight
  | PiecePair2 _ _ _ => pair2_weight
  | PiecePair2s _ _ _ _ => pair2s_weight
  | PieceSingleAdjustment1 => fun t => gpos_type_weight (GposSingleAdjustment (SingleAdjustmentFormat1 t))
  | PieceSingleAdjustment2 => fun t => gpos_type_weight (GposSingleAdjustment (SingleAdjustmentFormat2 t))
  | PieceSingleAdjustment => fun t => gpos_type_weight (GposSingleAdjustment t)
  | PiecePairAdjustment1 => fun t => gpos_type_weight (GposPairAdjustment (PairAdjustmentFormat1 t))
  | PiecePairAdjustment2 => fun t => gpos_type_weight (GposPairAdjustment (PairAdjustmentFormat2 t))
  | PiecePairAdjustment => fun t => gpos_type_weight (GposPairAdjustment t)
  | PieceCursiveAttachment => fun t => gpos_type_weight (GposCursiveAttachment t)
  | PieceMarkToBaseAttachment => fun t => gpos_type_weight (GposMarkToBaseAttachment t)
  | PieceMarkToLigatureAttachment => fun t => gpos_type_weight (GposMarkToLigatureAttachment t)
  | PieceMarkToMarkAttachment => fun t => gpos_type_weight (GposMarkToMarkAttachment t)
  | PieceExtensionPositioning => fun t => gpos_type_weight (GposExtensionPositioning t)
  | PieceGposType _ => gpos_type_weight
  | PieceAttachment => attachment_weight
  | PieceAttachments => attachments_weight
  | PieceCaret1 => fun t => caret_weight (CaretFormat1 t)
  | PieceCaret2 => fun t => caret_weight (CaretFormat2 t)
  | PieceCaret3 => fun t => caret_weight (CaretFormat3 t)
  | PieceCaret => caret_weight
  | PieceGdefLigature => gdef_ligature_weight
  | PieceGdefLigatures => gdef_ligatures_weight
  | PieceMarks => marks_weight
  | PieceGdefHeader1 => fun _ => 0
  | PieceGdefHeader12 => fun _ => 0
  | PieceGdefHeader13 => fun _ => 0
  | PieceGdefHeader => fun _ => 0
  | PieceCpalHeader0 => fun h => count (cpal_header0_color_indices h)
  | PieceCpalHeader1 => fun h => count (cpal_header1_color_indices h)
  | PieceCpalHeader => fun h =>
      match h with
      | CpalVersion0 t => count (cpal_header0_color_indices t)
      | CpalVersion1 t => count (cpal_header1_color_indices t)
      end
  | PieceColor => fun _ => 0
  | PieceFvarHeader => fun _ => 0
  | PieceAxisRecord => fun _ => 0
  | PieceInstanceRecord _ => fun r => count (instance_record_coordinates r)
  | PieceLookupFlags => fun _ => 0
  | PieceValueFlags => fun _ => 0
  | PieceAxisFlags => fun _ => 0
  | PieceInstanceFlags => fun _ => 0
  end.
