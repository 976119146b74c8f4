(** The values that the parts of tables can have, whatever the tape (C82). *)

From Verif Require Export SpecRanges Pieces.

Definition cpal_header_values (v : CpalHeader) : Prop :=
  match v with
  | CpalVersion0 (mkCpalHeader0 version k n m offset indices) =>
      version = 0 /\ counts n indices /\ u16 k /\ u16 n /\ u16 m /\ u32 offset /\ Forall u16 indices
  | CpalVersion1 (mkCpalHeader1 version k n m offset indices) =>
      version = 1 /\ counts n indices /\ u16 k /\ u16 n /\ u16 m /\ u32 offset /\ Forall u16 indices
  end.

Definition fvar_header_values (v : FvarHeader) : Prop :=
  let '(mkFvarHeader major minor offset reserved n size1 m size2) := v in
  reserved = 2 /\ u16 major /\ u16 minor /\ u16 offset /\ u16 n /\ u16 size1 /\ u16 m /\ u16 size2.

(** The shape of SpecLoose.v and the ranges of SpecRanges.v. *)
Definition may_be {A} (o : options) (r : piece A) : A -> Prop :=
  match r in piece A return A -> Prop with
  | PieceCoverageRecord => coverage_record_fits
  | PieceCoverage1 => fun v =>
      coverage_loose (CoverageFormat1 v) /\ coverage_ranges (CoverageFormat1 v)
  | PieceCoverage2 => fun v =>
      coverage_loose (CoverageFormat2 v) /\ coverage_ranges (CoverageFormat2 v)
  | PieceCoverage => fun v => coverage_loose v /\ coverage_ranges v
  | PieceClassRecord => class_record_fits
  | PieceClass1 => fun v => class_loose (ClassFormat1 v) /\ class_ranges (ClassFormat1 v)
  | PieceClass2 => fun v => class_loose (ClassFormat2 v) /\ class_ranges (ClassFormat2 v)
  | PieceClass => fun v => class_loose v /\ class_ranges v
  | PieceDevice => fun v =>
      correction_loose (CorrectionDevice v) /\ correction_ranges (CorrectionDevice v)
  | PieceVariation => fun v =>
      correction_loose (CorrectionVariation v) /\ correction_ranges (CorrectionVariation v)
  | PieceCorrection => fun v => correction_loose v /\ correction_ranges v
  | PieceAction => action_fits
  | PieceContextRecord => fun v => context_record_wf v /\ context_record_fits v
  | PieceContextRecords => fun v => context_records_wf v /\ context_records_ranges v
  | PieceContextClassRecord => fun v => context_class_record_wf v /\ context_class_record_fits v
  | PieceContextClassRecords => fun v =>
      context_class_records_wf v /\ context_class_records_ranges v
  | PieceChainedRecord => fun v => chained_record_wf v /\ chained_record_fits v
  | PieceChainedRecords => fun v => chained_records_wf v /\ chained_records_ranges v
  | PieceChainedClassRecord => fun v => chained_class_record_wf v /\ chained_class_record_fits v
  | PieceChainedClassRecords => fun v =>
      chained_class_records_wf v /\ chained_class_records_ranges v
  | PieceContext1 => fun v => context_loose (ContextFormat1 v) /\ context_ranges (ContextFormat1 v)
  | PieceContext2 => fun v => context_loose (ContextFormat2 v) /\ context_ranges (ContextFormat2 v)
  | PieceContext3 => fun v => context_loose (ContextFormat3 v) /\ context_ranges (ContextFormat3 v)
  | PieceContext => fun v => context_loose v /\ context_ranges v
  | PieceChainedContext1 => fun v =>
      chained_context_loose (ChainedContextFormat1 v) /\
      chained_context_ranges (ChainedContextFormat1 v)
  | PieceChainedContext2 => fun v =>
      chained_context_loose (ChainedContextFormat2 v) /\
      chained_context_ranges (ChainedContextFormat2 v)
  | PieceChainedContext3 => fun v =>
      chained_context_loose (ChainedContextFormat3 v) /\
      chained_context_ranges (ChainedContextFormat3 v)
  | PieceChainedContext => fun v => chained_context_loose v /\ chained_context_ranges v
  | PieceLanguageHeader => fun v => u16 (language_header_offset v)
  | PieceLanguageRecord => fun v => language_record_wf v /\ language_record_fits v
  | PieceScriptHeader => fun v => u16 (script_header_offset v)
  | PieceScriptRecord => fun v => script_record_wf v /\ script_record_ranges v
  | PieceScripts => fun v => scripts_wf v /\ scripts_ranges v
  | PieceFeatureHeader => fun v => u16 (feature_header_offset v)
  | PieceFeatureRecord => fun v => feature_record_wf v /\ feature_record_ranges v
  | PieceFeatures => fun v => features_wf v /\ features_ranges v
  | PieceFeatureVariations => fun v => feature_variations_wf v /\ feature_variations_fits v
  | PieceGsubLookupRecord => fun v =>
      lookup_record_wf gsub_type_loose v /\ lookup_record_ranges o gsub_type_ranges v
  | PieceGsubLookups => fun v => lookups_wf gsub_type_loose v /\ lookups_ranges o gsub_type_ranges v
  | PieceGposLookupRecord => fun v =>
      lookup_record_wf gpos_type_loose v /\ lookup_record_ranges o (gpos_type_ranges o) v
  | PieceGposLookups => fun v =>
      lookups_wf gpos_type_loose v /\ lookups_ranges o (gpos_type_ranges o) v
  | PieceStoreRecord => fun v => store_record_wf v /\ store_record_fits o v
  | PieceStore => fun v => store_wf v /\ store_ranges o v
  | PieceAlternates => fun v => alternates_wf v /\ alternates_fits v
  | PieceLigature => fun v => ligature_wf v /\ ligature_fits v
  | PieceLigatures => fun v => ligatures_wf v /\ ligatures_ranges v
  | PieceSequence => fun v => sequence_wf v /\ sequence_fits v
  | PieceSingleSubstitution1 => fun v =>
      single_substitution_loose (SingleSubstitutionFormat1 v) /\
      single_substitution_ranges (SingleSubstitutionFormat1 v)
  | PieceSingleSubstitution2 => fun v =>
      single_substitution_loose (SingleSubstitutionFormat2 v) /\
      single_substitution_ranges (SingleSubstitutionFormat2 v)
  | PieceSingleSubstitution => fun v => single_substitution_loose v /\ single_substitution_ranges v
  | PieceMultipleSubstitution => fun v =>
      gsub_type_loose 2 (GsubMultipleSubstitution v) /\
      gsub_type_ranges (GsubMultipleSubstitution v)
  | PieceAlternateSubstitution => fun v =>
      gsub_type_loose 3 (GsubAlternateSubstitution v) /\
      gsub_type_ranges (GsubAlternateSubstitution v)
  | PieceLigatureSubstitution => fun v =>
      gsub_type_loose 4 (GsubLigatureSubstitution v) /\
      gsub_type_ranges (GsubLigatureSubstitution v)
  | PieceExtensionSubstitution => fun v =>
      gsub_type_loose 7 (GsubExtensionSubstitution v) /\
      gsub_type_ranges (GsubExtensionSubstitution v)
  | PieceReverseChainedContextualSubstibution => fun v =>
      gsub_type_loose 8 (GsubReverseChainedContextualSubstibution v) /\
      gsub_type_ranges (GsubReverseChainedContextualSubstibution v)
  | PieceGsubType type_ => fun v => gsub_type_loose type_ v /\ gsub_type_ranges v
  | PieceAnchor1 => fun v => anchor_loose (AnchorFormat1 v) /\ anchor_ranges (AnchorFormat1 v)
  | PieceAnchor2 => fun v => anchor_loose (AnchorFormat2 v) /\ anchor_ranges (AnchorFormat2 v)
  | PieceAnchor3 => fun v => anchor_loose (AnchorFormat3 v) /\ anchor_ranges (AnchorFormat3 v)
  | PieceAnchor => fun v => anchor_loose v /\ anchor_ranges v
  | PieceBase _ n => fun v => base_loose n v /\ base_ranges v
  | PieceBases n => fun v => bases_loose n v /\ bases_ranges v
  | PieceComponent _ n => fun v => component_loose n v /\ component_ranges v
  | PieceGposLigature n => fun v => gpos_ligature_loose n v /\ gpos_ligature_ranges v
  | PieceGposLigatures n => fun v => gpos_ligatures_loose n v /\ gpos_ligatures_ranges v
  | PieceMark1 _ => fun v => mark1_loose v /\ mark1_ranges o v
  | PieceMark1s => fun v => mark1s_loose v /\ mark1s_ranges o v
  | PieceMark2 _ n => fun v => mark2_loose n v /\ mark2_ranges v
  | PieceMark2s n => fun v => mark2s_loose n v /\ mark2s_ranges v
  | PieceConnection _ => fun v => connection_loose v /\ connection_ranges v
  | PieceSingle _ flags => fun v => single_loose flags v /\ single_ranges v
  | PiecePair1 _ flags1 flags2 => fun v => pair1_loose flags1 flags2 v /\ pair1_ranges v
  | PiecePair1s flags1 flags2 => fun v => pair1s_loose flags1 flags2 v /\ pair1s_ranges v
  | PiecePair2 _ flags1 flags2 => fun v => pair2_loose flags1 flags2 v /\ pair2_ranges v
  | PiecePair2s _ n flags1 flags2 => fun v => pair2s_loose n flags1 flags2 v /\ pair2s_ranges v
  | PieceSingleAdjustment1 => fun v =>
      gpos_type_loose 1 (GposSingleAdjustment (SingleAdjustmentFormat1 v)) /\
      gpos_type_ranges o (GposSingleAdjustment (SingleAdjustmentFormat1 v))
  | PieceSingleAdjustment2 => fun v =>
      gpos_type_loose 1 (GposSingleAdjustment (SingleAdjustmentFormat2 v)) /\
      gpos_type_ranges o (GposSingleAdjustment (SingleAdjustmentFormat2 v))
  | PieceSingleAdjustment => fun v =>
      gpos_type_loose 1 (GposSingleAdjustment v) /\
      gpos_type_ranges o (GposSingleAdjustment v)
  | PiecePairAdjustment1 => fun v =>
      gpos_type_loose 2 (GposPairAdjustment (PairAdjustmentFormat1 v)) /\
      gpos_type_ranges o (GposPairAdjustment (PairAdjustmentFormat1 v))
  | PiecePairAdjustment2 => fun v =>
      gpos_type_loose 2 (GposPairAdjustment (PairAdjustmentFormat2 v)) /\
      gpos_type_ranges o (GposPairAdjustment (PairAdjustmentFormat2 v))
  | PiecePairAdjustment => fun v =>
      gpos_type_loose 2 (GposPairAdjustment v) /\ gpos_type_ranges o (GposPairAdjustment v)
  | PieceCursiveAttachment => fun v =>
      gpos_type_loose 3 (GposCursiveAttachment v) /\
      gpos_type_ranges o (GposCursiveAttachment v)
  | PieceMarkToBaseAttachment => fun v =>
      gpos_type_loose 4 (GposMarkToBaseAttachment v) /\
      gpos_type_ranges o (GposMarkToBaseAttachment v)
  | PieceMarkToLigatureAttachment => fun v =>
      gpos_type_loose 5 (GposMarkToLigatureAttachment v) /\
      gpos_type_ranges o (GposMarkToLigatureAttachment v)
  | PieceMarkToMarkAttachment => fun v =>
      gpos_type_loose 6 (GposMarkToMarkAttachment v) /\
      gpos_type_ranges o (GposMarkToMarkAttachment v)
  | PieceExtensionPositioning => fun v =>
      gpos_type_loose 9 (GposExtensionPositioning v) /\
      gpos_type_ranges o (GposExtensionPositioning v)
  | PieceGposType type_ => fun v => gpos_type_loose type_ v /\ gpos_type_ranges o v
  | PieceAttachment => fun v => attachment_wf v /\ attachment_fits v
  | PieceAttachments => fun v => attachments_loose v /\ attachments_ranges v
  | PieceCaret1 => fun v => caret_loose (CaretFormat1 v) /\ caret_ranges (CaretFormat1 v)
  | PieceCaret2 => fun v => caret_loose (CaretFormat2 v) /\ caret_ranges (CaretFormat2 v)
  | PieceCaret3 => fun v => caret_loose (CaretFormat3 v) /\ caret_ranges (CaretFormat3 v)
  | PieceCaret => fun v => caret_loose v /\ caret_ranges v
  | PieceGdefLigature => fun v => gdef_ligature_loose v /\ gdef_ligature_ranges v
  | PieceGdefLigatures => fun v => gdef_ligatures_loose v /\ gdef_ligatures_ranges v
  | PieceMarks => fun v => marks_loose v /\ marks_ranges v
  | PieceGdefHeader1 => fun v =>
      gdef_header_wf (GdefVersion1 v) /\ gdef_header_ranges (GdefVersion1 v)
  | PieceGdefHeader12 => fun v =>
      gdef_header_wf (GdefVersion12 v) /\ gdef_header_ranges (GdefVersion12 v)
  | PieceGdefHeader13 => fun v =>
      gdef_header_wf (GdefVersion13 v) /\ gdef_header_ranges (GdefVersion13 v)
  | PieceGdefHeader => fun v => gdef_header_wf v /\ gdef_header_ranges v
  | PieceCpalHeader0 => fun v => cpal_header_values (CpalVersion0 v)
  | PieceCpalHeader1 => fun v => cpal_header_values (CpalVersion1 v)
  | PieceCpalHeader => cpal_header_values
  | PieceColor => color_fits
  | PieceFvarHeader => fvar_header_values
  | PieceAxisRecord => axis_record_fits o
  | PieceInstanceRecord n => fun v =>
      counts n (instance_record_coordinates v) /\ instance_record_fits o v
  | PieceLookupFlags => flags16 (checked_flags o) 0x00E0
  | PieceValueFlags => flags16 (checked_flags o) 0xFF00
  | PieceAxisFlags => flags16 (checked_flags o) 0xFFFE
  | PieceInstanceFlags => flags16 (checked_flags o) 0xFFFF
  end.
