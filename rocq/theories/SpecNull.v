(** Coverages and classes of subtables, with the offsets that lead to them. *)

From Verif Require Export SpecGsub SpecGpos SpecGdef SpecSharing.

Definition context_coverage (v : Context) : option (N * Coverage) :=
  match v with
  | ContextFormat1 t => Some (context1_coverage_offset t, context1_coverage t)
  | ContextFormat2 t => Some (context2_coverage_offset t, context2_coverage t)
  | ContextFormat3 _ => None
  end.

Definition chained_coverage (v : ChainedContext) : option (N * Coverage) :=
  match v with
  | ChainedContextFormat1 t => Some (chained_context1_coverage_offset t, chained_context1_coverage t)
  | ChainedContextFormat2 t => Some (chained_context2_coverage_offset t, chained_context2_coverage t)
  | ChainedContextFormat3 _ => None
  end.

(** The coverage that says which glyphs a subtable is about: its offset is the second word. *)
Definition gsub_coverage (t : GsubType) : option (N * Coverage) :=
  match t with
  | GsubSingleSubstitution (SingleSubstitutionFormat1 t) =>
      Some (single_substitution1_coverage_offset t, single_substitution1_coverage t)
  | GsubSingleSubstitution (SingleSubstitutionFormat2 t) =>
      Some (single_substitution2_coverage_offset t, single_substitution2_coverage t)
  | GsubMultipleSubstitution t =>
      Some (multiple_substitution_coverage_offset t, multiple_substitution_coverage t)
  | GsubAlternateSubstitution t =>
      Some (alternate_substitution_coverage_offset t, alternate_substitution_coverage t)
  | GsubLigatureSubstitution t =>
      Some (ligature_substitution_coverage_offset t, ligature_substitution_coverage t)
  | GsubContextualSubstitution t => context_coverage t
  | GsubChainedContextualSubstitution t => chained_coverage t
  | GsubExtensionSubstitution _ => None
  | GsubReverseChainedContextualSubstibution t =>
      Some (reverse_chained_contextual_substibution_coverage_offset t,
        reverse_chained_contextual_substibution_coverage t)
  end.

Definition gpos_coverage (t : GposType) : option (N * Coverage) :=
  match t with
  | GposSingleAdjustment (SingleAdjustmentFormat1 t) =>
      Some (single_adjustment1_coverage_offset t, single_adjustment1_coverage t)
  | GposSingleAdjustment (SingleAdjustmentFormat2 t) =>
      Some (single_adjustment2_coverage_offset t, single_adjustment2_coverage t)
  | GposPairAdjustment (PairAdjustmentFormat1 t) =>
      Some (pair_adjustment1_coverage_offset t, pair_adjustment1_coverage t)
  | GposPairAdjustment (PairAdjustmentFormat2 t) =>
      Some (pair_adjustment2_coverage_offset t, pair_adjustment2_coverage t)
  | GposCursiveAttachment t => Some (cursive_attachment_coverage_offset t, cursive_attachment_coverage t)
  | GposMarkToBaseAttachment t =>
      Some (mark_to_base_attachment_mark_coverage_offset t, mark_to_base_attachment_mark_coverage t)
  | GposMarkToLigatureAttachment t =>
      Some (mark_to_ligature_attachment_mark_coverage_offset t, mark_to_ligature_attachment_mark_coverage t)
  | GposMarkToMarkAttachment t =>
      Some (mark_to_mark_attachment_mark1_coverage_offset t, mark_to_mark_attachment_mark1_coverage t)
  | GposContextualPositioning t => context_coverage t
  | GposChainedContextualPositioning t => chained_coverage t
  | GposExtensionPositioning _ => None
  end.

(** The coverage of the glyphs that marks are attached to. *)
Definition base_coverage (t : GposType) : option (N * Coverage) :=
  match t with
  | GposMarkToBaseAttachment t =>
      Some (mark_to_base_attachment_base_coverage_offset t, mark_to_base_attachment_base_coverage t)
  | GposMarkToLigatureAttachment t =>
      Some (mark_to_ligature_attachment_ligature_coverage_offset t,
        mark_to_ligature_attachment_ligature_coverage t)
  | GposMarkToMarkAttachment t =>
      Some (mark_to_mark_attachment_mark2_coverage_offset t, mark_to_mark_attachment_mark2_coverage t)
  | _ => None
  end.

(** The coverages of contexts in format 3. *)
Definition context_offsets (v : Context) : list N :=
  match v with ContextFormat3 t => context3_coverage_offsets t | _ => [] end.

Definition chained_offsets (v : ChainedContext) : list N :=
  match v with
  | ChainedContextFormat3 t =>
      chained_context3_backward_coverage_offsets t ++ chained_context3_coverage_offsets t ++
      chained_context3_forward_coverage_offsets t
  | _ => []
  end.

Definition gsub_offsets (t : GsubType) : list N :=
  match t with
  | GsubContextualSubstitution t => context_offsets t
  | GsubChainedContextualSubstitution t => chained_offsets t
  | _ => []
  end.

Definition gpos_offsets (t : GposType) : list N :=
  match t with
  | GposContextualPositioning t => context_offsets t
  | GposChainedContextualPositioning t => chained_offsets t
  | _ => []
  end.

(** Definitions of classes. *)
Definition context_classes (v : Context) : list (N * Class) :=
  match v with ContextFormat2 t => [(context2_class_offset t, context2_class t)] | _ => [] end.

Definition chained_classes (v : ChainedContext) : list (N * Class) :=
  match v with
  | ChainedContextFormat2 t =>
      [(chained_context2_backward_class_offset t, chained_context2_backward_class t);
       (chained_context2_class_offset t, chained_context2_class t);
       (chained_context2_forward_class_offset t, chained_context2_forward_class t)]
  | _ => []
  end.

Definition gsub_classes (t : GsubType) : list (N * Class) :=
  match t with
  | GsubContextualSubstitution t => context_classes t
  | GsubChainedContextualSubstitution t => chained_classes t
  | _ => []
  end.

Definition gpos_classes (t : GposType) : list (N * Class) :=
  match t with
  | GposPairAdjustment (PairAdjustmentFormat2 t) =>
      [(pair_adjustment2_class1_offset t, pair_adjustment2_class1 t);
       (pair_adjustment2_class2_offset t, pair_adjustment2_class2 t)]
  | GposContextualPositioning t => context_classes t
  | GposChainedContextualPositioning t => chained_classes t
  | _ => []
  end.

(** A coverage of no glyphs. *)
Definition empty_coverage (c : Coverage) : Prop :=
  c = CoverageFormat1 (mkCoverage1 1 0 []) \/ c = CoverageFormat2 (mkCoverage2 2 0 []).

(** The glyphs of a coverage are [n] words of the header at [p]. *)
Definition header_glyphs (f : file) (p n : N) (c : Coverage) : Prop :=
  exists glyphs, c = CoverageFormat1 (mkCoverage1 1 n glyphs) /\ u16s_at f (p + 4) n glyphs.

(** The ranges of a class definition are [n] triples of words of the header at [p]. *)
Definition header_classes (f : file) (p n : N) (c : Class) : Prop :=
  exists records, c = ClassFormat2 (mkClass2 2 n records) /\ vec_at (class_record_at f) 6 (p + 4) n records.
