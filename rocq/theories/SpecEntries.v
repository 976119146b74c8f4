(** How many glyphs a subtable covers, and how many entries it has for them. *)

From Verif Require Export SpecNull SpecFlags SpecBuilds.

Definition covered (c : Coverage) : N :=
  match c with
  | CoverageFormat1 t => N.of_nat (length (coverage1_glyph_ids t))
  | CoverageFormat2 t =>
      fold_right (fun r n => coverage_record_end_glyph_id r - coverage_record_start_glyph_id r + 1 + n) 0
        (coverage2_records t)
  end.

(** The entries that the index of a glyph in the coverage is for. *)
Definition context_entries (v : Context) : option N :=
  match v with ContextFormat1 t => Some (context1_record_count t) | _ => None end.

Definition chained_entries (v : ChainedContext) : option N :=
  match v with ChainedContextFormat1 t => Some (chained_context1_record_count t) | _ => None end.

Definition gsub_entries (t : GsubType) : option N :=
  match t with
  | GsubSingleSubstitution (SingleSubstitutionFormat2 t) => Some (single_substitution2_glyph_count t)
  | GsubMultipleSubstitution t => Some (multiple_substitution_record_count t)
  | GsubAlternateSubstitution t => Some (alternate_substitution_record_count t)
  | GsubLigatureSubstitution t => Some (ligature_substitution_record_count t)
  | GsubContextualSubstitution t => context_entries t
  | GsubChainedContextualSubstitution t => chained_entries t
  | GsubReverseChainedContextualSubstibution t =>
      Some (reverse_chained_contextual_substibution_glyph_count t)
  | _ => None
  end.

Definition gpos_entries (t : GposType) : option N :=
  match t with
  | GposSingleAdjustment (SingleAdjustmentFormat2 t) => Some (single_adjustment2_value_count t)
  | GposPairAdjustment (PairAdjustmentFormat1 t) => Some (pair_adjustment1_record_count t)
  | GposCursiveAttachment t => Some (cursive_attachment_connection_count t)
  | GposMarkToBaseAttachment t => Some (mark1s_count (mark_to_base_attachment_marks t))
  | GposMarkToLigatureAttachment t => Some (mark1s_count (mark_to_ligature_attachment_marks t))
  | GposMarkToMarkAttachment t => Some (mark1s_count (mark_to_mark_attachment_mark1s t))
  | GposContextualPositioning t => context_entries t
  | GposChainedContextualPositioning t => chained_entries t
  | _ => None
  end.

Definition base_entries (t : GposType) : option N :=
  match t with
  | GposMarkToBaseAttachment t => Some (bases_count (mark_to_base_attachment_bases t))
  | GposMarkToLigatureAttachment t => Some (gpos_ligatures_count (mark_to_ligature_attachment_ligatures t))
  | GposMarkToMarkAttachment t => Some (mark2s_count (mark_to_mark_attachment_mark2s t))
  | _ => None
  end.

(** There is one entry per glyph that is covered. *)
Definition balanced (entries : option N) (coverage : option (N * Coverage)) : Prop :=
  forall n x c, entries = Some n -> coverage = Some (x, c) -> covered c = n.

Definition gsub_balanced (t : GsubType) : Prop := balanced (gsub_entries t) (gsub_coverage t).

Definition gpos_balanced (t : GposType) : Prop :=
  balanced (gpos_entries t) (gpos_coverage t) /\ balanced (base_entries t) (base_coverage t).

(** The classes of marks are below their number. *)
Definition mark_classes (t : GposType) : option N :=
  match t with
  | GposMarkToBaseAttachment t => Some (mark_to_base_attachment_mark_class_count t)
  | GposMarkToLigatureAttachment t => Some (mark_to_ligature_attachment_mark_class_count t)
  | GposMarkToMarkAttachment t => Some (mark_to_mark_attachment_mark_class_count t)
  | _ => None
  end.

Definition classes_known (t : GposType) : Prop :=
  forall n m, mark_classes t = Some n -> In m (marks_of t) -> mark1_class_id m < n.
