(** How large a result is compared with the file (C47). *)

From Verif Require Export Types.

(** The number of glyphs listed by a coverage in format 1. *)
Definition coverage_glyphs (v : Coverage) : nat :=
  match v with
  | CoverageFormat1 t => length (coverage1_glyph_ids t)
  | CoverageFormat2 _ => 0
  end.

(** The number of glyphs listed by the mark glyph sets of [GDEF]. *)
Definition mark_glyphs (v : GlyphDefinition) : nat :=
  match glyph_definition_marks v with
  | Some marks => list_sum (map coverage_glyphs (marks_coverages marks))
  | None => 0
  end.

(** The number of pairs of glyph classes with an adjustment in a subtable of [GPOS]. *)
Definition class_pairs (v : GposType) : nat :=
  match v with
  | GposPairAdjustment (PairAdjustmentFormat2 t) =>
      list_sum (map (fun row => length (pair2s_records row)) (pair_adjustment2_records t))
  | _ => 0
  end.

(** That number for a whole [GPOS]. *)
Definition all_class_pairs (v : GlyphPositioning) : nat :=
  list_sum (map (fun lookup => list_sum (map class_pairs (lookup_record_tables lookup)))
    (lookups_records (directory_lookups v))).

(** The number of coordinates of all instances of [fvar]. *)
Definition coordinates (v : FontVariations) : nat :=
  list_sum (map (fun instance => length (instance_record_coordinates instance))
    (font_variations_instance_records v)).

(** The number of glyphs listed as substitutes by a single substitution. *)
Definition substitutes (v : GsubType) : nat :=
  match v with
  | GsubSingleSubstitution (SingleSubstitutionFormat2 t) => length (single_substitution2_glyph_ids t)
  | _ => 0
  end.

(** That number for a whole [GSUB]. *)
Definition all_substitutes (v : GlyphSubstitution) : nat :=
  list_sum (map (fun lookup => list_sum (map substitutes (lookup_record_tables lookup)))
    (lookups_records (directory_lookups v))).
