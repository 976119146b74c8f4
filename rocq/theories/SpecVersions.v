(** Versions and formats, for property C70. *)

From Verif Require Export Api SpecFvar SpecGsub.

(** The same bytes from [q] on. *)
Definition same_from (q : N) (f g : file) : Prop := forall p, q <= p -> f p = g p.

Definition with_version (major minor : N) (v : FontVariations) : FontVariations :=
  let '(mkFontVariations header axes instances) := v in
  let '(mkFvarHeader _ _ axis_offset reserved axis_count axis_size instance_count instance_size) := header in
  mkFontVariations (mkFvarHeader major minor axis_offset reserved axis_count axis_size instance_count instance_size)
    axes instances.

Definition with_format (format : N) (v : ReverseChainedContextualSubstibution) :
    ReverseChainedContextualSubstibution :=
  let '(mkReverseChainedContextualSubstibution _ coverage_offset backward_glyph_count
    backward_coverage_offsets forward_glyph_count forward_coverage_offsets glyph_count glyph_ids
    coverage backward_coverages forward_coverages) := v in
  mkReverseChainedContextualSubstibution format coverage_offset backward_glyph_count
    backward_coverage_offsets forward_glyph_count forward_coverage_offsets glyph_count glyph_ids
    coverage backward_coverages forward_coverages.

(** All coverages of such a subtable begin after its format. *)
Definition past_format (v : ReverseChainedContextualSubstibution) : Prop :=
  Forall (fun offset => 2 <= offset)
    (reverse_chained_contextual_substibution_coverage_offset v ::
     reverse_chained_contextual_substibution_backward_coverage_offsets v ++
     reverse_chained_contextual_substibution_forward_coverage_offsets v).

(** The versions of a layout directory and of the feature variations in it. *)
Definition directory_known {T} (v : Directory T) : Prop :=
  directory_major_version v = 1 /\ (directory_minor_version v = 0 \/ directory_minor_version v = 1) /\
  match directory_variations v with
  | Some w => feature_variations_major_version w = 1 /\ feature_variations_minor_version w = 0
  | None => True
  end.

Definition gdef_known (v : GlyphDefinition) : Prop :=
  match glyph_definition_header v with
  | GdefVersion1 h => gdef_header1_major_version h = 1 /\ gdef_header1_minor_version h = 0
  | GdefVersion12 h => gdef_header12_major_version h = 1 /\ gdef_header12_minor_version h = 2
  | GdefVersion13 h => gdef_header13_major_version h = 1 /\ gdef_header13_minor_version h = 3
  end /\
  match glyph_definition_marks v with Some w => marks_format w = 1 | None => True end /\
  match glyph_definition_variations v with Some w => store_format w = 1 | None => True end.

Definition cpal_known (v : ColorPalettes) : Prop :=
  match color_palettes_header v with
  | CpalVersion0 h => cpal_header0_version h = 0
  | CpalVersion1 h => cpal_header1_version h = 1
  end.

(** Every lookup of type eight in a table has the one format that the specification
    defines. *)
Definition reverse_formats_known (v : GlyphSubstitution) : Prop :=
  forall l w, In l (lookups_records (directory_lookups v)) ->
    In (GsubReverseChainedContextualSubstibution w) (lookup_record_tables l) ->
    reverse_chained_contextual_substibution_format w = 1.
