(** The binary format of [GSUB]; see SpecLayout.v for the conventions. *)

From Verif Require Export SpecLayout.

(** [AlternateSet]. *)
Definition alternates_at (f : file) (p : N) (v : Alternates) : Prop :=
  let '(mkAlternates glyph_count glyph_ids) := v in
  u16_at f p glyph_count /\
  u16s_at f (p + 2) glyph_count glyph_ids.

(** [Ligature]. *)
Definition ligature_at (f : file) (p : N) (v : Ligature) : Prop :=
  let '(mkLigature glyph_id glyph_count glyph_ids) := v in
  u16_at f p glyph_id /\
  u16_at f (p + 2) glyph_count /\
  1 <= glyph_count /\
  u16s_at f (p + 4) (glyph_count - 1) glyph_ids.

(** [LigatureSet]. *)
Definition ligatures_at (f : file) (p : N) (v : Ligatures) : Prop :=
  let '(mkLigatures count offsets records) := v in
  u16_at f p count /\
  u16s_at f (p + 2) count offsets /\
  linked_at (ligature_at f) p offsets records.

(** [Sequence]. *)
Definition sequence_at (f : file) (p : N) (v : Sequence) : Prop :=
  let '(mkSequence glyph_count glyph_ids) := v in
  u16_at f p glyph_count /\
  u16s_at f (p + 2) glyph_count glyph_ids.

(** [SingleSubstFormat1]. *)
Definition single_substitution1_at (f : file) (p : N) (v : SingleSubstitution1) : Prop :=
  let '(mkSingleSubstitution1 format coverage_offset delta_glyph_id coverage) := v in
  u16_at f p format /\
  u16_at f (p + 2) coverage_offset /\
  i16_at f (p + 4) delta_glyph_id /\
  coverage_at f (p + coverage_offset) coverage.

(** [SingleSubstFormat2]. *)
Definition single_substitution2_at (f : file) (p : N) (v : SingleSubstitution2) : Prop :=
  let '(mkSingleSubstitution2 format coverage_offset glyph_count glyph_ids coverage) := v in
  u16_at f p format /\
  u16_at f (p + 2) coverage_offset /\
  u16_at f (p + 4) glyph_count /\
  u16s_at f (p + 6) glyph_count glyph_ids /\
  coverage_at f (p + coverage_offset) coverage.

(** [SingleSubst]. *)
Definition single_substitution_at (f : file) (p : N) (v : SingleSubstitution) : Prop :=
  match v with
  | SingleSubstitutionFormat1 t => single_substitution1_format t = 1 /\ single_substitution1_at f p t
  | SingleSubstitutionFormat2 t => single_substitution2_format t = 2 /\ single_substitution2_at f p t
  end.

(** [MultipleSubstFormat1]. *)
Definition multiple_substitution_at (f : file) (p : N) (v : MultipleSubstitution) : Prop :=
  let '(mkMultipleSubstitution format coverage_offset record_count record_offsets coverage
    records) := v in
  u16_at f p format /\ format = 1 /\
  u16_at f (p + 2) coverage_offset /\
  u16_at f (p + 4) record_count /\
  u16s_at f (p + 6) record_count record_offsets /\
  coverage_at f (p + coverage_offset) coverage /\
  linked_at (sequence_at f) p record_offsets records.

(** [AlternateSubstFormat1]. *)
Definition alternate_substitution_at (f : file) (p : N) (v : AlternateSubstitution) : Prop :=
  let '(mkAlternateSubstitution format coverage_offset record_count record_offsets coverage
    records) := v in
  u16_at f p format /\ format = 1 /\
  u16_at f (p + 2) coverage_offset /\
  u16_at f (p + 4) record_count /\
  u16s_at f (p + 6) record_count record_offsets /\
  coverage_at f (p + coverage_offset) coverage /\
  linked_at (alternates_at f) p record_offsets records.

(** [LigatureSubstFormat1]. *)
Definition ligature_substitution_at (f : file) (p : N) (v : LigatureSubstitution) : Prop :=
  let '(mkLigatureSubstitution format coverage_offset record_count record_offsets coverage
    records) := v in
  u16_at f p format /\ format = 1 /\
  u16_at f (p + 2) coverage_offset /\
  u16_at f (p + 4) record_count /\
  u16s_at f (p + 6) record_count record_offsets /\
  coverage_at f (p + coverage_offset) coverage /\
  linked_at (ligatures_at f) p record_offsets records.

(** [ExtensionSubstFormat1]. *)
Definition extension_substitution_at (f : file) (p : N) (v : ExtensionSubstitution) : Prop :=
  let '(mkExtensionSubstitution format type_ offset) := v in
  u16_at f p format /\ format = 1 /\
  u16_at f (p + 2) type_ /\
  u32_at f (p + 4) offset.

(** [ReverseChainSingleSubstFormat1]. *)
Definition reverse_chained_contextual_substibution_at (f : file) (p : N) (v : ReverseChainedContextualSubstibution) : Prop :=
  let '(mkReverseChainedContextualSubstibution format coverage_offset backward_glyph_count
    backward_coverage_offsets forward_glyph_count forward_coverage_offsets glyph_count glyph_ids
    coverage backward_coverages forward_coverages) := v in
  u16_at f p format /\
  u16_at f (p + 2) coverage_offset /\
  u16_at f (p + 4) backward_glyph_count /\
  u16s_at f (p + 6) backward_glyph_count backward_coverage_offsets /\
  u16_at f (p + 6 + 2 * backward_glyph_count) forward_glyph_count /\
  u16s_at f (p + 8 + 2 * backward_glyph_count) forward_glyph_count forward_coverage_offsets /\
  u16_at f (p + 8 + 2 * backward_glyph_count + 2 * forward_glyph_count) glyph_count /\
  u16s_at f (p + 10 + 2 * backward_glyph_count + 2 * forward_glyph_count)
    glyph_count glyph_ids /\
  coverage_at f (p + coverage_offset) coverage /\
  linked_at (coverage_at f) p backward_coverage_offsets backward_coverages /\
  linked_at (coverage_at f) p forward_coverage_offsets forward_coverages.

(** A subtable of [GSUB]: the variant is the one the lookup type names. *)
Definition gsub_type_at (type_ : N) (f : file) (p : N) (v : GsubType) : Prop :=
  match v with
  | GsubSingleSubstitution t => type_ = 1 /\ single_substitution_at f p t
  | GsubMultipleSubstitution t => type_ = 2 /\ multiple_substitution_at f p t
  | GsubAlternateSubstitution t => type_ = 3 /\ alternate_substitution_at f p t
  | GsubLigatureSubstitution t => type_ = 4 /\ ligature_substitution_at f p t
  | GsubContextualSubstitution t => type_ = 5 /\ context_at f p t
  | GsubChainedContextualSubstitution t => type_ = 6 /\ chained_context_at f p t
  | GsubExtensionSubstitution t => type_ = 7 /\ extension_substitution_at f p t
  | GsubReverseChainedContextualSubstibution t => type_ = 8 /\ reverse_chained_contextual_substibution_at f p t
  end.

(** [GSUB]. *)
Definition glyph_substitution_at (o : options) : file -> N -> GlyphSubstitution -> Prop :=
  directory_at o gsub_type_at.
