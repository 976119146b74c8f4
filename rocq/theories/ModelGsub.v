(** Model of src/tables/glyph_substitution. *)

From Verif Require Export ModelLayout.

(** [Alternates::read], src/tables/glyph_substitution/element.rs:3-12. *)
Definition read_alternates : M Alternates :=
  glyph_count <- take_u16;;
  glyph_ids <- take_vec glyph_count take_u16;;
  ret (mkAlternates glyph_count glyph_ids).

(** [Ligature::read], src/tables/glyph_substitution/element.rs:14-27. *)
Definition read_ligature : M Ligature :=
  glyph_id <- take_u16;;
  glyph_count <- take_u16;;
  glyph_ids <- (if glyph_count =? 0 then raise Malformed else take_vec (glyph_count - 1) take_u16);;
  ret (mkLigature glyph_id glyph_count glyph_ids).

(** [Ligatures::read], src/tables/glyph_substitution/element.rs:29-43. *)
Definition read_ligatures : M Ligatures :=
  position <- get_position;;
  count <- take_u16;;
  offsets <- take_vec count take_u16;;
  records <- jump_take_n position count offsets read_ligature;;
  ret (mkLigatures count offsets records).

(** [Sequence::read], src/tables/glyph_substitution/element.rs:45-54. *)
Definition read_sequence : M Sequence :=
  glyph_count <- take_u16;;
  glyph_ids <- take_vec glyph_count take_u16;;
  ret (mkSequence glyph_count glyph_ids).

(** [SingleSubstitution1::read], src/tables/glyph_substitution/mod.rs:39-51. *)
Definition read_single_substitution1 : M SingleSubstitution1 :=
  position <- get_position;;
  format <- take_u16;;
  coverage_offset <- take_u16;;
  delta_glyph_id <- take_i16;;
  coverage <- jump_take position coverage_offset read_coverage;;
  ret (mkSingleSubstitution1 format coverage_offset delta_glyph_id coverage).

(** [SingleSubstitution2::read], src/tables/glyph_substitution/mod.rs:53-69. *)
Definition read_single_substitution2 : M SingleSubstitution2 :=
  position <- get_position;;
  format <- take_u16;;
  coverage_offset <- take_u16;;
  glyph_count <- take_u16;;
  glyph_ids <- take_vec glyph_count take_u16;;
  coverage <- jump_take position coverage_offset read_coverage;;
  ret (mkSingleSubstitution2 format coverage_offset glyph_count glyph_ids coverage).

(** [SingleSubstitution::read], src/tables/glyph_substitution/mod.rs:202-210. *)
Definition read_single_substitution : M SingleSubstitution :=
  value <- peek take_u16;;
  match value with
  | 1 => v <- read_single_substitution1;; ret (SingleSubstitutionFormat1 v)
  | 2 => v <- read_single_substitution2;; ret (SingleSubstitutionFormat2 v)
  | _ => raise UnknownFormat
  end.

(** [MultipleSubstitution::read], src/tables/glyph_substitution/mod.rs:71-91. *)
Definition read_multiple_substitution : M MultipleSubstitution :=
  position <- get_position;;
  format <- take_const take_u16 1;;
  coverage_offset <- take_u16;;
  record_count <- take_u16;;
  record_offsets <- take_vec record_count take_u16;;
  coverage <- jump_take position coverage_offset read_coverage;;
  records <- jump_take_n position record_count record_offsets read_sequence;;
  ret (mkMultipleSubstitution format coverage_offset record_count record_offsets coverage records).

(** [AlternateSubstitution::read], src/tables/glyph_substitution/mod.rs:93-113. *)
Definition read_alternate_substitution : M AlternateSubstitution :=
  position <- get_position;;
  format <- take_const take_u16 1;;
  coverage_offset <- take_u16;;
  record_count <- take_u16;;
  record_offsets <- take_vec record_count take_u16;;
  coverage <- jump_take position coverage_offset read_coverage;;
  records <- jump_take_n position record_count record_offsets read_alternates;;
  ret (mkAlternateSubstitution format coverage_offset record_count record_offsets coverage records).

(** [LigatureSubstitution::read], src/tables/glyph_substitution/mod.rs:115-135. *)
Definition read_ligature_substitution : M LigatureSubstitution :=
  position <- get_position;;
  format <- take_const take_u16 1;;
  coverage_offset <- take_u16;;
  record_count <- take_u16;;
  record_offsets <- take_vec record_count take_u16;;
  coverage <- jump_take position coverage_offset read_coverage;;
  records <- jump_take_n position record_count record_offsets read_ligatures;;
  ret (mkLigatureSubstitution format coverage_offset record_count record_offsets coverage records).

(** [ExtensionSubstitution::read], src/tables/glyph_substitution/mod.rs:137-144. *)
Definition read_extension_substitution : M ExtensionSubstitution :=
  format <- take_const take_u16 1;;
  type_ <- take_u16;;
  offset <- take_u32;;
  ret (mkExtensionSubstitution format type_ offset).

(** [ReverseChainedContextualSubstibution::read], src/tables/glyph_substitution/mod.rs:146-182. *)
Definition read_reverse_chained_contextual_substibution : M ReverseChainedContextualSubstibution :=
  position <- get_position;;
  format <- take_u16;;
  coverage_offset <- take_u16;;
  backward_glyph_count <- take_u16;;
  backward_coverage_offsets <- take_vec backward_glyph_count take_u16;;
  forward_glyph_count <- take_u16;;
  forward_coverage_offsets <- take_vec forward_glyph_count take_u16;;
  glyph_count <- take_u16;;
  glyph_ids <- take_vec glyph_count take_u16;;
  coverage <- jump_take position coverage_offset read_coverage;;
  backward_coverages <- jump_take_n position backward_glyph_count backward_coverage_offsets read_coverage;;
  forward_coverages <- jump_take_n position forward_glyph_count forward_coverage_offsets read_coverage;;
  ret (mkReverseChainedContextualSubstibution format coverage_offset backward_glyph_count
    backward_coverage_offsets forward_glyph_count forward_coverage_offsets glyph_count glyph_ids
    coverage backward_coverages forward_coverages).

(** [Type::read], src/tables/glyph_substitution/mod.rs:184-200. *)
Definition read_gsub_type (type_ : N) : M GsubType :=
  match type_ with
  | 1 => v <- read_single_substitution;; ret (GsubSingleSubstitution v)
  | 2 => v <- read_multiple_substitution;; ret (GsubMultipleSubstitution v)
  | 3 => v <- read_alternate_substitution;; ret (GsubAlternateSubstitution v)
  | 4 => v <- read_ligature_substitution;; ret (GsubLigatureSubstitution v)
  | 5 => v <- read_context;; ret (GsubContextualSubstitution v)
  | 6 => v <- read_chained_context;; ret (GsubChainedContextualSubstitution v)
  | 7 => v <- read_extension_substitution;; ret (GsubExtensionSubstitution v)
  | 8 => v <- read_reverse_chained_contextual_substibution;; ret (GsubReverseChainedContextualSubstibution v)
  | _ => raise UnknownType
  end.

(** [GlyphSubstitution], src/tables/glyph_substitution/mod.rs:15, read by [Directory<Type>::read]. *)
Definition read_glyph_substitution : M GlyphSubstitution := read_directory read_gsub_type.
