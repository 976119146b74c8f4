(** Property C70: versions and formats. *)

From Verif Require Import ProofVersions ProofDepartures Samples.

(** C70 is false of [fvar] and of lookups of type eight. *)
Theorem C70_fvar_refuted :
  ~ forall o f p v, bounded f -> reads o read_font_variations f p v ->
      fvar_header_major_version (font_variations_header v) = 1.
Proof. exact fvar_versions_unchecked. Qed.
Print Assumptions C70_fvar_refuted.

Theorem C70_reverse_refuted :
  ~ forall o f p v, bounded f -> reads o read_glyph_substitution f p v -> reverse_formats_known v.
Proof. exact reverse_formats_unchecked. Qed.
Print Assumptions C70_reverse_refuted.

(** C70: what holds instead is that those numbers are of no consequence. *)
Theorem C70_fvar o f g p v major minor :
  bounded f -> bounded g -> reads o read_font_variations f p v ->
  4 <= fvar_header_axis_offset (font_variations_header v) ->
  same_from (p + 4) f g -> u16_at g p major -> u16_at g (p + 2) minor ->
  reads o read_font_variations g p (with_version major minor v).
Proof. exact (fvar_version_unused o f g p v major minor). Qed.
Print Assumptions C70_fvar.

Theorem C70_reverse o f g p v n :
  bounded f -> bounded g -> reads o (read_gsub_type 8) f p (GsubReverseChainedContextualSubstibution v) ->
  past_format v -> same_from (p + 2) f g -> u16_at g p n ->
  reads o (read_gsub_type 8) g p (GsubReverseChainedContextualSubstibution (with_format n v)).
Proof. exact (reverse_format_unused o f g p v n). Qed.
Print Assumptions C70_reverse.

(** C70: the other tables. *)
Theorem C70_gsub_partial o f p v : bounded f -> reads o read_glyph_substitution f p v -> directory_known v.
Proof. exact (gsub_version_known o f p v). Qed.
Print Assumptions C70_gsub_partial.

Theorem C70_gpos_partial o f p v : bounded f -> reads o read_glyph_positioning f p v -> directory_known v.
Proof. exact (gpos_version_known o f p v). Qed.
Print Assumptions C70_gpos_partial.

Theorem C70_gdef_partial o f p v : bounded f -> reads o read_glyph_definition f p v -> gdef_known v.
Proof. exact (gdef_version_known o f p v). Qed.
Print Assumptions C70_gdef_partial.

Theorem C70_cpal_partial o f p v : bounded f -> reads o read_color_palettes f p v -> cpal_known v.
Proof. exact (cpal_version_known o f p v). Qed.
Print Assumptions C70_cpal_partial.

Example C70_example :
  reads debug_build read_font_variations (words (9 :: 5 :: skipn 2 (fvar_words 6))) 0
    (with_version 9 5 (fvar_value 6)) /\
  reads debug_build read_font_variations (words (fvar_words 6)) 0 (fvar_value 6) /\
  4 <= fvar_header_axis_offset (font_variations_header (fvar_value 6)) /\
  reads debug_build read_glyph_substitution (words (reverse_words 7)) 0 (reverse_value 7) /\
  past_format (mkReverseChainedContextualSubstibution 7 10 0 [] 0 [] 0 []
    (CoverageFormat1 (mkCoverage1 1 0 [])) [] []) /\
  reader RequestGsub (mkEnv (words (2 :: skipn 1 (reverse_words 1))) debug_build) 0 = Err UnknownVersion.
Proof.
  split; [exact fvar_nine|]. split; [exact fvar_six|]. split; [vm_compute; discriminate|].
  split; [exact reverse_seven|]. split; [|vm_compute; reflexivity].
  repeat constructor; vm_compute; discriminate.
Qed.
