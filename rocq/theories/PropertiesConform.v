(** Where the code reads what the OpenType specification prescribes (C77). *)

From Verif Require Import ProofConform ProofStandard ProofTrim ProofTrimmed.

(** C77: of a table laid out as the specification prescribes, the value is read exactly if
    it is supported; and what is read and supported is laid out so exactly if it meets
    the demands that the code does not check. *)
Theorem C77_gsub o f p v :
  bounded f ->
  (std_glyph_substitution_at f p v ->
    (reads o read_glyph_substitution f p v <-> supported_features (directory_features v))) /\
  (reads o read_glyph_substitution f p v -> supported_features (directory_features v) ->
    (std_glyph_substitution_at f p v <-> strict_directory strict_gsub_type v)).
Proof. exact (gsub_standard o f p v). Qed.
Print Assumptions C77_gsub.

Theorem C77_gpos o f p v :
  bounded f ->
  (std_glyph_positioning_at f p v ->
    (reads o read_glyph_positioning f p v <-> supported_directory supported_gpos_type v)) /\
  (reads o read_glyph_positioning f p v -> supported_directory supported_gpos_type v ->
    (std_glyph_positioning_at f p v <-> strict_directory strict_gpos_type v)).
Proof. exact (gpos_standard o f p v). Qed.
Print Assumptions C77_gpos.

Theorem C77_gdef o f p v :
  bounded f ->
  (std_glyph_definition_at f p v ->
    (reads o read_glyph_definition f p v <-> supported_glyph_definition o f p v)) /\
  (reads o read_glyph_definition f p v -> supported_glyph_definition o f p v ->
    (std_glyph_definition_at f p v <-> strict_glyph_definition v)).
Proof. exact (gdef_standard o f p v). Qed.
Print Assumptions C77_gdef.

Theorem C77_fvar o f p v :
  bounded f ->
  (std_font_variations_at f p v -> reads o read_font_variations f p v) /\
  (reads o read_font_variations f p v ->
    (std_font_variations_at f p v <-> strict_font_variations v)).
Proof. exact (fvar_standard o f p v). Qed.
Print Assumptions C77_fvar.

Theorem C77_cpal o f p v :
  bounded f ->
  (std_color_palettes_at f p v -> reads o read_color_palettes f p v) /\
  (reads o read_color_palettes f p v ->
    (std_color_palettes_at f p v <-> strict_color_palettes v)).
Proof. exact (cpal_standard o f p v). Qed.
Print Assumptions C77_cpal.

(** No [GSUB] table laid out as the specification prescribes is refused: only the
    parameters of its features are lost. *)
Theorem C77_gsub_read o f p v :
  bounded f -> std_glyph_substitution_at f p v ->
  reads o read_glyph_substitution f p (blank_directory v).
Proof. exact (gsub_standard_read o f p v). Qed.
Print Assumptions C77_gsub_read.

(** No [GPOS] table laid out so is refused either, if the file goes on for two bytes after
    it; besides the parameters being lost, some devices are followed by a word too many. *)
Theorem C77_gpos_read o f g p v :
  bounded g -> followed f g -> std_glyph_positioning_at f p v ->
  exists w, reads o read_glyph_positioning g p w /\
    trim_directory trim_gpos_type w = blank_directory v.
Proof. exact (gpos_standard_read o f g p v). Qed.
Print Assumptions C77_gpos_read.

(** If it does not go on, the only other outcome is that the end of the file is reported. *)
Theorem C77_gpos_end o l p v :
  N.of_nat (length l) + 2 <= 2 ^ 63 -> std_glyph_positioning_at (file_of l) p v ->
  (exists w, reads o read_glyph_positioning (file_of l) p w /\
    trim_directory trim_gpos_type w = blank_directory v) \/
  refuses o read_glyph_positioning (file_of l) p UnexpectedEnd.
Proof. exact (gpos_standard_end o l p v). Qed.
Print Assumptions C77_gpos_end.

(** A table that ends with a device of four sizes. *)
Example C77_example_end :
  std_glyph_positioning_at (file_of device_bytes) 0 (device_value [4660]) /\
  (forall o, refuses o read_glyph_positioning (file_of device_bytes) 0 UnexpectedEnd) /\
  (forall o, reads o read_glyph_positioning (file_of (device_bytes ++ ["001"; "002"]%byte)) 0
    (device_value [4660; 258])) /\
  trim_directory trim_gpos_type (device_value [4660; 258]) = blank_directory (device_value [4660]).
Proof. exact device_bytes_read. Qed.

(** Tables of actual fonts are laid out so, and read. *)
Example C77_example :
  (exists v, std_glyph_substitution_at (file_of adobe_vf_gsub) 0 v /\
    forall o, reads o read_glyph_substitution (file_of adobe_vf_gsub) 0 v) /\
  (exists v, std_glyph_definition_at (file_of open_sans_gdef) 0 v /\
    forall o, reads o read_glyph_definition (file_of open_sans_gdef) 0 v) /\
  (exists v, std_font_variations_at (file_of adobe_vf_fvar) 0 v /\
    forall o, reads o read_font_variations (file_of adobe_vf_fvar) 0 v) /\
  (exists v, std_color_palettes_at (file_of kalnia_glaze_cpal) 0 v /\
    forall o, reads o read_color_palettes (file_of kalnia_glaze_cpal) 0 v).
Proof. exact fonts_standard. Qed.

(** A [GPOS] table with a device: of three sizes it is read, of four sizes it is not
    read as the specification means it. *)
Example C77_example_gpos :
  (std_glyph_positioning_at (device_gpos 11) 0 (device_positioning 11) /\
    forall o, reads o read_glyph_positioning (device_gpos 11) 0 (device_positioning 11)) /\
  (std_glyph_positioning_at (device_gpos 12) 0 (device_positioning 12) /\
    forall o, ~ reads o read_glyph_positioning (device_gpos 12) 0 (device_positioning 12)).
Proof. exact (conj device_read device_not_read). Qed.

(** The [GDEF] table of an actual font that is laid out so, and not read as that. *)
Example C77_example_gdef :
  exists v, std_glyph_definition_at (file_of adobe_vf_gdef) 0 v /\
    (exists store, glyph_definition_variations v = Some store) /\
    forall o, ~ reads o read_glyph_definition (file_of adobe_vf_gdef) 0 v.
Proof. exact adobe_vf_not_read. Qed.
