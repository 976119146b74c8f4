(** Property C54: a refusal names its cause. *)

From Verif Require Import ProofErrors Fixtures Samples.

(** C54: the errors a read can report at all. *)
Theorem C54_possible {A} (r : request A) o f p x :
  refuses o (reader r) f p x -> In x (possible_errors r).
Proof. exact (request_errors r o f p x). Qed.
Print Assumptions C54_possible.

(** C54: files. *)
Theorem C54_tags d o f p :
  (refuses o (read_font d) f p Unsupported <-> other_tag d f p) /\
  (refuses o (read_file d) f p Unsupported <-> tag_at f p (Tag "t" "t" "c" "f") \/ other_tag d f p).
Proof. exact (conj (font_tag d o f p) (file_tag d o f p)). Qed.
Print Assumptions C54_tags.

Theorem C54_checksums {A} d o this t r (m : M A) f p c :
  first_record (offsets_records (font_offsets this)) (table_tag t) r ->
  ignore_invalid_checksums o = false -> record_checksum d f r = Ok c -> c <> offset_record_checksum r ->
  refuses o (font_position d this t) f p Malformed /\ refuses o (font_take d this t m) f p Malformed.
Proof. exact (checksum_error d o this t r m f p c). Qed.
Print Assumptions C54_checksums.

(** C54: versions and types. *)
Theorem C54_versions o f p :
  (refuses o read_glyph_substitution f p UnknownVersion <-> other_version f p) /\
  (refuses o read_glyph_positioning f p UnknownVersion <-> other_version f p) /\
  (refuses o read_color_palettes f p UnknownVersion <-> other_format f p [0; 1]) /\
  (forall n, u32_at f p n -> ~ In n [0x00010000; 0x00010002; 0x00010003] ->
    refuses o read_glyph_definition f p UnknownFormat).
Proof.
  exact (conj (gsub_version o f p) (conj (gpos_version o f p) (conj (cpal_version o f p)
    (gdef_version o f p)))).
Qed.
Print Assumptions C54_versions.

Theorem C54_types o f p t :
  (refuses o (read_gsub_type t) f p UnknownType <-> ~ (1 <= t <= 8)) /\
  (refuses o (read_gpos_type t) f p UnknownType <-> ~ (1 <= t <= 9)).
Proof. exact (conj (gsub_type_error o f p t) (gpos_type_error o f p t)). Qed.
Print Assumptions C54_types.

(** C54: formats. *)
Theorem C54_formats o f p :
  (refuses o read_coverage f p UnknownFormat <-> other_format f p [1; 2]) /\
  (refuses o read_class f p UnknownFormat <-> other_format f p [1; 2]) /\
  (refuses o read_correction f p UnknownFormat <->
   (exists n, u32_at f p n) /\ other_format f (p + 4) [1; 2; 3; 0x8000]).
Proof. exact (conj (coverage_format o f p) (conj (class_format o f p) (correction_format o f p))). Qed.
Print Assumptions C54_formats.

Theorem C54_subtable_formats o f p :
  (other_format f p [1; 2; 3] ->
   refuses o read_context f p UnknownFormat /\ refuses o read_chained_context f p UnknownFormat /\
   refuses o read_anchor f p UnknownFormat) /\
  (other_format f p [1; 2] ->
   refuses o read_single_substitution f p UnknownFormat /\
   refuses o read_single_adjustment f p UnknownFormat /\
   refuses o read_pair_adjustment f p UnknownFormat).
Proof.
  exact (conj
    (fun H => conj (context_format o f p H) (conj (chained_context_format o f p H) (anchor_format o f p H)))
    (fun H => conj (single_substitution_format o f p H)
      (conj (single_adjustment_format o f p H) (pair_adjustment_format o f p H)))).
Qed.
Print Assumptions C54_subtable_formats.

(** C54: fields that have to have a certain value. *)
Theorem C54_constants o f p n : u16_at f p n ->
  (n <> 1 ->
   (refuses o read_multiple_substitution f p UnexpectedValue /\
    refuses o read_alternate_substitution f p UnexpectedValue /\
    refuses o read_ligature_substitution f p UnexpectedValue /\
    refuses o read_extension_substitution f p UnexpectedValue) /\
   (refuses o read_cursive_attachment f p UnexpectedValue /\
    refuses o read_mark_to_base_attachment f p UnexpectedValue /\
    refuses o read_mark_to_ligature_attachment f p UnexpectedValue /\
    refuses o read_mark_to_mark_attachment f p UnexpectedValue /\
    refuses o read_extension_positioning f p UnexpectedValue) /\
   (refuses o read_marks f p UnexpectedValue /\ refuses o read_store f p UnexpectedValue)) /\
  (n <> 0 -> refuses o read_language_record f p UnexpectedValue).
Proof.
  exact (fun Hn => conj
    (fun H => conj (gsub_constants o f p n Hn H) (conj (gpos_constants o f p n Hn H)
      (definition_constants o f p n Hn H)))
    (language_constant o f p n Hn)).
Qed.
Print Assumptions C54_constants.

Theorem C54_feature_variations o f p major minor :
  u16_at f p major -> u16_at f (p + 2) minor -> ~ (major = 1 /\ minor = 0) ->
  refuses o read_feature_variations f p UnexpectedValue.
Proof. exact (variations_constants o f p major minor). Qed.
Print Assumptions C54_feature_variations.

Theorem C54_fvar o f p a b c n :
  u16_at f p a -> u16_at f (p + 2) b -> u16_at f (p + 4) c -> u16_at f (p + 6) n -> n <> 2 ->
  refuses o read_font_variations f p UnexpectedValue.
Proof. exact (fvar_constant o f p a b c n). Qed.
Print Assumptions C54_fvar.

(** C54: rules and ligatures without a first glyph, devices with their sizes swapped. *)
Theorem C54_empty_rules o f p n before :
  (u16_at f p 0 -> u16_at f (p + 2) n ->
   refuses o read_context_record f p Malformed /\ refuses o read_context_class_record f p Malformed) /\
  (u16_at f p n -> u16s_at f (p + 2) n before -> u16_at f (p + 2 + 2 * n) 0 ->
   refuses o read_chained_record f p Malformed /\ refuses o read_chained_class_record f p Malformed) /\
  (u16_at f p n -> u16_at f (p + 2) 0 -> refuses o read_ligature f p Malformed).
Proof.
  exact (conj (empty_context_rules o f p n) (conj (empty_chained_rules o f p n before)
    (empty_ligature o f p n))).
Qed.
Print Assumptions C54_empty_rules.

Theorem C54_devices o f p s t n :
  u16_at f p s -> u16_at f (p + 2) t -> u16_at f (p + 4) n -> 1 <= n <= 3 -> t < s ->
  refuses o read_correction f p Malformed.
Proof. exact (device_sizes o f p s t n). Qed.
Print Assumptions C54_devices.

(** C54: reserved flags, in a build that checks them. *)
Theorem C54_lookup_flags {T} (read_table : N -> M T) o f p t v :
  u16_at f p t -> u16_at f (p + 2) v -> checked_flags o = true -> N.land v 0x00E0 <> 0 ->
  refuses o (read_lookup_record read_table) f p InvalidFlags.
Proof. exact (lookup_flags_error read_table o f p t v). Qed.
Print Assumptions C54_lookup_flags.

Theorem C54_value_flags o f p n c v w :
  u16_at f p n -> n = 1 \/ n = 2 -> u16_at f (p + 2) c -> u16_at f (p + 4) v -> checked_flags o = true ->
  (N.land v 0xFF00 <> 0 -> refuses o read_single_adjustment f p InvalidFlags) /\
  (u16_at f (p + 6) w -> N.land v 0xFF00 <> 0 \/ N.land w 0xFF00 <> 0 ->
   refuses o read_pair_adjustment f p InvalidFlags).
Proof.
  exact (fun Hn Bn Hc Hv Ho => conj (single_adjustment_flags o f p n c v Hn Bn Hc Hv Ho)
    (fun Hw => pair_adjustment_flags o f p n c v w Hn Bn Hc Hv Hw Ho)).
Qed.
Print Assumptions C54_value_flags.

Theorem C54_fvar_flags o f p t a b c v n s w :
  checked_flags o = true ->
  (tag_at f p t -> u32_at f (p + 4) a -> u32_at f (p + 8) b -> u32_at f (p + 12) c ->
   u16_at f (p + 16) v -> N.land v 0xFFFE <> 0 -> refuses o read_axis_record f p InvalidFlags) /\
  (u16_at f p s -> u16_at f (p + 2) w -> w <> 0 -> refuses o (read_instance_record n) f p InvalidFlags).
Proof.
  exact (fun Ho => conj
    (fun Ht Ha Hb Hc Hv => axis_flags_error o f p t a b c v Ht Ha Hb Hc Hv Ho)
    (fun Hs Hw => instance_flags_error o f p n s w Hs Hw Ho)).
Qed.
Print Assumptions C54_fvar_flags.

(** Files that are refused, one for each of the errors, and the table of a font. *)
Example C54_example :
  refuses debug_build (read_file sample_deps) (file_of (bytes [116; 116; 99; 102])) 0 Unsupported /\
  refuses debug_build (font_position sample_deps sample_font TableGlyphSubstitution) sample_file 0 Malformed /\
  refuses debug_build read_glyph_substitution (words [1; 2]) 0 UnknownVersion /\
  refuses debug_build read_glyph_substitution (words [1; 0; 10; 12; 14; 0; 0; 1; 4; 9; 0; 1; 8]) 0
    UnknownType /\
  refuses debug_build read_glyph_substitution (words [1; 0; 10; 12; 14; 0; 0; 1; 4; 1; 0; 1; 8; 3])
    0 UnknownFormat /\
  refuses debug_build read_glyph_substitution (words [1; 0; 10; 12; 14; 0; 0; 1; 4; 1; 0xE0]) 0 InvalidFlags /\
  refuses debug_build read_glyph_substitution (words [1; 0; 10; 12; 14; 0; 0; 1; 4; 2; 0; 1; 8; 2])
    0 UnexpectedValue /\
  refuses debug_build read_glyph_positioning (words [1; 0; 10; 12; 14; 0; 0; 1; 4; 10; 0; 1; 8]) 0
    UnknownType /\
  refuses debug_build read_font_variations (words [1; 0; 16; 3]) 0 UnexpectedValue /\
  refuses debug_build read_correction (words [5; 4; 1]) 0 Malformed /\
  refuses debug_build read_glyph_definition (file_of kalnia_glaze_gdef) 0 UnknownFormat.
Proof. unfold refuses. repeat split; vm_compute; reflexivity. Qed.

(** The smallest parts that are refused, one or two for each of the theorems. *)
Example C54_example_formats :
  refuses debug_build read_chained_context (words [4]) 0 UnknownFormat /\
  refuses debug_build read_pair_adjustment (words [3]) 0 UnknownFormat.
Proof.
  split; [apply (C54_subtable_formats debug_build (words [4]) 0)|apply
    (C54_subtable_formats debug_build (words [3]) 0)];
    (eexists; split; [eexists _, _; repeat split|]); intros H;
      repeat (destruct H as [H|H]; [discriminate H|]); destruct H.
Qed.

Example C54_example_constants :
  refuses debug_build read_store (words [2]) 0 UnexpectedValue /\
  refuses debug_build read_language_record (words [2]) 0 UnexpectedValue /\
  refuses debug_build read_feature_variations (words [1; 1]) 0 UnexpectedValue.
Proof.
  split; [|split].
  - apply (C54_constants debug_build (words [2]) 0 2); [eexists _, _; repeat split|discriminate].
  - apply (C54_constants debug_build (words [2]) 0 2); [eexists _, _; repeat split|discriminate].
  - apply (C54_feature_variations debug_build (words [1; 1]) 0 1 1); [eexists _, _; repeat split..|].
    intros [_ E]. discriminate E.
Qed.

Example C54_example_rules :
  refuses debug_build read_context_record (words [0; 3]) 0 Malformed /\
  refuses debug_build read_chained_record (words [1; 5; 0]) 0 Malformed /\
  refuses debug_build read_ligature (words [99; 0]) 0 Malformed.
Proof.
  split; [|split].
  - apply (C54_empty_rules debug_build (words [0; 3]) 0 3 []); eexists _, _; repeat split.
  - apply (C54_empty_rules debug_build (words [1; 5; 0]) 0 1 [5]);
    [eexists _, _; repeat split| |eexists _, _; repeat split].
    split; [reflexivity|]. intros [|[|i]] v E; try discriminate. injection E as <-. eexists _, _; repeat split.
  - apply (C54_empty_rules debug_build (words [99; 0]) 0 99 []); eexists _, _; repeat split.
Qed.

Example C54_example_flags :
  refuses debug_build (read_lookup_record read_gsub_type) (words [1; 0x20]) 0 InvalidFlags /\
  refuses debug_build read_single_adjustment (words [1; 8; 0x100]) 0 InvalidFlags /\
  refuses debug_build read_pair_adjustment (words [2; 8; 4; 0x100]) 0 InvalidFlags /\
  refuses debug_build read_axis_record (words [0x7767; 0x6874; 1; 0; 2; 0; 3; 0; 2]) 0 InvalidFlags /\
  refuses debug_build (read_instance_record 1) (words [256; 1]) 0 InvalidFlags.
Proof.
  split; [|split; [|split; [|split]]].
  - apply (C54_lookup_flags read_gsub_type debug_build (words [1; 0x20]) 0 1 0x20);
      [eexists _, _; repeat split..|reflexivity|discriminate].
  - apply (C54_value_flags debug_build (words [1; 8; 0x100]) 0 1 8 0x100 0);
      [eexists _, _; repeat split|left; reflexivity|eexists _, _; repeat split..|reflexivity|discriminate].
  - apply (C54_value_flags debug_build (words [2; 8; 4; 0x100]) 0 2 8 4 0x100);
      [eexists _, _; repeat split|right; reflexivity|eexists _, _;
        repeat split..|reflexivity|eexists _, _; repeat split|].
    right. discriminate.
  - apply (C54_fvar_flags debug_build _ 0 (Tag "w" "g" "h" "t") 65536 131072 196608 2 0 0 0); [reflexivity|repeat split|..|discriminate].
    4:{ eexists _, _; repeat split. }
    1:{ exists 1, 0. repeat split; eexists _, _; repeat split. }
    1:{ exists 2, 0. repeat split; eexists _, _; repeat split. }
    exists 3, 0. repeat split; eexists _, _; repeat split.
  - apply (C54_fvar_flags debug_build _ 0 (Tag "w" "g" "h" "t") 0 0 0 0 1 256 1); [reflexivity|eexists _, _; repeat split..|discriminate].
Qed.
