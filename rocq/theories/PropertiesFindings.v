(** Properties C39-C47: departures from the OpenType specification. *)

From Verif Require Import ProofDepartures ProofSize Fixtures Samples.

(** C39.  No caret value of the format is read. *)
Theorem C39_carets_refuted :
  ~ forall o f p v, bounded f -> standard_caret_at f p v -> reads o read_caret f p v.
Proof. exact carets_unread. Qed.
Print Assumptions C39_carets_refuted.

Theorem C39_carets_fail o f p v : bounded f -> standard_caret_at f p v -> fails o read_caret f p.
Proof. exact (standard_caret_refused o f p v). Qed.
Print Assumptions C39_carets_fail.

Theorem C39_carets_read o f p v : bounded f -> (reads o read_caret f p v <-> caret_at f p v).
Proof. exact (caret_read_iff o f p v). Qed.
Print Assumptions C39_carets_read.

Theorem C39_gdef_unread o f p q format v :
  bounded f -> caret_position f p q -> u16_at f q format -> format <> 0 ->
  ~ reads o read_glyph_definition f p v.
Proof. exact (gdef_caret_unread o f p q format v). Qed.
Print Assumptions C39_gdef_unread.

(** A caret, and the table of a font with ligature carets. *)
Example C39_example :
  standard_caret_at (words [1; 7]) 0 (CaretFormat1 (mkCaret1 1 7)) /\
  reads debug_build read_caret (words [0; 1]) 0 (CaretFormat1 (mkCaret1 0 1)) /\
  read_default RequestGdef kalnia_glaze_gdef = Err UnknownFormat.
Proof.
  split; [exact caret_bytes_standard|]. split; [eexists|]; vm_compute; reflexivity.
Qed.

(** Carets of the other formats. *)
Example C39_formats :
  standard_caret_at (words [2; 5]) 0 (CaretFormat2 (mkCaret2 2 5)) /\
  standard_caret_at (words [3; 5; 6; 7; 8; 32768]) 0
    (CaretFormat3 (mkCaret3 3 5 6 (CorrectionVariation (mkVariation 7 8 32768)))).
Proof.
  cbn [standard_caret_at correction_at variation_at variation_format]. repeat match goal with |- _ /\ _ => split end;
    try reflexivity; try (repeat eexists; vm_compute; reflexivity).
Qed.

(** C40. *)
Theorem C40_devices_refuted :
  ~ forall o f p v, bounded f -> standard_device_at f p v ->
    reads o read_correction f p (CorrectionDevice v).
Proof. exact devices_unread. Qed.
Print Assumptions C40_devices_refuted.

Theorem C40_length o f p start_size end_size format deltas :
  bounded f ->
  reads o read_correction f p (CorrectionDevice (mkDevice start_size end_size format deltas)) ->
  let bits := device_bits start_size end_size format in
  N.of_nat (length deltas) = if bits mod 16 =? 0 then words_for bits + 1 else words_for bits.
Proof. exact (device_read_length o f p start_size end_size format deltas). Qed.
Print Assumptions C40_length.

Theorem C40_last_refused o f p start_size end_size format deltas :
  bounded f -> standard_device_at f p (mkDevice start_size end_size format deltas) ->
  device_bits start_size end_size format mod 16 = 0 ->
  f (p + 6 + 2 * words_for (device_bits start_size end_size format)) = None ->
  fails o read_correction f p.
Proof. exact (device_last_refused o f p start_size end_size format deltas). Qed.
Print Assumptions C40_last_refused.

(** Missing: sizes whose deltas fill their last word. *)
Theorem C40_devices_partial o f p start_size end_size format deltas :
  bounded f -> device_bits start_size end_size format mod 16 <> 0 ->
  (reads o read_correction f p (CorrectionDevice (mkDevice start_size end_size format deltas)) <->
   standard_device_at f p (mkDevice start_size end_size format deltas)).
Proof. exact (device_agree o f p start_size end_size format deltas). Qed.
Print Assumptions C40_devices_partial.

Example C40_example :
  standard_device_at (words [12; 13; 3; 258]) 0 (mkDevice 12 13 3 [258]) /\
  fails debug_build read_correction (words [12; 13; 3; 258]) 0 /\
  reads debug_build read_correction (words [12; 13; 3; 258; 9]) 0
    (CorrectionDevice (mkDevice 12 13 3 [258; 9])) /\
  reads debug_build read_correction (words [12; 12; 3; 258]) 0
    (CorrectionDevice (mkDevice 12 12 3 [258])) /\
  device_bits 12 12 3 mod 16 <> 0.
Proof.
  split; [exact device_bytes_standard|].
  split; [|split; [|split]]; [eexists|eexists|eexists|]; vm_compute; try reflexivity. discriminate.
Qed.

(** C41. *)
Theorem C41_variations_refuted :
  ~ forall o f p v, bounded f -> reads o read_glyph_definition f p v ->
    standard_glyph_definition_at o f p v.
Proof. exact variations_elsewhere. Qed.
Print Assumptions C41_variations_refuted.

Theorem C41_at_marks o f p major minor a b c d mark_offset variation_offset
    glyph_class attachments ligatures mark_class marks variations :
  bounded f ->
  reads o read_glyph_definition f p
    (mkGlyphDefinition (GdefVersion13 (mkGdefHeader13 major minor a b c d mark_offset variation_offset))
      glyph_class attachments ligatures mark_class marks variations) ->
  (variations = None <-> mark_offset = 0) /\
  forall store, variations = Some store -> store_at o f (p + mark_offset) store.
Proof.
  exact (gdef13_variations o f p major minor a b c d mark_offset variation_offset
    glyph_class attachments ligatures mark_class marks variations).
Qed.
Print Assumptions C41_at_marks.

(** Missing: version 1.3 with two different offsets. *)
Theorem C41_variations_partial o f p v : bounded f ->
  gdef_variation_offset (glyph_definition_header v) = standard_variation_offset (glyph_definition_header v) ->
  (reads o read_glyph_definition f p v <-> standard_glyph_definition_at o f p v).
Proof. exact (variations_agree o f p v). Qed.
Print Assumptions C41_variations_partial.

(** The table of a font with item variations at 18, which are not read. *)
Example C41_example :
  (exists v, reads debug_build read_glyph_definition (file_of adobe_vf_gdef) 0 v /\
    standard_variation_offset (glyph_definition_header v) = 18 /\ glyph_definition_variations v = None) /\
  (exists v, reads debug_build read_glyph_definition (file_of open_sans_gdef) 0 v /\
    gdef_variation_offset (glyph_definition_header v) =
      standard_variation_offset (glyph_definition_header v)).
Proof.
  split; [exact adobe_vf_variations|].
  apply (table_of_holds debug_build RequestGdef). vm_compute. reflexivity.
Qed.

(** C42. *)
Theorem C42_instances_refuted :
  ~ forall o f g p v w,
    bounded f -> bounded g -> reads o read_font_variations f p v -> reads o read_font_variations g p w ->
    same_between p (fvar_end p (font_variations_header v)) f g -> v = w.
Proof. exact instances_beyond. Qed.
Print Assumptions C42_instances_refuted.

Theorem C42_next_name o f p v i x y :
  bounded f -> reads o read_font_variations f p v ->
  fvar_header_instance_size (font_variations_header v) =
    4 + 4 * fvar_header_axis_count (font_variations_header v) ->
  nth_error (font_variations_instance_records v) i = Some x ->
  nth_error (font_variations_instance_records v) (S i) = Some y ->
  instance_record_postscript_name_id x = instance_record_subfamily_name_id y.
Proof. exact (instance_next o f p v i x y). Qed.
Print Assumptions C42_next_name.

Theorem C42_last_refused o f p v :
  bounded f -> fvar_header_at f p v -> fvar_header_instance_count v <> 0 ->
  fvar_header_instance_size v = 4 + 4 * fvar_header_axis_count v ->
  f (fvar_end p v) = None ->
  fails o read_font_variations f p.
Proof. exact (fvar_last_unread o f p v). Qed.
Print Assumptions C42_last_refused.

(** Missing: sizes without room for the name. *)
Theorem C42_instances_partial o f g p q v :
  bounded f -> bounded g -> reads o read_font_variations f p v ->
  20 <= fvar_header_axis_size (font_variations_header v) ->
  6 + 4 * fvar_header_axis_count (font_variations_header v) <=
    fvar_header_instance_size (font_variations_header v) ->
  p + 16 <= q -> fvar_end p (font_variations_header v) <= q -> same_between p q f g ->
  reads o read_font_variations g p v.
Proof. exact (fvar_within o f g p q v). Qed.
Print Assumptions C42_instances_partial.

(** Two fonts whose tables, taken alone, are not read, and one whose table is. *)
Example C42_example :
  read_default RequestFvar gingham_fvar = Err UnexpectedEnd /\
  read_default RequestFvar kalnia_glaze_fvar = Err UnexpectedEnd /\
  (exists v, reads debug_build read_font_variations (file_of (gingham_fvar ++ be16 7)) 0 v /\
    fvar_header_instance_size (font_variations_header v) =
      4 + 4 * fvar_header_axis_count (font_variations_header v) /\
    option_map instance_record_postscript_name_id
      (nth_error (font_variations_instance_records v) 8) = Some 7) /\
  (exists v, reads debug_build read_font_variations (file_of adobe_vf_fvar) 0 v /\
    6 + 4 * fvar_header_axis_count (font_variations_header v) <=
      fvar_header_instance_size (font_variations_header v) /\
    fvar_end 0 (font_variations_header v) = N.of_nat (length adobe_vf_fvar)).
Proof.
  split; [vm_compute; reflexivity|]. split; [vm_compute; reflexivity|].
  split; apply (table_of_holds debug_build RequestFvar); vm_compute; repeat split. discriminate.
Qed.

(** One instance without a name, at the end of the file. *)
Example C42_example_last :
  let f := words [1; 0; 16; 2; 0; 20; 1; 4; 256; 0] in
  let v := mkFvarHeader 1 0 16 2 0 20 1 4 in
  bounded f /\ fvar_header_at f 0 v /\ f (fvar_end 0 v) = None.
Proof.
  split; [by_size|]. split; [|reflexivity]. repeat split; eexists _, _; repeat split.
Qed.

(** C43.  The parameters are always empty. *)
Theorem C43_parameters_refuted :
  ~ forall o f p v, bounded f -> reads o read_feature_record f p v -> parameters_at f p v.
Proof. exact parameters_unread. Qed.
Print Assumptions C43_parameters_refuted.

Theorem C43_empty o f p v :
  bounded f -> reads o read_feature_record f p v ->
  feature_record_parameters v = if feature_record_parameter_offset v =? 0 then None else Some [].
Proof. exact (parameters_empty o f p v). Qed.
Print Assumptions C43_empty.

Example C43_example :
  reads debug_build read_feature_record (words [6; 1; 5; 100]) 0 (mkFeatureRecord 6 1 [5] (Some [])).
Proof. eexists. vm_compute. reflexivity. Qed.

(** C44. *)
Theorem C44_format1_refuted :
  ~ forall o f p t i set,
    bounded f -> reads o read_context f p (ContextFormat1 t) ->
    nth_error (context1_record_offsets t) i = Some 0 -> nth_error (context1_records t) i = Some set ->
    context_records_records set = [].
Proof. exact null_sets_read. Qed.
Print Assumptions C44_format1_refuted.

Theorem C44_format1_context o f p format coverage_offset n offsets coverage records i :
  bounded f ->
  reads o read_context f p (ContextFormat1 (mkContext1 format coverage_offset n offsets coverage records)) ->
  nth_error offsets i = Some 0 ->
  exists rule, nth_error records i = Some (mkContextRecords 1 [coverage_offset] [rule]) /\
    context_record_at f (p + coverage_offset) rule.
Proof. exact (context1_null o f p format coverage_offset n offsets coverage records i). Qed.
Print Assumptions C44_format1_context.

Theorem C44_format1_chained o f p format coverage_offset n offsets coverage records i :
  bounded f ->
  reads o read_chained_context f p
    (ChainedContextFormat1 (mkChainedContext1 format coverage_offset n offsets coverage records)) ->
  nth_error offsets i = Some 0 ->
  exists rule, nth_error records i = Some (mkChainedRecords 1 [coverage_offset] [rule]) /\
    chained_record_at f (p + coverage_offset) rule.
Proof. exact (chained_context1_null o f p format coverage_offset n offsets coverage records i). Qed.
Print Assumptions C44_format1_chained.

(** Missing: format 1. *)
Theorem C44_format2_context_partial o f p t i offset :
  bounded f -> reads o read_context f p (ContextFormat2 t) ->
  nth_error (context2_record_offsets t) i = Some offset ->
  exists set, nth_error (context2_records t) i = Some set /\ (set = None <-> offset = 0).
Proof. exact (context2_null o f p t i offset). Qed.
Print Assumptions C44_format2_context_partial.

Theorem C44_format2_chained_partial o f p t i offset :
  bounded f -> reads o read_chained_context f p (ChainedContextFormat2 t) ->
  nth_error (chained_context2_record_offsets t) i = Some offset ->
  exists set, nth_error (chained_context2_records t) i = Some set /\ (set = None <-> offset = 0).
Proof. exact (chained_context2_null o f p t i offset). Qed.
Print Assumptions C44_format2_chained_partial.

(** The coverage at 8 is read as a rule. *)
Example C44_example :
  reads debug_build read_context (words [1; 8; 1; 0; 1; 0]) 0
    (ContextFormat1 (mkContext1 1 8 1 [0] (CoverageFormat1 (mkCoverage1 1 0 []))
      [mkContextRecords 1 [8] [mkContextRecord 1 0 [] []]])) /\
  reads debug_build read_context (words [2; 10; 14; 1; 0; 1; 0; 2; 0]) 0
    (ContextFormat2 (mkContext2 2 10 14 1 [0] (CoverageFormat1 (mkCoverage1 1 0 []))
      (ClassFormat2 (mkClass2 2 0 [])) [None])) /\
  reads debug_build read_chained_context (words [1; 8; 1; 0; 1; 0; 1; 0; 0]) 0
    (ChainedContextFormat1 (mkChainedContext1 1 8 1 [0] (CoverageFormat1 (mkCoverage1 1 0 []))
      [mkChainedRecords 1 [8] [mkChainedRecord 1 [0] 1 [] 0 [] 0 []]])) /\
  reads debug_build read_chained_context (words [2; 14; 18; 18; 18; 1; 0; 1; 0; 2; 0]) 0
    (ChainedContextFormat2 (mkChainedContext2 2 14 18 18 18 1 [0] (CoverageFormat1 (mkCoverage1 1 0 []))
      (ClassFormat2 (mkClass2 2 0 [])) (ClassFormat2 (mkClass2 2 0 [])) (ClassFormat2 (mkClass2 2 0 []))
      [None])).
Proof. repeat split; eexists; vm_compute; reflexivity. Qed.

(** C45. *)
Theorem C45_declared_length_refuted :
  ~ forall d o f g this t record A (r : request A) v w,
    bounded f -> bounded g ->
    reads o (read_file d) f 0 (mkFile [this]) -> reads o (read_file d) g 0 (mkFile [this]) ->
    first_record (offsets_records (font_offsets this)) (table_tag t) record ->
    (forall q, q < offset_record_offset record + offset_record_length record -> f q = g q) ->
    reads o (font_take d this t (reader r)) f 0 v -> reads o (font_take d this t (reader r)) g 0 w ->
    v = w.
Proof. exact takes_beyond. Qed.
Print Assumptions C45_declared_length_refuted.

(** Missing: that nothing after the declared end matters. *)
Theorem C45_declared_offset_partial {A} (r : request A) d o this t f g record p v :
  bounded f -> bounded g ->
  first_record (offsets_records (font_offsets this)) (table_tag t) record ->
  record_checksum d f record = record_checksum d g record ->
  (forall q, offset_record_offset record <= q -> f q = g q) ->
  (reads o (font_take d this t (reader r)) f p v <-> reads o (font_take d this t (reader r)) g p v).
Proof. exact (take_suffix r d o this t f g record p v). Qed.
Print Assumptions C45_declared_offset_partial.

(** The checksum is right and the color is beyond the declared end. *)
Example C45_example :
  reads debug_build (read_file sample_deps) (overlong_file 1) 0 (mkFile [overlong_font]) /\
  reads debug_build (font_take sample_deps overlong_font TableColorPalettes (reader RequestCpal))
    (overlong_file 1) 0 (Some (overlong_colors 1)) /\
  first_record (offsets_records (font_offsets overlong_font)) (table_tag TableColorPalettes) overlong_record /\
  offset_record_offset overlong_record + offset_record_length overlong_record = 44 /\
  reads debug_build (font_take sample_deps overlong_font TableColorPalettes (reader RequestCpal))
    (overlong_file 2) 0 (Some (overlong_colors 2)).
Proof.
  split; [apply overlong_reads; auto|]. split; [apply overlong_reads; auto|].
  split; [exact overlong_first|]. split; [reflexivity|]. apply overlong_reads; auto.
Qed.

(** C46. *)
Theorem C46_deltas_refuted :
  ~ forall o f p item_count word_delta_count region_count indices deltas,
    bounded f ->
    reads o read_store_record f p (mkStoreRecord item_count word_delta_count region_count indices deltas) ->
    word_count word_delta_count <= region_count ->
    N.of_nat (length deltas) = item_count * row_size word_delta_count region_count.
Proof. exact long_deltas_short. Qed.
Print Assumptions C46_deltas_refuted.

Theorem C46_long_words o f p item_count word_delta_count region_count indices deltas :
  bounded f ->
  reads o read_store_record f p
    (mkStoreRecord item_count word_delta_count region_count indices deltas) ->
  long_words word_delta_count = true ->
  word_count word_delta_count <= region_count -> 0 < item_count ->
  N.of_nat (length deltas) < item_count * row_size word_delta_count region_count \/
  item_count * row_size word_delta_count region_count < N.of_nat (length deltas).
Proof. exact (long_deltas o f p item_count word_delta_count region_count indices deltas). Qed.
Print Assumptions C46_long_words.

(** Missing: the flag [LONG_WORDS]. *)
Theorem C46_deltas_partial o f p item_count word_delta_count region_count indices deltas :
  bounded f ->
  reads o read_store_record f p
    (mkStoreRecord item_count word_delta_count region_count indices deltas) ->
  long_words word_delta_count = false ->
  word_count word_delta_count <= region_count ->
  word_delta_count + region_count < 2 ^ 16 ->
  N.of_nat (length deltas) = item_count * row_size word_delta_count region_count.
Proof. exact (short_deltas o f p item_count word_delta_count region_count indices deltas). Qed.
Print Assumptions C46_deltas_partial.

Example C46_example :
  reads debug_build read_store_record (words [2; 1; 2; 0; 1; 258; 772; 1286]) 0
    (mkStoreRecord 2 1 2 [0; 1] [1; 2; 3; 4; 5; 6]) /\
  long_words 1 = false /\ row_size 1 2 = 3 /\
  reads debug_build read_store_record long_file 0
    (mkStoreRecord 1 0x8001 1 [0] (repeat 0 (N.to_nat 0x8002))) /\
  long_words 0x8001 = true /\ word_count 0x8001 = 1 /\ row_size 0x8001 1 = 4.
Proof.
  split; [eexists; vm_compute; reflexivity|]. split; [reflexivity|]. split; [reflexivity|].
  split; [exact long_reads|]. repeat split.
Qed.

(** C47. *)
Theorem C47_size_refuted :
  ~ forall o l p v,
    reads o read_glyph_positioning (file_of l) p v -> (all_class_pairs v <= length l)%nat.
Proof. exact larger_than_file. Qed.
Print Assumptions C47_size_refuted.

Theorem C47_pairs n m : n < 65536 -> m < 65536 ->
  exists l v, length l = 48%nat /\
    (forall o, reads o read_glyph_positioning (file_of l) 0 v) /\
    all_class_pairs v = (N.to_nat n * N.to_nat m)%nat.
Proof. exact (bomb_explodes n m). Qed.
Print Assumptions C47_pairs.

Theorem C47_glyphs n : n < 65536 ->
  exists l v, N.of_nat (length l) = 22 + 6 * n /\
    (forall o, reads o read_glyph_definition (file_of l) 0 v) /\
    mark_glyphs v = (N.to_nat n * N.to_nat n)%nat.
Proof. exact (amplifier_amplifies n). Qed.
Print Assumptions C47_glyphs.

Theorem C47_coordinates n m : n < 65536 -> m < 65536 ->
  exists l v, N.of_nat (length l) = 36 + 4 * n /\
    (forall o, reads o read_font_variations (file_of l) 0 v) /\
    coordinates v = (N.to_nat m * N.to_nat n)%nat.
Proof. exact (stack_grows n m). Qed.
Print Assumptions C47_coordinates.

Theorem C47_substitutes n m k : n < 32765 -> m < 32765 -> k < 32765 ->
  exists l v, N.of_nat (length l) = 30 + 2 * n + 2 * m + 2 * k /\
    (forall o, reads o read_glyph_substitution (file_of l) 0 v) /\
    all_substitutes v = (N.to_nat n * (N.to_nat m * N.to_nat k))%nat.
Proof. exact (tower_grows n m k). Qed.
Print Assumptions C47_substitutes.

(** Only the table directory and [CPAL] have the property. *)
Theorem C47_records_partial d o l p v :
  N.of_nat (length l) <= 2 ^ 63 -> reads o (read_font d) (file_of l) p v ->
  16 * N.of_nat (length (offsets_records (font_offsets v))) <= N.of_nat (length l).
Proof. exact (font_linear d o l p v). Qed.
Print Assumptions C47_records_partial.

Theorem C47_colors_partial o l p v :
  N.of_nat (length l) <= 2 ^ 63 -> reads o read_color_palettes (file_of l) p v ->
  let '(_, _, _, color_indices) := cpal_layout (color_palettes_header v) in
  4 * N.of_nat (length (color_palettes_colors v)) <= N.of_nat (length l) /\
  2 * N.of_nat (length color_indices) <= N.of_nat (length l).
Proof. exact (cpal_linear o l p v). Qed.
Print Assumptions C47_colors_partial.

Example C47_example :
  reads debug_build read_glyph_positioning (file_of (bomb 7 7)) 0 (blast 7 7) /\
  all_class_pairs (blast 7 7) = 49%nat /\ length (bomb 7 7) = 48%nat /\
  reads debug_build read_font_variations (file_of (stack 2 50)) 0 (stacked 2 50) /\
  coordinates (stacked 2 50) = 100%nat /\ length (stack 2 50) = 44%nat /\
  reads debug_build read_glyph_substitution (file_of (tower 6 6 6)) 0 (towering 6 6 6) /\
  all_substitutes (towering 6 6 6) = 216%nat /\ length (tower 6 6 6) = 66%nat /\
  reads debug_build read_color_palettes (file_of sample_cpal) 0 sample_colors.
Proof. repeat apply conj; try (eexists; vm_compute; reflexivity); vm_compute; reflexivity. Qed.

(** Nothing is counted where there is nothing. *)
Example C47_none :
  mark_glyphs (mkGlyphDefinition (GdefVersion1 (mkGdefHeader1 1 0 0 0 0 0)) None None None None None None) = 0%nat /\
  class_pairs (GposCursiveAttachment (mkCursiveAttachment 1 6 0 [] (CoverageFormat1 (mkCoverage1 1 0 [])))) = 0%nat /\
  substitutes (GsubMultipleSubstitution (mkMultipleSubstitution 1 6 0 [] (CoverageFormat1 (mkCoverage1 1 0 [])) [])) = 0%nat.
Proof. repeat split. Qed.
