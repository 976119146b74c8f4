(** Properties C59-C62: the methods of flags, defaults, and what is not checked. *)

From Verif Require Import ProofFlags ProofDefaults ProofUnchecked.

(** C59: each method is one bit. *)
Theorem C59_bits flags :
  is_right_to_left flags = N.testbit flags 0 /\ should_ignore_base_glyphs flags = N.testbit flags 1 /\
  should_ignore_ligature flags = N.testbit flags 2 /\ should_ignore_marks flags = N.testbit flags 3 /\
  has_mark_filtering flags = N.testbit flags 4 /\ axis_is_hidden flags = N.testbit flags 0 /\
  has_x_placement flags = N.testbit flags 0 /\ has_y_placement flags = N.testbit flags 1 /\
  has_x_advance flags = N.testbit flags 2 /\ has_y_advance flags = N.testbit flags 3 /\
  has_x_placement_correction flags = N.testbit flags 4 /\
  has_y_placement_correction flags = N.testbit flags 5 /\
  has_x_advance_correction flags = N.testbit flags 6 /\
  has_y_advance_correction flags = N.testbit flags 7.
Proof. exact (flag_bits flags). Qed.
Print Assumptions C59_bits.

(** C59: [is_invalid] means that a reserved bit is set. *)
Theorem C59_invalid flags :
  (lookup_is_invalid flags = true <-> some_bit flags 5 7) /\
  (value_is_invalid flags = true <-> some_bit flags 8 15) /\
  (axis_is_invalid flags = true <-> some_bit flags 1 15) /\
  (instance_is_invalid flags = true <-> some_bit flags 0 15).
Proof. exact (invalid_bits flags). Qed.
Print Assumptions C59_invalid.

(** C59: the methods agree with the fields beside the flags. *)
Theorem C59_gsub_lookups o f p v l :
  bounded f -> reads o read_glyph_substitution f p v -> In l (lookups_records (directory_lookups v)) ->
  filled (lookup_record_mark_filtering_set l) = has_mark_filtering (lookup_record_flags l) /\
  (checked_flags o = true -> lookup_is_invalid (lookup_record_flags l) = false).
Proof. exact (gsub_lookup_flags o f p v l). Qed.
Print Assumptions C59_gsub_lookups.

Theorem C59_gpos_lookups o f p v l :
  bounded f -> reads o read_glyph_positioning f p v -> In l (lookups_records (directory_lookups v)) ->
  filled (lookup_record_mark_filtering_set l) = has_mark_filtering (lookup_record_flags l) /\
  (checked_flags o = true -> lookup_is_invalid (lookup_record_flags l) = false).
Proof. exact (gpos_lookup_flags o f p v l). Qed.
Print Assumptions C59_gpos_lookups.

Theorem C59_values o f p v t flags s :
  bounded f -> reads o read_glyph_positioning f p v -> has_subtable v t -> In (flags, Some s) (values_of t) ->
  filled (single_x_placement s) = has_x_placement flags /\
  filled (single_y_placement s) = has_y_placement flags /\
  filled (single_x_advance s) = has_x_advance flags /\
  filled (single_y_advance s) = has_y_advance flags /\
  filled (single_x_placement_correction_offset s) = has_x_placement_correction flags /\
  filled (single_y_placement_correction_offset s) = has_y_placement_correction flags /\
  filled (single_x_advance_correction_offset s) = has_x_advance_correction flags /\
  filled (single_y_advance_correction_offset s) = has_y_advance_correction flags.
Proof. exact (gpos_values o f p v t flags s). Qed.
Print Assumptions C59_values.

Theorem C59_absent_values o f p v t flags :
  bounded f -> reads o read_glyph_positioning f p v -> has_subtable v t -> In (flags, None) (values_of t) ->
  flags = 0.
Proof. exact (gpos_absent_values o f p v t flags). Qed.
Print Assumptions C59_absent_values.

Theorem C59_value_flags o f p v t flags :
  bounded f -> reads o read_glyph_positioning f p v -> has_subtable v t -> In flags (value_flags_of t) ->
  checked_flags o = true -> value_is_invalid flags = false.
Proof. exact (gpos_value_flags o f p v t flags). Qed.
Print Assumptions C59_value_flags.

Theorem C59_fvar o f p v :
  bounded f -> reads o read_font_variations f p v -> checked_flags o = true ->
  (forall a, In a (font_variations_axis_records v) -> axis_is_invalid (axis_record_flags a) = false) /\
  (forall i, In i (font_variations_instance_records v) ->
    instance_is_invalid (instance_record_flags i) = false).
Proof. exact (fvar_flags o f p v). Qed.
Print Assumptions C59_fvar.

(** A lookup with a mark filtering set and a value with two of eight components; a flag refused
    or read depending on the build. *)
Example C59_example :
  let bytes := flat_map be16
    [1; 0; 10; 12; 14; 0; 0; 1; 4; 1; 0x1A; 1; 10; 5; 1; 10; 5; 65533; 7; 1; 1; 9] in
  let flagged := flat_map be16
    [1; 0; 10; 12; 14; 0; 0; 1; 4; 1; 0x3A; 1; 10; 5; 1; 10; 5; 65533; 7; 1; 1; 9] in
  bounded (file_of bytes) /\
  (exists v l t s, reads debug_build read_glyph_positioning (file_of bytes) 0 v /\
    In l (lookups_records (directory_lookups v)) /\ In t (lookup_record_tables l) /\
    In (5, Some s) (values_of t) /\ lookup_record_mark_filtering_set l = Some 5 /\
    should_ignore_base_glyphs (lookup_record_flags l) = true /\
    is_right_to_left (lookup_record_flags l) = false /\
    single_x_placement s = Some (-3)%Z /\ single_y_placement s = None /\ single_x_advance s = Some 7%Z) /\
  fails debug_build read_glyph_positioning (file_of flagged) 0 /\
  exists v, reads (mkOptions true false false false false) read_glyph_positioning (file_of flagged) 0 v /\
    map (fun l => lookup_is_invalid (lookup_record_flags l)) (lookups_records (directory_lookups v)) = [true].
Proof.
  intros bytes flagged. split; [apply file_of_bounded; vm_compute; discriminate|]. split.
  { do 4 eexists. split; [eexists; vm_compute; reflexivity|].
    split; [left; reflexivity|]. split; [left; reflexivity|]. split; [left; reflexivity|].
    repeat (apply conj; [reflexivity|]). reflexivity. }
  split; [eexists; vm_compute; reflexivity|].
  eexists. split; [eexists; vm_compute; reflexivity|reflexivity].
Qed.

(** A pair with a value of one component and none; an axis that is hidden. *)
Example C59_example_absent :
  let bytes := flat_map be16
    [1; 0; 10; 12; 14; 0; 0; 1; 4; 2; 0; 1; 8; 1; 12; 4; 0; 1; 18; 1; 1; 5; 1; 7; 30] in
  let fvar := flat_map be16 [1; 0; 16; 2; 1; 20; 0; 8; 0x7767; 0x6874; 1; 0; 2; 0; 3; 0; 1; 256] in
  bounded (file_of bytes) /\
  (exists v t s, reads debug_build read_glyph_positioning (file_of bytes) 0 v /\ has_subtable v t /\
    In (4, Some s) (values_of t) /\ In (0, None) (values_of t) /\ In 4 (value_flags_of t)) /\
  bounded (file_of fvar) /\
  exists v, reads debug_build read_font_variations (file_of fvar) 0 v /\
    map (fun a => axis_is_hidden (axis_record_flags a)) (font_variations_axis_records v) = [true].
Proof.
  intros bytes fvar. split; [apply file_of_bounded; vm_compute; discriminate|]. split.
  { do 3 eexists. split; [eexists; vm_compute; reflexivity|]. split; [|split; [|split]].
    - eexists. split; [left; reflexivity|]. left. reflexivity.
    - left. reflexivity.
    - right. left. reflexivity.
    - left. reflexivity. }
  split; [apply file_of_bounded; vm_compute; discriminate|].
  eexists. split; [eexists; vm_compute; reflexivity|reflexivity].
Qed.

(** C60: a default value is one of the first variant with nothing but zeros, *)
Theorem C60_empty :
  ((exists v, coverage_default = CoverageFormat1 v) /\ coverage_bytes coverage_default = repeat x00 4) /\
  ((exists v, class_default = ClassFormat1 v) /\ class_bytes class_default = repeat x00 6) /\
  ((exists v, correction_default = CorrectionDevice v) /\ correction_bytes correction_default = repeat x00 6) /\
  ((exists v, anchor_default = AnchorFormat1 v) /\ anchor_bytes anchor_default = repeat x00 6) /\
  ((exists v, gdef_header_default = GdefVersion1 v) /\ gdef_offsets gdef_header_default = (0, 0, 0, 0, 0, 0) /\
    glyph_definition_bytes (mkGlyphDefinition gdef_header_default None None None None None None) =
      repeat x00 12).
Proof. exact defaults_empty. Qed.
Print Assumptions C60_empty.

(** and not the value of any bytes. *)
Theorem C60_coverage o f p : ~ reads o read_coverage f p coverage_default.
Proof. exact (coverage_default_unread o f p). Qed.
Print Assumptions C60_coverage.

Theorem C60_class o f p : ~ reads o read_class f p class_default.
Proof. exact (class_default_unread o f p). Qed.
Print Assumptions C60_class.

Theorem C60_correction o f p : ~ reads o read_correction f p correction_default.
Proof. exact (correction_default_unread o f p). Qed.
Print Assumptions C60_correction.

Theorem C60_anchor o f p : bounded f -> ~ reads o read_anchor f p anchor_default.
Proof. exact (anchor_default_unread o f p). Qed.
Print Assumptions C60_anchor.

Theorem C60_gdef o f p v :
  bounded f -> reads o read_glyph_definition f p v -> glyph_definition_header v <> gdef_header_default.
Proof. exact (gdef_default_unread o f p v). Qed.
Print Assumptions C60_gdef.

(** C60: but a default anchor in a table says that there is none. *)
Theorem C60_marks o f p v m :
  bounded f -> reads o read_glyph_positioning f p v -> has_mark v m ->
  (mark1_anchor m = anchor_default <-> ignore_incomplete_marks o = true /\ mark1_anchor_offset m = 0).
Proof. exact (gpos_default_anchors o f p v m). Qed.
Print Assumptions C60_marks.

(** C60: a default list is the value of exactly a zero. *)
Theorem C60_scripts o f p : bounded f -> (reads o read_scripts f p scripts_default <-> u16_at f p 0).
Proof. exact (scripts_default_read o f p). Qed.
Print Assumptions C60_scripts.

Theorem C60_features o f p : bounded f -> (reads o read_features f p features_default <-> u16_at f p 0).
Proof. exact (features_default_read o f p). Qed.
Print Assumptions C60_features.

Theorem C60_gsub_lookups o f p :
  bounded f -> (reads o (read_lookups read_gsub_type) f p lookups_default <-> u16_at f p 0).
Proof. exact (gsub_lookups_default_read o f p). Qed.
Print Assumptions C60_gsub_lookups.

Theorem C60_gpos_lookups o f p :
  bounded f -> (reads o (read_lookups read_gpos_type) f p lookups_default <-> u16_at f p 0).
Proof. exact (gpos_lookups_default_read o f p). Qed.
Print Assumptions C60_gpos_lookups.

(** Empty values that are read, a default anchor, and a zero. *)
Example C60_example :
  let bytes := flat_map be16
    [1; 0; 10; 12; 14; 0; 0; 1; 4; 4; 0; 1; 8; 1; 12; 12; 1; 18; 30; 1; 1; 7; 1; 0; 0; 1; 3; 4; 1;
      4; 1; 5; 6] in
  reads debug_build read_coverage (file_of (flat_map be16 [1; 0])) 0 (CoverageFormat1 (mkCoverage1 1 0 [])) /\
  reads debug_build read_class (file_of (flat_map be16 [1; 0; 0])) 0 (ClassFormat1 (mkClass1 1 0 0 [])) /\
  bounded (file_of bytes) /\
  (exists v m, reads (mkOptions true false true false true) read_glyph_positioning (file_of bytes) 0 v /\
    has_mark v m /\ mark1_anchor m = anchor_default) /\
  reads debug_build read_scripts (file_of (be16 0)) 0 scripts_default.
Proof.
  intros bytes. split; [eexists; vm_compute; reflexivity|]. split; [eexists; vm_compute; reflexivity|].
  split; [apply file_of_bounded; vm_compute; discriminate|]. split; [|eexists; vm_compute; reflexivity].
  do 2 eexists. split; [eexists; vm_compute; reflexivity|]. split.
  - do 2 eexists. split; [left; reflexivity|]. split; [left; reflexivity|]. left. reflexivity.
  - reflexivity.
Qed.

(** C61: "the indices in a table that is read refer to parts of the table". *)
Theorem C61_resolve_refuted :
  (~ forall o f v, bounded f -> reads o read_glyph_substitution f 0 v -> features_resolve v) /\
  (~ forall o f v, bounded f -> reads o read_glyph_substitution f 0 v -> lookups_resolve v) /\
  (~ forall o f v, bounded f -> reads o read_glyph_substitution f 0 v -> actions_resolve v).
Proof. exact references_unchecked. Qed.
Print Assumptions C61_resolve_refuted.

(** C61: an index may be any number, in every build. *)
Theorem C61_indices o n : n < 65536 ->
  exists l, bounded (file_of l) /\ reads o read_glyph_substitution (file_of l) 0 (dangling_table n).
Proof. exact (dangling_any o n). Qed.
Print Assumptions C61_indices.

Theorem C61_resolved n :
  (features_resolve (dangling_table n) <-> n = 0) /\ (lookups_resolve (dangling_table n) <-> n = 0) /\
  (actions_resolve (dangling_table n) <-> n = 0).
Proof. exact (dangling_resolve n). Qed.
Print Assumptions C61_resolved.

(** C61: an extension may be of any type, and lead anywhere. *)
Theorem C61_extensions o type_ n : type_ < 65536 -> n < 4294967296 ->
  exists l, size l = 20 /\ bounded (file_of l) /\
    reads o (read_lookups read_gsub_type) (file_of l) 0 (extended_lookups type_ n).
Proof. exact (extended_any o type_ n). Qed.
Print Assumptions C61_extensions.

Example C61_example :
  reads debug_build read_glyph_substitution (file_of (dangling xff xfe)) 0 (dangling_table 65534) /\
  features_count (directory_features (dangling_table 65534)) = 1 /\
  map feature_record_lookup_indices (features_records (directory_features (dangling_table 65534))) =
    [[65534]] /\
  reads debug_build (read_lookups read_gsub_type) (file_of (extended x00 x07 x00 x01 x00 x00)) 0
    (extended_lookups 7 65536).
Proof.
  split; [exact (dangling_read xff xfe)|]. split; [reflexivity|]. split; [reflexivity|].
  exact (extended_read debug_build x00 x07 x00 x01 x00 x00).
Qed.

(** C62: "arrays meant to be sorted are, and axes have their default between their limits". *)
Theorem C62_sorted_refuted :
  (~ forall o f v, bounded f -> reads o read_coverage f 0 v -> coverage_sorted v) /\
  (~ forall o f v, bounded f -> reads o read_class f 0 v -> class_sorted v) /\
  (~ forall o f v a, bounded f -> reads o read_font_variations f 0 v ->
      In a (font_variations_axis_records v) -> axis_ordered a).
Proof. exact order_unchecked. Qed.
Print Assumptions C62_sorted_refuted.

(** C62: any array is read. *)
Theorem C62_coverage o v : coverage_fits v -> coverage_wf v ->
  reads o read_coverage (file_of (coverage_bytes v)) 0 v.
Proof. exact (coverage_any o v). Qed.
Print Assumptions C62_coverage.

Theorem C62_class o v : class_fits v -> class_wf v -> reads o read_class (file_of (class_bytes v)) 0 v.
Proof. exact (class_any o v). Qed.
Print Assumptions C62_class.

Theorem C62_axes o axes :
  N.of_nat (length axes) < 3276 -> Forall (axis_record_fits o) axes ->
  exists l v, bounded (file_of l) /\ reads o read_font_variations (file_of l) 0 v /\
    font_variations_axis_records v = axes.
Proof. exact (axes_any o axes). Qed.
Print Assumptions C62_axes.

(** What is sorted, and only just not. *)
Example C62_sorted :
  coverage_sorted (CoverageFormat1 (mkCoverage1 1 2 [4; 5])) /\
  ~ coverage_sorted (CoverageFormat1 (mkCoverage1 1 2 [5; 5])) /\
  coverage_sorted (CoverageFormat2 (mkCoverage2 2 2 [mkCoverageRecord 3 3 0; mkCoverageRecord 4 4 1])) /\
  ~ coverage_sorted (CoverageFormat2 (mkCoverage2 2 1 [mkCoverageRecord 3 2 0])) /\
  ~ coverage_sorted (CoverageFormat2 (mkCoverage2 2 2 [mkCoverageRecord 3 4 0; mkCoverageRecord 3 5 1])) /\
  class_sorted (ClassFormat2 (mkClass2 2 2 [mkClassRecord 3 3 7; mkClassRecord 4 4 1])) /\
  ~ class_sorted (ClassFormat2 (mkClass2 2 1 [mkClassRecord 3 2 0])) /\
  ~ class_sorted (ClassFormat2 (mkClass2 2 2 [mkClassRecord 3 4 0; mkClassRecord 3 5 1])) /\
  axis_ordered (mkAxisRecord (Tag "w" "g" "h" "t") 5 5 5 0 256) /\
  ~ axis_ordered (mkAxisRecord (Tag "w" "g" "h" "t") 6 5 5 0 256) /\
  ~ axis_ordered (mkAxisRecord (Tag "w" "g" "h" "t") 5 5 4 0 256).
Proof.
  assert (forall A (P : A -> Prop) a l, ~ P a -> ~ Forall P (a :: l)) as F
    by (intros A P a l H K; inversion_clear K; auto).
  unfold axis_ordered. repeat apply conj; cbn;
    first [lia | (intros [_ K]; revert K; apply F; cbn; lia) | repeat constructor; cbn; lia].
Qed.

Example C62_example :
  let v := CoverageFormat2 (mkCoverage2 2 2 [mkCoverageRecord 9 3 0; mkCoverageRecord 1 20 0]) in
  coverage_fits v /\ coverage_wf v /\ ~ coverage_sorted v /\
  coverage_bytes v = flat_map be16 [2; 2; 9; 3; 0; 1; 20; 0] /\
  Forall (axis_record_fits debug_build) [mkAxisRecord (Tag "w" "g" "h" "t") 9 5 1 0 256].
Proof.
  intros v. split; [cbn; unfold u16; repeat constructor|]. split; [cbn; repeat constructor|].
  split; [cbn; lia|]. split; [reflexivity|].
  constructor; [|constructor]. cbn. unfold i32, flags16, u16. repeat split; lia.
Qed.
