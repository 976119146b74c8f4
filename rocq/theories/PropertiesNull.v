(** Property C91: coverages and class definitions whose offsets are zero. *)

From Verif Require Import ProofNull.

(** C91: "a table with a subtable without a coverage is refused". *)
Theorem C91_refused_refuted :
  ~ forall o f p v ty a t offset c, bounded f -> reads o read_glyph_substitution f p v ->
    subtable_in (directory_lookups v) ty a t -> gsub_coverage t = Some (offset, c) -> offset <> 0.
Proof. exact zero_not_refused. Qed.
Print Assumptions C91_refused_refuted.

(** C91: such a subtable gets a coverage of no glyphs. *)
Theorem C91_coverage o f p ty a c :
  bounded f ->
  (forall v t, reads o read_glyph_substitution f p v -> subtable_in (directory_lookups v) ty a t ->
    gsub_coverage t = Some (0, c) -> empty_coverage c) /\
  (forall v t, reads o read_glyph_positioning f p v -> subtable_in (directory_lookups v) ty a t ->
    gpos_coverage t = Some (0, c) -> empty_coverage c).
Proof. exact (zero_coverage o f p ty a c). Qed.
Print Assumptions C91_coverage.

(** C91: a coverage at a header of format 1 or 2 with the offset zero can always be read. *)
Theorem C91_always o f p k :
  bounded f -> u16_at f p k -> k = 1 \/ k = 2 -> u16_at f (p + 2) 0 ->
  exists c, empty_coverage c /\ reads o read_coverage f p c.
Proof. exact (always_read o f p k). Qed.
Print Assumptions C91_always.

(** C91: marks without a coverage of what they are attached to get glyphs from their own header, as many as
    the offset of their other coverage. *)
Theorem C91_bases o f p v ty a t n c d :
  bounded f -> reads o read_glyph_positioning f p v -> subtable_in (directory_lookups v) ty a t ->
  gpos_coverage t = Some (n, d) -> base_coverage t = Some (0, c) ->
  header_glyphs f (p + directory_lookup_offset v + a) n c.
Proof. exact (zero_bases o f p v ty a t n c d). Qed.
Print Assumptions C91_bases.

(** C91: a subtable without a definition of classes gets ranges from its own header, as many as the offset of
    its coverage. *)
Theorem C91_classes o f p ty a n c d :
  bounded f ->
  (forall v t, reads o read_glyph_substitution f p v -> subtable_in (directory_lookups v) ty a t ->
    gsub_coverage t = Some (n, d) -> In (0, c) (gsub_classes t) ->
    header_classes f (p + directory_lookup_offset v + a) n c) /\
  (forall v t, reads o read_glyph_positioning f p v -> subtable_in (directory_lookups v) ty a t ->
    gpos_coverage t = Some (n, d) -> In (0, c) (gpos_classes t) ->
    header_classes f (p + directory_lookup_offset v + a) n c).
Proof. exact (zero_classes o f p ty a n c d). Qed.
Print Assumptions C91_classes.

(** C91: a set of marks without a coverage gets glyphs from the offsets of all sets. *)
Theorem C91_marks o f p v c :
  bounded f -> reads o read_marks f p v -> paired (marks_coverage_offsets v) (marks_coverages v) 0 c ->
  header_glyphs f p (marks_count v) c.
Proof. exact (marks_header o f p v c). Qed.
Print Assumptions C91_marks.

(** C91: contexts in format 3 do have the property. *)
Theorem C91_contexts_partial o f p ty a :
  bounded f ->
  (forall v t, reads o read_glyph_substitution f p v -> subtable_in (directory_lookups v) ty a t ->
    ~ In 0 (gsub_offsets t)) /\
  (forall v t, reads o read_glyph_positioning f p v -> subtable_in (directory_lookups v) ty a t ->
    ~ In 0 (gpos_offsets t)).
Proof. exact (format3_nonzero o f p ty a). Qed.
Print Assumptions C91_contexts_partial.

(** C91: attachments and ligatures of a glyph definition do have the property. *)
Theorem C91_definitions_partial o f p v :
  bounded f -> reads o read_glyph_definition f p v ->
  (forall x, glyph_definition_attachments v = Some x -> attachments_coverage_offset x <> 0) /\
  (forall x, glyph_definition_ligatures v = Some x -> gdef_ligatures_coverage_offset x <> 0).
Proof. exact (gdef_nonzero o f p v). Qed.
Print Assumptions C91_definitions_partial.

(** A substitution without a coverage. *)
Example C91_example_coverage :
  bounded (words null_words) /\
  reads debug_build read_glyph_substitution (words null_words) 0 (lookup_table 1 null_substitution) /\
  subtable_in (directory_lookups (lookup_table 1 null_substitution)) 1 12 null_substitution /\
  gsub_coverage null_substitution = Some (0, CoverageFormat1 (mkCoverage1 1 0 [])).
Proof.
  destruct null_read as [B R]. split; [exact B|]. split; [exact R|].
  split; [exact (lookup_subtable 1 null_substitution)|reflexivity].
Qed.

(** Marks without bases: twelve glyphs, the first of which are words of the header. *)
Example C91_example_bases :
  bounded (words base_words) /\
  reads debug_build read_glyph_positioning (words base_words) 0 (lookup_table 4 null_bases) /\
  subtable_in (directory_lookups (lookup_table 4 null_bases)) 4 12 null_bases /\
  gpos_coverage null_bases = Some (12, CoverageFormat1 (mkCoverage1 1 0 [])) /\
  base_coverage null_bases =
    Some (0, CoverageFormat1 (mkCoverage1 1 12 [0; 0; 16; 18; 1; 0; 0; 0; 5; 6; 7; 8])).
Proof.
  destruct bases_read as [B R]. split; [exact B|]. split; [exact R|].
  split; [exact (lookup_subtable 4 null_bases)|]. split; reflexivity.
Qed.

(** Pairs without definitions of classes: the first class is the format of the values. *)
Example C91_example_classes :
  bounded (words pair_words) /\
  reads debug_build read_glyph_positioning (words pair_words) 0 (lookup_table 2 null_pairs) /\
  subtable_in (directory_lookups (lookup_table 2 null_pairs)) 2 12 null_pairs /\
  gpos_coverage null_pairs = Some (4, CoverageFormat1 (mkCoverage1 1 0 [])) /\
  In (0, pair_classes) (gpos_classes null_pairs).
Proof.
  destruct pairs_read as [B R]. split; [exact B|]. split; [exact R|].
  split; [exact (lookup_subtable 2 null_pairs)|]. split; [reflexivity|left; reflexivity].
Qed.

(** Two sets of marks, the second without a coverage. *)
Example C91_example_marks :
  let f := words [1; 2;  0; 12; 0; 0;  1; 1; 9] in
  let second := CoverageFormat1 (mkCoverage1 1 2 [0; 12]) in
  let v := mkMarks 1 2 [12; 0] [CoverageFormat1 (mkCoverage1 1 1 [9]); second] in
  bounded f /\ reads debug_build read_marks f 0 v /\ paired (marks_coverage_offsets v) (marks_coverages v) 0 second.
Proof.
  split; [apply file_of_bounded; vm_compute; discriminate|]. split; [eexists; vm_compute; reflexivity|].
  exists 1%nat. split; reflexivity.
Qed.

(** A context in format 3, and a glyph definition with attachments. *)
Example C91_example_contexts :
  let f := words (lookup_words 5 [3; 1; 0; 8;  1; 1; 9]) in
  let t := GsubContextualSubstitution (ContextFormat3
    (mkContext3 3 1 0 [8] [] [CoverageFormat1 (mkCoverage1 1 1 [9])])) in
  bounded f /\ reads debug_build read_glyph_substitution f 0 (lookup_table 5 t) /\
  subtable_in (directory_lookups (lookup_table 5 t)) 5 12 t /\ gsub_offsets t = [8].
Proof.
  split; [apply file_of_bounded; vm_compute; discriminate|]. split; [eexists; vm_compute; reflexivity|].
  split; [exact (lookup_subtable 5 _)|reflexivity].
Qed.

Example C91_example_definitions :
  let f := words [1; 0; 0; 12; 0; 0;  4; 0;  1; 0] in
  let x := mkAttachments 4 0 [] (CoverageFormat1 (mkCoverage1 1 0 [])) [] in
  bounded f /\ exists v, reads debug_build read_glyph_definition f 0 v /\ glyph_definition_attachments v = Some x.
Proof.
  split; [apply file_of_bounded; vm_compute; discriminate|].
  eexists. split; [eexists; vm_compute; reflexivity|reflexivity].
Qed.
