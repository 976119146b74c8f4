(** Property C92: the entries of subtables and the glyphs they cover. *)

From Verif Require Import ProofEntries.

(** C92: "a substitution that is read has an entry for each glyph it covers". *)
Theorem C92_substitution_refuted :
  ~ forall o f p v t, bounded f -> reads o read_glyph_substitution f p v -> has_subtable v t -> gsub_balanced t.
Proof. exact substitution_not_balanced. Qed.
Print Assumptions C92_substitution_refuted.

(** C92: "a positioning that is read has an entry for each glyph it covers". *)
Theorem C92_positioning_refuted :
  ~ forall o f p v t, bounded f -> reads o read_glyph_positioning f p v -> has_subtable v t -> gpos_balanced t.
Proof. exact positioning_not_balanced. Qed.
Print Assumptions C92_positioning_refuted.

(** C92: "the marks of a positioning that is read are of classes it has". *)
Theorem C92_classes_refuted :
  ~ forall o f p v t, bounded f -> reads o read_glyph_positioning f p v -> has_subtable v t -> classes_known t.
Proof. exact classes_not_known. Qed.
Print Assumptions C92_classes_refuted.

(** C92: every substitution that fits its fields is read from some file, whatever it covers. *)
Theorem C92_gsub o ty t :
  u16 ty -> gsub_type_fits t -> gsub_type_wf ty t -> size (gsub_type_bytes t) <= 65500 ->
  exists l v u, bounded (file_of l) /\ reads o read_glyph_substitution (file_of l) 0 v /\ has_subtable v u /\
    gsub_type_erase u = gsub_type_erase t /\ (gsub_balanced u <-> gsub_balanced t).
Proof. exact (gsub_unbalanced o ty t). Qed.
Print Assumptions C92_gsub.

(** C92: so is every positioning, whatever it covers and whichever classes its marks are of. *)
Theorem C92_gpos o ty t :
  u16 ty -> gpos_type_fits o t -> gpos_type_wf o ty t -> size (gpos_type_bytes t) <= 65500 ->
  exists l v u, bounded (file_of l) /\ reads o read_glyph_positioning (file_of l) 0 v /\ has_subtable v u /\
    gpos_type_erase u = gpos_type_erase t /\ (gpos_balanced u <-> gpos_balanced t) /\
    (classes_known u <-> classes_known t).
Proof. exact (gpos_unbalanced o ty t). Qed.
Print Assumptions C92_gpos.

(** C92: any substitutes are read beside any glyphs covered. *)
Theorem C92_substitutes o gs ids :
  Forall u16 gs -> Forall u16 ids -> N.of_nat (length gs + length ids) <= 32000 ->
  exists l v x n m, bounded (file_of l) /\ reads o read_glyph_substitution (file_of l) 0 v /\
    has_subtable v (GsubSingleSubstitution (SingleSubstitutionFormat2
      (mkSingleSubstitution2 2 x m ids (CoverageFormat1 (mkCoverage1 1 n gs))))).
Proof. exact (substitutes_any o gs ids). Qed.
Print Assumptions C92_substitutes.

(** C92: a mark of any class is read beside any number of classes. *)
Theorem C92_marks o n k :
  u16 n -> u16 k ->
  exists l v t m, bounded (file_of l) /\ reads o read_glyph_positioning (file_of l) 0 v /\ has_subtable v t /\
    mark_classes t = Some n /\ In m (marks_of t) /\ mark1_class_id m = k.
Proof. exact (classes_any o n k). Qed.
Print Assumptions C92_marks.

(** Three glyphs are covered, and there is one substitute. *)
Example C92_scarce :
  bounded (words scarce_words) /\
  reads debug_build read_glyph_substitution (words scarce_words) 0 (lookup_table 1 scarce_substitution) /\
  gsub_entries scarce_substitution = Some 1 /\
  (forall x c, gsub_coverage scarce_substitution = Some (x, c) -> covered c = 3).
Proof.
  split; [exact (proj1 scarce_read)|]. split; [exact (proj2 scarce_read)|]. split; [reflexivity|].
  intros x c E. injection E as _ <-. reflexivity.
Qed.

(** A mark is of class 5 where there is one class, and a base that is covered has no anchors. *)
Example C92_stray :
  bounded (words stray_words) /\
  reads debug_build read_glyph_positioning (words stray_words) 0 (lookup_table 4 stray_marks) /\
  mark_classes stray_marks = Some 1 /\ map mark1_class_id (marks_of stray_marks) = [5] /\
  gpos_entries stray_marks = Some 1 /\ base_entries stray_marks = Some 0 /\
  (forall x c, base_coverage stray_marks = Some (x, c) -> covered c = 1).
Proof.
  split; [exact (proj1 stray_read)|]. split; [exact (proj2 stray_read)|]. repeat (split; [reflexivity|]).
  intros x c E. injection E as _ <-. reflexivity.
Qed.

(** Ranges count for all the glyphs in them: a substitution in order, and a case of [C92_gsub]. *)
Example C92_even :
  gsub_balanced even_substitution /\ covered ranges = 4 /\
  u16 1 /\ gsub_type_fits even_substitution /\ gsub_type_wf 1 even_substitution /\
  size (gsub_type_bytes even_substitution) <= 65500.
Proof.
  split; [exact even_balanced|]. split; [reflexivity|]. split; [reflexivity|].
  split; [cbn; unfold u16; repeat split; repeat constructor|]. split; [cbn; repeat split; reflexivity|].
  vm_compute. discriminate.
Qed.

(** Marks of two classes with two bases, in order, and a case of [C92_gpos]. *)
Example C92_tidy :
  gpos_balanced tidy_marks /\ classes_known tidy_marks /\
  u16 4 /\ gpos_type_fits debug_build tidy_marks /\ gpos_type_wf debug_build 4 tidy_marks /\
  size (gpos_type_bytes tidy_marks) <= 65500.
Proof. exact tidy_known. Qed.
