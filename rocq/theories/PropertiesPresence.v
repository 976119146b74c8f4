(** Property C94: optional parts. *)

From Verif Require Import ProofPresence.

(** C94: feature variations, default languages and parameters of features are absent exactly if their offsets
    are zero; *)
Theorem C94_directories o f p :
  bounded f ->
  (forall v, reads o read_glyph_substitution f p v -> directory_optional v) /\
  (forall v, reads o read_glyph_positioning f p v -> directory_optional v).
Proof. exact (directories_optional o f p). Qed.
Print Assumptions C94_directories.

(** so are the parts of a glyph definition; *)
Theorem C94_definitions o f p v :
  bounded f -> reads o read_glyph_definition f p v -> definition_optional v.
Proof. exact (definitions_optional o f p v). Qed.
Print Assumptions C94_definitions.

(** and the anchors of cursive attachments, bases, components of ligatures and second marks.  (Those of first
    marks are not optional; C60 says what stands in for them.) *)
Theorem C94_anchors o f p v t :
  bounded f -> reads o read_glyph_positioning f p v -> has_subtable v t -> anchors_optional t.
Proof. exact (rows_optional o f p v t). Qed.
Print Assumptions C94_anchors.

(** Corrections of anchors *)
Theorem C94_anchor_corrections o f p v t a :
  bounded f -> reads o read_glyph_positioning f p v -> has_subtable v t -> anchor_of t a -> anchor_optional a.
Proof. exact (anchors_corrected o f p v t a). Qed.
Print Assumptions C94_anchor_corrections.

(** and of value records are absent exactly if their offsets are zero or absent. *)
Theorem C94_value_corrections o f p v t flags s :
  bounded f -> reads o read_glyph_positioning f p v -> has_subtable v t -> In (flags, Some s) (values_of t) ->
  single_optional s.
Proof. exact (values_corrected o f p v t flags s). Qed.
Print Assumptions C94_value_corrections.

(** A connection with an anchor at its start only. *)
Example C94_example_connections :
  let f := words [1; 0; 10; 12; 14;  0;  0;  1; 4;  3; 0; 1; 8;  1; 10; 1; 14; 0;  1; 0;  1; 5; 6] in
  let c := mkConnection 14 0 (Some (AnchorFormat1 (mkAnchor1 1 5 6))) None in
  exists v t, bounded f /\ reads debug_build read_glyph_positioning f 0 v /\
    has_subtable v (GposCursiveAttachment t) /\ anchor_rows (GposCursiveAttachment t) =
      [([Some (AnchorFormat1 (mkAnchor1 1 5 6)); None], [14; 0])] /\ cursive_attachment_connections t = [c] /\
    ~ optional (A := Anchor) None 14 /\ ~ optional (Some tt) 0.
Proof.
  exists (mkDirectory 1 0 10 12 14 0 (mkScripts 0 [] []) (mkFeatures 0 [] [])
    (mkLookups 1 [4] [mkLookupRecord 3 0 1 [8] None [GposCursiveAttachment (mkCursiveAttachment 1 10 1
      [mkConnection 14 0 (Some (AnchorFormat1 (mkAnchor1 1 5 6))) None] (CoverageFormat1 (mkCoverage1 1 0 [])))]]) None).
  eexists. split; [apply file_of_bounded; vm_compute; discriminate|]. split; [eexists; vm_compute; reflexivity|].
  split; [eexists; split; [left; reflexivity|]; left; reflexivity|]. do 2 (split; [reflexivity|]).
  split; intros H; [discriminate (proj1 H eq_refl)|discriminate (proj2 H eq_refl)].
Qed.

(** A glyph definition with a class definition only. *)
Example C94_example_definitions :
  let f := words [1; 0; 12; 0; 0; 0;  1; 7; 1; 2] in
  let v := mkGlyphDefinition (GdefVersion1 (mkGdefHeader1 1 0 12 0 0 0)) (Some (ClassFormat1 (mkClass1 1 7 1 [2])))
    None None None None None in
  bounded f /\ reads debug_build read_glyph_definition f 0 v.
Proof.
  split; [apply file_of_bounded; vm_compute; discriminate|]. eexists. vm_compute. reflexivity.
Qed.

(** A base without an anchor, beside a first mark without one, which is read if asked for. *)
Example C94_example_marks :
  let f := words [1; 0; 10; 12; 14;  0;  0;  1; 4;  4; 0; 1; 8;  1; 12; 16; 1; 20; 26;  1; 0;  1; 0;  1; 9; 0;  1; 0] in
  let o := mkOptions true false true false false in
  exists v t, bounded f /\ reads o read_glyph_positioning f 0 v /\ has_subtable v t /\
    first_marks t = [mkMark1 9 0 (AnchorFormat1 (mkAnchor1 0 0 0))] /\ anchor_rows t = [([None], [0])].
Proof.
  eexists. eexists. split; [apply file_of_bounded; vm_compute; discriminate|]. split; [eexists; vm_compute; reflexivity|].
  split; [eexists; split; [left; reflexivity|]; left; reflexivity|]. split; reflexivity.
Qed.

(** A value record with offsets to corrections of which one is zero. *)
Example C94_example_values :
  let f := words [1; 0; 10; 12; 14;  0;  0;  1; 4;  1; 0; 1; 8;  1; 10; 48; 0; 14;  1; 0;  3; 4; 32768] in
  exists v t s, bounded f /\ reads debug_build read_glyph_positioning f 0 v /\ has_subtable v t /\
    values_of t = [(48, Some s)] /\
    single_x_placement_correction_offset s = Some 0 /\ single_x_placement_correction s = None /\
    single_y_placement_correction_offset s = Some 14 /\
    single_y_placement_correction s = Some (CorrectionVariation (mkVariation 3 4 32768)) /\
    single_x_advance_correction_offset s = None /\ single_x_advance_correction s = None.
Proof.
  eexists. eexists. eexists. split; [apply file_of_bounded; vm_compute; discriminate|].
  split; [eexists; vm_compute; reflexivity|].
  split; [eexists; split; [left; reflexivity|]; left; reflexivity|]. repeat split; reflexivity.
Qed.

(** What cannot be read: a part without an offset, or an offset without a part. *)
Example C94_unlike :
  let some := CoverageFormat1 (mkCoverage1 1 0 []) in
  let class := Some (ClassFormat1 (mkClass1 1 0 0 [])) in
  let c := Some (CorrectionVariation (mkVariation 3 4 32768)) in
  let definition a b d e m := mkGlyphDefinition (GdefVersion12 (mkGdefHeader12 1 2 a b d e m)) in
  ~ definition_optional (definition 0 0 0 0 0 class None None None None None) /\
  ~ definition_optional (definition 0 0 0 0 0 None (Some (mkAttachments 0 0 [] some [])) None None None None) /\
  ~ definition_optional (definition 0 0 0 0 0 None None (Some (mkGdefLigatures 0 0 [] some [])) None None None) /\
  ~ definition_optional (definition 0 0 0 0 0 None None None class None None) /\
  ~ definition_optional (definition 0 0 0 0 0 None None None None (Some (mkMarks 1 0 [] [])) None) /\
  ~ definition_optional (definition 9 0 0 0 0 None None None None None None) /\
  ~ definition_optional (definition 0 9 0 0 0 None None None None None None) /\
  ~ definition_optional (definition 0 0 9 0 0 None None None None None None) /\
  ~ definition_optional (definition 0 0 0 9 0 None None None None None None) /\
  ~ definition_optional (definition 0 0 0 0 9 None None None None None None) /\
  ~ definition_optional (mkGlyphDefinition (GdefVersion13 (mkGdefHeader13 1 3 0 0 0 0 0 9)) None None None None None
    (Some (mkStore 1 0 0 [] []))) /\
  definition_optional (mkGlyphDefinition (GdefVersion13 (mkGdefHeader13 1 3 0 0 0 0 0 9)) None None None None None
    None) /\
  ~ definition_optional (definition 0 0 0 0 0 None None None None None (Some (mkStore 1 0 0 [] []))) /\
  ~ anchor_optional (AnchorFormat3 (mkAnchor3 3 5 6 0 9 c c)) /\
  ~ anchor_optional (AnchorFormat3 (mkAnchor3 3 5 6 9 0 c c)) /\
  anchor_optional (AnchorFormat3 (mkAnchor3 3 5 6 9 0 c None)) /\
  ~ single_optional (mkSingle None None None None None (Some 0) None None c None None None) /\
  ~ single_optional (mkSingle None None None None (Some 0) None None None None c None None) /\
  ~ single_optional (mkSingle None None None None None None None (Some 0) None None c None) /\
  ~ single_optional (mkSingle None None None None None None (Some 0) None None None None c) /\
  ~ single_optional (mkSingle None None None None (Some 1) None None None None None None None) /\
  ~ single_optional (mkSingle None None None None None (Some 1) None None None None None None) /\
  ~ single_optional (mkSingle None None None None None None (Some 1) None None None None None) /\
  ~ single_optional (mkSingle None None None None None None None (Some 1) None None None None).
Proof.
  unfold definition_optional, anchor_optional, single_optional, correction_optional, optional. cbn.
  repeat match goal with |- _ /\ _ => split end; intuition discriminate.
Qed.
