(** What becomes of [GDEF] tables laid out as the OpenType specification prescribes (C77). *)

From Verif Require Import ProofGdefStandard ProofGdefSamples Fixtures.

(** C77: a caret in a table laid out so makes the table unreadable, whatever else is in it. *)
Theorem C77_gdef_carets o f p v :
  bounded f -> std_glyph_definition_at f p v ->
  ~ given supported_gdef_ligatures (glyph_definition_ligatures v) ->
  refuses o read_glyph_definition f p UnknownFormat.
Proof. exact (fun Hb => gdef_standard_carets o f Hb p v). Qed.
Print Assumptions C77_gdef_carets.

(** Without carets all but the item variations is read, *)
Theorem C77_gdef_skipped o f p v :
  bounded f -> std_glyph_definition_at f p v ->
  given supported_gdef_ligatures (glyph_definition_ligatures v) -> variations_skipped v ->
  reads o read_glyph_definition f p (without_variations v).
Proof. exact (fun Hb Hv Hs => gdef_standard_skipped o f Hb p v Hv Hs). Qed.
Print Assumptions C77_gdef_skipped.

(** The table of a font with item variations, without mark glyph sets. *)
Example C77_example_skipped :
  exists v, std_glyph_definition_at (file_of adobe_vf_gdef) 0 v /\
    (exists store, glyph_definition_variations v = Some store) /\
    given supported_gdef_ligatures (glyph_definition_ligatures v) /\ variations_skipped v /\
    forall o, reads o read_glyph_definition (file_of adobe_vf_gdef) 0 (without_variations v).
Proof. exact adobe_vf_read. Qed.

(** unless there are mark glyph sets in version 1.3, which are then taken for item variations. *)
Theorem C77_gdef_read o f p v :
  bounded f -> std_glyph_definition_at f p v ->
  given supported_gdef_ligatures (glyph_definition_ligatures v) ->
  (exists w, reads o read_glyph_definition f p w /\ without_variations w = without_variations v) \/
  refuses o read_glyph_definition f p UnexpectedEnd \/
  overflow_checks o = true /\ panics o read_glyph_definition f p.
Proof. exact (fun Hb Hv Hs => gdef_standard_read o f Hb p v Hv Hs). Qed.
Print Assumptions C77_gdef_read.

(** A ligature with a caret; mark glyph sets at the end of a file, and followed by bytes with which
    they are taken for item variations, or for ones with too large counts. *)
Example C77_example_carets :
  std_glyph_definition_at (words caret_gdef) 0 caret_definition /\
  ~ given supported_gdef_ligatures (glyph_definition_ligatures caret_definition).
Proof. split; [exact caret_gdef_standard|]. intros H. inversion_clear H as [|? ? K]. discriminate K. Qed.

Example C77_example_marks :
  (forall rest, std_glyph_definition_at (words (marks_gdef rest)) 0 (marks_definition None)) /\
  (forall o, reads o read_glyph_definition (words (marks_gdef [0; 0])) 0
    (marks_definition (Some (mkStore 1 0 0 [] [])))) /\
  (forall o, refuses o read_glyph_definition (words (marks_gdef [])) 0 UnexpectedEnd) /\
  panics debug_build read_glyph_definition (words (marks_gdef [8; 1; 0; 12; 1; 65535; 1; 0])) 0.
Proof. exact (conj marks_gdef_standard marks_gdef_outcomes). Qed.
