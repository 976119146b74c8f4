(** [GDEF] tables that are laid out as the OpenType specification prescribes, and what becomes of
    them (C77). *)

From Verif Require Export Samples SpecErrors.
From Verif Require Import ProofFindings ProofStandard ProofGdefStandard.

Ltac laid_out :=
  repeat match goal with
  | |- u16_at _ _ _ => word
  | |- u32_at _ _ _ => eexists; eexists; split; [word|split; [word|reflexivity]]
  | |- i16_at _ _ _ => eexists; split; [word|vm_compute; reflexivity]
  | |- vec_at _ _ _ _ [_] => apply vec_one
  | |- u16s_at _ _ _ [_] => apply vec_one
  | |- u32s_at _ _ _ [_] => apply vec_one
  | |- links_at _ _ _ _ => constructor
  | |- Forall2 _ _ _ => constructor
  | |- _ /\ _ => split
  | |- _ <> _ => discriminate
  | |- link_at _ _ _ _ => split
  | |- _ = _ => reflexivity
  | |- _ -> _ => intros
  | |- _ => progress (hnf)
  end;
  try match goal with H : nth_error [] ?i = Some _ |- _ => destruct i; discriminate H end.

(** A ligature with a caret at 7. *)
Definition caret_gdef : list N := [1; 0; 0; 0; 12; 0; 6; 1; 12; 1; 1; 5; 1; 4; 1; 7].

Definition caret_definition : GlyphDefinition :=
  mkGlyphDefinition (GdefVersion1 (mkGdefHeader1 1 0 0 0 12 0)) None None
    (Some (mkGdefLigatures 6 1 [12] (CoverageFormat1 (mkCoverage1 1 1 [5]))
      [mkGdefLigature 1 [4] [CaretFormat1 (mkCaret1 1 7)]])) None None None.

Lemma caret_gdef_standard : std_glyph_definition_at (words caret_gdef) 0 caret_definition.
Proof. unfold caret_definition. laid_out. Qed.

(** Mark glyph sets, none of them, in version 1.3; the table can be followed by anything. *)
Definition marks_gdef (rest : list N) : list N := [1; 3; 0; 0; 0; 0; 18; 0; 0; 1; 0] ++ rest.

Definition marks_definition (variations : option Store) : GlyphDefinition :=
  mkGlyphDefinition (GdefVersion13 (mkGdefHeader13 1 3 0 0 0 0 18 0)) None None None None
    (Some (mkMarks 1 0 [] [])) variations.

Lemma marks_gdef_standard rest : std_glyph_definition_at (words (marks_gdef rest)) 0 (marks_definition None).
Proof. unfold marks_definition. laid_out. Qed.

Lemma marks_gdef_outcomes :
  (forall o, reads o read_glyph_definition (words (marks_gdef [0; 0])) 0
    (marks_definition (Some (mkStore 1 0 0 [] [])))) /\
  (forall o, refuses o read_glyph_definition (words (marks_gdef [])) 0 UnexpectedEnd) /\
  panics debug_build read_glyph_definition (words (marks_gdef [8; 1; 0; 12; 1; 65535; 1; 0])) 0.
Proof.
  split; [intros o; eexists; destruct o; vm_compute; reflexivity|].
  split; [intros o; destruct o; vm_compute; reflexivity|].
  vm_compute. reflexivity.
Qed.

(** A font with item variations and without mark glyph sets. *)
Lemma adobe_vf_read :
  exists v, std_glyph_definition_at (file_of adobe_vf_gdef) 0 v /\
    (exists store, glyph_definition_variations v = Some store) /\
    given supported_gdef_ligatures (glyph_definition_ligatures v) /\ variations_skipped v /\
    forall o, reads o read_glyph_definition (file_of adobe_vf_gdef) 0 (without_variations v).
Proof.
  destruct adobe_vf_skipped as (v & Hv & Hs & Hl & Hk & _). exists v.
  assert (given supported_gdef_ligatures (glyph_definition_ligatures v)) as Hg by (rewrite Hl; exact I).
  do 4 (split; [assumption|]). intros o.
  apply gdef_standard_skipped; try assumption. apply file_of_bounded. vm_compute. discriminate.
Qed.
