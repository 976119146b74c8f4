(** Model of the implementations of [Default].  Those the readers use are in ModelLayout.v
    ([scripts_default], [features_default], [lookups_default]) and ModelGpos.v
    ([anchor_default]).  The structures are defined by the macro [table!] of the crate
    [typeface], which derives [Default]: all numbers are zero and all vectors are empty. *)

From Verif Require Export ModelGpos ModelGdef.

(** [Coverage::default], src/layout/coverage.rs:50-55. *)
Definition coverage_default : Coverage := CoverageFormat1 (mkCoverage1 0 0 []).

(** [Class::default], src/layout/class.rs:51-56. *)
Definition class_default : Class := ClassFormat1 (mkClass1 0 0 0 []).

(** [Correction::default], src/layout/correction.rs:44-49. *)
Definition correction_default : Correction := CorrectionDevice (mkDevice 0 0 0 []).

(** [Header::default], src/tables/glyph_definition/mod.rs:136-141. *)
Definition gdef_header_default : GdefHeader := GdefVersion1 (mkGdefHeader1 0 0 0 0 0 0).
