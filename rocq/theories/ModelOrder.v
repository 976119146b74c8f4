(** Model of the comparisons derived for [Feature], [Script] and [Language]. *)

From Verif Require Export ModelTags.

(** The derived [Ord] of an enumeration with one variant that has a field: the variants by
    their declaration, then the field (src/layout/feature.rs:77-81, script.rs:80-84,
    language.rs:32-36).  [Tag] is in truetype; its [Ord] is the parameter [tags]. *)
Definition derived_cmp {A} (rank : A -> N) (other : A -> option tag)
    (tags : tag -> tag -> comparison) (v w : A) : comparison :=
  match rank v ?= rank w with
  | Eq => match other v, other w with
          | Some t, Some u => tags t u
          | _, _ => Eq
          end
  | c => c
  end.

(** [Feature::cmp], src/layout/feature.rs:77. *)
Definition feature_cmp : (tag -> tag -> comparison) -> Feature -> Feature -> comparison :=
  derived_cmp feature_rank (fun v => match v with FeatureOther t => Some t | _ => None end).

(** [Script::cmp], src/layout/script.rs:80. *)
Definition script_cmp : (tag -> tag -> comparison) -> Script -> Script -> comparison :=
  derived_cmp script_rank (fun v => match v with ScriptOther t => Some t | _ => None end).

(** [Language::cmp], src/layout/language.rs:32.  Without [Default] the variants after it move
    up by one, which no comparison shows. *)
Definition language_cmp : (tag -> tag -> comparison) -> Language -> Language -> comparison :=
  derived_cmp language_rank (fun v => match v with LanguageOther t => Some t | _ => None end).
