(** Model of the conversions between tags and the enumerations [Feature], [Script]
    and [Language].  The rows of the [implement!] tables are in the generated files
    TagsFeature.v, TagsScript.v and TagsLanguage.v. *)

From Verif Require Export TagsFeature TagsScript TagsLanguage.
From Coq Require Import Ascii String.

(** The generated [match &**tag { $($tag => Self::$variant,)* _ => .. }]: the first
    row with the tag (src/layout/feature.rs:84-90, script.rs:87-94, language.rs:39-45). *)
Fixpoint first_row {A} (rows : list (tag * A)) (t : tag) : option A :=
  match rows with
  | [] => None
  | (t', value) :: rows => if tag_eqb t' t then Some value else first_row rows t
  end.

(** [Feature::from_tag], src/layout/feature.rs:84-90. *)
Definition feature_from_tag (t : tag) : Feature :=
  match first_row feature_rows t with
  | Some value => value
  | None => FeatureOther t
  end.

(** [Script::from_tag], src/layout/script.rs:87-94. *)
Definition script_from_tag (t : tag) : Script :=
  match first_row script_rows t with
  | Some value => value
  | None => ScriptOther t
  end.

(** The rows that [#[$attribute]] keeps: those without an attribute, and with the
    feature [default-language] also the one carrying it (src/layout/language.rs:26-45). *)
Definition language_rows_of (default_language : bool) : list (tag * Language) :=
  map (fun row => (snd (fst row), snd row))
    (filter (fun row => negb (fst (fst row)) || default_language) language_rows).

(** [Language::from_tag], src/layout/language.rs:39-45. *)
Definition language_from_tag (default_language : bool) (t : tag) : Language :=
  match first_row (language_rows_of default_language) t with
  | Some value => value
  | None => LanguageOther t
  end.

(** [str::split(", ")]: the pieces between the occurrences of the separator, from
    left to right, as src/layout/language.rs:47-55 calls it. *)
Fixpoint split_from (current : string) (s : string) : list string :=
  match s with
  | EmptyString => [current]
  | String c rest =>
      match c, rest with
      | ","%char, String " "%char after => current :: split_from EmptyString after
      | _, _ => split_from (current ++ String c EmptyString) rest
      end
  end.

(** As called in src/layout/language.rs:47-55. *)
Definition split (s : string) : list string := split_from EmptyString s.

(** [Language::codes], src/layout/language.rs:47-55. *)
Definition language_codes (value : Language) : list string :=
  filter (fun code => negb (String.eqb code "")) (split (language_codes_literal value)).
