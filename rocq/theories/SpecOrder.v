(** What comparisons have to satisfy (C68). *)

From Verif Require Export SpecTags.

(** A total order for which only equal values are equal. *)
Definition ordering {A} (cmp : A -> A -> comparison) : Prop :=
  (forall v w, cmp v w = Eq <-> v = w) /\
  (forall v w, cmp v w = Lt <-> cmp w v = Gt) /\
  (forall u v w, cmp u v = Lt -> cmp v w = Lt -> cmp u w = Lt).

(** A tag as a number, the first byte being the most significant one. *)
Definition tag_number (t : tag) : N :=
  let '(Tag a b c d) := t in
  ((Byte.to_N a * 256 + Byte.to_N b) * 256 + Byte.to_N c) * 256 + Byte.to_N d.

(** The order of the bytes. *)
Definition tag_order (t u : tag) : comparison := tag_number t ?= tag_number u.

(** The variants that are declared after one with a larger tag. *)
Definition late_features : list Feature :=
  [FeaturePetiteCapitalsFromCapitals; FeatureSmallCapitalsFromCapitals; FeatureJIS2004Forms].

(** German is one when [Default] is declared before it, which depends on the build. *)
Definition late_languages (default_language : bool) : list Language :=
  (if default_language then [LanguageGerman] else []) ++
  [LanguageChamorro; LanguageChiga; LanguageIdo; LanguageKomi; LanguageNorthSlavey; LanguageTumbuka; LanguageWolof].
