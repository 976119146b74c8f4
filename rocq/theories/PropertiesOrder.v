(** Property C68: the comparisons of features, scripts and languages. *)

From Verif Require Import ProofOrder.

(** C68: total orders. *)
Theorem C68_orders tags : ordering tags ->
  ordering (feature_cmp tags) /\ ordering (script_cmp tags) /\ ordering (language_cmp tags).
Proof. exact (fun H => conj (feature_ordering tags H)
  (conj (script_ordering tags H) (language_ordering tags H))). Qed.
Print Assumptions C68_orders.

(** C68: named values come before other ones, which are ordered as their tags. *)
Theorem C68_other_features tags t u :
  (forall v, feature_named v -> feature_cmp tags v (FeatureOther t) = Lt) /\
  feature_cmp tags (FeatureOther t) (FeatureOther u) = tags t u.
Proof. exact (feature_others tags t u). Qed.
Print Assumptions C68_other_features.

Theorem C68_other_scripts tags t u :
  (forall v, script_named v -> script_cmp tags v (ScriptOther t) = Lt) /\
  script_cmp tags (ScriptOther t) (ScriptOther u) = tags t u.
Proof. exact (script_others tags t u). Qed.
Print Assumptions C68_other_scripts.

Theorem C68_other_languages tags t u default_language :
  (forall v, language_named default_language v -> language_cmp tags v (LanguageOther t) = Lt) /\
  language_cmp tags (LanguageOther t) (LanguageOther u) = tags t u.
Proof. exact (language_others tags t u default_language). Qed.
Print Assumptions C68_other_languages.

(** C68: named features are ordered as their tags, but for three. *)
Theorem C68_features tags v w :
  feature_named v -> feature_named w -> ~ In v late_features -> ~ In w late_features ->
  feature_cmp tags v w = tag_order (feature_tag v) (feature_tag w).
Proof. exact (feature_tags_ordered tags v w). Qed.
Print Assumptions C68_features.

Theorem C68_features_late tags v : In v late_features ->
  exists w, feature_named w /\ feature_cmp tags w v = Lt /\ tag_order (feature_tag v) (feature_tag w) = Lt.
Proof. exact (features_late tags v). Qed.
Print Assumptions C68_features_late.

(** C68: named languages are ordered as their tags, but for seven or eight. *)
Theorem C68_languages tags default_language v w :
  language_named default_language v -> language_named default_language w ->
  ~ In v (late_languages default_language) -> ~ In w (late_languages default_language) ->
  language_cmp tags v w = tag_order (language_tag v) (language_tag w).
Proof. exact (language_tags_ordered tags default_language v w). Qed.
Print Assumptions C68_languages.

Theorem C68_languages_late tags default_language v : In v (late_languages default_language) ->
  exists w, language_named default_language w /\ language_cmp tags w v = Lt /\
    tag_order (language_tag v) (language_tag w) = Lt.
Proof. exact (languages_late tags default_language v). Qed.
Print Assumptions C68_languages_late.

(** Scripts are not ordered as their tags: Arabic comes after Anatolian Hieroglyphs. *)
Example C68_example :
  ordering tag_order /\
  feature_cmp tag_order FeatureKerning FeatureStandardLigatures = Lt /\
  tag_order (Tag "k" "e" "r" "n") (Tag "l" "i" "g" "a") = Lt /\
  feature_cmp tag_order (FeatureOther (Tag "k" "e" "r" "n")) FeatureKerning = Gt /\
  ~ In FeatureKerning late_features /\ ~ In FeatureStandardLigatures late_features /\
  language_cmp tag_order LanguageTulu LanguageTumbuka = Lt /\ language_tag LanguageTulu = Tag "T" "U" "M" " " /\
  language_tag LanguageTumbuka = Tag "T" "U" "L" " " /\
  script_cmp tag_order ScriptAnatolianHieroglyphs ScriptArabic = Lt /\
  tag_order (script_tag ScriptAnatolianHieroglyphs) (script_tag ScriptArabic) = Gt.
Proof.
  split; [exact tag_order_ordering|]. repeat apply conj; try reflexivity; cbn [late_features In];
    intuition discriminate.
Qed.
