(** Properties C09-C11 and C48: features, scripts and languages. *)

From Verif Require Import ProofTags ModelTags SpecTags.
From Coq Require Import String.

(** C09. *)
Theorem C09_tags_round_trip default_language t :
  feature_tag (feature_from_tag t) = t /\ script_tag (script_from_tag t) = t /\
  language_tag (language_from_tag default_language t) = t.
Proof. exact (tags_round_trip default_language t). Qed.
Print Assumptions C09_tags_round_trip.

Example C09_example :
  feature_from_tag (Tag "k" "e" "r" "n") = FeatureKerning /\
  feature_from_tag (Tag "k" "e" "r" "m") = FeatureOther (Tag "k" "e" "r" "m") /\
  language_from_tag true (Tag "D" "F" "L" "T") = LanguageDefault /\
  language_from_tag false (Tag "D" "F" "L" "T") = LanguageOther (Tag "D" "F" "L" "T").
Proof. repeat split. Qed.

(** C10 for features and languages. *)
Theorem C10_features_round_trip v : feature_named v -> feature_from_tag (feature_tag v) = v.
Proof. exact (feature_tag_of_tag v). Qed.
Print Assumptions C10_features_round_trip.

Theorem C10_features_distinct v w :
  feature_named v -> feature_named w -> feature_tag v = feature_tag w -> v = w.
Proof. exact (feature_tag_injective v w). Qed.
Print Assumptions C10_features_distinct.

Theorem C10_languages_round_trip default_language v :
  language_named default_language v -> language_from_tag default_language (language_tag v) = v.
Proof. exact (language_tag_of_tag default_language v). Qed.
Print Assumptions C10_languages_round_trip.

Theorem C10_languages_distinct default_language v w :
  language_named default_language v -> language_named default_language w ->
  language_tag v = language_tag w -> v = w.
Proof. exact (language_tag_injective default_language v w). Qed.
Print Assumptions C10_languages_distinct.

(** C10 for scripts, in full: [forall v, script_named v -> script_from_tag (script_tag v) = v].
    It fails for one script. *)
Theorem C10_scripts_refuted :
  script_named ScriptKatakana /\ script_named ScriptHiragana /\
  script_tag ScriptKatakana = script_tag ScriptHiragana /\
  script_from_tag (script_tag ScriptKatakana) = ScriptHiragana /\
  ScriptHiragana <> ScriptKatakana.
Proof. exact script_round_trip_fails. Qed.
Print Assumptions C10_scripts_refuted.

(** Exactly [Katakana] is lost. *)
Theorem C10_scripts_partial v :
  script_named v -> (script_from_tag (script_tag v) <> v <-> v = ScriptKatakana).
Proof. exact (script_lost v). Qed.
Print Assumptions C10_scripts_partial.

Example C10_example :
  feature_named FeatureKerning /\ language_named true LanguageDefault /\ language_named false LanguageTurkish /\
  script_named ScriptLatin.
Proof. repeat split; try (intros t; discriminate); try discriminate; reflexivity. Qed.

(** C11. *)
Theorem C11_feature_names v :
  (feature_name v = None <-> exists t, v = FeatureOther t) /\ feature_name v <> Some EmptyString.
Proof. exact (names_present v). Qed.
Print Assumptions C11_feature_names.

Theorem C11_script_names v :
  (script_name v = None <-> exists t, v = ScriptOther t) /\ script_name v <> Some EmptyString.
Proof. exact (script_names_present v). Qed.
Print Assumptions C11_script_names.

Theorem C11_language_names v :
  (language_name v = None <-> exists t, v = LanguageOther t) /\ language_name v <> Some EmptyString.
Proof. exact (language_names_present v). Qed.
Print Assumptions C11_language_names.

Theorem C11_codes v :
  (forall code, In code (language_codes v) -> iso_code code) /\ NoDup (language_codes v) /\
  forall t, language_codes (LanguageOther t) = [].
Proof. exact (codes_well_formed v). Qed.
Print Assumptions C11_codes.

Example C11_example :
  language_codes LanguageRakhine = ["mhv"; "rmz"; "rki"]%string /\
  List.length (language_codes LanguageAthapaskan) = 43%nat /\
  script_name ScriptKatakana = Some "Katakana"%string.
Proof. vm_compute. repeat split. Qed.

(** C48. *)
Theorem C48_other_features t :
  feature_from_tag t = FeatureOther t <-> forall v, feature_named v -> feature_tag v <> t.
Proof. exact (feature_other_iff t). Qed.
Print Assumptions C48_other_features.

Theorem C48_other_scripts t :
  script_from_tag t = ScriptOther t <-> forall v, script_named v -> script_tag v <> t.
Proof. exact (script_other_iff t). Qed.
Print Assumptions C48_other_scripts.

Theorem C48_other_languages default_language t :
  language_from_tag default_language t = LanguageOther t <->
  forall v, language_named default_language v -> language_tag v <> t.
Proof. exact (language_other_iff default_language t). Qed.
Print Assumptions C48_other_languages.

Example C48_example :
  script_from_tag (Tag "l" "a" "t" "n") = ScriptLatin /\
  script_from_tag (Tag "L" "A" "T" "N") = ScriptOther (Tag "L" "A" "T" "N").
Proof. repeat split. Qed.
