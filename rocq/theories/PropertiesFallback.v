(** Property C89: the default language of a script. *)

From Verif Require Import ProofFallback.

(** C89: "[get] with [Language::Default] returns the default language of a script". *)
Theorem C89_default_refuted :
  ~ forall o f p v script r,
    bounded f -> reads o read_glyph_substitution f p v -> In script (scripts_records (directory_scripts v)) ->
    script_record_default_language script = Some r ->
    script_record_get script (language_tag LanguageDefault) = Ok (Some r).
Proof. exact default_not_found. Qed.
Print Assumptions C89_default_refuted.

(** C89: "[get] with a language that the script does not list returns the default language". *)
Theorem C89_fallback_refuted :
  ~ forall o f p v script r language,
    bounded f -> reads o read_glyph_substitution f p v -> In script (scripts_records (directory_scripts v)) ->
    script_record_default_language script = Some r ->
    (forall h, In h (script_record_language_headers script) -> language_header_tag h <> language_tag language) ->
    script_record_get script (language_tag language) = Ok (Some r).
Proof. exact no_fallback. Qed.
Print Assumptions C89_fallback_refuted.

(** C89: the default language makes no difference to [get] at all. *)
Theorem C89_ignored (a b n : N) headers x y records t :
  script_record_get (mkScriptRecord a n headers x records) t =
  script_record_get (mkScriptRecord b n headers y records) t.
Proof. exact (default_ignored a b n headers x y records t). Qed.
Print Assumptions C89_ignored.

(** C89: it returns nothing exactly if no header has the tag, and a record of a language otherwise. *)
Theorem C89_exactly o f p script :
  bounded f ->
  (forall v, reads o read_glyph_substitution f p v -> In script (scripts_records (directory_scripts v)) ->
    language_found script) /\
  (forall v, reads o read_glyph_positioning f p v -> In script (scripts_records (directory_scripts v)) ->
    language_found script).
Proof. exact (languages_of o f p script). Qed.
Print Assumptions C89_exactly.

(** A script with a default language and German: [get] knows German only. *)
Example C89_example :
  bounded (words german_words) /\
  reads debug_build read_glyph_substitution (words german_words) 0 german_table /\
  In german_script (scripts_records (directory_scripts german_table)) /\
  script_record_default_language german_script = Some (mkLanguageRecord 0 65535 0 []) /\
  script_record_get german_script (language_tag LanguageGerman) = Ok (Some (mkLanguageRecord 0 3 0 [])) /\
  script_record_get german_script (language_tag LanguageCzech) = Ok None /\
  script_record_get german_script (language_tag LanguageDefault) = Ok None.
Proof.
  destruct german_read as [B R]. split; [exact B|]. split; [exact R|]. split; [left; reflexivity|].
  repeat split; vm_compute; reflexivity.
Qed.
