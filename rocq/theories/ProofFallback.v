(** The default language of a script, and the getter of languages. *)

From Verif Require Import ProofRequests ProofReads ProofShape.
From Verif Require Export SpecFallback ProofGetters Samples.

(** A script with a default language and German. *)
Definition german_words : list N :=
  [1; 0; 10; 40; 42;  1; 27745; 29806; 8;  10; 1; 17477; 21792; 16;  0; 65535; 0;  0; 3; 0;  0;  0].

Definition german_script : ScriptRecord :=
  mkScriptRecord 10 1 [mkLanguageHeader (Tag "D" "E" "U" " ") 16]
    (Some (mkLanguageRecord 0 65535 0 [])) [mkLanguageRecord 0 3 0 []].

Definition german_table : GlyphSubstitution :=
  mkDirectory 1 0 10 40 42 0 (mkScripts 1 [mkScriptHeader (Tag "l" "a" "t" "n") 8] [german_script])
    (mkFeatures 0 [] []) (mkLookups 0 [] []) None.

Lemma german_read :
  bounded (words german_words) /\ reads debug_build read_glyph_substitution (words german_words) 0 german_table.
Proof. split; [apply file_of_bounded; vm_compute; discriminate|]. eexists. vm_compute. reflexivity. Qed.

Lemma default_not_found :
  ~ forall o f p v script r,
    bounded f -> reads o read_glyph_substitution f p v -> In script (scripts_records (directory_scripts v)) ->
    script_record_default_language script = Some r ->
    script_record_get script (language_tag LanguageDefault) = Ok (Some r).
Proof.
  intros H. destruct german_read as [B R].
  specialize (H _ _ _ _ _ _ B R (or_introl eq_refl) eq_refl). discriminate H.
Qed.

Lemma no_fallback :
  ~ forall o f p v script r language,
    bounded f -> reads o read_glyph_substitution f p v -> In script (scripts_records (directory_scripts v)) ->
    script_record_default_language script = Some r ->
    (forall h, In h (script_record_language_headers script) -> language_header_tag h <> language_tag language) ->
    script_record_get script (language_tag language) = Ok (Some r).
Proof.
  intros H. destruct german_read as [B R].
  specialize (H _ _ _ _ _ _ LanguageCzech B R (or_introl eq_refl) eq_refl).
  assert (X : forall h, In h (script_record_language_headers german_script) ->
    language_header_tag h <> language_tag LanguageCzech) by (intros h [<-|[]]; discriminate).
  specialize (H X). discriminate H.
Qed.

Lemma default_ignored (a b n : N) headers x y records t :
  script_record_get (mkScriptRecord a n headers x records) t =
  script_record_get (mkScriptRecord b n headers y records) t.
Proof. reflexivity. Qed.

Lemma language_found_of script :
  length (script_record_language_records script) = length (script_record_language_headers script) ->
  language_found script.
Proof.
  intros L t. destruct (proj1 (proj2 getters_get) script t) as (G1 & G2 & G3 & _).
  split; [exact G1|]. split.
  - intros r Hr. apply G2 in Hr as (i & _ & Hi). exact (nth_error_In _ _ Hi).
  - intros P. apply G3 in P as (i & ((h & Hh & _) & _) & Hi).
    assert (nth_error (script_record_language_headers script) i <> None) as X by congruence.
    apply nth_error_Some in X. lia.
Qed.

Lemma directory_languages {T} (P : N -> T -> Prop) (v : Directory T) script :
  directory_wf P v -> In script (scripts_records (directory_scripts v)) -> language_found script.
Proof.
  destruct v. intros (_ & _ & Hs & _) Hin. cbn in Hin. destruct directory_scripts. destruct Hs as (_ & _ & Hs).
  rewrite Forall_forall in Hs. apply Hs in Hin. destruct script. destruct Hin as (Hh & Hr & _).
  apply language_found_of. cbn. eapply counts_length; eassumption.
Qed.

Lemma languages_of o f p script :
  bounded f ->
  (forall v, reads o read_glyph_substitution f p v -> In script (scripts_records (directory_scripts v)) ->
    language_found script) /\
  (forall v, reads o read_glyph_positioning f p v -> In script (scripts_records (directory_scripts v)) ->
    language_found script).
Proof.
  intros B. split; intros v H; eapply directory_languages;
    [exact (request_shape RequestGsub o f p v B H)|exact (request_shape RequestGpos o f p v B H)].
Qed.
