(** Properties C07 and C69: names of tables, features and scripts. *)

From Verif Require Import ProofNames.
From Coq Require Import String.
Local Open Scope string_scope.

(** C07: a table is looked up by the name that the OpenType specification gives it. *)
Theorem C07_names this t :
  font_exists this t = true <->
  exists r, In r (offsets_records (font_offsets this)) /\ spelled (offset_record_tag r) = table_name t.
Proof. exact (exists_spelled this t). Qed.
Print Assumptions C07_names.

Example C07_example_names :
  let this := mkFont (mkOffsets (mkOffsetsHeader (Tag "O" "T" "T" "O") 1 16 0 0)
    [mkOffsetRecord (Tag "O" "S" "/" "2") 0 28 96]) in
  font_exists this TableWindowsMetrics = true /\ table_name TableWindowsMetrics = "OS/2" /\
  font_exists this TableColorPalettes = false.
Proof. repeat split. Qed.

(** C69: the numbered features. *)
Theorem C69_variants t n : (n < 100)%N -> spelled t = "cv" ++ two_digits n ->
  (feature_named (feature_from_tag t) <-> 1 <= n)%N /\
  (1 <= n -> feature_name (feature_from_tag t) = Some ("Character Variants " ++ decimal n))%N.
Proof. exact (variants_numbered t n). Qed.
Print Assumptions C69_variants.

Theorem C69_sets t n : (n < 100)%N -> spelled t = "ss" ++ two_digits n ->
  (feature_named (feature_from_tag t) <-> 1 <= n <= 20)%N /\
  (1 <= n <= 20 -> feature_name (feature_from_tag t) = Some ("Stylistic Set " ++ decimal n))%N.
Proof. exact (sets_numbered t n). Qed.
Print Assumptions C69_sets.

(** C69: names tell features apart, and scripts up to their revision. *)
Theorem C69_features v w :
  feature_named v -> feature_named w -> feature_name v = feature_name w -> v = w.
Proof. exact (feature_names_apart v w). Qed.
Print Assumptions C69_features.

Theorem C69_scripts v w :
  script_named v -> script_named w -> v <> w -> script_name v = script_name w ->
  (revised (script_tag v) /\ ~ revised (script_tag w)) \/ (~ revised (script_tag v) /\ revised (script_tag w)).
Proof. exact (script_names_apart v w). Qed.
Print Assumptions C69_scripts.

Example C69_example :
  spelled (Tag "c" "v" "0" "7") = "cv" ++ two_digits 7 /\
  feature_name (feature_from_tag (Tag "c" "v" "0" "7")) = Some "Character Variants 7" /\
  spelled (Tag "s" "s" "2" "1") = "ss" ++ two_digits 21 /\
  feature_from_tag (Tag "s" "s" "2" "1") = FeatureOther (Tag "s" "s" "2" "1") /\
  script_named ScriptTelugu /\ script_named ScriptTeluguV2 /\
    script_name ScriptTelugu = script_name ScriptTeluguV2 /\
  table_name TableColorPalettes = "CPAL".
Proof. repeat apply conj; try reflexivity; intros t; discriminate. Qed.
