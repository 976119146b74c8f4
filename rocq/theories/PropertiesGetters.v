(** Properties C64 and C65: the getters, on values from anywhere and on tables with
    several records for a tag. *)

From Verif Require Import ProofGetters ProofPalettes.

(** C64: what a getter does is determined by the first header with the tag, also if the
    fields of the table were filled in by hand. *)
Theorem C64_getters :
  (forall v, gets script_header_tag (scripts_headers v) (scripts_records v) (scripts_get v)) /\
  (forall v, gets language_header_tag (script_record_language_headers v)
    (script_record_language_records v) (script_record_get v)) /\
  (forall v, gets feature_header_tag (features_headers v) (features_records v) (features_get v)).
Proof. exact getters_get. Qed.
Print Assumptions C64_getters.

(** C64: a tag and what it is converted to find the same. *)
Theorem C64_names default_language t :
  (forall v, scripts_get v (script_tag (script_from_tag t)) = scripts_get v t) /\
  (forall v, script_record_get v (language_tag (language_from_tag default_language t)) =
    script_record_get v t) /\
  (forall v, features_get v (feature_tag (feature_from_tag t)) = features_get v t).
Proof. exact (getters_by_name default_language t). Qed.
Print Assumptions C64_names.

(** C64: what iterating over palettes does, also if their fields were filled in by hand. *)
Theorem C64_palettes debug_assertions v : steps_of debug_assertions v (color_palettes_iter debug_assertions v).
Proof. exact (palettes_step debug_assertions v). Qed.
Print Assumptions C64_palettes.

Example C64_example :
  let h := mkFeatureHeader (Tag "l" "i" "g" "a") 0 in
  let k := mkFeatureHeader (Tag "k" "e" "r" "n") 0 in
  let r := mkFeatureRecord 0 0 [] None in
  features_get (mkFeatures 2 [h; k] [r]) (feature_tag FeatureKerning) = Panic /\
  features_get (mkFeatures 2 [h; k] [r]) (Tag "l" "i" "g" "a") = Ok (Some r) /\
  features_get (mkFeatures 2 [h; k] [r]) (Tag "l" "o" "c" "l") = Ok None /\
  features_get (mkFeatures 0 [] [r]) (Tag "l" "i" "g" "a") = Ok None.
Proof. vm_compute. repeat split; reflexivity. Qed.

(** One color more than is declared: only a build with debug assertions refuses it. *)
Example C64_palettes_example :
  let v := mkColorPalettes (CpalVersion0 (mkCpalHeader0 0 2 1 1 14 [0])) [mkColor 1 2 3 4; mkColor 5 6 7 8] in
  color_palettes_iter true v = [[Some (mkColor 1 2 3 4); None]] /\
  color_palettes_iter false v = [[Some (mkColor 1 2 3 4); Some (mkColor 5 6 7 8)]].
Proof. split; reflexivity. Qed.

(** C65: "a feature of a table can be got by its tag". *)
Theorem C65_complete_refuted :
  ~ forall o f p v, bounded f -> reads o read_glyph_substitution f p v ->
    complete_get (features_records (directory_features v)) (features_get (directory_features v)).
Proof. exact features_shadowed. Qed.
Print Assumptions C65_complete_refuted.

(** C65: that is so for every tag, in every build. *)
Theorem C65_twice o t a b :
  bounded (file_of (twice t a b)) /\
  reads o read_glyph_substitution (file_of (twice t a b)) 0 (twice_table t (Byte.to_N a) (Byte.to_N b)) /\
  forall r t', features_get (directory_features (twice_table t (Byte.to_N a) (Byte.to_N b))) t' = Ok (Some r) ->
    r = mkFeatureRecord 0 1 [Byte.to_N a] None.
Proof. exact (twice_any o t a b). Qed.
Print Assumptions C65_twice.

(** C65: precisely the records whose tags do not occur before them are within reach. *)
Theorem C65_gsub o f p v :
  bounded f -> reads o read_glyph_substitution f p v ->
  reach script_header_tag (scripts_headers (directory_scripts v)) (scripts_records (directory_scripts v))
    (scripts_get (directory_scripts v)) /\
  (forall script, In script (scripts_records (directory_scripts v)) ->
    reach language_header_tag (script_record_language_headers script)
      (script_record_language_records script) (script_record_get script)) /\
  reach feature_header_tag (features_headers (directory_features v)) (features_records (directory_features v))
    (features_get (directory_features v)).
Proof. exact (gsub_reach o f p v). Qed.
Print Assumptions C65_gsub.

Theorem C65_gpos o f p v :
  bounded f -> reads o read_glyph_positioning f p v ->
  reach script_header_tag (scripts_headers (directory_scripts v)) (scripts_records (directory_scripts v))
    (scripts_get (directory_scripts v)) /\
  (forall script, In script (scripts_records (directory_scripts v)) ->
    reach language_header_tag (script_record_language_headers script)
      (script_record_language_records script) (script_record_get script)) /\
  reach feature_header_tag (features_headers (directory_features v)) (features_records (directory_features v))
    (features_get (directory_features v)).
Proof. exact (gpos_reach o f p v). Qed.
Print Assumptions C65_gpos.

(** The table of a font that comes with the repository has three features for local forms.
    They happen to have the same lookups; in [twice] they do not. *)
Example C65_example :
  holds (read_default RequestGsub source_serif_gsub) (fun v =>
    let features := directory_features v in
    map feature_header_tag (firstn 3 (skipn 30 (features_headers features))) = repeat (Tag "l" "o" "c" "l") 3 /\
    features_get features (feature_tag FeatureLocalizedForms) = Ok
      (nth_error (features_records features) 30)) /\
  reads debug_build read_glyph_substitution (file_of (twice (Tag "l" "o" "c" "l") x02 x07)) 0
    (twice_table (Tag "l" "o" "c" "l") 2 7) /\
  features_get (directory_features (twice_table (Tag "l" "o" "c" "l") 2 7)) (feature_tag FeatureLocalizedForms) =
    Ok (Some (mkFeatureRecord 0 1 [2] None)).
Proof.
  split; [vm_compute; repeat split; reflexivity|].
  split; [exact (twice_read debug_build (Tag "l" "o" "c" "l") x02 x07)|reflexivity].
Qed.
