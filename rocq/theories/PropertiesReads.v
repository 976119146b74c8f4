(** Properties C12, C29, C31-C38 and C49: what holds of every read. *)

From Verif Require Import ProofReads ProofPalettes ProofRequests Fixtures Samples.

(** C12. *)
Theorem C12_gsub o f p v t :
  bounded f -> reads o read_glyph_substitution f p v ->
  (exists found, scripts_get (directory_scripts v) t = Ok found /\
    first_match script_header_tag (scripts_headers (directory_scripts v))
      (scripts_records (directory_scripts v)) t found) /\
  (forall script, In script (scripts_records (directory_scripts v)) ->
    exists found, script_record_get script t = Ok found /\
      first_match language_header_tag (script_record_language_headers script)
        (script_record_language_records script) t found) /\
  (exists found, features_get (directory_features v) t = Ok found /\
    first_match feature_header_tag (features_headers (directory_features v))
      (features_records (directory_features v)) t found).
Proof. exact (gsub_getters o f p v t). Qed.
Print Assumptions C12_gsub.

Theorem C12_gpos o f p v t :
  bounded f -> reads o read_glyph_positioning f p v ->
  (exists found, scripts_get (directory_scripts v) t = Ok found /\
    first_match script_header_tag (scripts_headers (directory_scripts v))
      (scripts_records (directory_scripts v)) t found) /\
  (forall script, In script (scripts_records (directory_scripts v)) ->
    exists found, script_record_get script t = Ok found /\
      first_match language_header_tag (script_record_language_headers script)
        (script_record_language_records script) t found) /\
  (exists found, features_get (directory_features v) t = Ok found /\
    first_match feature_header_tag (features_headers (directory_features v))
      (features_records (directory_features v)) t found).
Proof. exact (gpos_getters o f p v t). Qed.
Print Assumptions C12_gpos.

(** Five features have each tag; the first one is returned. *)
Example C12_example :
  exists v, reads debug_build read_glyph_substitution (file_of source_serif_gsub) 0 v /\
    is_some (scripts_get (directory_scripts v) (Tag "l" "a" "t" "n")) = true /\
    scripts_get (directory_scripts v) (Tag "c" "y" "r" "l") = Ok None /\
    features_get (directory_features v) (Tag "c" "a" "s" "e") =
      Ok (nth_error (features_records (directory_features v)) 5) /\
    option_map feature_header_tag (nth_error (features_headers (directory_features v)) 6) =
      Some (Tag "c" "a" "s" "e").
Proof. apply (table_of_holds debug_build RequestGsub). vm_compute. repeat split. Qed.

(** C29. *)
Theorem C29_palettes o f p v debug_assertions :
  bounded f -> reads o read_color_palettes f p v ->
  palettes_of v (color_palettes_iter debug_assertions v).
Proof. exact (cpal_iter o f p v debug_assertions). Qed.
Print Assumptions C29_palettes.

(** C29: all colors of all palettes can be asked for exactly if each palette starts at
    least as many colors before the end as it has entries. *)
Theorem C29_safe o f p v debug_assertions :
  bounded f -> reads o read_color_palettes f p v ->
  (forall palette, In palette (color_palettes_iter debug_assertions v) -> ~ In None palette) <->
  let '(entry_count, color_count, _, color_indices) := cpal_layout (color_palettes_header v) in
  forall first, In first color_indices -> entry_count = 0 \/ first + entry_count <= color_count.
Proof. exact (palettes_safe o f p v debug_assertions). Qed.
Print Assumptions C29_safe.

Example C29_example :
  reads debug_build read_color_palettes (file_of sample_cpal) 0 sample_colors /\
  color_palettes_iter true sample_colors = [[Some (mkColor 4 5 6 255); Some (mkColor 7 8 9 255)]].
Proof. split; [eexists|]; vm_compute; reflexivity. Qed.

(** C31. *)
Theorem C31_shape {A} (r : request A) o f p v :
  bounded f -> reads o (reader r) f p v -> well_formed o r v.
Proof. exact (request_shape r o f p v). Qed.
Print Assumptions C31_shape.

Example C31_example :
  exists v, reads debug_build read_glyph_positioning (file_of crimson_text_gpos) 0 v /\
    length (lookups_records (directory_lookups v)) = 5%nat.
Proof. apply (table_of_holds debug_build RequestGpos). vm_compute. reflexivity. Qed.

(** C32. *)
Theorem C32_reads {A} (r : request A) o f p :
  bounded f -> is_gdef r = false \/ overflow_checks o = false -> ~ panics o (reader r) f p.
Proof. exact (request_no_panic r o f p). Qed.
Print Assumptions C32_reads.

Theorem C32_takes {A} (r : request A) d o this t f p :
  bounded f -> is_gdef r = false \/ overflow_checks o = false ->
  (forall record, record_checksum d f record <> Panic) ->
  ~ panics o (font_take d this t (reader r)) f p.
Proof. exact (font_take_no_panic r d o this t f p). Qed.
Print Assumptions C32_takes.

Example C32_example :
  bounded sample_file /\ is_gdef RequestCpal = false /\
  (forall record, record_checksum sample_deps sample_file record <> Panic) /\
  reads debug_build (font_take sample_deps sample_font TableColorPalettes read_color_palettes) sample_file 0
    (Some sample_colors) /\
  fails debug_build read_color_palettes (file_of (firstn 20 sample_cpal)) 0.
Proof.
  split; [apply file_of_bounded; vm_compute; discriminate|]. split; [reflexivity|].
  split; [discriminate|]. split; eexists; vm_compute; reflexivity.
Qed.

(** C33.  Reading GDEF panics in builds with overflow checks, exactly so. *)
Theorem C33_panics_exactly o f p : bounded f ->
  (panics o read_glyph_definition f p <->
   overflow_checks o = true /\ glyph_definition_overflows o f p).
Proof. exact (gdef_panics o f p). Qed.
Print Assumptions C33_panics_exactly.

Theorem C33_release_partial o f p :
  bounded f -> overflow_checks o = false -> ~ panics o read_glyph_definition f p.
Proof. exact (fun Hb Ho => request_no_panic RequestGdef o f p Hb (or_intror Ho)). Qed.
Print Assumptions C33_release_partial.

Theorem C33_never_panics_refuted :
  ~ forall o f p, bounded f -> ~ panics o read_glyph_definition f p.
Proof. exact gdef_never_panics_fails. Qed.
Print Assumptions C33_never_panics_refuted.

Example C33_example :
  bounded (file_of overflowing_gdef) /\
  panics debug_build read_glyph_definition (file_of overflowing_gdef) 0 /\
  reads release_build read_glyph_definition (file_of overflowing_gdef) 0 overflowing_definition.
Proof.
  split; [apply file_of_bounded; vm_compute; discriminate|].
  split; [|eexists]; vm_compute; reflexivity.
Qed.

(** C34. *)
Theorem C34_errors {A} (r : request A) o f p :
  bounded f -> is_gdef r = false \/ overflow_checks o = false ->
  (fails o (reader r) f p <-> ~ exists v, conforms o r f p v).
Proof. exact (request_fails r o f p). Qed.
Print Assumptions C34_errors.

Theorem C34_gdef_errors o f p : bounded f ->
  (fails o read_glyph_definition f p <->
   (forall v, ~ glyph_definition_at o f p v) /\
   ~ (overflow_checks o = true /\ glyph_definition_overflows o f p)).
Proof. exact (gdef_fails o f p). Qed.
Print Assumptions C34_gdef_errors.

Theorem C34_unique {A} (r : request A) o f p v w :
  bounded f -> conforms o r f p v -> conforms o r f p w -> v = w.
Proof. exact (request_unique r o f p v w). Qed.
Print Assumptions C34_unique.

Example C34_example :
  fails debug_build read_glyph_substitution (file_of londrina_solid_gsub) 0 /\
  fails debug_build read_glyph_definition (words [1; 1; 0; 0; 0; 0]) 0 /\
  conforms debug_build RequestCpal (file_of sample_cpal) 0 sample_colors.
Proof.
  split; [eexists; vm_compute; reflexivity|]. split; [eexists; vm_compute; reflexivity|].
  apply (request_reads RequestCpal); [apply file_of_bounded; vm_compute; discriminate|].
  eexists. vm_compute. reflexivity.
Qed.

(** C35. *)
Theorem C35_appended {A} (r : request A) o l more p v :
  reads o (reader r) (file_of l) p v -> reads o (reader r) (file_of (l ++ more)) p v.
Proof. exact (request_appended r o l more p v). Qed.
Print Assumptions C35_appended.

Theorem C35_truncated {A} (r : request A) o n l p v :
  reads o (reader r) (file_of l) p v ->
  reads o (reader r) (file_of (firstn n l)) p v \/
  reader r (mkEnv (file_of (firstn n l)) o) p = Err UnexpectedEnd.
Proof. exact (request_truncated r o n l p v). Qed.
Print Assumptions C35_truncated.

Theorem C35_hopeless {A} (r : request A) o l more p x :
  reader r (mkEnv (file_of l) o) p = Err x -> x <> UnexpectedEnd ->
  reader r (mkEnv (file_of (l ++ more)) o) p = Err x.
Proof. exact (request_hopeless r o l more p x). Qed.
Print Assumptions C35_hopeless.

(** C35 for bytes that are missing anywhere: [f] and [g] agree wherever [f] has a byte. *)
Theorem C35_holes {A} (r : request A) o f g p :
  (forall q b, f q = Some b -> g q = Some b) ->
  reader r (mkEnv f o) p = reader r (mkEnv g o) p \/ reader r (mkEnv f o) p = Err UnexpectedEnd.
Proof. exact (request_holes r o f g p). Qed.
Print Assumptions C35_holes.

Example C35_example :
  reads debug_build (reader RequestCpal) (file_of sample_cpal) 0 sample_colors /\
  reader RequestCpal (mkEnv (file_of (firstn 25 sample_cpal)) debug_build) 0 = Err UnexpectedEnd /\
  reader RequestCpal (mkEnv (words [2]) debug_build) 0 = Err UnknownVersion.
Proof. split; [eexists|split]; vm_compute; reflexivity. Qed.

(** C36. *)
Theorem C36_relocatable {A} (r : request A) o prefix l p :
  N.of_nat (length (prefix ++ l)) <= 2 ^ 63 ->
  (forall v, reads o (reader r) (file_of (prefix ++ l)) (N.of_nat (length prefix) + p) v <->
             reads o (reader r) (file_of l) p v) /\
  (fails o (reader r) (file_of (prefix ++ l)) (N.of_nat (length prefix) + p) <->
   fails o (reader r) (file_of l) p) /\
  (panics o (reader r) (file_of (prefix ++ l)) (N.of_nat (length prefix) + p) <->
   panics o (reader r) (file_of l) p).
Proof. exact (request_prefix r o prefix l p). Qed.
Print Assumptions C36_relocatable.

Example C36_example :
  N.of_nat (length (be16 7 ++ sample_cpal)) <= 2 ^ 63 /\
  reads debug_build (reader RequestCpal) (file_of (be16 7 ++ sample_cpal)) 2 sample_colors.
Proof. split; [vm_compute; discriminate|]. eexists. vm_compute. reflexivity. Qed.

(** C37. *)
Theorem C37_gsub_complete o f p :
  bounded f -> offsets_present f p ->
  (forall v, reads (with_directories true o) read_glyph_substitution f p v <->
             reads (with_directories false o) read_glyph_substitution f p v) /\
  (fails (with_directories true o) read_glyph_substitution f p <->
   fails (with_directories false o) read_glyph_substitution f p).
Proof. exact (gsub_builds o f p). Qed.
Print Assumptions C37_gsub_complete.

Theorem C37_gpos_complete o f p :
  bounded f -> offsets_present f p ->
  (forall v, reads (with_directories true o) read_glyph_positioning f p v <->
             reads (with_directories false o) read_glyph_positioning f p v) /\
  (fails (with_directories true o) read_glyph_positioning f p <->
   fails (with_directories false o) read_glyph_positioning f p).
Proof. exact (gpos_builds o f p). Qed.
Print Assumptions C37_gpos_complete.

Theorem C37_gsub_missing o f p v :
  bounded f -> reads (with_directories true o) read_glyph_substitution f p v ->
  (directory_script_offset v = 0 -> directory_scripts v = mkScripts 0 [] []) /\
  (directory_feature_offset v = 0 -> directory_features v = mkFeatures 0 [] []) /\
  (directory_lookup_offset v = 0 -> directory_lookups v = mkLookups 0 [] []).
Proof. exact (gsub_missing o f p v). Qed.
Print Assumptions C37_gsub_missing.

Theorem C37_gpos_missing o f p v :
  bounded f -> reads (with_directories true o) read_glyph_positioning f p v ->
  (directory_script_offset v = 0 -> directory_scripts v = mkScripts 0 [] []) /\
  (directory_feature_offset v = 0 -> directory_features v = mkFeatures 0 [] []) /\
  (directory_lookup_offset v = 0 -> directory_lookups v = mkLookups 0 [] []).
Proof. exact (gpos_missing o f p v). Qed.
Print Assumptions C37_gpos_missing.

Theorem C37_gsub_empty o f p :
  bounded f ->
  u16_at f p 1 -> u16_at f (p + 2) 0 -> u16_at f (p + 4) 0 -> u16_at f (p + 6) 0 -> u16_at f (p + 8) 0 ->
  reads (with_directories true o) read_glyph_substitution f p
    (mkDirectory 1 0 0 0 0 0 (mkScripts 0 [] []) (mkFeatures 0 [] []) (mkLookups 0 [] []) None).
Proof. exact (gsub_empty o f p). Qed.
Print Assumptions C37_gsub_empty.

Theorem C37_gpos_empty o f p :
  bounded f ->
  u16_at f p 1 -> u16_at f (p + 2) 0 -> u16_at f (p + 4) 0 -> u16_at f (p + 6) 0 -> u16_at f (p + 8) 0 ->
  reads (with_directories true o) read_glyph_positioning f p
    (mkDirectory 1 0 0 0 0 0 (mkScripts 0 [] []) (mkFeatures 0 [] []) (mkLookups 0 [] []) None).
Proof. exact (gpos_empty o f p). Qed.
Print Assumptions C37_gpos_empty.

(** A missing feature list; a font without any list, which the default build refuses. *)
Example C37_example :
  reads (with_directories true debug_build) read_glyph_substitution (file_of partial_gsub) 0
    (mkDirectory 1 0 10 0 12 0 (mkScripts 0 [] []) (mkFeatures 0 [] []) (mkLookups 0 [] []) None) /\
  (exists v, reads (with_directories true debug_build) read_glyph_substitution
    (file_of londrina_solid_gsub) 0 v) /\
  fails (with_directories false debug_build) read_glyph_substitution (file_of londrina_solid_gsub) 0.
Proof. split; [|split]; repeat eexists; vm_compute; reflexivity. Qed.

(** A table with all three lists. *)
Example C37_example_complete :
  let f := words [1; 0; 10; 10; 10; 0] in
  bounded f /\ offsets_present f 0 /\ exists v,
    reads (with_directories true debug_build) read_glyph_substitution f 0 v.
Proof.
  intros f. split; [apply file_of_bounded; vm_compute; discriminate|].
  split; [|eexists _, _; vm_compute; reflexivity].
  repeat split; intros (a & b & Ha & Hb & E); vm_compute in Ha, Hb; injection Ha as <-;
    injection Hb as <-; discriminate E.
Qed.

(** An empty one. *)
Example C37_example_empty :
  let f := words [1; 0; 0; 0; 0] in
  bounded f /\ u16_at f 0 1 /\ u16_at f 2 0 /\ u16_at f 4 0 /\ u16_at f 6 0 /\ u16_at f 8 0.
Proof. split; [apply file_of_bounded; vm_compute; discriminate|]. repeat split; eexists _, _; repeat split. Qed.

(** C38. *)
Theorem C38_complete_arrays o f p :
  bounded f -> (forall n i, u16_at f p n -> i < n -> ~ u16_at f (p + 2 + 4 * i + 2) 0) ->
  (forall v, reads (with_marks true o) read_mark1s f p v <-> reads (with_marks false o) read_mark1s f p v) /\
  (fails (with_marks true o) read_mark1s f p <-> fails (with_marks false o) read_mark1s f p).
Proof. exact (mark1s_same o f p). Qed.
Print Assumptions C38_complete_arrays.

Theorem C38_complete_tables o f p v :
  bounded f -> (forall m, has_mark v m -> mark1_anchor_offset m <> 0) ->
  (reads (with_marks true o) read_glyph_positioning f p v <->
   reads (with_marks false o) read_glyph_positioning f p v).
Proof. exact (gpos_marks o f p v). Qed.
Print Assumptions C38_complete_tables.

Theorem C38_missing_anchors o f p v m :
  bounded f -> reads (with_marks true o) read_glyph_positioning f p v -> has_mark v m ->
  mark1_anchor_offset m = 0 -> mark1_anchor m = AnchorFormat1 (mkAnchor1 0 0 0).
Proof. exact (gpos_mark_missing o f p v m). Qed.
Print Assumptions C38_missing_anchors.

(** The second mark has its anchor at 10; in the default build that of the first one is
    looked for at 0, which is the array itself. *)
Example C38_example :
  reads (with_marks true debug_build) read_mark1s (file_of partial_marks) 0
    (mkMark1s 2 [mkMark1 1 0 (AnchorFormat1 (mkAnchor1 0 0 0));
      mkMark1 2 10 (AnchorFormat1 (mkAnchor1 1 7 8))]) /\
  reads (with_marks false debug_build) read_mark1s (file_of partial_marks) 0
    (mkMark1s 2 [mkMark1 1 0 (AnchorFormat2 (mkAnchor2 2 1 0 2));
      mkMark1 2 10 (AnchorFormat1 (mkAnchor1 1 7 8))]).
Proof. split; eexists; vm_compute; reflexivity. Qed.

(** An array without missing anchors; a table with one. *)
Example C38_example_anchors :
  let f := words [1; 7; 6; 1; 3; 4] in
  let g := words
    [1; 0; 10; 12; 14; 0; 0; 1; 4; 4; 0; 1; 8; 1; 12; 12; 1; 18; 30; 1; 1; 7; 1; 0; 0; 1; 3; 4; 1;
      4; 1; 5; 6] in
  bounded f /\ (forall n i, u16_at f 0 n -> i < n -> ~ u16_at f (0 + 2 + 4 * i + 2) 0) /\
  bounded g /\ exists v m, reads (with_marks true debug_build) read_glyph_positioning g 0 v /\
    has_mark v m /\ mark1_anchor_offset m = 0.
Proof.
  intros f g. split; [apply file_of_bounded; vm_compute; discriminate|]. split.
  { intros n i (a & b & Ha & Hb & E) L. vm_compute in Ha, Hb. injection Ha as <-.
  injection Hb as <-. vm_compute in E. subst n.
    assert (i = 0) as -> by lia. intros (a & b & Ha & Hb & E). vm_compute in Ha, Hb.
    injection Ha as <-. injection Hb as <-. discriminate E. }
  split; [apply file_of_bounded; vm_compute; discriminate|].
  do 2 eexists. split; [eexists; vm_compute; reflexivity|]. split.
  - do 2 eexists. split; [left; reflexivity|]. split; [left; reflexivity|]. left. reflexivity.
  - reflexivity.
Qed.

(** C49. *)
Theorem C49_same_result {A} (r : request A) o f p : bounded f -> is_gdef r = false ->
  reader r (mkEnv f (with_overflow true o)) p = reader r (mkEnv f (with_overflow false o)) p.
Proof. exact (request_checks r o f p). Qed.
Print Assumptions C49_same_result.

Theorem C49_same_or_panic {A} (r : request A) o f p :
  reader r (mkEnv f (with_overflow true o)) p = reader r (mkEnv f (with_overflow false o)) p \/
  reader r (mkEnv f (with_overflow true o)) p = Panic.
Proof. exact (request_unchecked r o f p). Qed.
Print Assumptions C49_same_or_panic.

Theorem C49_gdef o f p v : bounded f -> reads (with_overflow false o) read_glyph_definition f p v ->
  (counts_fit v -> reads (with_overflow true o) read_glyph_definition f p v) /\
  (~ counts_fit v -> panics (with_overflow true o) read_glyph_definition f p).
Proof. exact (gdef_same o f p v). Qed.
Print Assumptions C49_gdef.

Example C49_example :
  reads (with_overflow false debug_build) read_glyph_definition (file_of overflowing_gdef) 0
    overflowing_definition /\
  ~ counts_fit overflowing_definition /\
  (exists v, reads (with_overflow false debug_build) read_glyph_definition (file_of adobe_vf_gdef) 0 v /\
    counts_fit v).
Proof.
  split; [eexists; vm_compute; reflexivity|]. split.
  - intros H. inversion H as [|? ? E]. vm_compute in E. discriminate E.
  - apply (table_of_holds (with_overflow false debug_build) RequestGdef). vm_compute. exact I.
Qed.
