(** Properties C13-C28 and C30: the values read are exactly those in the bytes. *)

From Verif Require Import ProofFormats Fixtures Samples.
From Coq Require Import Lia.

(** C13. *)
Theorem C13_coverage o f p : reads_exactly o read_coverage f p (coverage_at f p).
Proof. exact (coverage_exactly o f p). Qed.
Print Assumptions C13_coverage.

Theorem C13_other_formats o f p x : u16_at f p x -> x <> 1 -> x <> 2 -> fails o read_coverage f p.
Proof. exact (coverage_other o f p x). Qed.
Print Assumptions C13_other_formats.

Example C13_example :
  reads debug_build read_coverage (words [9; 1; 2; 7; 9]) 2 (CoverageFormat1 (mkCoverage1 1 2 [7; 9])) /\
  reads debug_build read_coverage (words [2; 1; 3; 5; 0]) 0
    (CoverageFormat2 (mkCoverage2 2 1 [mkCoverageRecord 3 5 0])) /\
  u16_at (words [9; 1; 2; 7; 9]) 0 9.
Proof. split; [|split]; repeat eexists; vm_compute; reflexivity. Qed.

(** Another format. *)
Example C13_example_other : fails debug_build read_coverage (words [3; 1; 7]) 0.
Proof.
  apply (C13_other_formats debug_build (words [3; 1; 7]) 0 3); [eexists _, _; vm_compute; repeat split|lia|lia].
Qed.

(** C14. *)
Theorem C14_class o f p : reads_exactly o read_class f p (class_at f p).
Proof. exact (class_exactly o f p). Qed.
Print Assumptions C14_class.

Theorem C14_other_formats o f p x : u16_at f p x -> x <> 1 -> x <> 2 -> fails o read_class f p.
Proof. exact (class_other o f p x). Qed.
Print Assumptions C14_other_formats.

Example C14_example :
  reads debug_build read_class (words [9; 1; 10; 2; 4; 5]) 2 (ClassFormat1 (mkClass1 1 10 2 [4; 5])) /\
  reads debug_build read_class (words [2; 1; 3; 5; 7]) 0
    (ClassFormat2 (mkClass2 2 1 [mkClassRecord 3 5 7])) /\
  u16_at (words [0; 1]) 0 0.
Proof. split; [|split]; repeat eexists; vm_compute; reflexivity. Qed.

Example C14_example_other : fails debug_build read_class (words [0; 1; 1; 7]) 0.
Proof.
  apply (C14_other_formats debug_build (words [0; 1; 1; 7]) 0 0); [eexists _, _; vm_compute; repeat split|lia|lia].
Qed.

(** C15. *)
Theorem C15_correction o f p : reads_exactly o read_correction f p (correction_at f p).
Proof. exact (correction_exactly o f p). Qed.
Print Assumptions C15_correction.

Theorem C15_other_formats o f p x :
  u16_at f (p + 4) x -> ~ 1 <= x <= 3 -> x <> 0x8000 -> fails o read_correction f p.
Proof. exact (correction_other o f p x). Qed.
Print Assumptions C15_other_formats.

Example C15_example :
  reads debug_build read_correction (words [12; 16; 2; 4660; 22136]) 0
    (CorrectionDevice (mkDevice 12 16 2 [4660; 22136])) /\
  reads debug_build read_correction (words [12; 16; 0x8000]) 0
    (CorrectionVariation (mkVariation 12 16 0x8000)) /\
  fails debug_build read_correction (words [16; 12; 2; 0; 0]) 0 /\
  fails debug_build read_correction (words [12; 16; 4; 0; 0; 0; 0; 0; 0]) 0.
Proof. repeat split; eexists; vm_compute; reflexivity. Qed.

Example C15_example_other : fails debug_build read_correction (words [12; 16; 0x8001; 0; 0]) 0.
Proof.
  apply (C15_other_formats debug_build (words [12; 16; 0x8001; 0; 0]) 0 0x8001);
    [eexists _, _; vm_compute; repeat split|lia|lia].
Qed.

(** C16. *)
Theorem C16_context o f p : bounded f -> reads_exactly o read_context f p (context_at f p).
Proof. exact (context_exactly o f p). Qed.
Print Assumptions C16_context.

Theorem C16_other_formats o f p x :
  bounded f -> u16_at f p x -> ~ 1 <= x <= 3 -> fails o read_context f p.
Proof. exact (fun Hb => context_other o f p Hb x). Qed.
Print Assumptions C16_other_formats.

Example C16_example :
  reads debug_build read_context (words [1; 8; 1; 14; 1; 1; 5; 1; 4; 2; 1; 6; 0; 3]) 0
    (ContextFormat1 (mkContext1 1 8 1 [14] (CoverageFormat1 (mkCoverage1 1 1 [5]))
      [mkContextRecords 1 [4] [mkContextRecord 2 1 [6] [mkAction 0 3]]])).
Proof. eexists. vm_compute. reflexivity. Qed.

(** Another format. *)
Example C16_example_other :
  fails debug_build read_context (words [4; 8; 0]) 0.
Proof.
  apply (C16_other_formats debug_build (words [4; 8; 0]) 0 4).
  - apply file_of_bounded. vm_compute. discriminate.
  - eexists _, _. vm_compute. repeat split.
  - lia.
Qed.

(** C17. *)
Theorem C17_chained_context o f p :
  bounded f -> reads_exactly o read_chained_context f p (chained_context_at f p).
Proof. exact (chained_context_exactly o f p). Qed.
Print Assumptions C17_chained_context.

Theorem C17_other_formats o f p x :
  bounded f -> u16_at f p x -> ~ 1 <= x <= 3 -> fails o read_chained_context f p.
Proof. exact (fun Hb => chained_context_other o f p Hb x). Qed.
Print Assumptions C17_other_formats.

Example C17_example :
  reads debug_build read_chained_context (words [3; 1; 20; 1; 26; 0; 1; 0; 5; 9; 1; 1; 5; 1; 1; 6]) 0
    (ChainedContextFormat3 (mkChainedContext3 3 1 [20] 1 [26] 0 [] 1 [mkAction 0 5]
      [CoverageFormat1 (mkCoverage1 1 1 [5])] [CoverageFormat1 (mkCoverage1 1 1 [6])] [])).
Proof. eexists. vm_compute. reflexivity. Qed.

(** Another format. *)
Example C17_example_other :
  fails debug_build read_chained_context (words [0; 8; 0]) 0.
Proof.
  apply (C17_other_formats debug_build (words [0; 8; 0]) 0 0).
  - apply file_of_bounded. vm_compute. discriminate.
  - eexists _, _. vm_compute. repeat split.
  - lia.
Qed.

(** C18. *)
Theorem C18_scripts o f p : bounded f -> reads_exactly o read_scripts f p (scripts_at f p).
Proof. exact (scripts_exactly o f p). Qed.
Print Assumptions C18_scripts.

Example C18_example :
  reads debug_build read_scripts
    (words [1; 27745; 29806; 8; 10; 1; 21586; 19232; 18; 0; 0xFFFF; 1; 4; 0; 1; 0]) 0
    (mkScripts 1 [mkScriptHeader (Tag "l" "a" "t" "n") 8]
      [mkScriptRecord 10 1 [mkLanguageHeader (Tag "T" "R" "K" " ") 18]
        (Some (mkLanguageRecord 0 0xFFFF 1 [4])) [mkLanguageRecord 0 1 0 []]]).
Proof. eexists. vm_compute. reflexivity. Qed.

(** C19. *)
Theorem C19_features o f p : bounded f -> reads_exactly o read_features f p (features_at f p).
Proof. exact (features_exactly o f p). Qed.
Print Assumptions C19_features.

Example C19_example :
  reads debug_build read_features (words [1; 27493; 29294; 8; 0; 2; 3; 4]) 0
    (mkFeatures 1 [mkFeatureHeader (Tag "k" "e" "r" "n") 8] [mkFeatureRecord 0 2 [3; 4] None]).
Proof. eexists. vm_compute. reflexivity. Qed.

(** C20: for any kind of subtable. *)
Theorem C20_lookups {T} o (read_table : N -> M T) (table_at : N -> file -> N -> T -> Prop) f p :
  bounded f ->
  (forall type_ q, reads_exactly o (read_table type_) f q (table_at type_ f q)) ->
  reads_exactly o (read_lookups read_table) f p (lookups_at o table_at f p).
Proof. exact (lookups_exactly o read_table table_at f p). Qed.
Print Assumptions C20_lookups.

(** In particular for those of [GSUB] and [GPOS]. *)
Theorem C20_gsub_lookups o f p :
  bounded f -> reads_exactly o (read_lookups read_gsub_type) f p (lookups_at o gsub_type_at f p).
Proof. exact (gsub_lookups_exactly o f p). Qed.
Print Assumptions C20_gsub_lookups.

Theorem C20_gpos_lookups o f p :
  bounded f -> reads_exactly o (read_lookups read_gpos_type) f p (lookups_at o (gpos_type_at o) f p).
Proof. exact (gpos_lookups_exactly o f p). Qed.
Print Assumptions C20_gpos_lookups.

Example C20_example :
  reads debug_build (read_lookups read_gsub_type)
    (words [1; 4; 1; 0x10; 1; 10; 7; 1; 6; 3; 1; 1; 5]) 0
    (mkLookups 1 [4] [mkLookupRecord 1 0x10 1 [10] (Some 7)
      [GsubSingleSubstitution (SingleSubstitutionFormat1
        (mkSingleSubstitution1 1 6 3 (CoverageFormat1 (mkCoverage1 1 1 [5]))))]]).
Proof. eexists. vm_compute. reflexivity. Qed.

Example C20_example_gpos :
  reads debug_build (read_lookups read_gpos_type) (words [1; 4; 9; 0; 1; 8; 1; 3; 0; 12]) 0
    (mkLookups 1 [4] [mkLookupRecord 9 0 1 [8] None [GposExtensionPositioning (mkExtensionPositioning 1 3 12)]]).
Proof. eexists. vm_compute. reflexivity. Qed.

(** C21. *)
Theorem C21_gsub_type o f p type_ :
  bounded f -> reads_exactly o (read_gsub_type type_) f p (gsub_type_at type_ f p).
Proof. exact (fun Hb => gsub_type_exactly o f p Hb type_). Qed.
Print Assumptions C21_gsub_type.

Theorem C21_other_types o f p type_ :
  bounded f -> ~ 1 <= type_ <= 8 -> fails o (read_gsub_type type_) f p.
Proof. exact (fun Hb => gsub_type_other o f p Hb type_). Qed.
Print Assumptions C21_other_types.

Example C21_example :
  reads debug_build (read_gsub_type 4) (words [1; 8; 1; 14; 1; 1; 5; 1; 4; 99; 3; 6; 7]) 0
    (GsubLigatureSubstitution (mkLigatureSubstitution 1 8 1 [14] (CoverageFormat1 (mkCoverage1 1 1 [5]))
      [mkLigatures 1 [4] [mkLigature 99 3 [6; 7]]])).
Proof. eexists. vm_compute. reflexivity. Qed.

(** Another type. *)
Example C21_example_other : fails debug_build (read_gsub_type 9) (words [1; 8; 0]) 0.
Proof.
  apply (C21_other_types debug_build (words [1; 8; 0]) 0 9); [|lia].
  apply file_of_bounded. vm_compute. discriminate.
Qed.

(** C22. *)
Theorem C22_gpos_type o f p type_ :
  bounded f -> reads_exactly o (read_gpos_type type_) f p (gpos_type_at o type_ f p).
Proof. exact (fun Hb => gpos_type_exactly o f p Hb type_). Qed.
Print Assumptions C22_gpos_type.

Theorem C22_other_types o f p type_ :
  bounded f -> ~ 1 <= type_ <= 9 -> fails o (read_gpos_type type_) f p.
Proof. exact (fun Hb => gpos_type_other o f p Hb type_). Qed.
Print Assumptions C22_other_types.

Example C22_example :
  reads debug_build (read_gpos_type 4)
    (words [1; 12; 18; 2; 24; 36; 1; 1; 5; 1; 1; 6; 1; 0; 6; 1; 10; 20; 1; 0; 6; 1; 11; 21]) 0
    (GposMarkToBaseAttachment (mkMarkToBaseAttachment 1 12 18 2 24 36
      (CoverageFormat1 (mkCoverage1 1 1 [5])) (CoverageFormat1 (mkCoverage1 1 1 [6]))
      (mkMark1s 1 [mkMark1 0 6 (AnchorFormat1 (mkAnchor1 1 10 20))])
      (mkBases 1 [mkBase [0; 6] [None; Some (AnchorFormat1 (mkAnchor1 1 11 21))]]))).
Proof. eexists. vm_compute. reflexivity. Qed.

(** Another type. *)
Example C22_example_other : fails debug_build (read_gpos_type 10) (words [1; 8; 0]) 0.
Proof.
  apply (C22_other_types debug_build (words [1; 8; 0]) 0 10); [|lia].
  apply file_of_bounded. vm_compute. discriminate.
Qed.

(** C23. *)
Theorem C23_value_record o f p base flags :
  base < 2 ^ 63 -> reads_exactly o (read_single base flags) f p (single_at f base flags p).
Proof. exact (fun Hs => single_exactly o f p base flags Hs). Qed.
Print Assumptions C23_value_record.

Theorem C23_value_size o f p base flags v q :
  base < 2 ^ 63 -> read_single base flags (mkEnv f o) p = Ok (v, q) -> q = p + value_size flags.
Proof. exact (single_size o f p base flags v q). Qed.
Print Assumptions C23_value_size.

Example C23_example :
  read_single 0 0x54 (mkEnv (words [9; 30; 8; 0; 1; 2; 0x8000]) debug_build) 2 =
    Ok (mkSingle None None (Some 30%Z) None (Some 8) None (Some 0) None
      (Some (CorrectionVariation (mkVariation 1 2 0x8000))) None None None, 8) /\
  value_size 0x54 = 6.
Proof. vm_compute. split; reflexivity. Qed.

(** C24. *)
Theorem C24_marks o f p : bounded f -> reads_exactly o read_mark1s f p (mark1s_at o f p).
Proof. exact (mark1s_exactly o f p). Qed.
Print Assumptions C24_marks.

Theorem C24_bases o f p n : bounded f -> reads_exactly o (read_bases n) f p (bases_at f n p).
Proof. exact (fun Hb => bases_exactly o f p Hb n). Qed.
Print Assumptions C24_bases.

Theorem C24_ligatures o f p n :
  bounded f -> reads_exactly o (read_gpos_ligatures n) f p (gpos_ligatures_at f n p).
Proof. exact (fun Hb => ligatures_exactly o f p Hb n). Qed.
Print Assumptions C24_ligatures.

Theorem C24_second_marks o f p n : bounded f -> reads_exactly o (read_mark2s n) f p (mark2s_at f n p).
Proof. exact (fun Hb => mark2s_exactly o f p Hb n). Qed.
Print Assumptions C24_second_marks.

Example C24_example :
  reads debug_build (read_bases 2) (words [2; 0; 10; 10; 0; 1; 11; 21]) 0
    (mkBases 2 [mkBase [0; 10] [None; Some (AnchorFormat1 (mkAnchor1 1 11 21))];
      mkBase [10; 0] [Some (AnchorFormat1 (mkAnchor1 1 11 21)); None]]).
Proof. eexists. vm_compute. reflexivity. Qed.

(** Marks of two classes, a ligature of two components, and a second mark. *)
Example C24_example_arrays :
  reads debug_build read_mark1s (words [2; 1; 10; 0; 16; 1; 7; 8; 1; 5; 6]) 0
    (mkMark1s 2 [mkMark1 1 10 (AnchorFormat1 (mkAnchor1 1 7 8)); mkMark1 0 16 (AnchorFormat1 (mkAnchor1 1 5 6))]) /\
  reads debug_build (read_gpos_ligatures 1) (words [1; 4; 2; 0; 6; 2; 3; 4; 5]) 0
    (mkGposLigatures 1 [4] [mkGposLigature 2 [mkComponent [0] [None];
      mkComponent [6] [Some (AnchorFormat2 (mkAnchor2 2 3 4 5))]]]) /\
  reads debug_build (read_mark2s 2) (words [1; 6; 0; 1; 7; 8]) 0
    (mkMark2s 1 [mkMark2 [6; 0] [Some (AnchorFormat1 (mkAnchor1 1 7 8)); None]]).
Proof. split; [|split]; eexists; vm_compute; reflexivity. Qed.

(** C25. *)
Theorem C25_gsub o f p :
  bounded f -> reads_exactly o read_glyph_substitution f p (glyph_substitution_at o f p).
Proof. exact (fun Hb => request_exactly o f p Hb RequestGsub (or_introl eq_refl)). Qed.
Print Assumptions C25_gsub.

Theorem C25_gpos o f p :
  bounded f -> reads_exactly o read_glyph_positioning f p (glyph_positioning_at o f p).
Proof. exact (fun Hb => request_exactly o f p Hb RequestGpos (or_introl eq_refl)). Qed.
Print Assumptions C25_gpos.

Theorem C25_gsub_versions o f p x :
  bounded f -> u32_at f p x -> x <> 0x10000 -> x <> 0x10001 -> fails o read_glyph_substitution f p.
Proof. exact (fun Hb => gsub_version o f p Hb x). Qed.
Print Assumptions C25_gsub_versions.

Theorem C25_gpos_versions o f p x :
  bounded f -> u32_at f p x -> x <> 0x10000 -> x <> 0x10001 -> fails o read_glyph_positioning f p.
Proof. exact (fun Hb => gpos_version o f p Hb x). Qed.
Print Assumptions C25_gpos_versions.

(** Real tables: 19 and 1 lookups. *)
Example C25_example :
  (exists v, reads debug_build read_glyph_substitution (file_of source_serif_gsub) 0 v /\
    length (lookups_records (directory_lookups v)) = 19%nat) /\
  (exists v, reads debug_build read_glyph_positioning (file_of source_serif_gpos) 0 v /\
    length (lookups_records (directory_lookups v)) = 1%nat) /\
  bounded (file_of source_serif_gsub) /\ bounded (file_of source_serif_gpos).
Proof.
  split; [|split].
  - apply (table_of_holds debug_build RequestGsub). vm_compute. reflexivity.
  - apply (table_of_holds debug_build RequestGpos). vm_compute. reflexivity.
  - split; apply file_of_bounded; vm_compute; discriminate.
Qed.

(** Another version. *)
Example C25_example_versions :
  fails debug_build read_glyph_substitution (words [1; 2; 10; 10; 10; 0]) 0 /\
  fails debug_build read_glyph_positioning (words [2; 0; 10; 10; 10; 0]) 0.
Proof.
  split.
  - apply (C25_gsub_versions debug_build (words [1; 2; 10; 10; 10; 0]) 0 0x10002); [| |lia|lia].
    + apply file_of_bounded. vm_compute. discriminate.
    + exists 1, 2. repeat split; eexists _, _; vm_compute; repeat split.
  - apply (C25_gpos_versions debug_build (words [2; 0; 10; 10; 10; 0]) 0 0x20000); [| |lia|lia].
    + apply file_of_bounded. vm_compute. discriminate.
    + exists 2, 0. repeat split; eexists _, _; vm_compute; repeat split.
Qed.

(** C26: the value, in every build; the errors, in a build without overflow checks (see C33 for the
    other builds). *)
Theorem C26_gdef o f p v :
  bounded f -> (reads o read_glyph_definition f p v <-> glyph_definition_at o f p v).
Proof. exact (request_reads RequestGdef o f p v). Qed.
Print Assumptions C26_gdef.

Theorem C26_gdef_release o f p :
  bounded f -> overflow_checks o = false ->
  reads_exactly o read_glyph_definition f p (glyph_definition_at o f p).
Proof. exact (fun Hb Ho => request_exactly o f p Hb RequestGdef (or_intror Ho)). Qed.
Print Assumptions C26_gdef_release.

Theorem C26_versions o f p x v :
  bounded f -> u32_at f p x -> reads o read_glyph_definition f p v ->
  x = 0x10000 \/ x = 0x10002 \/ x = 0x10003.
Proof. exact (fun Hb => gdef_version o f p Hb x v). Qed.
Print Assumptions C26_versions.

Example C26_example :
  (exists v, reads debug_build read_glyph_definition (file_of open_sans_gdef) 0 v /\
    glyph_definition_glyph_class v <> None) /\
  u32_at (file_of open_sans_gdef) 0 0x10000.
Proof.
  split.
  - apply (table_of_holds debug_build RequestGdef). vm_compute. discriminate.
  - exists 1, 0. repeat split; eexists _, _; vm_compute; repeat split.
Qed.

(** In a build without overflow checks, a table that the others do not survive. *)
Example C26_example_release :
  bounded (file_of overflowing_gdef) /\ overflow_checks release_build = false /\
  reads release_build read_glyph_definition (file_of overflowing_gdef) 0 overflowing_definition.
Proof.
  split; [apply file_of_bounded; vm_compute; discriminate|]. split; [reflexivity|].
  eexists. vm_compute. reflexivity.
Qed.

(** C27. *)
Theorem C27_store o f p v : bounded f -> (reads o read_store f p v <-> store_at o f p v).
Proof. exact (fun Hb => store_reads o f p Hb v). Qed.
Print Assumptions C27_store.

Theorem C27_store_release o f p :
  bounded f -> overflow_checks o = false -> reads_exactly o read_store f p (store_at o f p).
Proof. exact (store_exactly o f p). Qed.
Print Assumptions C27_store_release.

Example C27_example :
  reads debug_build read_store (words [1; 0; 0; 1; 0; 12; 2; 1; 1; 0; 0x0102; 0x0304]) 0
    (mkStore 1 0 1 [12] [mkStoreRecord 2 1 1 [0] [1; 2; 3; 4]]).
Proof. eexists. vm_compute. reflexivity. Qed.

Example C27_example_release :
  reads release_build read_store (words [1; 0; 0; 1; 0; 12; 9; 65535; 1; 0]) 0
    (mkStore 1 0 1 [12] [mkStoreRecord 9 65535 1 [0] []]) /\
  fails release_build read_store (words [2; 0; 0; 0]) 0.
Proof. split; eexists; vm_compute; reflexivity. Qed.

(** C28. *)
Theorem C28_cpal o f p :
  bounded f -> reads_exactly o read_color_palettes f p (color_palettes_at f p).
Proof. exact (fun Hb => request_exactly o f p Hb RequestCpal (or_introl eq_refl)). Qed.
Print Assumptions C28_cpal.

Theorem C28_versions o f p x :
  bounded f -> u16_at f p x -> x <> 0 -> x <> 1 -> fails o read_color_palettes f p.
Proof. exact (fun Hb => cpal_version o f p Hb x). Qed.
Print Assumptions C28_versions.

Example C28_example :
  reads debug_build read_color_palettes (file_of sample_cpal) 0 sample_colors.
Proof. eexists. vm_compute. reflexivity. Qed.

(** Another version. *)
Example C28_example_versions : fails debug_build read_color_palettes (words [2; 0; 0; 0; 0; 12]) 0.
Proof.
  apply (C28_versions debug_build (words [2; 0; 0; 0; 0; 12]) 0 2); [| |lia|lia].
  - apply file_of_bounded. vm_compute. discriminate.
  - eexists _, _. vm_compute. repeat split.
Qed.

(** C30. *)
Theorem C30_fvar o f p :
  bounded f -> reads_exactly o read_font_variations f p (font_variations_at o f p).
Proof. exact (fun Hb => request_exactly o f p Hb RequestFvar (or_introl eq_refl)). Qed.
Print Assumptions C30_fvar.

(** Two axes, eight instances. *)
Example C30_example :
  exists v, reads debug_build read_font_variations (file_of adobe_vf_fvar) 0 v /\
    length (font_variations_axis_records v) = 2%nat /\
    length (font_variations_instance_records v) = 8%nat.
Proof.
  apply (table_of_holds debug_build RequestFvar). vm_compute. split; reflexivity.
Qed.
