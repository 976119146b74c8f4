(** The tests of /repo/tests, run on the model: the same tables of the same fonts, the
    same assertions.  These are checks of the model, not proofs of properties. *)

From Verif Require Export Tree FixtureData ProofRequests ModelTags.

(** What a read at the start of a list of bytes gives. *)
Definition table_of {A} (o : options) (r : request A) (l : list byte) : res A :=
  outcome (reader r (mkEnv (file_of_tree (tree_of l)) o) 0).

Lemma table_of_reads {A} o (r : request A) l v :
  table_of o r l = Ok v -> reads o (reader r) (file_of l) 0 v.
Proof.
  unfold table_of. intros H. apply (request_extend r o (file_of_tree (tree_of l))).
  - intros p b. rewrite file_of_tree_of. exact (fun E => E).
  - destruct (reader r (mkEnv (file_of_tree (tree_of l)) o) 0) as [[w q]|x|] eqn:E; try discriminate.
    injection H as ->. exists q. exact E.
Qed.

Definition holds {A} (x : res A) (P : A -> Prop) : Prop :=
  match x with Ok v => P v | _ => False end.

Lemma table_of_holds {A} o (r : request A) l P :
  holds (table_of o r l) P -> exists v, reads o (reader r) (file_of l) 0 v /\ P v.
Proof.
  destruct (table_of o r l) as [v| |] eqn:E; cbn; try tauto. intros H. exists v.
  split; [apply table_of_reads, E|exact H].
Qed.

Definition read_default {A} (r : request A) l := table_of debug_build r l.

(** The feature [ignore-incomplete-directories]. *)
Definition tolerant_build : options := mkOptions true true false false true.

Definition feature_tags {T} (v : Directory T) := map feature_header_tag (features_headers (directory_features v)).
Definition feature_counts {T} (v : Directory T) :=
  map feature_record_lookup_index_count (features_records (directory_features v)).
Definition script_tags {T} (v : Directory T) := map script_header_tag (scripts_headers (directory_scripts v)).
Definition language_tags {T} (v : Directory T) :=
  map (fun record => map language_header_tag (script_record_language_headers record))
    (scripts_records (directory_scripts v)).

Definition is_some {A} (x : res (option A)) : bool := match x with Ok (Some _) => true | _ => false end.

Ltac evaluate := vm_compute; repeat split; reflexivity.

(** tests/color_palettes.rs:49-57. *)
Example kalnia_glaze_read :
  holds (read_default RequestCpal kalnia_glaze_cpal) (fun v =>
    map (@length _) (color_palettes_iter true v) = [9; 9]%nat /\
    nth_error (concat (color_palettes_iter true v)) 9 = Some (Some (mkColor 121 121 255 255))).
Proof. evaluate. Qed.

(** tests/font_variations.rs:8-17. *)
Example adobe_vf_table :
  holds (read_default RequestFvar adobe_vf_fvar) (fun v =>
    fvar_header_major_version (font_variations_header v) = 1 /\
    fvar_header_minor_version (font_variations_header v) = 0 /\
    fvar_header_axis_count (font_variations_header v) = 2 /\
    map axis_record_tag (font_variations_axis_records v) = [Tag "w" "g" "h" "t"; Tag "C" "N" "T" "R"] /\
    nth_error (map axis_record_min_value (font_variations_axis_records v)) 0 = Some (200 * 65536)%Z /\
    nth_error (map axis_record_max_value (font_variations_axis_records v)) 0 = Some (900 * 65536)%Z).
Proof. evaluate. Qed.

(** tests/glyph_definition.rs:8-28. *)
Example open_sans_table :
  holds (read_default RequestGdef open_sans_gdef) (fun v =>
    match glyph_definition_header v with GdefVersion1 _ => True | _ => False end /\
    match glyph_definition_glyph_class v with
    | Some (ClassFormat2 t) => class2_record_count t = 1 /\
        map class_record_start_glyph_id (class2_records t) = [0] /\
        map class_record_end_glyph_id (class2_records t) = [937]
    | _ => False
    end /\
    glyph_definition_attachments v = None /\
    match glyph_definition_ligatures v with
    | Some t => gdef_ligatures_count t = 0
    | None => False
    end).
Proof. evaluate. Qed.

(** tests/glyph_positioning.rs:4-18. *)
Example adobe_vf_features :
  holds (read_default RequestGpos adobe_vf_gpos) (fun v =>
    feature_tags v = [Tag "k" "e" "r" "n"; Tag "s" "i" "z" "e"]).
Proof. evaluate. Qed.

(** tests/glyph_positioning.rs:20-34. *)
Example crimson_text_features :
  holds (read_default RequestGpos crimson_text_gpos) (fun v =>
    feature_tags v = [Tag "k" "e" "r" "n"; Tag "m" "a" "r" "k"; Tag "m" "k" "m" "k"]).
Proof. evaluate. Qed.

(** tests/glyph_positioning.rs:36-119. *)
Definition five {A} (x : A) : list A := [x; x; x; x; x].

Example source_serif_gpos_features :
  holds (read_default RequestGpos source_serif_gpos) (fun v =>
    feature_tags v = five (Tag "k" "e" "r" "n") ++ five (Tag "s" "i" "z" "e") /\
    feature_counts v = five 1 ++ five 0).
Proof. evaluate. Qed.

Example source_serif_gpos_lookups :
  holds (read_default RequestGpos source_serif_gpos) (fun v =>
    match lookups_records (directory_lookups v) with
    | [record] =>
        lookup_record_mark_filtering_set record = None /\
        match lookup_record_tables record with
        | [GposPairAdjustment (PairAdjustmentFormat1 t); GposPairAdjustment (PairAdjustmentFormat2 u)] =>
            pair_adjustment1_record_count t = 65 /\
            pair_adjustment2_class1_count u = 99 /\ pair_adjustment2_class2_count u = 95
        | _ => False
        end
    | _ => False
    end).
Proof. evaluate. Qed.

Definition script_assertions {T} (v : Directory T) : Prop :=
  script_tags v = [Tag "D" "F" "L" "T"; Tag "l" "a" "t" "n"] /\
  is_some (scripts_get (directory_scripts v) (script_tag ScriptDefault)) = true /\
  is_some (scripts_get (directory_scripts v) (script_tag ScriptLatin)) = true /\
  language_tags v = [[]; [Tag "A" "Z" "E" " "; Tag "C" "R" "T" " "; Tag "T" "R" "K" " "]] /\
  match scripts_records (directory_scripts v) with
  | [r; s] =>
      (script_record_default_language r <> None) /\ script_record_language_count r = 0 /\
      script_record_language_count s = 3 /\
      is_some (script_record_get s (language_tag LanguageTurkish)) = true
  | _ => False
  end.

Example source_serif_gpos_scripts :
  holds (read_default RequestGpos source_serif_gpos) script_assertions.
Proof. vm_compute. repeat split. discriminate. Qed.

(** tests/glyph_substitution.rs:4-14: with and without the feature. *)
Example londrina_solid_scripts :
  holds (table_of tolerant_build RequestGsub londrina_solid_gsub) (fun v =>
    scripts_headers (directory_scripts v) = []) /\
  read_default RequestGsub londrina_solid_gsub = Err UnexpectedValue.
Proof. evaluate. Qed.

(** tests/glyph_substitution.rs:16-147. *)
Example source_serif_gsub_features :
  holds (read_default RequestGsub source_serif_gsub) (fun v =>
    feature_tags v =
      concat (map five [Tag "a" "a" "l" "t"; Tag "c" "a" "s" "e"; Tag "d" "n" "o" "m"; Tag "f" "r" "a" "c"; Tag "l" "i" "g" "a"; Tag "l" "n" "u" "m"]) ++
      repeat (Tag "l" "o" "c" "l") 3 ++
      concat (map five [Tag "n" "u" "m" "r"; Tag "o" "n" "u" "m"; Tag "o" "r" "d" "n"; Tag "p" "n" "u" "m"; Tag "s" "i" "n" "f"; Tag "s" "u" "b" "s"; Tag "s" "u" "p" "s"; Tag "t" "n" "u" "m"; Tag "z" "e" "r" "o"]) /\
    feature_counts v = concat (map five [2; 1; 1; 3; 1; 1]) ++ [1; 1; 1] ++
      concat (map five [1; 1; 1; 1; 1; 1; 3; 1; 1])).
Proof. evaluate. Qed.

Example source_serif_gsub_lookups :
  holds (read_default RequestGsub source_serif_gsub) (fun v =>
    let records := lookups_records (directory_lookups v) in
    map lookup_record_type records = [1; 3; 1; 1; 1; 1; 1; 6; 1; 1; 1; 1; 1; 1; 1; 1; 1; 4; 1] /\
    match map lookup_record_tables records with
    | [GsubSingleSubstitution (SingleSubstitutionFormat2 t)] :: _ => single_substitution2_glyph_count t = 61
    | _ => False
    end /\
    match nth_error (map lookup_record_tables records) 17 with
    | Some [GsubLigatureSubstitution t] =>
        ligature_substitution_record_count t = 1 /\
        match ligature_substitution_records t with
        | u :: _ => ligatures_count u = 3 /\
            match ligatures_records u with
            | w :: _ => ligature_glyph_count w = 2
            | [] => False
            end
        | [] => False
        end
    | _ => False
    end).
Proof. evaluate. Qed.

Example source_serif_gsub_scripts :
  holds (read_default RequestGsub source_serif_gsub) script_assertions.
Proof. vm_compute. repeat split. discriminate. Qed.

(** tests/file.rs, as far as the directory goes: the version tags [0x00010000] and
    [OTTO] are among those the TrueType layer accepts. *)
Definition fixture_deps : deps := mkDeps
  (fun t => tag_eqb t (Tag x00 x01 x00 x00) || tag_eqb t (Tag "O" "T" "T" "O"))
  (fun _ _ => Ok 0).

Example open_sans_file :
  holds (read_default (RequestFile fixture_deps) open_sans_directory) (fun v =>
    match file_fonts v with
    | [font] => font_exists font TableGlyphDefinition = true /\ font_exists font TableFontSet = false /\
        option_map offset_record_offset (find (fun r => tag_eqb (offset_record_tag r) (Tag "G" "D" "E" "F"))
          (offsets_records (font_offsets font))) = Some 206348
    | _ => False
    end).
Proof. evaluate. Qed.

Example source_serif_file :
  holds (read_default (RequestFile fixture_deps) source_serif_directory) (fun v =>
    match file_fonts v with
    | [font] => font_exists font TableFontSet = true /\ font_exists font TableGlyphData = false /\
        option_map offset_record_offset (find (fun r => tag_eqb (offset_record_tag r) (Tag "G" "S" "U" "B"))
          (offsets_records (font_offsets font))) = Some 57648
    | _ => False
    end).
Proof. evaluate. Qed.
