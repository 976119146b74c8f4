(** Property C81: from the bytes of a font file to a table. *)

From Verif Require Import ProofOpen ProofOpenSamples.

(** C81: what opening a file and taking a table gives, in terms of the bytes alone. *)
Theorem C81_open {A} d o t (r : request A) f p :
  bounded f -> (forall s, record_checksum d f s <> Panic) ->
  is_gdef r = false \/ overflow_checks o = false ->
  reads_exactly o (open_take d t (reader r)) f p (fun w =>
    exists n, font_in (truetype_accept d) f p n /\
    match w with
    | Some v => exists s, lists f p n (table_tag t) s /\
        (ignore_invalid_checksums o = true \/ record_checksum d f s = Ok (offset_record_checksum s)) /\
        conforms o r f (offset_record_offset s) v
    | None => lacks f p n (table_tag t)
    end).
Proof. exact (open_exactly d o t r f p). Qed.
Print Assumptions C81_open.

(** C81: the same for any reader at all, without an assumption. *)
Theorem C81_any_reader {A} d o t (m : M A) f p w :
  reads o (open_take d t m) f p w <->
  exists n, font_in (truetype_accept d) f p n /\
  match w with
  | Some v => exists s, lists f p n (table_tag t) s /\
      (ignore_invalid_checksums o = true \/ record_checksum d f s = Ok (offset_record_checksum s)) /\
      reads o m f (offset_record_offset s) v
  | None => lacks f p n (table_tag t)
  end.
Proof. exact (open_reads d o t m f p w). Qed.
Print Assumptions C81_any_reader.

(** C81: a file that was read has one font, at the index zero. *)
Theorem C81_index d o f p v e q :
  reads o (read_file d) f p v ->
  (exists font, v = mkFile [font] /\ file_font v 0 e q = Ok (font, q)) /\
  forall i, (0 < i)%nat -> file_font v i e q = Panic.
Proof. exact (file_index d o f p v e q). Qed.
Print Assumptions C81_index.

(** C81: tables laid out as the OpenType specification prescribes are found and read. *)
Theorem C81_gsub d o f p n s v :
  bounded f -> font_in (truetype_accept d) f p n -> lists f p n (Tag "G" "S" "U" "B") s ->
  ignore_invalid_checksums o = true \/ record_checksum d f s = Ok (offset_record_checksum s) ->
  std_glyph_substitution_at f (offset_record_offset s) v ->
  reads o (open_take d TableGlyphSubstitution read_glyph_substitution) f p (Some (blank_directory v)).
Proof. exact (open_gsub d o f p n s v). Qed.
Print Assumptions C81_gsub.

Theorem C81_gpos d o f p n s v :
  bounded f -> font_in (truetype_accept d) f p n -> lists f p n (Tag "G" "P" "O" "S") s ->
  ignore_invalid_checksums o = true \/ record_checksum d f s = Ok (offset_record_checksum s) ->
  std_glyph_positioning_at f (offset_record_offset s) v ->
  (reads o (open_take d TableGlyphPositioning read_glyph_positioning) f p (Some v) <->
   supported_directory supported_gpos_type v).
Proof. exact (open_gpos d o f p n s v). Qed.
Print Assumptions C81_gpos.

Theorem C81_gdef d o f p n s v :
  bounded f -> font_in (truetype_accept d) f p n -> lists f p n (Tag "G" "D" "E" "F") s ->
  ignore_invalid_checksums o = true \/ record_checksum d f s = Ok (offset_record_checksum s) ->
  std_glyph_definition_at f (offset_record_offset s) v ->
  (reads o (open_take d TableGlyphDefinition read_glyph_definition) f p (Some v) <->
   supported_glyph_definition o f (offset_record_offset s) v).
Proof. exact (open_gdef d o f p n s v). Qed.
Print Assumptions C81_gdef.

Theorem C81_fvar d o f p n s v :
  bounded f -> font_in (truetype_accept d) f p n -> lists f p n (Tag "f" "v" "a" "r") s ->
  ignore_invalid_checksums o = true \/ record_checksum d f s = Ok (offset_record_checksum s) ->
  std_font_variations_at f (offset_record_offset s) v ->
  reads o (open_take d TableFontVariations read_font_variations) f p (Some v).
Proof. exact (open_fvar d o f p n s v). Qed.
Print Assumptions C81_fvar.

Theorem C81_cpal d o f p n s v :
  bounded f -> font_in (truetype_accept d) f p n -> lists f p n (Tag "C" "P" "A" "L") s ->
  ignore_invalid_checksums o = true \/ record_checksum d f s = Ok (offset_record_checksum s) ->
  std_color_palettes_at f (offset_record_offset s) v ->
  reads o (open_take d TableColorPalettes read_color_palettes) f p (Some v).
Proof. exact (open_cpal d o f p n s v). Qed.
Print Assumptions C81_cpal.

(** The sample font lists [CPAL] twice, [GSUB] with a wrong checksum, and no [fvar]. *)
Example C81_example :
  bounded sample_file /\ (forall s, record_checksum sample_deps sample_file s <> Panic) /\
  font_in (truetype_accept sample_deps) sample_file 0 3 /\
  lists sample_file 0 3 (Tag "C" "P" "A" "L") (mkOffsetRecord (Tag "C" "P" "A" "L") 352259106 60 26) /\
  record_checksum sample_deps sample_file (mkOffsetRecord (Tag "C" "P" "A" "L") 352259106 60 26)
    = Ok 352259106 /\
  std_color_palettes_at sample_file 60 sample_colors /\
  lacks sample_file 0 3 (Tag "f" "v" "a" "r") /\
  fails debug_build (open_take sample_deps TableGlyphSubstitution read_glyph_substitution) sample_file 0.
Proof. exact sample_opened. Qed.

(** A font of four tables, all of which are laid out as the specification prescribes. *)
Example C81_example_tables :
  bounded four_file /\ font_in (truetype_accept sample_deps) four_file 0 4 /\
  (forall s, In s four_records -> lists four_file 0 4 (offset_record_tag s) s /\
    record_checksum sample_deps four_file s = Ok (offset_record_checksum s)) /\
  (exists v, std_glyph_definition_at four_file 76 v /\
    (forall o, supported_glyph_definition o four_file 76 v) /\
    glyph_definition_glyph_class v = Some (ClassFormat1 (mkClass1 1 5 2 [1; 3]))) /\
  (exists v, std_glyph_positioning_at four_file 100 v /\ supported_directory supported_gpos_type v /\
    map lookup_record_mark_filtering_set (lookups_records (directory_lookups v)) = [Some 5]) /\
  (exists v, std_glyph_substitution_at four_file 144 v /\
    map lookup_record_tables (lookups_records (directory_lookups v)) =
      [[GsubSingleSubstitution (SingleSubstitutionFormat1
        (mkSingleSubstitution1 1 6 3 (CoverageFormat1 (mkCoverage1 1 1 [5]))))]]) /\
  (exists v, std_font_variations_at four_file 184 v /\
    map axis_record_tag (font_variations_axis_records v) = [Tag "w" "g" "h" "t"]).
Proof. exact four_opened. Qed.

(** A file that was read has no second font. *)
Example C81_example_index :
  reads debug_build (read_file sample_deps) sample_file 0 (mkFile [sample_font]) /\
  file_font (mkFile [sample_font]) 1 (mkEnv sample_file debug_build) 0 = Panic.
Proof. split; [eexists|]; vm_compute; reflexivity. Qed.
