(** Property C63: where the cursor is after a read. *)

From Verif Require Import ProofPositions ProofCursor FixtureData.

(** C63: what has no offsets in it is read from its first byte to its last. *)
Theorem C63_consumed e :
  consumes e read_coverage coverage_bytes /\
  consumes e read_class class_bytes /\
  consumes e read_correction correction_bytes /\
  consumes e read_language_record language_record_bytes /\
  consumes e read_feature_variations feature_variations_bytes /\
  consumes e read_alternates alternates_bytes /\
  consumes e read_sequence sequence_bytes /\
  consumes e read_ligature ligature_bytes /\
  consumes e read_attachment attachment_bytes /\
  consumes e read_context_record context_record_bytes /\
  consumes e read_context_class_record context_class_record_bytes /\
  consumes e read_chained_record chained_record_bytes /\
  consumes e read_chained_class_record chained_class_record_bytes.
Proof. exact (all_consumed e). Qed.
Print Assumptions C63_consumed.

(** C63: a font is read to the end of its list of tables, and no further. *)
Theorem C63_font d e : consumes e (read_font d) (fun v => offsets_bytes (font_offsets v)).
Proof. exact (font_consumed e d). Qed.
Print Assumptions C63_font.

Theorem C63_file d e :
  consumes e (read_file d) (fun v => flat_map (fun font => offsets_bytes (font_offsets font)) (file_fonts v)).
Proof. exact (file_consumed e d). Qed.
Print Assumptions C63_file.

(** C63: color palettes are read to the end of the colors, whichever part of the
    table comes last; variations to the end of the last record. *)
Theorem C63_cpal o f p v q :
  bounded f -> read_color_palettes (mkEnv f o) p = Ok (v, q) -> q = p + color_end v.
Proof. exact (fun Hb => color_palettes_ends (mkEnv f o) Hb p v q). Qed.
Print Assumptions C63_cpal.

Theorem C63_fvar o f p v q :
  bounded f -> read_font_variations (mkEnv f o) p = Ok (v, q) -> q = p + variation_end v.
Proof. exact (fun Hb => font_variations_ends (mkEnv f o) Hb p v q). Qed.
Print Assumptions C63_fvar.

(** C63: values that are written one after another are read one after another. *)
Theorem C63_runs :
  reads_runs read_coverage coverage_bytes (fun v => coverage_fits v /\ coverage_wf v) /\
  reads_runs read_class class_bytes (fun v => class_fits v /\ class_wf v) /\
  reads_runs read_correction correction_bytes (fun v => correction_fits v /\ correction_wf v) /\
  reads_runs read_language_record language_record_bytes (fun v => language_record_fits v /\
    language_record_wf v) /\
  reads_runs read_feature_variations feature_variations_bytes (fun v => feature_variations_fits v /\
    feature_variations_wf v) /\
  reads_runs read_alternates alternates_bytes (fun v => alternates_fits v /\ alternates_wf v) /\
  reads_runs read_sequence sequence_bytes (fun v => sequence_fits v /\ sequence_wf v) /\
  reads_runs read_ligature ligature_bytes (fun v => ligature_fits v /\ ligature_wf v) /\
  reads_runs read_attachment attachment_bytes (fun v => attachment_fits v /\ attachment_wf v) /\
  reads_runs read_context_record context_record_bytes (fun v => context_record_fits v /\ context_record_wf v) /\
  reads_runs read_context_class_record context_class_record_bytes
    (fun v => context_class_record_fits v /\ context_class_record_wf v) /\
  reads_runs read_chained_record chained_record_bytes (fun v => chained_record_fits v /\ chained_record_wf v) /\
  reads_runs read_chained_class_record chained_class_record_bytes
    (fun v => chained_class_record_fits v /\ chained_class_record_wf v).
Proof. exact all_runs. Qed.
Print Assumptions C63_runs.

(** C63: every read leaves the cursor where the last part that was read ends, which
    the offsets and the counts of the value tell. *)
Theorem C63_cursor {A} (r : request A) o f p v q :
  bounded f -> reader r (mkEnv f o) p = Ok (v, q) -> q = p + cursor_end o r v.
Proof. exact (cursor_ends r o f p v q). Qed.
Print Assumptions C63_cursor.

(** The last subtable of Source Serif is also the last part of its table; that of
    Crimson Text is not, and the attachment points below are followed by two bytes
    that are not read. *)
Example C63_tables :
  let after {A} (r : request A) l :=
    match reader r (mkEnv (file_of l) debug_build) 0 with
    | Ok (v, q) => (q, cursor_end debug_build r v, size l)
    | _ => (0, 0, 0)
    end in
  after RequestGsub source_serif_gsub = (2762, 2762, 2762) /\
  after RequestGsub adobe_vf_gsub = (1108, 1108, 1160) /\
  after RequestGpos crimson_text_gpos = (10178, 10178, 10388) /\
  after RequestGdef open_sans_gdef = (30, 30, 30) /\
  (let l := flat_map be16 [1; 0; 0; 12; 0; 0; 6; 1; 12; 1; 1; 9; 2; 3; 4; 0] in
   after RequestGdef l = (30, 30, 32) /\ after RequestGdef (l ++ l) = (30, 30, 64)).
Proof. repeat apply conj; vm_compute; reflexivity. Qed.

Example C63_example :
  read_coverage (mkEnv (words [9; 2; 1; 4; 7; 0; 9]) debug_build) 2 =
    Ok (CoverageFormat2 (mkCoverage2 2 1 [mkCoverageRecord 4 7 0]), 2 + 10) /\
  take_vec 2 read_ligature (mkEnv (words [5; 3; 8; 9; 6; 1]) debug_build) 0 =
    Ok ([mkLigature 5 3 [8; 9]; mkLigature 6 1 []], 12) /\
  read_font sample_deps (mkEnv sample_file debug_build) 0 =
    Ok (sample_font, size (offsets_bytes (font_offsets sample_font))) /\
  read_font_variations (mkEnv (words [1; 0; 16; 2; 0; 20; 1; 6; 1; 0; 2]) debug_build) 0 =
    Ok (mkFontVariations (mkFvarHeader 1 0 16 2 0 20 1 6) [] [mkInstanceRecord 1 0 [] 2], 22) /\
  variation_end (mkFontVariations (mkFvarHeader 1 0 16 2 0 20 1 6) [] [mkInstanceRecord 1 0 [] 2]) = 22 /\
  read_color_palettes (mkEnv (file_of sample_cpal) debug_build) 0 = Ok (sample_colors, color_end sample_colors).
Proof. repeat apply conj; vm_compute; reflexivity. Qed.
