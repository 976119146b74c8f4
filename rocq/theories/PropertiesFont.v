(** Properties C01-C08: files, fonts and table access. *)

From Verif Require Import ProofFontProperties.

(** C01. *)
Theorem C01_collections_refused d o f p :
  tag_at f p (Tag "t" "t" "c" "f") ->
  fails o (read_file d) f p /\ ~ panics o (read_file d) f p /\ forall v, ~ reads o (read_file d) f p v.
Proof. exact (collection_never_read d o f p). Qed.
Print Assumptions C01_collections_refused.

Example C01_example : tag_at (file_of (bytes [9; 116; 116; 99; 102; 0; 1])) 1 (Tag "t" "t" "c" "f").
Proof. repeat split. Qed.

(** C02. *)
Theorem C02_file_is_directory d o f p :
  reads_exactly o (read_file d) f p (fun v =>
    exists offsets, v = mkFile [mkFont offsets] /\
      offsets_header_tag (offsets_header offsets) <> Tag "t" "t" "c" "f" /\
      truetype_accept d (offsets_header_tag (offsets_header offsets)) = true /\
      offsets_at f p offsets).
Proof. exact (file_exactly d o f p). Qed.
Print Assumptions C02_file_is_directory.

Example C02_example : reads debug_build (read_file sample_deps) sample_file 0 (mkFile [sample_font]).
Proof. eexists. vm_compute. reflexivity. Qed.

(** C03. *)
Theorem C03_presence {A} d this t (m : M A) e p :
  (font_exists this t = true <->
   exists r, In r (offsets_records (font_offsets this)) /\ offset_record_tag r = table_tag t) /\
  (font_exists this t = false ->
   font_position d this t e p = Ok (None, p) /\ font_take d this t m e p = Ok (None, p)) /\
  (font_exists this t = true ->
   forall q, font_position d this t e p <> Ok (None, q) /\ font_take d this t m e p <> Ok (None, q)).
Proof. exact (presence_agrees d this t m e p). Qed.
Print Assumptions C03_presence.

Example C03_example :
  font_exists sample_font TableColorPalettes = true /\ font_exists sample_font TableFontVariations = false.
Proof. split; reflexivity. Qed.

(** C04. *)
Theorem C04_take_first {A} d o this t r (m : M A) f p :
  first_record (offsets_records (font_offsets this)) (table_tag t) r ->
  ignore_invalid_checksums o = true \/ record_checksum d f r = Ok (offset_record_checksum r) ->
  outcome (font_take d this t m (mkEnv f o) p) =
    res_map Some (outcome (m (mkEnv f o) (offset_record_offset r))) /\
  font_position d this t (mkEnv f o) p = Ok (Some tt, offset_record_offset r).
Proof. exact (take_first d o this t r m f p). Qed.
Print Assumptions C04_take_first.

Theorem C04_others_ignored {A} d x y t r (m : M A) e p :
  first_record (offsets_records (font_offsets x)) (table_tag t) r ->
  first_record (offsets_records (font_offsets y)) (table_tag t) r ->
  font_take d x t m e p = font_take d y t m e p.
Proof. exact (take_same_first d x y t r m e p). Qed.
Print Assumptions C04_others_ignored.

(** The sample font has two records for [CPAL]. *)
Example C04_example :
  first_record sample_records (Tag "C" "P" "A" "L") (mkOffsetRecord (Tag "C" "P" "A" "L") 352259106 60 26) /\
  record_checksum sample_deps sample_file (mkOffsetRecord (Tag "C" "P" "A" "L") 352259106 60 26)
    = Ok 352259106 /\
  reads debug_build (font_take sample_deps sample_font TableColorPalettes read_color_palettes) sample_file 5
    (Some sample_colors).
Proof. split; [exact sample_first|]. split; [vm_compute; reflexivity|]. eexists. vm_compute. reflexivity. Qed.

(** A font with one record less. *)
Example C04_example_others :
  let x := sample_font in
  let y := mkFont (mkOffsets (mkOffsetsHeader (Tag x00 x01 x00 x00) 2 32 1 0) (firstn 2 sample_records)) in
  x <> y /\ exists r, first_record (offsets_records (font_offsets x)) (table_tag TableColorPalettes) r /\
    first_record (offsets_records (font_offsets y)) (table_tag TableColorPalettes) r.
Proof.
  split; [discriminate|]. eexists. split; [exact sample_first|].
  exists 0%nat. split; [reflexivity|]. split; [reflexivity|]. intros j r L. lia.
Qed.

(** C05: the default build. *)
Theorem C05_checksum_gate {A} d o this t r (m : M A) f p :
  ignore_invalid_checksums o = false ->
  (forall r, record_checksum d f r <> Panic) ->
  first_record (offsets_records (font_offsets this)) (table_tag t) r ->
  (record_checksum d f r = Ok (offset_record_checksum r) <->
   reads o (font_position d this t) f p (Some tt)) /\
  (record_checksum d f r <> Ok (offset_record_checksum r) <-> fails o (font_position d this t) f p) /\
  (record_checksum d f r <> Ok (offset_record_checksum r) -> fails o (font_take d this t m) f p).
Proof. exact (checksum_gate d o this t r m f p). Qed.
Print Assumptions C05_checksum_gate.

(** C05: the build with [ignore-invalid-checksums]. *)
Theorem C05_checksum_ignored {A} d d' o x y t (m : M A) f p :
  ignore_invalid_checksums o = true -> same_but_checksums x y ->
  font_position d x t (mkEnv f o) p = font_position d' y t (mkEnv f o) p /\
  font_take d x t m (mkEnv f o) p = font_take d' y t m (mkEnv f o) p.
Proof. exact (checksum_ignored d d' o x y t m f p). Qed.
Print Assumptions C05_checksum_ignored.

(** The stored checksum of [GSUB] is wrong in the sample font. *)
Example C05_example :
  (forall r, record_checksum sample_deps sample_file r <> Panic) /\
  first_record sample_records (Tag "G" "S" "U" "B") (mkOffsetRecord (Tag "G" "S" "U" "B") 7 86 10) /\
  record_checksum sample_deps sample_file (mkOffsetRecord (Tag "G" "S" "U" "B") 7 86 10) <> Ok 7 /\
  fails debug_build (font_position sample_deps sample_font TableGlyphSubstitution) sample_file 0 /\
  reads careless_build (font_position sample_deps sample_font TableGlyphSubstitution) sample_file 0 (Some tt).
Proof.
  split; [discriminate|]. split; [exact sample_first_gsub|]. split; [vm_compute; discriminate|].
  split; eexists; vm_compute; reflexivity.
Qed.

(** The sample font with checksums of zero. *)
Example C05_example_ignored :
  let clear r := mkOffsetRecord (offset_record_tag r) 0 (offset_record_offset r) (offset_record_length r) in
  let y := mkFont (mkOffsets (offsets_header (font_offsets sample_font)) (map clear sample_records)) in
  ignore_invalid_checksums careless_build = true /\ sample_font <> y /\ same_but_checksums sample_font y.
Proof. split; [reflexivity|]. split; [discriminate|]. repeat constructor. Qed.

(** C06. *)
Theorem C06_history d e p l : session d e p l -> Forall (as_fresh d e) l.
Proof. exact (session_fresh d e p l). Qed.
Print Assumptions C06_history.

Example C06_example :
  session sample_deps (mkEnv sample_file debug_build) 0
    [Read (read_file sample_deps) (Ok (mkFile [sample_font]));
     Take sample_font TableGlyphSubstitution read_glyph_substitution (Err Malformed);
     Seek 7;
     Take sample_font TableFontVariations read_font_variations (Ok None);
     Take sample_font TableColorPalettes read_color_palettes (Ok (Some sample_colors))].
Proof. exact sample_session. Qed.

(** C07. *)
Theorem C07_distinct_tags s t : table_tag s = table_tag t -> s = t.
Proof. exact (table_tag_injective s t). Qed.
Print Assumptions C07_distinct_tags.

Theorem C07_records_apart s t records r r' :
  s <> t -> first_record records (table_tag s) r -> first_record records (table_tag t) r' -> r <> r'.
Proof. exact (tables_apart s t records r r'). Qed.
Print Assumptions C07_records_apart.

Example C07_example : exists r r',
  first_record sample_records (table_tag TableColorPalettes) r /\
  first_record sample_records (table_tag TableGlyphSubstitution) r'.
Proof. eexists _, _. split; [exact sample_first|exact sample_first_gsub]. Qed.

(** C08. *)
Theorem C08_acceptance d o f p v :
  (forall t, accept d t = true <-> t = Tag "t" "t" "c" "f" \/ truetype_accept d t = true) /\
  (reads o (read_file d) f p v -> forall font, In font (file_fonts v) ->
   accept d (offsets_header_tag (offsets_header (font_offsets font))) = true).
Proof. exact (acceptance d o f p v). Qed.
Print Assumptions C08_acceptance.

Example C08_example :
  accept sample_deps (Tag x00 x01 x00 x00) = true /\ accept sample_deps (Tag "t" "t" "c" "f") = true /\
  accept sample_deps (Tag "w" "O" "F" "F") = false /\ In sample_font (file_fonts (mkFile [sample_font])).
Proof. repeat split. left. reflexivity. Qed.
