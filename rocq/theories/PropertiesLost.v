(** Property C90: what a table has and its value does not tell. *)

From Verif Require Import ProofLost.

(** C90: "the value of a table tells the records of its feature variations". *)
Theorem C90_variations_refuted o :
  ~ tells o read_glyph_substitution variation_records /\ ~ tells o read_glyph_positioning variation_records.
Proof. exact (variations_lost o). Qed.
Print Assumptions C90_variations_refuted.

(** C90: "the value of a table tells the subtables behind its extensions". *)
Theorem C90_extensions_refuted o :
  ~ tells o read_glyph_substitution (extended gsub_extension gsub_type_at 0 0) /\
  ~ tells o read_glyph_positioning (extended gpos_extension (gpos_type_at o) 0 0).
Proof. exact (extensions_lost o). Qed.
Print Assumptions C90_extensions_refuted.

(** C90: "the value of a table of palettes of version 1 tells the offsets that its header ends with". *)
Theorem C90_palettes_refuted o : ~ tells o read_color_palettes palette_offsets.
Proof. exact (palettes_lost o). Qed.
Print Assumptions C90_palettes_refuted.

(** C90: "the value of an item variation store tells its regions". *)
Theorem C90_regions_refuted o : ~ tells o read_store store_regions.
Proof. exact (regions_lost o). Qed.
Print Assumptions C90_regions_refuted.

(** C90: whatever follows the number of records of feature variations, and whatever the number is, the value
    is the same but for the number. *)
Theorem C90_variations_any o b0 b1 b2 b3 rest :
  let f := file_of (variations_bytes b0 b1 b2 b3 ++ rest) in
  bounded f ->
  reads o read_glyph_substitution f 0 (variations_table (four_bytes b0 b1 b2 b3)) /\
  reads o read_glyph_positioning f 0 (variations_table (four_bytes b0 b1 b2 b3)).
Proof. exact (variations_any o b0 b1 b2 b3 rest). Qed.
Print Assumptions C90_variations_any.

(** C90: the number of the records is all of them that a value tells. *)
Theorem C90_variations_number o f p records :
  bounded f ->
  (forall v, reads o read_glyph_substitution f p v -> variation_records f p v records ->
    exists x, directory_variations v = Some x /\ feature_variations_count x = N.of_nat (length records)) /\
  (forall v, reads o read_glyph_positioning f p v -> variation_records f p v records ->
    exists x, directory_variations v = Some x /\ feature_variations_count x = N.of_nat (length records)).
Proof. exact (variations_number o f p records). Qed.
Print Assumptions C90_variations_number.

(** C90: whatever follows an extension, and whatever its type and its offset are, the value has these only. *)
Theorem C90_extensions_any o a0 a1 b0 b1 b2 b3 rest :
  let gsub := file_of (extension_bytes 7 a0 a1 b0 b1 b2 b3 ++ rest) in
  let gpos := file_of (extension_bytes 9 a0 a1 b0 b1 b2 b3 ++ rest) in
  let type_ := 256 * Byte.to_N a0 + Byte.to_N a1 in
  let offset := four_bytes b0 b1 b2 b3 in
  (bounded gsub -> reads o read_glyph_substitution gsub 0 (gsub_extended type_ offset)) /\
  (bounded gpos -> reads o read_glyph_positioning gpos 0 (gpos_extended type_ offset)).
Proof. exact (extensions_any o a0 a1 b0 b1 b2 b3 rest). Qed.
Print Assumptions C90_extensions_any.

(** C90: in any table of palettes of version 1 the three offsets can be anything, unless they overlap colors. *)
Theorem C90_palettes_any o f g p v h :
  bounded f -> bounded g -> reads o read_color_palettes f p v -> color_palettes_header v = CpalVersion1 h ->
  let a := p + 12 + 2 * cpal_header1_palette_count h in
  let colors := p + cpal_header1_color_offset h in
  colors + 4 * cpal_header1_color_count h <= a \/ a + 12 <= colors ->
  same_but a (a + 12) f g -> reads o read_color_palettes g p v.
Proof. exact (palettes_any o f g p v h). Qed.
Print Assumptions C90_palettes_any.

(** C90: in any store the regions, up to wherever they end, can be anything, unless they overlap the rest of it. *)
Theorem C90_regions_any o f g p v b :
  bounded f -> bounded g -> reads o read_store f p v ->
  let a := p + store_region_offset v in
  store_apart a b p v -> same_but a b f g -> reads o read_store g p v.
Proof. exact (regions_any o f g p v b). Qed.
Print Assumptions C90_regions_any.

(** Two tables with the same value: their records of feature variations, what is behind their extensions, and
    the offsets of their palettes differ. *)
Example C90_example_variations :
  bounded (file_of (variations_file 1 2)) /\ bounded (file_of (variations_file 3 4)) /\
  (forall a b, reads debug_build read_glyph_substitution (file_of (variations_file a b)) 0 (variations_table 1)) /\
  variation_records (T := GsubType) (file_of (variations_file 1 2)) 0 (variations_table 1) [(1, 2)] /\
  variation_records (T := GsubType) (file_of (variations_file 3 4)) 0 (variations_table 1) [(3, 4)].
Proof.
  split; [exact (variations_bounded 1 2)|]. split; [exact (variations_bounded 3 4)|].
  split; [|exact variations_part].
  intros a b. exact (proj1 (variations_any debug_build x00 x00 x00 x01 _ (variations_bounded a b))).
Qed.

(** Two records, of eight bytes each. *)
Example C90_records :
  bounded (file_of two_records) /\
  reads debug_build read_glyph_substitution (file_of two_records) 0 (variations_table 2) /\
  variation_records (T := GsubType) (file_of two_records) 0 (variations_table 2) [(1, 2); (3, 4)].
Proof.
  assert (B := proj1 (two_records_part (T := GsubType))). split; [exact B|].
  split; [exact (proj1 (variations_any debug_build x00 x00 x00 x02 _ B))|exact (proj2 two_records_part)].
Qed.

Example C90_example_extensions :
  bounded (gsub_behind 1) /\ bounded (gsub_behind 2) /\
  (forall n, reads debug_build read_glyph_substitution (gsub_behind n) 0 (gsub_extended 1 8)) /\
  extended gsub_extension gsub_type_at 0 0 (gsub_behind 1) 0 (gsub_extended 1 8) (gsub_subtable 1) /\
  extended gsub_extension gsub_type_at 0 0 (gsub_behind 2) 0 (gsub_extended 1 8) (gsub_subtable 2).
Proof.
  split; [exact (proj1 (behind_bounded 1))|]. split; [exact (proj1 (behind_bounded 2))|].
  split; [intros n; exact (proj1 (behind_reads debug_build n))|].
  split; apply gsub_behind_at; eexists; vm_compute; reflexivity.
Qed.

Example C90_example_palettes :
  let f := file_of (palettes_bytes 0 0 0) in
  let g := file_of (palettes_bytes 30 34 36) in
  bounded f /\ bounded g /\ reads debug_build read_color_palettes f 0 palettes_value /\
  26 <= cpal_header1_color_offset (mkCpalHeader1 1 1 1 1 26 [0]) /\
  same_but 14 26 f g /\ f 17 <> g 17.
Proof.
  split; [exact (palettes_bounded 0 0 0)|]. split; [exact (palettes_bounded 30 34 36)|].
  split; [exact (palettes_read debug_build 0 0 0)|]. split; [vm_compute; discriminate|].
  split; [exact palettes_same|vm_compute; discriminate].
Qed.

Example C90_example_regions :
  let f := words (regions_words 8192) in
  let g := words (regions_words 16384) in
  bounded f /\ bounded g /\ reads debug_build read_store f 0 regions_store /\
  reads debug_build read_store g 0 regions_store /\
  store_regions f 0 regions_store (1, [[(0, 8192, 16384)%Z]]) /\
  store_regions g 0 regions_store (1, [[(0, 16384, 16384)%Z]]).
Proof.
  split; [apply regions_bounded|]. split; [apply regions_bounded|].
  split; [apply regions_read|]. split; [apply regions_read|exact regions_part].
Qed.

(** Two regions of two axes between the header of a store and its record. *)
Example C90_regions :
  bounded (words many_words) /\ reads debug_build read_store (words many_words) 0 many_store /\
  store_regions (words many_words) 0 many_store
    (2, [[(0, 1, 2); (-1, 4, 5)]; [(6, 7, 8); (9, 10, 11)]]%Z) /\
  store_apart 12 40 0 many_store.
Proof. exact many_part. Qed.
