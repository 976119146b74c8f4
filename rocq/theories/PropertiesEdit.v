(** Properties: editing a file, and putting its table directory in another order. *)

From Verif Require Import ProofEdit ProofWritten ProofRequests.

(** C74: an edit that does not touch the bytes of a table leaves the table. *)
Theorem C74_elsewhere {A} (r : request A) o f p v a l :
  bounded f -> a + N.of_nat (length l) <= 2 ^ 63 -> reads o (reader r) f p v ->
  disjoint a (N.of_nat (length l)) p (extent o r v) -> reads o (reader r) (overwrite a l f) p v.
Proof. exact (edit_elsewhere r o f p v a l). Qed.
Print Assumptions C74_elsewhere.

(** C74: the same of a table taken from a font, if its checksum is accepted or ignored. *)
Theorem C74_take {A} (r : request A) d o this t record f p v a l :
  bounded f -> a + N.of_nat (length l) <= 2 ^ 63 ->
  first_record (offsets_records (font_offsets this)) (table_tag t) record ->
  accepted d o f record -> accepted d o (overwrite a l f) record ->
  reads o (font_take d this t (reader r)) f p (Some v) ->
  disjoint a (N.of_nat (length l)) (offset_record_offset record) (extent o r v) ->
  reads o (font_take d this t (reader r)) (overwrite a l f) p (Some v).
Proof. exact (edit_take r d o this t record f p v a l). Qed.
Print Assumptions C74_take.

(** C74: what is written over a table is what is taken then. *)
Theorem C74_replaced {A} (r : request A) d o this t record f p v :
  bounded f -> offset_record_offset record + N.of_nat (length (written r v)) <= 2 ^ 63 ->
  first_record (offsets_records (font_offsets this)) (table_tag t) record ->
  accepted d o (overwrite (offset_record_offset record) (written r v) f) record ->
  in_range o r v -> well_formed o r v -> writable r v ->
  exists w, erased r w = erased r v /\
    reads o (font_take d this t (reader r))
      (overwrite (offset_record_offset record) (written r v) f) p (Some w).
Proof. exact (edit_replaced r d o this t record f p v). Qed.
Print Assumptions C74_replaced.

(** C74: all together, where checksums are ignored. *)
Theorem C74_update {A B} (r : request A) (s : request B) d o f font a b ra rb va vb p q :
  bounded f ->
  reads o (read_file d) f 0 (mkFile [font]) ->
  first_record (offsets_records (font_offsets font)) (table_tag a) ra ->
  first_record (offsets_records (font_offsets font)) (table_tag b) rb ->
  reads o (font_take d font b (reader s)) f q (Some vb) ->
  in_range o r va -> well_formed o r va -> writable r va ->
  offset_record_offset ra + N.of_nat (length (written r va)) <= 2 ^ 63 ->
  12 + 16 * N.of_nat (length (offsets_records (font_offsets font))) <= offset_record_offset ra ->
  disjoint (offset_record_offset ra) (N.of_nat (length (written r va))) (offset_record_offset rb)
    (extent o s vb) ->
  ignore_invalid_checksums o = true ->
  let g := overwrite (offset_record_offset ra) (written r va) f in
  reads o (read_file d) g 0 (mkFile [font]) /\
  reads o (font_take d font b (reader s)) g q (Some vb) /\
  exists wa, erased r wa = erased r va /\ reads o (font_take d font a (reader r)) g p (Some wa).
Proof. exact (update_table r s d o f font a b ra rb va vb p q). Qed.
Print Assumptions C74_update.

(** The sample font with other colors; its substitutions stay as they are. *)
Example C74_example :
  let f := sample_file in
  let g := overwrite 60 (written RequestCpal other_colors) f in
  bounded f /\ reads lenient_build (read_file sample_deps) f 0 (mkFile [sample_font]) /\
  (exists v, reads lenient_build (font_take sample_deps sample_font TableGlyphSubstitution
    (reader RequestGsub)) f 0 (Some v) /\
    disjoint 60 (N.of_nat (length (written RequestCpal other_colors))) 86
      (extent lenient_build RequestGsub v)) /\
  in_range lenient_build RequestCpal other_colors /\ well_formed lenient_build RequestCpal other_colors /\
  writable RequestCpal other_colors /\
  reads lenient_build (font_take sample_deps sample_font TableColorPalettes (reader RequestCpal)) f
    0 (Some sample_colors) /\
  reads lenient_build (font_take sample_deps sample_font TableColorPalettes (reader RequestCpal)) g
    0 (Some other_colors).
Proof.
  intros f g. split; [apply file_of_bounded; vm_compute; discriminate|].
  split; [eexists; vm_compute; reflexivity|].
  split; [eexists; split; [eexists; vm_compute; reflexivity|left; vm_compute; discriminate]|].
  assert (B : bounded (file_of (written RequestCpal other_colors))) by (apply file_of_bounded;
    vm_compute; discriminate).
  assert (R : reads lenient_build (reader RequestCpal) (file_of (written RequestCpal other_colors))
    0 other_colors)
    by (eexists; vm_compute; reflexivity).
  split; [exact (read_in_range RequestCpal _ _ _ _ B R)|].
  split; [exact (request_shape RequestCpal _ _ _ _ B R)|].
  split; [vm_compute; reflexivity|]. split; eexists; vm_compute; reflexivity.
Qed.

(** C75: the order of the records in the directory of a font makes no difference,
    if no tag occurs twice. *)
Theorem C75_directory {A} x y t : reordered x y ->
  font_exists x t = font_exists y t /\
  forall d (m : M A) e p, font_position d x t e p = font_position d y t e p /\
    font_take d x t m e p = font_take d y t m e p.
Proof. exact (reordered_same x y t). Qed.
Print Assumptions C75_directory.

(** C75: neither does that of scripts, languages and features for the getters. *)
Theorem C75_getters :
  (forall x y t, rearranged script_header_tag (scripts_headers x) (scripts_headers y)
    (scripts_records x) (scripts_records y) ->
    scripts_get x t = scripts_get y t) /\
  (forall x y t, rearranged language_header_tag (script_record_language_headers x)
    (script_record_language_headers y)
      (script_record_language_records x) (script_record_language_records y) ->
    script_record_get x t = script_record_get y t) /\
  (forall x y t, rearranged feature_header_tag (features_headers x) (features_headers y)
    (features_records x) (features_records y) ->
    features_get x t = features_get y t).
Proof. exact getters_rearranged. Qed.
Print Assumptions C75_getters.

(** Two tables in either order; of a tag that occurs twice the first one is taken. *)
Example C75_example :
  let a := mkOffsetRecord (Tag "C" "P" "A" "L") 352259106 60 26 in
  let b := mkOffsetRecord (Tag "G" "S" "U" "B") 7 86 10 in
  let c := mkOffsetRecord (Tag "C" "P" "A" "L") 0 88 8 in
  let x := mkScripts 2 [mkScriptHeader (Tag "l" "a" "t" "n") 14; mkScriptHeader (Tag "D" "F" "L" "T") 18]
    [mkScriptRecord 0 0 [] None []; mkScriptRecord 4 0 [] (Some (mkLanguageRecord 0 65535 0 [])) []] in
  let y := mkScripts 2 [mkScriptHeader (Tag "D" "F" "L" "T") 18; mkScriptHeader (Tag "l" "a" "t" "n") 14]
    [mkScriptRecord 4 0 [] (Some (mkLanguageRecord 0 65535 0 [])) []; mkScriptRecord 0 0 [] None []] in
  reordered (font_of [a; b]) (font_of [b; a]) /\
  reads debug_build (font_take sample_deps (font_of [b; a]) TableColorPalettes (reader RequestCpal))
    sample_file 0
    (Some sample_colors) /\
  ~ reads debug_build (font_take sample_deps (font_of [c; b; a]) TableColorPalettes
    (reader RequestCpal)) sample_file 0
    (Some sample_colors) /\
  rearranged script_header_tag (scripts_headers x) (scripts_headers y) (scripts_records x)
    (scripts_records y) /\
  scripts_get y (Tag "l" "a" "t" "n") = Ok (Some (mkScriptRecord 0 0 [] None [])).
Proof.
  intros a b c x y. split; [|split; [|split; [|split]]].
  - split; [apply perm_swap|]. repeat constructor; cbn; intuition discriminate.
  - eexists. vm_compute. reflexivity.
  - intros [q H]. vm_compute in H. discriminate H.
  - split; [reflexivity|]. split; [reflexivity|]. split; [apply perm_swap|].
    repeat constructor; cbn; intuition discriminate.
  - reflexivity.
Qed.
