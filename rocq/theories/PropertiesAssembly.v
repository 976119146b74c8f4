(** Property C55: a font put together from tables gives each of them back. *)

From Verif Require Import ProofAssembly Copies Samples.

(** C55: the file is read as its directory. *)
Theorem C55_file d o sum version a b c tables :
  assembles d sum version a b c tables ->
  reads o (read_file d) (file_of (assembled sum version a b c tables)) 0
    (mkFile [assembled_font sum version a b c tables]).
Proof. exact (assembled_read d o sum version a b c tables). Qed.
Print Assumptions C55_file.

(** C55: a table that was put in is taken out, wherever the tape is. *)
Theorem C55_take {A} d o sum version a b c tables t (r : request A) v p :
  assembles d sum version a b c tables -> first_table tables (table_tag t) (written r v) ->
  ignore_invalid_checksums o = true \/ sums d sum (table_tag t) ->
  in_range o r v -> well_formed o r v -> writable r v ->
  exists w, erased r w = erased r v /\
    reads o (font_take d (assembled_font sum version a b c tables) t (reader r))
      (file_of (assembled sum version a b c tables)) p (Some w).
Proof. exact (assembled_take d o sum version a b c tables t r v p). Qed.
Print Assumptions C55_take.

(** C55: a table that was not put in is absent. *)
Theorem C55_absent {A} d sum version a b c tables t (m : M A) e p :
  (forall l, ~ In (table_tag t, l) tables) ->
  font_exists (assembled_font sum version a b c tables) t = false /\
  font_take d (assembled_font sum version a b c tables) t m e p = Ok (None, p).
Proof. exact (assembled_absent d sum version a b c tables t m e p). Qed.
Print Assumptions C55_absent.

(** A font of three tables, one of them listed twice, with the checksums of OpenType. *)
Example C55_example :
  assembles sample_deps word_sum_of (Tag "O" "T" "T" "O") 64 2 0 assembled_tables /\
  (forall t, sums sample_deps word_sum_of t) /\
  first_table assembled_tables (table_tag TableColorPalettes) (written RequestCpal sample_colors) /\
  in_range debug_build RequestCpal sample_colors /\ well_formed debug_build RequestCpal sample_colors /\
  writable RequestCpal sample_colors /\
  reads debug_build
    (font_take sample_deps (assembled_font word_sum_of (Tag "O" "T" "T" "O") 64 2 0 assembled_tables)
      TableColorPalettes read_color_palettes)
    (file_of (assembled word_sum_of (Tag "O" "T" "T" "O") 64 2 0 assembled_tables)) 5 (Some sample_colors) /\
  (forall l, ~ In (table_tag TableGlyphDefinition, l) assembled_tables).
Proof.
  split.
  { unfold assembles.
    repeat (apply conj; [solve [exact word_sum_bound | discriminate | vm_compute; reflexivity]|]).
    vm_compute. reflexivity. }
  split; [exact sample_sums|].
  split; [exists 0%nat; split; [reflexivity|intros j l' Hj; lia]|].
  assert (B : bounded (file_of sample_cpal)) by (apply file_of_bounded; vm_compute; discriminate).
  assert (R : reads debug_build (reader RequestCpal) (file_of sample_cpal) 0 sample_colors)
    by (eexists; vm_compute; reflexivity).
  split; [exact (read_in_range _ _ _ _ _ B R)|]. split; [exact (request_shape _ _ _ _ _ B R)|].
  split; [vm_compute; reflexivity|].
  split; [eexists; vm_compute; reflexivity|].
  intros l [H|[H|[H|[H|[]]]]]; discriminate H.
Qed.
