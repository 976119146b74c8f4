(** Properties C56-C58: parts at the same address, missing parts, and what does not depend on
    the build. *)

From Verif Require Import ProofSharing ProofMissing ProofPortable.

(** C56. *)
Theorem C56_gsub o f p v :
  bounded f -> reads o read_glyph_substitution f p v -> shared_directory v.
Proof. exact (gsub_sharing o f p v). Qed.
Print Assumptions C56_gsub.

Theorem C56_gpos o f p v :
  bounded f -> reads o read_glyph_positioning f p v -> shared_directory v.
Proof. exact (gpos_sharing o f p v). Qed.
Print Assumptions C56_gpos.

(** Each part is there twice. *)
Example C56_example :
  bounded (file_of sample_shared) /\
  reads debug_build read_glyph_substitution (file_of sample_shared) 0 sample_shared_table /\
  map script_header_offset (scripts_headers (directory_scripts sample_shared_table)) = [14; 14] /\
  map feature_header_offset (features_headers (directory_features sample_shared_table)) = [14; 14] /\
  lookups_offsets (directory_lookups sample_shared_table) = [6; 6] /\
  (exists r, language_in (directory_scripts sample_shared_table) 24 r) /\
  (exists t, subtable_in (directory_lookups sample_shared_table) 1 16 t).
Proof.
  split; [apply file_of_bounded; vm_compute; discriminate|].
  split; [exact sample_shared_read|].
  split; [reflexivity|]. split; [reflexivity|]. split; [reflexivity|]. split.
  - eexists. exists (nth 1 (scripts_records (directory_scripts sample_shared_table))
    (mkScriptRecord 0 0 [] None [])), 14, 10.
    split; [eexists; split; [exists 1%nat; split; reflexivity|reflexivity]|].
    split; [left; split; reflexivity|reflexivity].
  - eexists. eexists. exists 6, 10. split; [exists 1%nat; split; reflexivity|].
    split; [reflexivity|]. split; [exists 1%nat; split; reflexivity|reflexivity].
Qed.

(** C57: "a build that does not ignore incomplete tables refuses them". *)
Theorem C57_refused_refuted :
  ~ (forall f v, bounded f -> reads debug_build read_glyph_substitution f 0 v -> complete_directory v) /\
  ~ (forall f v, bounded f -> reads debug_build read_glyph_positioning f 0 v -> complete_directory v).
Proof. exact missing_script_not_refused. Qed.
Print Assumptions C57_refused_refuted.

(** C57: what such a build reads instead. *)
Theorem C57_gsub_lists o f p v :
  bounded f -> ignore_incomplete_directories o = false -> reads o read_glyph_substitution f p v ->
  misread_lists v.
Proof. exact (gsub_misread o f p v). Qed.
Print Assumptions C57_gsub_lists.

Theorem C57_gpos_lists o f p v :
  bounded f -> ignore_incomplete_directories o = false -> reads o read_glyph_positioning f p v ->
  misread_lists v.
Proof. exact (gpos_misread o f p v). Qed.
Print Assumptions C57_gpos_lists.

Theorem C57_marks o f p v m :
  bounded f -> ignore_incomplete_marks o = false -> reads o read_mark1s f p v ->
  In m (mark1s_records v) -> mark1_anchor_offset m = 0 -> mark1s_count v = anchor_format (mark1_anchor m).
Proof. exact (marks_misread o f p v m). Qed.
Print Assumptions C57_marks.

Theorem C57_marks_refused o f p n i :
  bounded f -> ignore_incomplete_marks o = false -> u16_at f p n -> 3 < n -> i < n ->
  u16_at f (p + 2 + 4 * i + 2) 0 -> fails o read_mark1s f p.
Proof. exact (marks_many o f p n i). Qed.
Print Assumptions C57_marks_refused.

(** A script that is not there; two marks, the first of which without an anchor. *)
Example C57_example :
  reads debug_build read_glyph_substitution (file_of sample_missing) 0 sample_missing_table /\
  scripts_headers (directory_scripts (T := GsubType) sample_missing_table) =
    [mkScriptHeader (Tag x00 x00 x00 x00) 10] /\
  reads debug_build read_mark1s (file_of (flat_map be16 [2; 1; 0; 2; 10; 1; 7; 8])) 0
    (mkMark1s 2 [mkMark1 1 0 (AnchorFormat2 (mkAnchor2 2 1 0 2));
      mkMark1 2 10 (AnchorFormat1 (mkAnchor1 1 7 8))]) /\
  fails debug_build read_mark1s (file_of (flat_map be16 [4; 1; 0; 2; 18; 3; 18; 4; 18; 1; 7; 8])) 0.
Proof.
  split; [exact (proj1 sample_missing_read)|]. split; [reflexivity|].
  split; eexists; vm_compute; reflexivity.
Qed.

(** C58: a complete value read by one build is read by another one exactly if it is within
    the limits of that one: reserved flags zero if it checks them, sums within 16 bits if
    it checks them. *)
Theorem C58_exactly {A} (r : request A) o o' f p v :
  bounded f -> complete r v -> reads o (reader r) f p v ->
  (reads o' (reader r) f p v <-> in_range o' r v).
Proof. exact (reads_portable r o o' f p v). Qed.
Print Assumptions C58_exactly.

(** C58: what a build with all checks reads, any build reads. *)
Theorem C58_strict {A} (r : request A) o o' f p v :
  checked_flags o = true -> overflow_checks o = true ->
  bounded f -> complete r v -> reads o (reader r) f p v -> reads o' (reader r) f p v.
Proof. exact (fun Hf Hc => reads_strict o o' Hf Hc r f p v). Qed.
Print Assumptions C58_strict.

Example C58_example :
  bounded (file_of sample_marks) /\ complete RequestGpos sample_marks_table /\
  has_mark sample_marks_table (mkMark1 0 6 (AnchorFormat1 (mkAnchor1 1 3 4))) /\
  reads debug_build read_glyph_positioning (file_of sample_marks) 0 sample_marks_table /\
  complete RequestGsub sample_reserved_table /\
  reads (mkOptions true false false false false) read_glyph_substitution (file_of sample_reserved) 0
    sample_reserved_table /\
  fails debug_build read_glyph_substitution (file_of sample_reserved) 0 /\
  ~ in_range debug_build RequestGsub sample_reserved_table.
Proof.
  split; [apply file_of_bounded; vm_compute; discriminate|].
  split.
  { split; [repeat split; discriminate|].
    intros m (l & t & Hl & Ht & Hm). unfold sample_marks_table in Hl. cbn in Hl.
    destruct Hl as [<-|[]]. cbn in Ht. destruct Ht as [<-|[]]. cbn in Hm. destruct Hm as [<-|[]].
    discriminate. }
  split.
  { do 2 eexists. do 2 (split; [left; reflexivity|]). left; reflexivity. }
  split; [eexists; vm_compute; reflexivity|].
  split; [repeat split; discriminate|].
  split; [eexists; vm_compute; reflexivity|].
  split; [eexists; vm_compute; reflexivity|].
  intros (_ & _ & (_ & H) & _). apply Forall_inv in H. destruct H as (_ & (_ & H) & _).
  specialize (H eq_refl). discriminate H.
Qed.
