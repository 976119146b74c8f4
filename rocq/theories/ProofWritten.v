(** Writing and reading. *)

From Verif Require Export Written ProofRequests ProofFits ProofCanonical ProofWriterGsub
  ProofWriterGpos ProofWriterTables.

Lemma written_conforms {A} (r : request A) o f p v :
  in_range o r v -> well_formed o r v -> writable r v -> bytes_at f p (written r v) ->
  exists w, erased r w = erased r v /\ conforms o r f p w.
Proof.
  intros R W S H. destruct r; cbn [in_range well_formed writable written erased conforms] in *.
  - destruct v as [[|[offsets] [|]]]; cbn in W; try contradiction. cbn in R, H.
    inversion R as [|? ? [[T F] N] _]; subst. exists (mkFile [mkFont offsets]).
    split; [reflexivity|]. exists offsets. repeat split; try assumption.
    rewrite app_nil_r in H. apply offsets_plain; assumption.
  - destruct R as [T F]. exists v. split; [reflexivity|]. split; [exact T|].
    apply offsets_plain; assumption.
  - destruct S as [M S]. now apply (glyph_definition_whole o v R W M S).
  - now apply (glyph_positioning_whole o v R W S).
  - now apply (glyph_substitution_whole o v R W S).
  - now apply (color_palettes_whole v R W S).
  - now apply (font_variations_whole o v R W S).
Qed.

Lemma written_reads {A} (r : request A) o f p v :
  bounded f -> in_range o r v -> well_formed o r v -> writable r v -> bytes_at f p (written r v) ->
  exists w, reads o (reader r) f p w /\ erased r w = erased r v.
Proof.
  intros B R W S H. destruct (written_conforms r o f p v R W S H) as (w & E & C).
  exists w. split; [|exact E]. apply request_reads; assumption.
Qed.

Lemma read_in_range {A} (r : request A) o f p v :
  bounded f -> reads o (reader r) f p v -> in_range o r v.
Proof.
  intros B H. apply request_reads in H; [|exact B]. destruct r; cbn [conforms in_range] in *.
  - destruct H as (offsets & -> & N & T & H). constructor; [|constructor]. split; [|exact N].
    split; [exact T|]. exact (offsets_at_fits _ _ _ H).
  - destruct H as [T H]. split; [exact T|]. exact (offsets_at_fits _ _ _ H).
  - exact (glyph_definition_at_fits _ _ _ _ H).
  - exact (glyph_positioning_at_fits _ _ _ _ H).
  - exact (glyph_substitution_at_fits _ _ _ _ H).
  - exact (color_palettes_at_fits _ _ _ H).
  - exact (font_variations_at_fits _ _ _ _ H).
Qed.

Lemma size_offsets v : offsets_fits v ->
  counts (offsets_header_table_count (offsets_header v)) (offsets_records v) ->
  N.of_nat (length (offsets_bytes v)) <= 2 ^ 63.
Proof.
  destruct v as [[[a b c d] n ? ? ?] records]. cbn [offsets_fits offsets_header offsets_header_table_count
    offsets_records offsets_bytes]. unfold counts, u16. intros [F _] E.
  rewrite !app_length. change (length (tag_bytes (Tag a b c d))) with 4%nat.
  assert (N.of_nat (length (flat_map offset_record_bytes records)) = 16 * N.of_nat (length records)) as L.
  { apply size_records. intros [[] ? ? ?]. reflexivity. }
  unfold be16. cbn [length]. lia.
Qed.

Lemma written_bounded {A} (r : request A) o v :
  in_range o r v -> well_formed o r v -> writable r v -> bounded (file_of (written r v)).
Proof.
  intros R W S. apply file_of_bounded.
  destruct r; cbn [in_range well_formed writable written] in *; unfold size in *; try lia.
  - destruct v as [[|[offsets] [|]]]; cbn in W; try contradiction. cbn in R |- *.
    inversion R as [|? ? [[T F] N] _]; subst. rewrite app_nil_r. apply size_offsets; assumption.
  - destruct R as [T F]. apply size_offsets; assumption.
Qed.

Lemma rewritten_reads {A} (r : request A) o f p v :
  bounded f -> reads o (reader r) f p v -> writable r v ->
  exists w, reads o (reader r) (file_of (written r v)) 0 w /\ erased r w = erased r v.
Proof.
  intros B H S. pose proof (read_in_range r o f p v B H) as R.
  pose proof (request_shape r o f p v B H) as W.
  apply written_reads; [exact (written_bounded r o v R W S)|exact R|exact W|exact S|apply bytes_at_file].
Qed.

Lemma written_erased {A} (r : request A) v : written r (erased r v) = written r v.
Proof.
  destruct r; [reflexivity..| | | | |]; cbn [written erased].
  - apply glyph_definition_canonical.
  - apply glyph_positioning_canonical.
  - apply glyph_substitution_canonical.
  - apply color_palettes_canonical.
  - apply font_variations_canonical.
Qed.

Lemma written_canonical {A} (r : request A) o v w :
  in_range o r v -> well_formed o r v -> writable r v ->
  in_range o r w -> well_formed o r w -> writable r w ->
  (written r v = written r w <-> erased r v = erased r w).
Proof.
  intros R W S R' W' S'. split; intros E.
  - destruct (written_conforms r o (file_of (written r v)) 0 v R W S (bytes_at_file _)) as (x & X & C).
    destruct (written_conforms r o (file_of (written r w)) 0 w R' W' S' (bytes_at_file _)) as (y & Y & D).
    rewrite <- E in D. rewrite <- X, <- Y. f_equal.
    exact (request_unique r o _ 0 x y (written_bounded r o v R W S) C D).
  - now rewrite <- (written_erased r v), <- (written_erased r w), E.
Qed.
