(** The statements of PropertiesFont.v, put together from ProofAccess.v. *)

From Verif Require Export Samples ProofAccess ProofFormats ProofTags ModelTags.
From Verif Require Import Reads ReadsTactics ProofFont.

Lemma collection_never_read d o f p :
  tag_at f p (Tag "t" "t" "c" "f") ->
  fails o (read_file d) f p /\ ~ panics o (read_file d) f p /\ forall v, ~ reads o (read_file d) f p v.
Proof.
  intros H. pose proof (collection_refused d o f p H) as [x Hx].
  split; [exists x; exact Hx|]. split.
  - unfold panics. congruence.
  - intros v [q Hv]. congruence.
Qed.

Lemma file_exactly d o f p :
  reads_exactly o (read_file d) f p (fun v =>
    exists offsets, v = mkFile [mkFont offsets] /\
      offsets_header_tag (offsets_header offsets) <> Tag "t" "t" "c" "f" /\
      truetype_accept d (offsets_header_tag (offsets_header offsets)) = true /\
      offsets_at f p offsets).
Proof. apply finds_exactly. apply read_file_finds. Qed.

Lemma presence_agrees {A} d this t (m : M A) e p :
  (font_exists this t = true <->
   exists r, In r (offsets_records (font_offsets this)) /\ offset_record_tag r = table_tag t) /\
  (font_exists this t = false ->
   font_position d this t e p = Ok (None, p) /\ font_take d this t m e p = Ok (None, p)) /\
  (font_exists this t = true ->
   forall q, font_position d this t e p <> Ok (None, q) /\ font_take d this t m e p <> Ok (None, q)).
Proof.
  split; [apply exists_iff|]. split.
  - intros H. split; [apply absent_position, H|apply absent_take, H].
  - intros H q. split; [apply present_position, H|apply present_take, H].
Qed.

Lemma take_first {A} d o this t r (m : M A) f p :
  first_record (offsets_records (font_offsets this)) (table_tag t) r ->
  ignore_invalid_checksums o = true \/ record_checksum d f r = Ok (offset_record_checksum r) ->
  outcome (font_take d this t m (mkEnv f o) p) =
    res_map Some (outcome (m (mkEnv f o) (offset_record_offset r))) /\
  font_position d this t (mkEnv f o) p = Ok (Some tt, offset_record_offset r).
Proof.
  intros Hr Hc. split.
  - rewrite (accepted_take d this t r) by assumption.
    destruct (m _ _) as [[v q]| |]; reflexivity.
  - apply accepted_position; assumption.
Qed.

Lemma take_same_first {A} d x y t r (m : M A) e p :
  first_record (offsets_records (font_offsets x)) (table_tag t) r ->
  first_record (offsets_records (font_offsets y)) (table_tag t) r ->
  font_take d x t m e p = font_take d y t m e p.
Proof. intros Hx Hy. rewrite (take_present _ _ _ _ _ _ _ Hx), (take_present _ _ _ _ _ _ _ Hy). reflexivity. Qed.

Lemma checksum_gate {A} d o this t r (m : M A) f p :
  ignore_invalid_checksums o = false ->
  (forall r, record_checksum d f r <> Panic) ->
  first_record (offsets_records (font_offsets this)) (table_tag t) r ->
  (record_checksum d f r = Ok (offset_record_checksum r) <->
   reads o (font_position d this t) f p (Some tt)) /\
  (record_checksum d f r <> Ok (offset_record_checksum r) <-> fails o (font_position d this t) f p) /\
  (record_checksum d f r <> Ok (offset_record_checksum r) -> fails o (font_take d this t m) f p).
Proof.
  intros Ho Hd Hr.
  destruct (gate_position d this t r (mkEnv f o) p Ho Hd Hr) as [[Hc H]|[Hc [x H]]]; cbn [content] in Hc.
  - split; [split; [intros _; eexists; exact H|intros _; exact Hc]|].
    split; [split; [contradiction|]|contradiction].
    intros [x Hx]. congruence.
  - split; [split; [contradiction|intros [q Hq]; congruence]|].
    split; [split; [intros _; exists x; exact H|intros _; exact Hc]|].
    intros _. apply (gate_take d this t r m (mkEnv f o) p Ho Hd Hr Hc).
Qed.

Lemma checksum_ignored {A} d d' o x y t (m : M A) f p :
  ignore_invalid_checksums o = true -> same_but_checksums x y ->
  font_position d x t (mkEnv f o) p = font_position d' y t (mkEnv f o) p /\
  font_take d x t m (mkEnv f o) p = font_take d' y t m (mkEnv f o) p.
Proof. intros Ho H. split; [apply ignored_position|apply ignored_take]; assumption. Qed.

Lemma tables_apart s t records r r' :
  s <> t -> first_record records (table_tag s) r -> first_record records (table_tag t) r' -> r <> r'.
Proof.
  intros Hn Hr Hr' <-. apply first_record_in in Hr, Hr'. destruct Hr as [_ Hr], Hr' as [_ Hr'].
  apply Hn, table_tag_injective. congruence.
Qed.

Lemma acceptance d o f p v :
  (forall t, accept d t = true <-> t = Tag "t" "t" "c" "f" \/ truetype_accept d t = true) /\
  (reads o (read_file d) f p v -> forall font, In font (file_fonts v) ->
   accept d (offsets_header_tag (offsets_header (font_offsets font))) = true).
Proof.
  split; [intros t; apply accept_iff|]. intros H font Hf.
  apply (proj1 (file_exactly d o f p)) in H. destruct H as (offsets & -> & _ & Ha & _).
  destruct Hf as [<-|[]]. apply accept_iff. right. exact Ha.
Qed.

(** ** The sample font *)

Lemma sample_first : first_record sample_records (Tag "C" "P" "A" "L")
  (mkOffsetRecord (Tag "C" "P" "A" "L") 352259106 60 26).
Proof. exists 0%nat. repeat split. intros [|j] r Hj; lia. Qed.

Lemma sample_first_gsub : first_record sample_records (Tag "G" "S" "U" "B")
  (mkOffsetRecord (Tag "G" "S" "U" "B") 7 86 10).
Proof.
  exists 1%nat. repeat split. intros [|[|j]] r Hj; [|lia|lia]. intros [= <-]. discriminate.
Qed.

Lemma sample_session :
  session sample_deps (mkEnv sample_file debug_build) 0
    [Read (read_file sample_deps) (Ok (mkFile [sample_font]));
     Take sample_font TableGlyphSubstitution read_glyph_substitution (Err Malformed);
     Seek 7;
     Take sample_font TableFontVariations read_font_variations (Ok None);
     Take sample_font TableColorPalettes read_color_palettes (Ok (Some sample_colors))].
Proof.
  apply (session_read sample_deps (mkEnv sample_file debug_build) _ 0 (read_file sample_deps) 60);
    [vm_compute; reflexivity|].
  apply (session_take sample_deps (mkEnv sample_file debug_build) _ 60 sample_font TableGlyphSubstitution
    read_glyph_substitution 1000); [vm_compute; exact I|].
  apply session_seek.
  apply (session_take sample_deps (mkEnv sample_file debug_build) _ 7 sample_font TableFontVariations
    read_font_variations 7); [vm_compute; reflexivity|].
  apply (session_take sample_deps (mkEnv sample_file debug_build) _ 7 sample_font TableColorPalettes
    read_color_palettes 86); [vm_compute; reflexivity|].
  apply session_nil.
Qed.
