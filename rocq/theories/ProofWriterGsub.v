(** What is written of [GSUB] is in the file. *)

From Verif Require Export ProofWriter SpecGsub.

Lemma alternates_plain v :
  alternates_fits v -> alternates_wf v -> plain alternates_at v (alternates_bytes v).
Proof.
  destruct v as [n ids]. cbn. intros F W f p H. scan. counted. finish.
Qed.

Lemma sequence_plain v : sequence_fits v -> sequence_wf v -> plain sequence_at v (sequence_bytes v).
Proof.
  destruct v as [n ids]. cbn. intros F W f p H. scan. counted. finish.
Qed.

Lemma ligature_plain v : ligature_fits v -> ligature_wf v -> plain ligature_at v (ligature_bytes v).
Proof.
  destruct v as [glyph_id n ids]. cbn. intros F W f p H. scan. counted. finish.
Qed.

#[export] Hint Extern 1 (whole _ _ _ (alternates_bytes _)) =>
  apply plain_whole, alternates_plain; assumption : written.
#[export] Hint Extern 1 (whole _ _ _ (sequence_bytes _)) =>
  apply plain_whole, sequence_plain; assumption : written.
#[export] Hint Extern 1 (whole _ _ _ (ligature_bytes _)) =>
  apply plain_whole, ligature_plain; assumption : written.

Lemma ligatures_whole v : ligatures_fits v -> ligatures_wf v ->
  whole ligatures_at ligatures_erase v (ligatures_bytes v).
Proof.
  destruct v as [n offsets records]. cbn. intros F W L f p H. unblock H L.
  written. eexists (mkLigatures _ _ _). rebuilt.
Qed.

#[export] Hint Resolve ligatures_whole : written.

Lemma single_substitution_whole v : single_substitution_fits v -> single_substitution_wf v ->
  whole single_substitution_at single_substitution_erase v (single_substitution_bytes v).
Proof.
  destruct v as [[format offset delta coverage]|[format offset n ids coverage]]; cbn;
    intros F W L f p H; unblock H L; written.
  - eexists (SingleSubstitutionFormat1 (mkSingleSubstitution1 _ _ _ _)). rebuilt.
  - eexists (SingleSubstitutionFormat2 (mkSingleSubstitution2 _ _ _ _ _)). rebuilt.
Qed.

Lemma gsub_type_whole type_ v : gsub_type_fits v -> gsub_type_wf type_ v ->
  whole (gsub_type_at type_) gsub_type_erase v (gsub_type_bytes v).
Proof.
  destruct v as [t|[format offset n offsets coverage records]|[format offset n offsets coverage records]
    |[format offset n offsets coverage records]|t|t|[format t offset]
    |[format offset a o1 b o2 c ids coverage back fore]]; cbn; intros F W L f p H.
  - destruct W as [-> W]. destruct (single_substitution_whole t F W L f p H) as (w & Q & S).
    exists (GsubSingleSubstitution w). split; [cbn; congruence|split; [reflexivity|exact S]].
  - unblock H L. written. eexists (GsubMultipleSubstitution (mkMultipleSubstitution _ _ _ _ _ _)).
    rebuilt.
  - unblock H L. written. eexists (GsubAlternateSubstitution (mkAlternateSubstitution _ _ _ _ _ _)).
    rebuilt.
  - unblock H L. written. eexists (GsubLigatureSubstitution (mkLigatureSubstitution _ _ _ _ _ _)).
    rebuilt.
  - destruct W as [-> W]. destruct (context_whole t F W L f p H) as (w & Q & S).
    exists (GsubContextualSubstitution w). split; [cbn; congruence|split; [reflexivity|exact S]].
  - destruct W as [-> W]. destruct (chained_context_whole t F W L f p H) as (w & Q & S).
    exists (GsubChainedContextualSubstitution w). split; [cbn; congruence|split; [reflexivity|exact S]].
  - destruct W as [-> ->]. scan. eexists (GsubExtensionSubstitution (mkExtensionSubstitution _ _ _)).
    rebuilt.
  - unblock H L. written. eexists (GsubReverseChainedContextualSubstibution
      (mkReverseChainedContextualSubstibution _ _ _ _ _ _ _ _ _ _ _)). rebuilt.
Qed.

Lemma glyph_substitution_whole o v : glyph_substitution_fits o v -> glyph_substitution_wf v ->
  whole (glyph_substitution_at o) glyph_substitution_erase v (glyph_substitution_bytes v).
Proof.
  apply directory_whole. apply gsub_type_whole.
Qed.
