(** The readers of src/tables/glyph_substitution read exactly the formats of
    SpecGsub.v. *)

From Verif Require Export ProofLayout ModelGsub SpecGsub.

Section Gsub.
Context (S : Prop) (e : env) (Hb : bounded (content e)).
Notation f := (content e).
Hint Resolve take_following_takes : reads.

Lemma read_alternates_finds p : finds S read_alternates e p (alternates_at f p).
Proof. linked. Qed.
Hint Resolve read_alternates_finds : reads.

Lemma read_ligature_finds p : finds S read_ligature e p (ligature_at f p).
Proof. linked. Qed.
Hint Resolve read_ligature_finds : reads.

Lemma read_ligatures_finds p : finds S read_ligatures e p (ligatures_at f p).
Proof. linked. Qed.
Hint Resolve read_ligatures_finds : reads.

Lemma read_sequence_finds p : finds S read_sequence e p (sequence_at f p).
Proof. linked. Qed.
Hint Resolve read_sequence_finds : reads.

Lemma read_single_substitution1_finds p :
  finds S read_single_substitution1 e p (single_substitution1_at f p).
Proof. linked. Qed.
Hint Resolve read_single_substitution1_finds : reads.

Lemma read_single_substitution2_finds p :
  finds S read_single_substitution2 e p (single_substitution2_at f p).
Proof. linked. Qed.
Hint Resolve read_single_substitution2_finds : reads.

Lemma read_single_substitution_finds p :
  finds S read_single_substitution e p (single_substitution_at f p).
Proof. dispatch. Qed.
Hint Resolve read_single_substitution_finds : reads.

Lemma read_multiple_substitution_finds p :
  finds S read_multiple_substitution e p (multiple_substitution_at f p).
Proof. linked. Qed.
Hint Resolve read_multiple_substitution_finds : reads.

Lemma read_alternate_substitution_finds p :
  finds S read_alternate_substitution e p (alternate_substitution_at f p).
Proof. linked. Qed.
Hint Resolve read_alternate_substitution_finds : reads.

Lemma read_ligature_substitution_finds p :
  finds S read_ligature_substitution e p (ligature_substitution_at f p).
Proof. linked. Qed.
Hint Resolve read_ligature_substitution_finds : reads.

Lemma read_extension_substitution_finds p :
  finds S read_extension_substitution e p (extension_substitution_at f p).
Proof. linked. Qed.
Hint Resolve read_extension_substitution_finds : reads.

Lemma read_reverse_chained_contextual_substibution_finds p :
  finds S read_reverse_chained_contextual_substibution e p (reverse_chained_contextual_substibution_at f p).
Proof. linked. Qed.
Hint Resolve read_reverse_chained_contextual_substibution_finds : reads.

Lemma read_gsub_type_finds type_ p : finds S (read_gsub_type type_) e p (gsub_type_at type_ f p).
Proof. typed. Qed.
Hint Resolve read_gsub_type_finds : reads.

Lemma read_glyph_substitution_finds p :
  finds S read_glyph_substitution e p (glyph_substitution_at (opts e) f p).
Proof. apply read_directory_finds; [exact Hb|]. apply read_gsub_type_finds. Qed.
Hint Resolve read_glyph_substitution_finds : reads.
End Gsub.

#[export] Hint Resolve read_alternates_finds read_ligature_finds read_ligatures_finds
  read_sequence_finds read_single_substitution1_finds read_single_substitution2_finds
  read_single_substitution_finds read_multiple_substitution_finds
  read_alternate_substitution_finds read_ligature_substitution_finds
  read_extension_substitution_finds read_reverse_chained_contextual_substibution_finds
  read_gsub_type_finds read_glyph_substitution_finds : reads.
