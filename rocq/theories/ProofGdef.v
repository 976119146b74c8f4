(** The readers of src/tables/glyph_definition read exactly the formats of
    SpecGdef.v. *)

From Verif Require Export ProofLayout ModelGdef SpecGdef.

(** Two words make a double word. *)
Lemma u32_words f p h l : u16_at f p h -> u16_at f (p + 2) l -> u32_at f p (65536 * h + l).
Proof. intros Hh Hl. exists h, l. auto. Qed.

Section Gdef.
Context (S : Prop) (e : env) (Hb : bounded (content e)).
Notation f := (content e).

Lemma read_attachment_finds p : finds S read_attachment e p (attachment_at f p).
Proof. linked. Qed.
Hint Resolve read_attachment_finds : reads.

Lemma read_attachments_finds p : finds S read_attachments e p (attachments_at f p).
Proof. linked. Qed.
Hint Resolve read_attachments_finds : reads.

Lemma read_caret1_finds p : finds S read_caret1 e p (caret1_at f p).
Proof. linked. Qed.
Hint Resolve read_caret1_finds : reads.

Lemma read_caret2_finds p : finds S read_caret2 e p (caret2_at f p).
Proof. linked. Qed.
Hint Resolve read_caret2_finds : reads.

Lemma read_caret3_finds p : finds S read_caret3 e p (caret3_at f p).
Proof. linked. Qed.
Hint Resolve read_caret3_finds : reads.

Lemma read_caret_finds p : finds S read_caret e p (caret_at f p).
Proof.
  enter. eapply finds_bind_peek; [found| |].
  - intros [t|t|t] [H _]; eauto.
  - intros x Hx. cases; first
    [ eapply finds_conv; [apply finds_raise|]; intros [t|t|t]; cbv beta; split;
      [intros []|intros [H _]; cbn in H; known|intros []|intros [H _]; cbn in H; known
      |intros []|intros [H _]; cbn in H; known]
    | eapply finds_conv; [steps|]; intros v; cbv beta; split;
      [ intros (t & Ht & ->); split; assumption
      | destruct v as [t|t|t]; intros [H Ht]; first [exists t; auto; fail | exfalso; known] ] ].
Qed.
Hint Resolve read_caret_finds : reads.

Lemma read_gdef_ligature_finds p : finds S read_gdef_ligature e p (gdef_ligature_at f p).
Proof. linked. Qed.
Hint Resolve read_gdef_ligature_finds : reads.

Lemma read_gdef_ligatures_finds p : finds S read_gdef_ligatures e p (gdef_ligatures_at f p).
Proof. linked. Qed.
Hint Resolve read_gdef_ligatures_finds : reads.

Lemma read_marks_finds p : finds S read_marks e p (marks_at f p).
Proof. linked. Qed.
Hint Resolve read_marks_finds : reads.

Lemma read_gdef_header1_finds p : finds S read_gdef_header1 e p (gdef_header1_at f p).
Proof. linked. Qed.
Hint Resolve read_gdef_header1_finds : reads.

Lemma read_gdef_header12_finds p : finds S read_gdef_header12 e p (gdef_header12_at f p).
Proof. linked. Qed.
Hint Resolve read_gdef_header12_finds : reads.

Lemma read_gdef_header13_finds p : finds S read_gdef_header13 e p (gdef_header13_at f p).
Proof. linked. Qed.
Hint Resolve read_gdef_header13_finds : reads.

Lemma read_gdef_header_finds p : finds S read_gdef_header e p (gdef_header_at f p).
Proof.
  enter. eapply finds_bind_peek; [found| |].
  - intros [t|t|t] H; unpack t; eexists; eapply u32_words; eassumption.
  - intros x Hx. cases; first
    [ eapply finds_conv; [apply finds_raise|]; intros v; cbv beta; split; [intros []|];
      case v; intros t H; exfalso; destruct t; cbn in H; break; subst;
      match goal with
      | H0 : u16_at f p ?h, H1 : u16_at f (p + 2) ?l |- _ =>
          pose proof (u32_fun _ _ _ _ Hx (u32_words _ _ _ _ H0 H1)); discriminate
      end
    | eapply finds_conv; [steps|]; intros v; cbv beta; split;
      [ intros (t & Ht & ->); assumption
      | case v; intros t H; first
        [ exists t; split; [exact H|reflexivity]
        | exfalso; destruct t; cbn in H; break; subst;
          match goal with
          | H0 : u16_at f p ?h, H1 : u16_at f (p + 2) ?l |- _ =>
              pose proof (u32_fun _ _ _ _ Hx (u32_words _ _ _ _ H0 H1)); discriminate
          end ] ] ].
Qed.
Hint Resolve read_gdef_header_finds : reads.

(** All offsets of the header are small. *)
Lemma gdef_header_small p h :
  gdef_header_at f p h ->
  p < 2 ^ 63 /\ gdef_glyph_class_offset h < 2 ^ 32 /\ gdef_attachment_offset h < 2 ^ 32 /\
  gdef_ligature_offset h < 2 ^ 32 /\ gdef_mark_class_offset h < 2 ^ 32 /\
  gdef_mark_offset h < 2 ^ 32 /\ gdef_mark_offset_of_version13 h < 2 ^ 32.
Proof.
  destruct h as [t|t|t]; destruct t; cbn; intros; break; fields; first [base_small|offset_small].
Qed.

Lemma read_glyph_definition_finds p :
  (S -> overflow_checks (opts e) = false) ->
  finds S read_glyph_definition e p (glyph_definition_at (opts e) f p).
Proof.
  intros HS. enter. eapply finds_conv.
  - step. step. destruct (gdef_header_small _ _ H) as (? & ? & ? & ? & ? & ? & ?). steps.
  - intros v; cbv beta; split.
    + intros; break; subst v. unfold glyph_definition_at, glyph_definition_with.
      destruct x as [[]|[]|[]]; cbn -[gdef_header_at maybe_at] in *; fields.
    + destruct v as [h c a l mc m s]. intros Hv. unshelve build.
      all: unfold glyph_definition_at, glyph_definition_with in Hv.
      all: destruct h as [[]|[]|[]]; cbn -[gdef_header_at maybe_at] in *; break; fields.
Qed.
Hint Resolve read_glyph_definition_finds : reads.
End Gdef.

#[export] Hint Resolve read_attachment_finds read_attachments_finds read_caret1_finds
  read_caret2_finds read_caret3_finds read_caret_finds read_gdef_ligature_finds
  read_gdef_ligatures_finds read_marks_finds read_gdef_header1_finds read_gdef_header12_finds
  read_gdef_header13_finds read_gdef_header_finds read_glyph_definition_finds : reads.
