(** Versions and formats that have no effect on what is read. *)

From Verif Require Export SpecVersions.
From Verif Require Import ProofRequests ProofFormats ProofDepartures Samples.

(** ** Moving a layout from one file to another *)

Section From.
Context (q : N) (f g : file) (S : same_from q f g).

Lemma u16_from p v : q <= p -> u16_at f p v -> u16_at g p v.
Proof. intros L (a & b & Ha & Hb & E). exists a, b. rewrite <- !S by lia. auto. Qed.

Lemma u32_from p v : q <= p -> u32_at f p v -> u32_at g p v.
Proof. intros L (h & l & Hh & Hl & E). exists h, l.
  split; [|split]; [apply u16_from|apply u16_from|]; auto; lia. Qed.

Lemma i32_from p v : q <= p -> i32_at f p v -> i32_at g p v.
Proof. intros L (u & H & E). exists u. split; [apply u32_from; assumption|exact E]. Qed.

Lemma tag_from p v : q <= p -> tag_at f p v -> tag_at g p v.
Proof. destruct v. cbn [tag_at]. intros L. rewrite !S by lia. auto. Qed.

Lemma flags_from c m p v : q <= p -> flags_at c m f p v -> flags_at c m g p v.
Proof. intros L (H & E). split; [apply u16_from; assumption|exact E]. Qed.

Lemma vec_from {A} (x y : N -> A -> Prop) stride p n vs :
  (forall p v, q <= p -> x p v -> y p v) -> q <= p -> vec_at x stride p n vs -> vec_at y stride p n vs.
Proof. intros W L (E & H). split; [exact E|]. intros i v Hi. apply W; [lia|]. apply H, Hi. Qed.

Lemma linked_from {A} (x y : N -> A -> Prop) base offsets vs :
  (forall p v, q <= p -> x p v -> y p v) -> Forall (fun offset => q <= base + offset) offsets ->
  linked_at x base offsets vs -> linked_at y base offsets vs.
Proof.
  intros W L H. revert L. induction H as [|o v os vs Hv _ IH]; intros L; [constructor|].
  inversion L; subst. constructor; [apply W; assumption|]. apply IH. assumption.
Qed.

Lemma coverage_from p v : q <= p -> coverage_at f p v -> coverage_at g p v.
Proof.
  intros L. destruct v as [[]|[]]; cbn; intros (E & A & B & C);
    (refine (conj E (conj _ (conj _ _))); [apply u16_from; [lia|exact A]|apply u16_from; [lia|exact B]|]).
  - eapply vec_from; [exact u16_from|lia|exact C].
  - eapply vec_from; [|lia|exact C]. clear - S. intros p v L. destruct v; cbn.
    intros (A & B & C). repeat apply conj; apply u16_from; try assumption; lia.
Qed.

Lemma axis_from o p v : q <= p -> axis_record_at o f p v -> axis_record_at o g p v.
Proof.
  intros L. destruct v. cbn [axis_record_at]. intros (A & B & C & D & E & F).
  refine (conj _ (conj _ (conj _ (conj _ (conj _ _)))));
    [apply tag_from|apply i32_from|apply i32_from|apply i32_from|apply flags_from|apply u16_from];
    try assumption; lia.
Qed.

Lemma instance_from o n p v : q <= p -> instance_record_at o f n p v -> instance_record_at o g n p v.
Proof.
  intros L. destruct v. cbn [instance_record_at]. intros (A & B & C & D).
  refine (conj _ (conj _ (conj _ _))); [apply u16_from|apply flags_from| |apply u16_from];
    try assumption; try lia.
  eapply vec_from; [apply i32_from|lia|exact C].
Qed.

End From.

(** ** [fvar] *)

Lemma fvar_version_unused o f g p v major minor :
  bounded f -> bounded g -> reads o read_font_variations f p v ->
  4 <= fvar_header_axis_offset (font_variations_header v) ->
  same_from (p + 4) f g -> u16_at g p major -> u16_at g (p + 2) minor ->
  reads o read_font_variations g p (with_version major minor v).
Proof.
  intros Bf Bg H L S Ha Hb. apply (request_reads RequestFvar o f p v Bf) in H.
  apply (request_reads RequestFvar o g p _ Bg). cbn [conforms] in *.
  destruct v as [[a b c d e h i j] axes instances]. cbn [font_variations_at with_version fvar_header_at] in *.
  cbn [font_variations_header fvar_header_axis_offset] in L.
  destruct H as (H & A & I).
  split; [|split].
  - repeat match goal with X : _ /\ _ |- _ => destruct X end.
    repeat apply conj; try assumption; apply (u16_from (p + 4) f g S); first [lia|assumption].
  - eapply vec_from; [exact (axis_from (p + 4) f g S o)|lia|exact A].
  - eapply vec_from; [exact (instance_from (p + 4) f g S o e)|lia|exact I].
Qed.

(** ** Lookups of type eight *)

Lemma reverse_format_unused o f g p v n :
  bounded f -> bounded g -> reads o (read_gsub_type 8) f p (GsubReverseChainedContextualSubstibution v) ->
  past_format v -> same_from (p + 2) f g -> u16_at g p n ->
  reads o (read_gsub_type 8) g p (GsubReverseChainedContextualSubstibution (with_format n v)).
Proof.
  intros Bf Bg H L S Hn. apply (gsub_type_exactly o f p Bf 8) in H.
  apply (gsub_type_exactly o g p Bg 8). cbn [gsub_type_at] in *. split; [reflexivity|]. apply proj2 in H.
  unfold past_format in L.
  destruct v as [a b c d e h i j k l m].
  cbn [reverse_chained_contextual_substibution_at with_format
    reverse_chained_contextual_substibution_coverage_offset
    reverse_chained_contextual_substibution_backward_coverage_offsets
    reverse_chained_contextual_substibution_forward_coverage_offsets] in *.
  inversion_clear L as [|? ? L0 L1]. apply Forall_app in L1. destruct L1 as [L1 L2].
  destruct H as (_ & H1 & H2 & H3 & H4 & H5 & H6 & H7 & H8 & H9 & H10).
  pose proof (u16_from (p + 2) f g S) as U. pose proof (coverage_from (p + 2) f g S) as C.
  split; [exact Hn|]. split; [apply U; [lia|exact H1]|]. split; [apply U; [lia|exact H2]|].
  split; [eapply vec_from; [exact U|lia|exact H3]|]. split; [apply U; [lia|exact H4]|].
  split; [eapply vec_from; [exact U|lia|exact H5]|]. split; [apply U; [lia|exact H6]|].
  split; [eapply vec_from; [exact U|lia|exact H7]|]. split; [apply C; [lia|exact H8]|].
  split; eapply linked_from; try exact C; try eassumption; eapply Forall_impl; try eassumption; cbn; lia.
Qed.

(** ** The others *)

Lemma directory_version_known {T} o (table_at : N -> file -> N -> T -> Prop) f p v :
  directory_at o table_at f p v -> directory_known v.
Proof.
  destruct v as [a b c d e h i j k w]. cbn [directory_at]. unfold directory_known.
  cbn [directory_major_version directory_minor_version directory_variations].
  intros H. repeat match goal with X : _ /\ _ |- _ => destruct X end. repeat apply conj; try assumption.
  destruct w as [[x y z]|]; [|exact I]. cbn [maybe_at feature_variations_at] in *. cbn.
  repeat match goal with X : _ /\ _ |- _ => destruct X end. auto.
Qed.

Lemma gsub_version_known o f p v : bounded f -> reads o read_glyph_substitution f p v -> directory_known v.
Proof. intros B H. apply (request_reads RequestGsub o f p v B) in H.
  exact (directory_version_known _ _ _ _ _ H). Qed.

Lemma gpos_version_known o f p v : bounded f -> reads o read_glyph_positioning f p v -> directory_known v.
Proof. intros B H. apply (request_reads RequestGpos o f p v B) in H.
  exact (directory_version_known _ _ _ _ _ H). Qed.

Lemma gdef_version_known o f p v : bounded f -> reads o read_glyph_definition f p v -> gdef_known v.
Proof.
  intros B H. apply (request_reads RequestGdef o f p v B) in H. cbn [conforms] in H.
  destruct v as [h a b c d m s]. unfold gdef_known.
  unfold glyph_definition_at in H.
  cbn [glyph_definition_with glyph_definition_header glyph_definition_marks glyph_definition_variations] in *.
  destruct (gdef_offsets h) as [[[[[? ?] ?] ?] ?] ?].
  destruct H as (H & _ & _ & _ & _ & M & V). refine (conj _ (conj _ _)).
  - destruct h as [[]|[]|[]]; cbn in *; repeat match goal with X : _ /\ _ |- _ => destruct X end; auto.
  - destruct m as [[]|]; [|exact I]. cbn in M. cbn. tauto.
  - destruct s as [[]|]; [|exact I]. cbn in V. cbn. tauto.
Qed.

Lemma cpal_version_known o f p v : bounded f -> reads o read_color_palettes f p v -> cpal_known v.
Proof.
  intros B H. apply (request_reads RequestCpal o f p v B) in H. cbn [conforms] in H.
  destruct v as [[[]|[]] c]; cbn in *; tauto.
Qed.

(** ** Counterexamples *)

(** One lookup of type eight, the format of which is [n]. *)
Definition reverse_words (n : N) : list N := [1; 0; 10; 12; 14; 0; 0; 1; 4; 8; 0; 1; 8; n; 10; 0; 0; 0; 1; 0].

Definition reverse_value (n : N) : GlyphSubstitution :=
  mkDirectory 1 0 10 12 14 0 (mkScripts 0 [] []) (mkFeatures 0 [] [])
    (mkLookups 1 [4] [mkLookupRecord 8 0 1 [8] None
      [GsubReverseChainedContextualSubstibution
        (mkReverseChainedContextualSubstibution n 10 0 [] 0 [] 0 []
          (CoverageFormat1 (mkCoverage1 1 0 [])) [] [])]])
    None.

Lemma reverse_seven : reads debug_build read_glyph_substitution (words (reverse_words 7)) 0 (reverse_value 7).
Proof. eexists. vm_compute. reflexivity. Qed.

Lemma reverse_formats_unchecked :
  ~ forall o f p v, bounded f -> reads o read_glyph_substitution f p v -> reverse_formats_known v.
Proof.
  intros H. specialize (H debug_build (words (reverse_words 7)) 0 _ ltac:(by_size) reverse_seven).
  specialize (H _ _ (or_introl eq_refl) (or_introl eq_refl)). discriminate H.
Qed.

Lemma fvar_nine : reads debug_build read_font_variations (words (9 :: 5 :: skipn 2 (fvar_words 6))) 0
  (with_version 9 5 (fvar_value 6)).
Proof. eexists. vm_compute. reflexivity. Qed.

Lemma fvar_versions_unchecked :
  ~ forall o f p v, bounded f -> reads o read_font_variations f p v ->
      fvar_header_major_version (font_variations_header v) = 1.
Proof. intros H. specialize (H debug_build (words (9 :: 5 :: skipn 2 (fvar_words 6))) 0 _
  ltac:(by_size) fvar_nine). discriminate H. Qed.
