(** Default values and what is read. *)

From Verif Require Export ModelDefaults SpecBuilds Requests Writer.
From Verif Require Import Reads ReadsTactics ProofLayout ProofGpos ProofGsub ProofGdef ProofRequests
  ProofBuilds ProofFormats.

Lemma coverage_default_unread o f p : ~ reads o read_coverage f p coverage_default.
Proof. intros H. apply (proj1 (coverage_exactly o f p)) in H. destruct H as [H _]. discriminate H. Qed.

Lemma class_default_unread o f p : ~ reads o read_class f p class_default.
Proof. intros H. apply (proj1 (class_exactly o f p)) in H. destruct H as [H _]. discriminate H. Qed.

Lemma correction_default_unread o f p : ~ reads o read_correction f p correction_default.
Proof.
  intros H. apply (proj1 (correction_exactly o f p)) in H. cbn in H. lia.
Qed.

Lemma anchor_default_at f p : ~ anchor_at f p anchor_default.
Proof. intros [H _]. discriminate H. Qed.

Lemma anchor_default_unread o f p : bounded f -> ~ reads o read_anchor f p anchor_default.
Proof.
  intros B H. apply (anchor_default_at f p). apply (proj2 (read_anchor_finds False (mkEnv f o) B p)), H.
Qed.

Lemma gdef_default_unread o f p v :
  bounded f -> reads o read_glyph_definition f p v -> glyph_definition_header v <> gdef_header_default.
Proof.
  intros B H E. apply (request_reads RequestGdef) in H; [|exact B]. destruct v as [h gc at_ li mc ma va].
  cbn in E. subst h. destruct H as (H & _). cbn in H. destruct H as (_ & H & _). discriminate H.
Qed.

Lemma scripts_default_read o f p : bounded f -> (reads o read_scripts f p scripts_default <-> u16_at f p 0).
Proof.
  intros B. rewrite (proj1 (scripts_exactly o f p B)). unfold scripts_default. cbn. split; [tauto|].
  intros H. split; [exact H|]. split; [split; [reflexivity|intros [|i] v Hi; discriminate Hi]|constructor].
Qed.

Lemma features_default_read o f p : bounded f -> (reads o read_features f p features_default <-> u16_at f p 0).
Proof.
  intros B. rewrite (proj1 (features_exactly o f p B)). unfold features_default. cbn. split; [tauto|].
  intros H. split; [exact H|]. split; [split; [reflexivity|intros [|i] v Hi; discriminate Hi]|constructor].
Qed.

Lemma lookups_default_at {T} o (table_at : N -> file -> N -> T -> Prop) f p :
  lookups_at o table_at f p lookups_default <-> u16_at f p 0.
Proof.
  unfold lookups_default. cbn. split; [tauto|].
  intros H. split; [exact H|]. split; [split; [reflexivity|intros [|i] v Hi; discriminate Hi]|constructor].
Qed.

Lemma gsub_lookups_default_read o f p :
  bounded f -> (reads o (read_lookups read_gsub_type) f p lookups_default <-> u16_at f p 0).
Proof.
  intros B. rewrite <- (lookups_default_at o gsub_type_at).
  apply (proj1 (gsub_lookups_exactly o f p B)).
Qed.

Lemma gpos_lookups_default_read o f p :
  bounded f -> (reads o (read_lookups read_gpos_type) f p lookups_default <-> u16_at f p 0).
Proof.
  intros B. rewrite <- (lookups_default_at o (gpos_type_at o)).
  apply (proj1 (gpos_lookups_exactly o f p B)).
Qed.

Lemma marks_mark_wf o type_ t m : gpos_type_wf o type_ t -> In m (marks_of t) -> mark1_wf o m.
Proof.
  destruct t as [t|t|t|t|t|t|t|t|t]; cbn [marks_of]; try (intros _ []; fail); destruct t; cbn.
  - intros (_ & _ & _ & _ & H & _). destruct mark_to_base_attachment_marks as [n rs].
    destruct H as [_ H]. rewrite Forall_forall in H. apply H.
  - intros (_ & _ & _ & _ & H & _). destruct mark_to_ligature_attachment_marks as [n rs].
    destruct H as [_ H]. rewrite Forall_forall in H. apply H.
  - intros (_ & _ & _ & _ & H & _). destruct mark_to_mark_attachment_mark1s as [n rs].
    destruct H as [_ H]. rewrite Forall_forall in H. apply H.
Qed.

Lemma gpos_default_anchors o f p v m :
  bounded f -> reads o read_glyph_positioning f p v -> has_mark v m ->
  (mark1_anchor m = anchor_default <-> ignore_incomplete_marks o = true /\ mark1_anchor_offset m = 0).
Proof.
  intros B H Hm. split.
  - intros E. pose proof (request_shape RequestGpos o f p v B H) as W.
    destruct Hm as (l & t & Hl & Ht & Hm).
    destruct v as [a0 a1 s ft lo x scripts features lookups variations].
    destruct W as (_ & _ & _ & _ & W & _). cbn in Hl.
    destruct lookups as [n offsets records]. destruct W as (_ & _ & W). cbn in Hl.
    rewrite Forall_forall in W. specialize (W l Hl). destruct l as [ty fl tc os set tables].
    destruct W as (_ & _ & _ & W). cbn in Ht. rewrite Forall_forall in W.
    pose proof (marks_mark_wf _ _ _ _ (W t Ht) Hm) as Wm. destruct m as [c offset anchor].
    cbn in E. subst anchor. destruct Wm as [Wm|(Wi & Wo & _)]; [discriminate Wm|]. cbn. auto.
  - intros [Hi Ho]. eapply (gpos_mark_missing o f p v m B); [|exact Hm|exact Ho].
    replace (with_marks true o) with o; [exact H|]. destruct o; cbn in *. subst. reflexivity.
Qed.

(** ** What defaults are *)

Lemma defaults_empty :
  ((exists v, coverage_default = CoverageFormat1 v) /\ coverage_bytes coverage_default = repeat x00 4) /\
  ((exists v, class_default = ClassFormat1 v) /\ class_bytes class_default = repeat x00 6) /\
  ((exists v, correction_default = CorrectionDevice v) /\ correction_bytes correction_default = repeat x00 6) /\
  ((exists v, anchor_default = AnchorFormat1 v) /\ anchor_bytes anchor_default = repeat x00 6) /\
  ((exists v, gdef_header_default = GdefVersion1 v) /\ gdef_offsets gdef_header_default = (0, 0, 0, 0, 0, 0) /\
    glyph_definition_bytes (mkGlyphDefinition gdef_header_default None None None None None None) =
      repeat x00 12).
Proof. repeat apply conj; first [eexists; reflexivity | reflexivity]. Qed.
