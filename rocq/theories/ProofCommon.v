(** A value is read from the bytes that two contents it can be read from have in common. *)

From Verif Require Export SpecCommon.
From Verif Require Import SpecLayout SpecGsub SpecGpos SpecGdef SpecCpal SpecFvar SpecFont Reads
  ReadsTactics ProofRequests ProofExtentTables ProofExtentUse.

Section Common.
Context (f g : file).

Lemma byte_common p b : f p = Some b -> g p = Some b -> common f g p = Some b.
Proof. intros Hf Hg. unfold common. rewrite Hf, Hg. rewrite (Byte.byte_dec_lb eq_refl). reflexivity. Qed.

Lemma to_N_inj a b : Byte.to_N a = Byte.to_N b -> a = b.
Proof. intros H. apply (f_equal Byte.of_N) in H. rewrite !Byte.of_to_N in H. congruence. Qed.

Lemma byte_below b : Byte.to_N b < 256.
Proof. exact (N.le_lt_trans _ 255 256 (Byte.to_N_bounded b) eq_refl). Qed.

Lemma u8_common p v : u8_at f p v -> u8_at g p v -> u8_at (common f g) p v.
Proof.
  intros (a & Ha & ->) (b & Hb & E). apply to_N_inj in E. subst b. exists a. split; [|reflexivity].
  apply byte_common; assumption.
Qed.

Lemma u16_common p v : u16_at f p v -> u16_at g p v -> u16_at (common f g) p v.
Proof.
  intros (a & b & Ha & Hb & ->) (c & d & Hc & Hd & E).
  pose proof (byte_below a). pose proof (byte_below b). pose proof (byte_below c). pose proof (byte_below d).
  assert (c = a) by (apply to_N_inj; lia). assert (d = b) by (apply to_N_inj; lia). subst c d.
  exists a, b. split; [apply byte_common; assumption|]. split; [apply byte_common; assumption|reflexivity].
Qed.

Lemma u32_common p v : u32_at f p v -> u32_at g p v -> u32_at (common f g) p v.
Proof.
  intros (h & l & Hh & Hl & ->) (h' & l' & Hh' & Hl' & E).
  pose proof (u16_bound (mkEnv f debug_build) _ _ Hl). pose proof (u16_bound (mkEnv g debug_build) _ _ Hl').
  assert (h' = h) by lia. assert (l' = l) by lia. subst h' l'. exists h, l.
  split; [apply u16_common; assumption|]. split; [apply u16_common; assumption|reflexivity].
Qed.

Lemma i16_common p v : i16_at f p v -> i16_at g p v -> i16_at (common f g) p v.
Proof.
  intros (u & Hu & ->) (u' & Hu' & E).
  pose proof (u16_bound (mkEnv f debug_build) _ _ Hu). pose proof (u16_bound (mkEnv g debug_build) _ _ Hu').
  assert (u' = u) by (destruct (N.ltb_spec u 32768), (N.ltb_spec u' 32768); lia). subst u'.
  exists u. split; [apply u16_common; assumption|reflexivity].
Qed.

Lemma i32_common p v : i32_at f p v -> i32_at g p v -> i32_at (common f g) p v.
Proof.
  intros (u & Hu & ->) (u' & Hu' & E).
  assert (u < 4294967296) by (exact (u32_bound (mkEnv f debug_build) _ _ Hu)).
  assert (u' < 4294967296) by (exact (u32_bound (mkEnv g debug_build) _ _ Hu')).
  assert (u' = u) by (destruct (N.ltb_spec u 2147483648), (N.ltb_spec u' 2147483648); lia). subst u'.
  exists u. split; [apply u32_common; assumption|reflexivity].
Qed.

Lemma tag_common p v : tag_at f p v -> tag_at g p v -> tag_at (common f g) p v.
Proof.
  destruct v. intros (A & B & C & D) (A' & B' & C' & D').
  repeat (split; [apply byte_common; assumption|]). apply byte_common; assumption.
Qed.

Section Elements.
Context {A : Type} (P Q R : N -> A -> Prop) (H : forall q v, P q v -> Q q v -> R q v).

Lemma vec_common s p n l : vec_at P s p n l -> vec_at Q s p n l -> vec_at R s p n l.
Proof. intros [L HP] [_ HQ]. split; [exact L|]. intros i v Hv. auto. Qed.

Lemma linked_common p n l : linked_at P p n l -> linked_at Q p n l -> linked_at R p n l.
Proof.
  unfold linked_at. intros HP. induction HP; intros HQ; inversion HQ; subst; constructor; auto.
Qed.

Lemma maybe_common p n v : maybe_at P p n v -> maybe_at Q p n v -> maybe_at R p n v.
Proof. destruct v; cbn; [|auto]. intros [N HP] [_ HQ]. split; [exact N|]. apply H; assumption. Qed.

Lemma maybes_common p n l : maybes_at P p n l -> maybes_at Q p n l -> maybes_at R p n l.
Proof.
  unfold maybes_at. intros HP. induction HP; intros HQ; inversion HQ; subst; constructor; auto.
  apply maybe_common; assumption.
Qed.

Lemma list_common o p n d v : list_at o P p n d v -> list_at o Q p n d v -> list_at o R p n d v.
Proof.
  unfold list_at. intros [HP|[N HP]] [HQ|[_ HQ]]; [left; exact HP|left; exact HP|left; exact HQ|].
  right. split; [exact N|]. auto.
Qed.

Lemma field_common flags k p v : field_at P flags k p v -> field_at Q flags k p v -> field_at R flags k p v.
Proof. destruct v; cbn; [|auto]. intros [N HP] [_ HQ]. split; [exact N|]. apply H; assumption. Qed.

End Elements.

Ltac merge a b :=
  first
  [ exact a
  | match type of a with
    | _ /\ _ =>
        let a1 := fresh "a" in let a2 := fresh "a" in let b1 := fresh "b" in let b2 := fresh "b" in
        destruct a as [a1 a2], b as [b1 b2]; split; [merge a1 b1 | merge a2 b2]
    | vec_at _ _ _ _ _ => refine (vec_common _ _ _ _ _ _ _ _ a b); eauto with common
    | linked_at _ _ _ _ => refine (linked_common _ _ _ _ _ _ _ a b); eauto with common
    | maybe_at _ _ _ _ => refine (maybe_common _ _ _ _ _ _ _ a b); eauto with common
    | maybes_at _ _ _ _ => refine (maybes_common _ _ _ _ _ _ _ a b); eauto with common
    | list_at _ _ _ _ _ _ => refine (list_common _ _ _ _ _ _ _ _ _ a b); eauto with common
    | field_at _ _ _ _ _ => refine (field_common _ _ _ _ _ _ _ _ a b); eauto with common
    end
  | solve [eauto with common] ].

Ltac merged v := destruct v; let a := fresh "a" in let b := fresh "b" in intros a b; merge a b.

Hint Resolve u8_common u16_common u32_common i16_common i32_common tag_common : common.

Lemma u8s_common p n l : u8s_at f p n l -> u8s_at g p n l -> u8s_at (common f g) p n l.
Proof. apply vec_common, u8_common. Qed.

Lemma u16s_common p n l : u16s_at f p n l -> u16s_at g p n l -> u16s_at (common f g) p n l.
Proof. apply vec_common, u16_common. Qed.

Lemma u32s_common p n l : u32s_at f p n l -> u32s_at g p n l -> u32s_at (common f g) p n l.
Proof. apply vec_common, u32_common. Qed.

Lemma i32s_common p n l : i32s_at f p n l -> i32s_at g p n l -> i32s_at (common f g) p n l.
Proof. apply vec_common, i32_common. Qed.

Lemma flags_common c r p v : flags_at c r f p v -> flags_at c r g p v -> flags_at c r (common f g) p v.
Proof. intros [Hf H] [Hg _]. split; [apply u16_common; assumption|exact H]. Qed.

Hint Resolve u8s_common u16s_common u32s_common i32s_common flags_common : common.

Lemma coverage_record_common p v :
  coverage_record_at f p v -> coverage_record_at g p v -> coverage_record_at (common f g) p v.
Proof. unfold coverage_record_at. merged v. Qed.
Hint Resolve coverage_record_common : common.

Lemma coverage1_common p v :
  coverage1_at f p v -> coverage1_at g p v -> coverage1_at (common f g) p v.
Proof. unfold coverage1_at. merged v. Qed.
Hint Resolve coverage1_common : common.

Lemma coverage2_common p v :
  coverage2_at f p v -> coverage2_at g p v -> coverage2_at (common f g) p v.
Proof. unfold coverage2_at. merged v. Qed.
Hint Resolve coverage2_common : common.

Lemma coverage_common p v :
  coverage_at f p v -> coverage_at g p v -> coverage_at (common f g) p v.
Proof. unfold coverage_at. merged v. Qed.
Hint Resolve coverage_common : common.

Lemma class_record_common p v :
  class_record_at f p v -> class_record_at g p v -> class_record_at (common f g) p v.
Proof. unfold class_record_at. merged v. Qed.
Hint Resolve class_record_common : common.

Lemma class1_common p v :
  class1_at f p v -> class1_at g p v -> class1_at (common f g) p v.
Proof. unfold class1_at. merged v. Qed.
Hint Resolve class1_common : common.

Lemma class2_common p v :
  class2_at f p v -> class2_at g p v -> class2_at (common f g) p v.
Proof. unfold class2_at. merged v. Qed.
Hint Resolve class2_common : common.

Lemma class_common p v :
  class_at f p v -> class_at g p v -> class_at (common f g) p v.
Proof. unfold class_at. merged v. Qed.
Hint Resolve class_common : common.

Lemma device_common p v :
  device_at f p v -> device_at g p v -> device_at (common f g) p v.
Proof. unfold device_at. merged v. Qed.
Hint Resolve device_common : common.

Lemma variation_common p v :
  variation_at f p v -> variation_at g p v -> variation_at (common f g) p v.
Proof. unfold variation_at. merged v. Qed.
Hint Resolve variation_common : common.

Lemma correction_common p v :
  correction_at f p v -> correction_at g p v -> correction_at (common f g) p v.
Proof. unfold correction_at. merged v. Qed.
Hint Resolve correction_common : common.

Lemma action_common p v :
  action_at f p v -> action_at g p v -> action_at (common f g) p v.
Proof. unfold action_at. merged v. Qed.
Hint Resolve action_common : common.

Lemma context_record_common p v :
  context_record_at f p v -> context_record_at g p v -> context_record_at (common f g) p v.
Proof. unfold context_record_at. merged v. Qed.
Hint Resolve context_record_common : common.

Lemma context_records_common p v :
  context_records_at f p v -> context_records_at g p v -> context_records_at (common f g) p v.
Proof. unfold context_records_at. merged v. Qed.
Hint Resolve context_records_common : common.

Lemma context_class_record_common p v :
  context_class_record_at f p v -> context_class_record_at g p v -> context_class_record_at (common f g) p v.
Proof. unfold context_class_record_at. merged v. Qed.
Hint Resolve context_class_record_common : common.

Lemma context_class_records_common p v :
  context_class_records_at f p v -> context_class_records_at g p v -> context_class_records_at (common f g) p v.
Proof. unfold context_class_records_at. merged v. Qed.
Hint Resolve context_class_records_common : common.

Lemma chained_record_common p v :
  chained_record_at f p v -> chained_record_at g p v -> chained_record_at (common f g) p v.
Proof. unfold chained_record_at. merged v. Qed.
Hint Resolve chained_record_common : common.

Lemma chained_records_common p v :
  chained_records_at f p v -> chained_records_at g p v -> chained_records_at (common f g) p v.
Proof. unfold chained_records_at. merged v. Qed.
Hint Resolve chained_records_common : common.

Lemma chained_class_record_common p v :
  chained_class_record_at f p v -> chained_class_record_at g p v -> chained_class_record_at (common f g) p v.
Proof. unfold chained_class_record_at. merged v. Qed.
Hint Resolve chained_class_record_common : common.

Lemma chained_class_records_common p v :
  chained_class_records_at f p v -> chained_class_records_at g p v -> chained_class_records_at (common f g) p v.
Proof. unfold chained_class_records_at. merged v. Qed.
Hint Resolve chained_class_records_common : common.

Lemma context1_common p v :
  context1_at f p v -> context1_at g p v -> context1_at (common f g) p v.
Proof. unfold context1_at. merged v. Qed.
Hint Resolve context1_common : common.

Lemma context2_common p v :
  context2_at f p v -> context2_at g p v -> context2_at (common f g) p v.
Proof. unfold context2_at. merged v. Qed.
Hint Resolve context2_common : common.

Lemma context3_common p v :
  context3_at f p v -> context3_at g p v -> context3_at (common f g) p v.
Proof. unfold context3_at. merged v. Qed.
Hint Resolve context3_common : common.

Lemma context_common p v :
  context_at f p v -> context_at g p v -> context_at (common f g) p v.
Proof. unfold context_at. merged v. Qed.
Hint Resolve context_common : common.

Lemma chained_context1_common p v :
  chained_context1_at f p v -> chained_context1_at g p v -> chained_context1_at (common f g) p v.
Proof. unfold chained_context1_at. merged v. Qed.
Hint Resolve chained_context1_common : common.

Lemma chained_context2_common p v :
  chained_context2_at f p v -> chained_context2_at g p v -> chained_context2_at (common f g) p v.
Proof. unfold chained_context2_at. merged v. Qed.
Hint Resolve chained_context2_common : common.

Lemma chained_context3_common p v :
  chained_context3_at f p v -> chained_context3_at g p v -> chained_context3_at (common f g) p v.
Proof. unfold chained_context3_at. merged v. Qed.
Hint Resolve chained_context3_common : common.

Lemma chained_context_common p v :
  chained_context_at f p v -> chained_context_at g p v -> chained_context_at (common f g) p v.
Proof. unfold chained_context_at. merged v. Qed.
Hint Resolve chained_context_common : common.

Lemma language_header_common p v :
  language_header_at f p v -> language_header_at g p v -> language_header_at (common f g) p v.
Proof. unfold language_header_at. merged v. Qed.
Hint Resolve language_header_common : common.

Lemma language_record_common p v :
  language_record_at f p v -> language_record_at g p v -> language_record_at (common f g) p v.
Proof. unfold language_record_at. merged v. Qed.
Hint Resolve language_record_common : common.

Lemma script_header_common p v :
  script_header_at f p v -> script_header_at g p v -> script_header_at (common f g) p v.
Proof. unfold script_header_at. merged v. Qed.
Hint Resolve script_header_common : common.

Lemma script_record_common p v :
  script_record_at f p v -> script_record_at g p v -> script_record_at (common f g) p v.
Proof. unfold script_record_at. merged v. Qed.
Hint Resolve script_record_common : common.

Lemma scripts_common p v :
  scripts_at f p v -> scripts_at g p v -> scripts_at (common f g) p v.
Proof. unfold scripts_at. merged v. Qed.
Hint Resolve scripts_common : common.

Lemma feature_header_common p v :
  feature_header_at f p v -> feature_header_at g p v -> feature_header_at (common f g) p v.
Proof. unfold feature_header_at. merged v. Qed.
Hint Resolve feature_header_common : common.

Lemma feature_record_common p v :
  feature_record_at f p v -> feature_record_at g p v -> feature_record_at (common f g) p v.
Proof. unfold feature_record_at. merged v. Qed.
Hint Resolve feature_record_common : common.

Lemma features_common p v :
  features_at f p v -> features_at g p v -> features_at (common f g) p v.
Proof. unfold features_at. merged v. Qed.
Hint Resolve features_common : common.

Lemma feature_variations_common p v :
  feature_variations_at f p v -> feature_variations_at g p v -> feature_variations_at (common f g) p v.
Proof. unfold feature_variations_at. merged v. Qed.
Hint Resolve feature_variations_common : common.

Section Tables.
Context {T : Type} (o : options) (table_at : N -> file -> N -> T -> Prop).
Context (Ht : forall t p v, table_at t f p v -> table_at t g p v -> table_at t (common f g) p v).

Lemma lookup_record_common p v : lookup_record_at o table_at f p v -> lookup_record_at o table_at g p v ->
  lookup_record_at o table_at (common f g) p v.
Proof.
  unfold lookup_record_at. destruct v as [? ? ? ? [set|] ?]; intros a b; merge a b.
Qed.
Hint Resolve lookup_record_common : common.

Lemma lookups_common p v : lookups_at o table_at f p v -> lookups_at o table_at g p v ->
  lookups_at o table_at (common f g) p v.
Proof. unfold lookups_at. merged v. Qed.
Hint Resolve lookups_common : common.

Lemma directory_common p v : directory_at o table_at f p v -> directory_at o table_at g p v ->
  directory_at o table_at (common f g) p v.
Proof.
  unfold directory_at. merged v.
Qed.
End Tables.

Lemma store_record_common o p v :
  store_record_at o f p v -> store_record_at o g p v -> store_record_at o (common f g) p v.
Proof. unfold store_record_at. merged v. Qed.
Hint Resolve store_record_common : common.

Lemma store_common o p v :
  store_at o f p v -> store_at o g p v -> store_at o (common f g) p v.
Proof. unfold store_at. merged v. Qed.
Hint Resolve store_common : common.

Lemma alternates_common p v :
  alternates_at f p v -> alternates_at g p v -> alternates_at (common f g) p v.
Proof. unfold alternates_at. merged v. Qed.
Hint Resolve alternates_common : common.

Lemma ligature_common p v :
  ligature_at f p v -> ligature_at g p v -> ligature_at (common f g) p v.
Proof. unfold ligature_at. merged v. Qed.
Hint Resolve ligature_common : common.

Lemma ligatures_common p v :
  ligatures_at f p v -> ligatures_at g p v -> ligatures_at (common f g) p v.
Proof. unfold ligatures_at. merged v. Qed.
Hint Resolve ligatures_common : common.

Lemma sequence_common p v :
  sequence_at f p v -> sequence_at g p v -> sequence_at (common f g) p v.
Proof. unfold sequence_at. merged v. Qed.
Hint Resolve sequence_common : common.

Lemma single_substitution1_common p v :
  single_substitution1_at f p v -> single_substitution1_at g p v -> single_substitution1_at (common f g) p v.
Proof. unfold single_substitution1_at. merged v. Qed.
Hint Resolve single_substitution1_common : common.

Lemma single_substitution2_common p v :
  single_substitution2_at f p v -> single_substitution2_at g p v -> single_substitution2_at (common f g) p v.
Proof. unfold single_substitution2_at. merged v. Qed.
Hint Resolve single_substitution2_common : common.

Lemma single_substitution_common p v :
  single_substitution_at f p v -> single_substitution_at g p v -> single_substitution_at (common f g) p v.
Proof. unfold single_substitution_at. merged v. Qed.
Hint Resolve single_substitution_common : common.

Lemma multiple_substitution_common p v :
  multiple_substitution_at f p v -> multiple_substitution_at g p v -> multiple_substitution_at (common f g) p v.
Proof. unfold multiple_substitution_at. merged v. Qed.
Hint Resolve multiple_substitution_common : common.

Lemma alternate_substitution_common p v :
  alternate_substitution_at f p v -> alternate_substitution_at g p v ->
  alternate_substitution_at (common f g) p v.
Proof. unfold alternate_substitution_at. merged v. Qed.
Hint Resolve alternate_substitution_common : common.

Lemma ligature_substitution_common p v :
  ligature_substitution_at f p v -> ligature_substitution_at g p v -> ligature_substitution_at (common f g) p v.
Proof. unfold ligature_substitution_at. merged v. Qed.
Hint Resolve ligature_substitution_common : common.

Lemma extension_substitution_common p v :
  extension_substitution_at f p v -> extension_substitution_at g p v ->
  extension_substitution_at (common f g) p v.
Proof. unfold extension_substitution_at. merged v. Qed.
Hint Resolve extension_substitution_common : common.

Lemma reverse_chained_contextual_substibution_common p v :
  reverse_chained_contextual_substibution_at f p v -> reverse_chained_contextual_substibution_at g p v ->
  reverse_chained_contextual_substibution_at (common f g) p v.
Proof. unfold reverse_chained_contextual_substibution_at. merged v. Qed.
Hint Resolve reverse_chained_contextual_substibution_common : common.

Lemma gsub_type_common type_ p v :
  gsub_type_at type_ f p v -> gsub_type_at type_ g p v -> gsub_type_at type_ (common f g) p v.
Proof. unfold gsub_type_at. merged v. Qed.
Hint Resolve gsub_type_common : common.

Lemma glyph_substitution_common o p v : glyph_substitution_at o f p v -> glyph_substitution_at o g p v ->
  glyph_substitution_at o (common f g) p v.
Proof. apply directory_common. eauto with common. Qed.

Lemma anchor1_common p v :
  anchor1_at f p v -> anchor1_at g p v -> anchor1_at (common f g) p v.
Proof. unfold anchor1_at. merged v. Qed.
Hint Resolve anchor1_common : common.

Lemma anchor2_common p v :
  anchor2_at f p v -> anchor2_at g p v -> anchor2_at (common f g) p v.
Proof. unfold anchor2_at. merged v. Qed.
Hint Resolve anchor2_common : common.

Lemma anchor3_common p v :
  anchor3_at f p v -> anchor3_at g p v -> anchor3_at (common f g) p v.
Proof. unfold anchor3_at. merged v. Qed.
Hint Resolve anchor3_common : common.

Lemma anchor_common p v :
  anchor_at f p v -> anchor_at g p v -> anchor_at (common f g) p v.
Proof. unfold anchor_at. merged v. Qed.
Hint Resolve anchor_common : common.

Lemma base_common base mark_class_count p v :
  base_at f base mark_class_count p v -> base_at g base mark_class_count p v ->
  base_at (common f g) base mark_class_count p v.
Proof. unfold base_at. merged v. Qed.
Hint Resolve base_common : common.

Lemma bases_common mark_class_count p v :
  bases_at f mark_class_count p v -> bases_at g mark_class_count p v ->
  bases_at (common f g) mark_class_count p v.
Proof. unfold bases_at. merged v. Qed.
Hint Resolve bases_common : common.

Lemma component_common base mark_class_count p v :
  component_at f base mark_class_count p v -> component_at g base mark_class_count p v ->
  component_at (common f g) base mark_class_count p v.
Proof. unfold component_at. merged v. Qed.
Hint Resolve component_common : common.

Lemma gpos_ligature_common mark_class_count p v :
  gpos_ligature_at f mark_class_count p v -> gpos_ligature_at g mark_class_count p v ->
  gpos_ligature_at (common f g) mark_class_count p v.
Proof. unfold gpos_ligature_at. merged v. Qed.
Hint Resolve gpos_ligature_common : common.

Lemma gpos_ligatures_common mark_class_count p v :
  gpos_ligatures_at f mark_class_count p v -> gpos_ligatures_at g mark_class_count p v ->
  gpos_ligatures_at (common f g) mark_class_count p v.
Proof. unfold gpos_ligatures_at. merged v. Qed.
Hint Resolve gpos_ligatures_common : common.

Lemma mark2_common base mark_class_count p v :
  mark2_at f base mark_class_count p v -> mark2_at g base mark_class_count p v ->
  mark2_at (common f g) base mark_class_count p v.
Proof. unfold mark2_at. merged v. Qed.
Hint Resolve mark2_common : common.

Lemma mark2s_common mark_class_count p v :
  mark2s_at f mark_class_count p v -> mark2s_at g mark_class_count p v ->
  mark2s_at (common f g) mark_class_count p v.
Proof. unfold mark2s_at. merged v. Qed.
Hint Resolve mark2s_common : common.

Lemma mark1_common o base p v : mark1_at o f base p v -> mark1_at o g base p v ->
  mark1_at o (common f g) base p v.
Proof.
  unfold mark1_at. destruct v. intros (A & B & C) (A' & B' & C').
  split; [apply u16_common; assumption|]. split; [apply u16_common; assumption|].
  destruct C as [C|[N C]], C' as [C'|[_ C']]; [left; exact C|left; exact C|left; exact C'|].
  right. split; [exact N|]. apply anchor_common; assumption.
Qed.
Hint Resolve mark1_common : common.

Lemma mark1s_common o p v :
  mark1s_at o f p v -> mark1s_at o g p v -> mark1s_at o (common f g) p v.
Proof. unfold mark1s_at. merged v. Qed.
Hint Resolve mark1s_common : common.

Lemma connection_common base p v :
  connection_at f base p v -> connection_at g base p v -> connection_at (common f g) base p v.
Proof. unfold connection_at. merged v. Qed.
Hint Resolve connection_common : common.

Lemma corrected_common base offset v : corrected_at f base offset v -> corrected_at g base offset v ->
  corrected_at (common f g) base offset v.
Proof. unfold corrected_at. destruct offset; [|auto]. apply maybe_common. eauto with common. Qed.
Hint Resolve corrected_common : common.

Lemma single_common base flags p v :
  single_at f base flags p v -> single_at g base flags p v -> single_at (common f g) base flags p v.
Proof. unfold single_at. merged v. Qed.
Hint Resolve single_common : common.

Lemma value_common base flags p v :
  value_at f base flags p v -> value_at g base flags p v -> value_at (common f g) base flags p v.
Proof. unfold value_at. merged v. Qed.
Hint Resolve value_common : common.

Lemma pair1_common base flags1 flags2 p v :
  pair1_at f base flags1 flags2 p v -> pair1_at g base flags1 flags2 p v ->
  pair1_at (common f g) base flags1 flags2 p v.
Proof. unfold pair1_at. merged v. Qed.
Hint Resolve pair1_common : common.

Lemma pair1s_common flags1 flags2 p v :
  pair1s_at f flags1 flags2 p v -> pair1s_at g flags1 flags2 p v -> pair1s_at (common f g) flags1 flags2 p v.
Proof. unfold pair1s_at. merged v. Qed.
Hint Resolve pair1s_common : common.

Lemma pair2_common base flags1 flags2 p v :
  pair2_at f base flags1 flags2 p v -> pair2_at g base flags1 flags2 p v ->
  pair2_at (common f g) base flags1 flags2 p v.
Proof. unfold pair2_at. merged v. Qed.
Hint Resolve pair2_common : common.

Lemma pair2s_common base count2 flags1 flags2 p v :
  pair2s_at f base count2 flags1 flags2 p v -> pair2s_at g base count2 flags1 flags2 p v ->
  pair2s_at (common f g) base count2 flags1 flags2 p v.
Proof. unfold pair2s_at. merged v. Qed.
Hint Resolve pair2s_common : common.

Lemma value_flags_common o p v : value_flags_at o f p v -> value_flags_at o g p v ->
  value_flags_at o (common f g) p v.
Proof. apply flags_common. Qed.
Hint Resolve value_flags_common : common.

Lemma single_adjustment1_common o p v :
  single_adjustment1_at o f p v -> single_adjustment1_at o g p v -> single_adjustment1_at o (common f g) p v.
Proof. unfold single_adjustment1_at. merged v. Qed.
Hint Resolve single_adjustment1_common : common.

Lemma single_adjustment2_common o p v :
  single_adjustment2_at o f p v -> single_adjustment2_at o g p v -> single_adjustment2_at o (common f g) p v.
Proof. unfold single_adjustment2_at. merged v. Qed.
Hint Resolve single_adjustment2_common : common.

Lemma single_adjustment_common o p v :
  single_adjustment_at o f p v -> single_adjustment_at o g p v -> single_adjustment_at o (common f g) p v.
Proof. unfold single_adjustment_at. merged v. Qed.
Hint Resolve single_adjustment_common : common.

Lemma pair_adjustment1_common o p v :
  pair_adjustment1_at o f p v -> pair_adjustment1_at o g p v -> pair_adjustment1_at o (common f g) p v.
Proof. unfold pair_adjustment1_at. merged v. Qed.
Hint Resolve pair_adjustment1_common : common.

Lemma pair_adjustment2_common o p v :
  pair_adjustment2_at o f p v -> pair_adjustment2_at o g p v -> pair_adjustment2_at o (common f g) p v.
Proof. unfold pair_adjustment2_at. merged v. Qed.
Hint Resolve pair_adjustment2_common : common.

Lemma pair_adjustment_common o p v :
  pair_adjustment_at o f p v -> pair_adjustment_at o g p v -> pair_adjustment_at o (common f g) p v.
Proof. unfold pair_adjustment_at. merged v. Qed.
Hint Resolve pair_adjustment_common : common.

Lemma cursive_attachment_common p v :
  cursive_attachment_at f p v -> cursive_attachment_at g p v -> cursive_attachment_at (common f g) p v.
Proof. unfold cursive_attachment_at. merged v. Qed.
Hint Resolve cursive_attachment_common : common.

Lemma mark_to_base_attachment_common o p v :
  mark_to_base_attachment_at o f p v -> mark_to_base_attachment_at o g p v ->
  mark_to_base_attachment_at o (common f g) p v.
Proof. unfold mark_to_base_attachment_at. merged v. Qed.
Hint Resolve mark_to_base_attachment_common : common.

Lemma mark_to_ligature_attachment_common o p v :
  mark_to_ligature_attachment_at o f p v -> mark_to_ligature_attachment_at o g p v ->
  mark_to_ligature_attachment_at o (common f g) p v.
Proof. unfold mark_to_ligature_attachment_at. merged v. Qed.
Hint Resolve mark_to_ligature_attachment_common : common.

Lemma mark_to_mark_attachment_common o p v :
  mark_to_mark_attachment_at o f p v -> mark_to_mark_attachment_at o g p v ->
  mark_to_mark_attachment_at o (common f g) p v.
Proof. unfold mark_to_mark_attachment_at. merged v. Qed.
Hint Resolve mark_to_mark_attachment_common : common.

Lemma extension_positioning_common p v :
  extension_positioning_at f p v -> extension_positioning_at g p v -> extension_positioning_at (common f g) p v.
Proof. unfold extension_positioning_at. merged v. Qed.
Hint Resolve extension_positioning_common : common.

Lemma gpos_type_common o type_ p v :
  gpos_type_at o type_ f p v -> gpos_type_at o type_ g p v -> gpos_type_at o type_ (common f g) p v.
Proof. unfold gpos_type_at. merged v. Qed.
Hint Resolve gpos_type_common : common.

Lemma glyph_positioning_common o p v : glyph_positioning_at o f p v -> glyph_positioning_at o g p v ->
  glyph_positioning_at o (common f g) p v.
Proof. apply directory_common. eauto with common. Qed.

Lemma attachment_common p v :
  attachment_at f p v -> attachment_at g p v -> attachment_at (common f g) p v.
Proof. unfold attachment_at. merged v. Qed.
Hint Resolve attachment_common : common.

Lemma attachments_common p v :
  attachments_at f p v -> attachments_at g p v -> attachments_at (common f g) p v.
Proof. unfold attachments_at. merged v. Qed.
Hint Resolve attachments_common : common.

Lemma caret1_common p v :
  caret1_at f p v -> caret1_at g p v -> caret1_at (common f g) p v.
Proof. unfold caret1_at. merged v. Qed.
Hint Resolve caret1_common : common.

Lemma caret2_common p v :
  caret2_at f p v -> caret2_at g p v -> caret2_at (common f g) p v.
Proof. unfold caret2_at. merged v. Qed.
Hint Resolve caret2_common : common.

Lemma caret3_common p v :
  caret3_at f p v -> caret3_at g p v -> caret3_at (common f g) p v.
Proof. unfold caret3_at. merged v. Qed.
Hint Resolve caret3_common : common.

Lemma caret_common p v :
  caret_at f p v -> caret_at g p v -> caret_at (common f g) p v.
Proof. unfold caret_at. merged v. Qed.
Hint Resolve caret_common : common.

Lemma gdef_ligature_common p v :
  gdef_ligature_at f p v -> gdef_ligature_at g p v -> gdef_ligature_at (common f g) p v.
Proof. unfold gdef_ligature_at. merged v. Qed.
Hint Resolve gdef_ligature_common : common.

Lemma gdef_ligatures_common p v :
  gdef_ligatures_at f p v -> gdef_ligatures_at g p v -> gdef_ligatures_at (common f g) p v.
Proof. unfold gdef_ligatures_at. merged v. Qed.
Hint Resolve gdef_ligatures_common : common.

Lemma marks_common p v :
  marks_at f p v -> marks_at g p v -> marks_at (common f g) p v.
Proof. unfold marks_at. merged v. Qed.
Hint Resolve marks_common : common.

Lemma gdef_header1_common p v :
  gdef_header1_at f p v -> gdef_header1_at g p v -> gdef_header1_at (common f g) p v.
Proof. unfold gdef_header1_at. merged v. Qed.
Hint Resolve gdef_header1_common : common.

Lemma gdef_header12_common p v :
  gdef_header12_at f p v -> gdef_header12_at g p v -> gdef_header12_at (common f g) p v.
Proof. unfold gdef_header12_at. merged v. Qed.
Hint Resolve gdef_header12_common : common.

Lemma gdef_header13_common p v :
  gdef_header13_at f p v -> gdef_header13_at g p v -> gdef_header13_at (common f g) p v.
Proof. unfold gdef_header13_at. merged v. Qed.
Hint Resolve gdef_header13_common : common.

Lemma gdef_header_common p v :
  gdef_header_at f p v -> gdef_header_at g p v -> gdef_header_at (common f g) p v.
Proof. unfold gdef_header_at. merged v. Qed.
Hint Resolve gdef_header_common : common.

Lemma glyph_definition_common o p v : glyph_definition_at o f p v -> glyph_definition_at o g p v ->
  glyph_definition_at o (common f g) p v.
Proof.
  unfold glyph_definition_at, glyph_definition_with. destruct v as [h ? ? ? ? ? ?].
  destruct (gdef_offsets h) as [[[[[a b] c] d] m] i]. intros x y. merge x y.
Qed.

Lemma cpal_header0_common p v :
  cpal_header0_at f p v -> cpal_header0_at g p v -> cpal_header0_at (common f g) p v.
Proof. unfold cpal_header0_at. merged v. Qed.
Hint Resolve cpal_header0_common : common.

Lemma cpal_header1_common p v :
  cpal_header1_at f p v -> cpal_header1_at g p v -> cpal_header1_at (common f g) p v.
Proof. unfold cpal_header1_at. merged v. Qed.
Hint Resolve cpal_header1_common : common.

Lemma cpal_header_common p v :
  cpal_header_at f p v -> cpal_header_at g p v -> cpal_header_at (common f g) p v.
Proof. unfold cpal_header_at. merged v. Qed.
Hint Resolve cpal_header_common : common.

Lemma color_common p v :
  color_at f p v -> color_at g p v -> color_at (common f g) p v.
Proof. unfold color_at. merged v. Qed.
Hint Resolve color_common : common.

Lemma color_palettes_common p v : color_palettes_at f p v -> color_palettes_at g p v ->
  color_palettes_at (common f g) p v.
Proof.
  unfold color_palettes_at. destruct v as [h l]. destruct (cpal_layout h) as [[[? ?] ?] ?].
  intros a b. merge a b.
Qed.

Lemma fvar_header_common p v :
  fvar_header_at f p v -> fvar_header_at g p v -> fvar_header_at (common f g) p v.
Proof. unfold fvar_header_at. merged v. Qed.
Hint Resolve fvar_header_common : common.

Lemma axis_record_common o p v :
  axis_record_at o f p v -> axis_record_at o g p v -> axis_record_at o (common f g) p v.
Proof. unfold axis_record_at. merged v. Qed.
Hint Resolve axis_record_common : common.

Lemma instance_record_common o axis_count p v :
  instance_record_at o f axis_count p v -> instance_record_at o g axis_count p v ->
  instance_record_at o (common f g) axis_count p v.
Proof. unfold instance_record_at. merged v. Qed.
Hint Resolve instance_record_common : common.

Lemma font_variations_common o p v : font_variations_at o f p v -> font_variations_at o g p v ->
  font_variations_at o (common f g) p v.
Proof. unfold font_variations_at. destruct v as [h l l']. destruct h. intros a b. merge a b. Qed.

Lemma offset_record_common p v :
  offset_record_at f p v -> offset_record_at g p v -> offset_record_at (common f g) p v.
Proof. unfold offset_record_at. merged v. Qed.
Hint Resolve offset_record_common : common.

Lemma offsets_header_common p v :
  offsets_header_at f p v -> offsets_header_at g p v -> offsets_header_at (common f g) p v.
Proof. unfold offsets_header_at. merged v. Qed.
Hint Resolve offsets_header_common : common.

Lemma offsets_common p v :
  offsets_at f p v -> offsets_at g p v -> offsets_at (common f g) p v.
Proof. unfold offsets_at. merged v. Qed.
Hint Resolve offsets_common : common.

End Common.

(** ** Requests *)

Lemma common_left f g q b : common f g q = Some b -> f q = Some b.
Proof. unfold common. destruct (f q) as [a|], (g q) as [c|]; try discriminate.
  destruct (Byte.eqb a c); congruence. Qed.

Lemma common_right f g q b : common f g q = Some b -> g q = Some b.
Proof.
  unfold common. destruct (f q) as [a|], (g q) as [c|]; try discriminate.
  destruct (Byte.eqb a c) eqn:E; [|discriminate]. apply Byte.byte_dec_bl in E. congruence.
Qed.

Lemma below_bounded f g : bounded f -> (forall q b, g q = Some b -> f q = Some b) -> bounded g.
Proof.
  intros Hf H q Hq. destruct (g q) as [b|] eqn:E; [|reflexivity]. apply H in E.
  rewrite (Hf q Hq) in E. discriminate.
Qed.

Lemma request_common {A} (r : request A) o f g p v : bounded f -> bounded g ->
  reads o (reader r) f p v -> reads o (reader r) g p v -> reads o (reader r) (common f g) p v.
Proof.
  intros Hf Hg. rewrite (request_reads r o f p v Hf), (request_reads r o g p v Hg), (request_reads r).
  2: { apply (below_bounded f); [exact Hf|]. intros q b. apply common_left. }
  destruct r; cbn.
  - intros (x & -> & T & A & X) (y & E & _ & _ & Y). injection E as <-. exists x. eauto 6 using offsets_common.
  - intros (A & X) (_ & Y). eauto using offsets_common.
  - apply glyph_definition_common.
  - apply glyph_positioning_common.
  - apply glyph_substitution_common.
  - apply color_palettes_common.
  - apply font_variations_common.
Qed.

Lemma reads_below {A} (r : request A) o f g p v : (forall q b, f q = Some b -> g q = Some b) ->
  reads o (reader r) f p v -> reads o (reader r) g p v.
Proof.
  intros H [q Hq]. exists q. destruct (request_holes r o f g p H) as [E|E]; rewrite E in *;
    [exact Hq|discriminate].
Qed.

Lemma without_below i f q b : without i f q = Some b -> f q = Some b.
Proof. unfold without. destruct (q =? i); [discriminate|auto]. Qed.

Lemma reads_without {A} (r : request A) o f p v i : reads o (reader r) f p v ->
  reads o (reader r) (without i f) p v \/ needed o (reader r) f p v i.
Proof.
  intros [q Hq]. destruct (request_holes r o (without i f) f p (without_below i f)) as [E|E].
  - left. exists q. rewrite E. exact Hq.
  - right. intros [q' H]. rewrite E in H. discriminate.
Qed.

Lemma needed_kept {A} (r : request A) o f g p v i : bounded f -> bounded g ->
  reads o (reader r) f p v -> reads o (reader r) g p v -> needed o (reader r) f p v i -> g i = f i.
Proof.
  intros Hf Hg Rf Rg Hi.
  assert (D : g i = f i \/ g i <> f i).
  { destruct (f i) as [a|], (g i) as [b|]; try (left; reflexivity); try (right; discriminate).
    destruct (Byte.byte_eq_dec a b) as [->|N]; [left; reflexivity|right; congruence]. }
  destruct D as [E|N]; [exact E|]. destruct Hi.
  apply (reads_below r o (common f g)); [|apply request_common; assumption].
  intros q b Hq. unfold without. destruct (N.eqb_spec q i) as [->|_]; [|exact (common_left _ _ _ _ Hq)].
  destruct N. rewrite (common_left _ _ _ _ Hq). exact (common_right _ _ _ _ Hq).
Qed.

Lemma thinned {A} (r : request A) o f p v k : bounded f -> reads o (reader r) f p v ->
  exists h, reads o (reader r) h p v /\ (forall q b, h q = Some b -> f q = Some b) /\
    forall q b, q < N.of_nat k -> h q = Some b -> needed o (reader r) f p v q.
Proof.
  intros Hf Rf. induction k as [|k (h & Rh & Hh & Hn)].
  - exists f. split; [exact Rf|]. split; [auto|]. lia.
  - destruct (reads_without r o f p v (N.of_nat k) Rf) as [Rk|Nk].
    + exists (common h (without (N.of_nat k) f)). split; [|split].
      * apply request_common; [apply (below_bounded f)| apply (below_bounded f) | |]; try assumption.
        intros q b. apply without_below.
      * intros q b Hq. apply Hh. exact (common_left _ _ _ _ Hq).
      * intros q b Hq Hb. destruct (N.eqb_spec q (N.of_nat k)) as [->|N].
        -- apply common_right in Hb. unfold without in Hb. rewrite N.eqb_refl in Hb. discriminate.
        -- apply (Hn q b); [lia|]. exact (common_left _ _ _ _ Hb).
    + exists h. split; [exact Rh|]. split; [exact Hh|]. intros q b Hq Hb.
      destruct (N.eqb_spec q (N.of_nat k)) as [->|N]; [exact Nk|]. apply (Hn q b); [lia|exact Hb].
Qed.

Lemma needed_enough {A} (r : request A) o f g p v : bounded f -> reads o (reader r) f p v ->
  (forall i, needed o (reader r) f p v i -> g i = f i) -> reads o (reader r) g p v.
Proof.
  intros Hf Rf H.
  destruct (thinned r o f p v (N.to_nat (p + extent o r v)) Hf Rf) as (h & [q Hq] & Hh & Hn).
  apply (reads_below r o (cut (p + extent o r v) h)).
  - intros i b. unfold cut. destruct (N.ltb_spec i (p + extent o r v)) as [L|]; [|discriminate]. intros Hb.
    rewrite <- (Hh i b Hb). apply H. apply (Hn i b); [lia|exact Hb].
  - exists q. apply (request_extent r o h p v q); [exact (below_bounded f h Hf Hh)|exact Hq|lia].
Qed.

Lemma needed_exactly {A} (r : request A) o f g p v : bounded f -> bounded g -> reads o (reader r) f p v ->
  reads o (reader r) g p v <-> forall i, needed o (reader r) f p v i -> g i = f i.
Proof.
  intros Hf Hg Rf. split.
  - intros Rg i. exact (needed_kept r o f g p v i Hf Hg Rf Rg).
  - exact (needed_enough r o f g p v Hf Rf).
Qed.

Lemma needed_or_not {A} (r : request A) o f p v q i : reader r (mkEnv f o) p = Ok (v, q) ->
  (needed o (reader r) f p v i -> reader r (mkEnv (without i f) o) p = Err UnexpectedEnd) /\
  (~ needed o (reader r) f p v i -> reader r (mkEnv (without i f) o) p = Ok (v, q)).
Proof.
  intros Hq. destruct (request_holes r o (without i f) f p (without_below i f)) as [E|E].
  - rewrite Hq in E. split; [|auto]. intros H. destruct H. exists q. exact E.
  - split; [auto|]. intros H. destruct H. intros [q' H]. rewrite E in H. discriminate.
Qed.

Lemma needed_within {A} (r : request A) o f p v i : bounded f -> reads o (reader r) f p v ->
  needed o (reader r) f p v i -> p <= i < p + extent o r v.
Proof.
  intros Hf [q Hq] Hi.
  assert (Hw : bounded (without i f)) by exact (below_bounded f _ Hf (without_below i f)).
  destruct (N.le_gt_cases p i) as [L|L], (N.le_gt_cases (p + extent o r v) i) as [U|U]; try lia.
  all: destruct Hi; exists q; apply (extent_enough r o f (without i f) p v q Hf Hw Hq).
  all: intros j Hj; unfold without; destruct (N.eqb_spec j i); [lia|reflexivity].
Qed.
