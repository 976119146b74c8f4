(** The formats do not depend on where in the file a structure is. *)

From Verif Require Export SpecGsub SpecGpos SpecGdef SpecCpal SpecFvar SpecFont.

Section Relocate.
Context (k : N) (f g : file) (Hg : drops k f g).

(** ** Vocabulary *)

Lemma byte_moved p q : q = k + p -> g p = f q.
Proof. intros ->. apply Hg. Qed.

Lemma u8_moved p q v : q = k + p -> (u8_at g p v <-> u8_at f q v).
Proof. intros H. unfold u8_at. rewrite (byte_moved p q H). reflexivity. Qed.

Lemma u16_moved p q v : q = k + p -> (u16_at g p v <-> u16_at f q v).
Proof.
  intros H. unfold u16_at. rewrite (byte_moved p q H), (byte_moved (p + 1) (q + 1)) by lia. reflexivity.
Qed.

Lemma u32_moved p q v : q = k + p -> (u32_at g p v <-> u32_at f q v).
Proof.
  intros H. unfold u32_at. split; intros (h & l & Hh & Hl & E); exists h, l;
    (split; [|split; [|exact E]]).
  1, 3: apply (u16_moved p q _ H); assumption.
  1, 2: apply (u16_moved (p + 2) (q + 2)); [lia|assumption].
Qed.

Lemma i16_moved p q v : q = k + p -> (i16_at g p v <-> i16_at f q v).
Proof.
  intros H. unfold i16_at. split; intros (u & Hu & E); exists u; (split; [|exact E]);
    apply (u16_moved p q _ H); assumption.
Qed.

Lemma i32_moved p q v : q = k + p -> (i32_at g p v <-> i32_at f q v).
Proof.
  intros H. unfold i32_at. split; intros (u & Hu & E); exists u; (split; [|exact E]);
    apply (u32_moved p q _ H); assumption.
Qed.

Lemma tag_moved p q v : q = k + p -> (tag_at g p v <-> tag_at f q v).
Proof.
  intros H. destruct v. unfold tag_at.
  rewrite (byte_moved p q H), (byte_moved (p + 1) (q + 1)), (byte_moved (p + 2) (q + 2)),
    (byte_moved (p + 3) (q + 3)) by lia. reflexivity.
Qed.

Lemma flags_moved checked reserved p q v :
  q = k + p -> (flags_at checked reserved g p v <-> flags_at checked reserved f q v).
Proof. intros H. unfold flags_at. rewrite (u16_moved p q _ H). reflexivity. Qed.

Definition moves {A} (P Q : N -> A -> Prop) : Prop := forall p q v, q = k + p -> (P p v <-> Q q v).

Lemma vec_moved {A} (P Q : N -> A -> Prop) s p q n vs :
  moves P Q -> q = k + p -> (vec_at P s p n vs <-> vec_at Q s q n vs).
Proof.
  intros HPQ H. unfold vec_at. split; intros [Hn Hv]; (split; [exact Hn|]); intros i v Hi;
    [apply (HPQ (p + s * N.of_nat i))|apply (HPQ _ (q + s * N.of_nat i))]; try lia; auto.
Qed.

Lemma u16s_moved p q n v : q = k + p -> (u16s_at g p n v <-> u16s_at f q n v).
Proof. apply vec_moved. intros ? ? ?. apply u16_moved. Qed.

Lemma u8s_moved p q n v : q = k + p -> (u8s_at g p n v <-> u8s_at f q n v).
Proof. apply vec_moved. intros ? ? ?. apply u8_moved. Qed.

Lemma u32s_moved p q n v : q = k + p -> (u32s_at g p n v <-> u32s_at f q n v).
Proof. apply vec_moved. intros ? ? ?. apply u32_moved. Qed.

Lemma i32s_moved p q n v : q = k + p -> (i32s_at g p n v <-> i32s_at f q n v).
Proof. apply vec_moved. intros ? ? ?. apply i32_moved. Qed.

Lemma linked_moved {A} (P Q : N -> A -> Prop) p q offsets vs :
  moves P Q -> q = k + p -> (linked_at P p offsets vs <-> linked_at Q q offsets vs).
Proof.
  intros HPQ H. unfold linked_at.
  split; intros Hv; induction Hv; constructor; auto.
  - revert H0. apply HPQ. lia.
  - revert H0. apply HPQ. lia.
Qed.

Lemma maybe_moved {A} (P Q : N -> A -> Prop) p q offset v :
  moves P Q -> q = k + p -> (maybe_at P p offset v <-> maybe_at Q q offset v).
Proof.
  intros HPQ H. destruct v as [v|]; cbn; [|reflexivity].
  rewrite (HPQ (p + offset) (q + offset)) by lia. reflexivity.
Qed.

Lemma maybes_moved {A} (P Q : N -> A -> Prop) p q offsets vs :
  moves P Q -> q = k + p -> (maybes_at P p offsets vs <-> maybes_at Q q offsets vs).
Proof.
  intros HPQ H. unfold maybes_at.
  split; intros Hv; induction Hv; constructor; auto.
  - revert H0. apply (maybe_moved P Q p q); assumption.
  - revert H0. apply (maybe_moved P Q p q); assumption.
Qed.

Lemma list_moved {A} o (P Q : N -> A -> Prop) p q offset default v :
  moves P Q -> q = k + p -> (list_at o P p offset default v <-> list_at o Q q offset default v).
Proof.
  intros HPQ H. unfold list_at. rewrite (HPQ (p + offset) (q + offset)) by lia. reflexivity.
Qed.

Lemma field_moved {A} (P Q : N -> A -> Prop) flags i p q v :
  moves P Q -> q = k + p -> (field_at P flags i p v <-> field_at Q flags i q v).
Proof.
  intros HPQ H. destruct v as [v|]; cbn -[N.testbit N.mul]; [|reflexivity].
  rewrite (HPQ (p + 2 * bits_below flags i) (q + 2 * bits_below flags i)) by lia. reflexivity.
Qed.

Lemma and_moved (P P' Q Q' : Prop) : (P <-> P') -> (Q <-> Q') -> (P /\ Q <-> P' /\ Q').
Proof. tauto. Qed.

Lemma or_moved (P P' Q Q' : Prop) : (P <-> P') -> (Q <-> Q') -> (P \/ Q <-> P' \/ Q').
Proof. tauto. Qed.

Lemma to_moved (R P P' : Prop) : (P <-> P') -> ((R -> P) <-> (R -> P')).
Proof. tauto. Qed.

Create HintDb moved.

Ltac place := first [assumption | match goal with H : _ = k + _ |- _ = _ => rewrite H; lia end].

#[local] Hint Extern 1 (_ = k + _) => place : moved.
#[local] Hint Extern 1 (_ = _ + _) => place : moved.

(** One fact at a time. *)
Ltac moved :=
  match goal with
  | |- (_ /\ _) <-> (_ /\ _) => apply and_moved; moved
  | |- (_ \/ _) <-> (_ \/ _) => apply or_moved; moved
  | |- ?P <-> ?P => reflexivity
  | |- (?R -> _) <-> (?R -> _) => apply to_moved; moved
  | |- u8_at _ _ _ <-> _ => apply u8_moved; place
  | |- u16_at _ _ _ <-> _ => apply u16_moved; place
  | |- u32_at _ _ _ <-> _ => apply u32_moved; place
  | |- i16_at _ _ _ <-> _ => apply i16_moved; place
  | |- i32_at _ _ _ <-> _ => apply i32_moved; place
  | |- tag_at _ _ _ <-> _ => apply tag_moved; place
  | |- flags_at _ _ _ _ _ <-> _ => apply flags_moved; place
  | |- u16s_at _ _ _ _ <-> _ => apply u16s_moved; place
  | |- u8s_at _ _ _ _ <-> _ => apply u8s_moved; place
  | |- u32s_at _ _ _ _ <-> _ => apply u32s_moved; place
  | |- i32s_at _ _ _ _ <-> _ => apply i32s_moved; place
  | |- vec_at _ _ _ _ _ <-> _ => apply vec_moved; [moves|place]
  | |- linked_at _ _ _ _ <-> _ => apply linked_moved; [moves|place]
  | |- maybe_at _ _ _ _ <-> _ => apply maybe_moved; [moves|place]
  | |- maybes_at _ _ _ _ <-> _ => apply maybes_moved; [moves|place]
  | |- list_at _ _ _ _ _ _ <-> _ => apply list_moved; [moves|place]
  | |- field_at _ _ _ _ _ <-> _ => apply field_moved; [moves|place]
  | |- context [match ?x with None => _ | Some _ => _ end] => destruct x; moved
  | |- _ <-> _ => solve [eauto with moved]
  end
with moves := intros ? ? ? ?; moved.

Lemma coverage_record_moved p q v :
  q = k + p -> (coverage_record_at g p v <-> coverage_record_at f q v).
Proof. intros H. destruct v; unfold coverage_record_at; moved. Qed.
#[local] Hint Resolve coverage_record_moved : moved.

Lemma coverage1_moved p q v :
  q = k + p -> (coverage1_at g p v <-> coverage1_at f q v).
Proof. intros H. destruct v; unfold coverage1_at; moved. Qed.
#[local] Hint Resolve coverage1_moved : moved.

Lemma coverage2_moved p q v :
  q = k + p -> (coverage2_at g p v <-> coverage2_at f q v).
Proof. intros H. destruct v; unfold coverage2_at; moved. Qed.
#[local] Hint Resolve coverage2_moved : moved.

Lemma coverage_moved p q v :
  q = k + p -> (coverage_at g p v <-> coverage_at f q v).
Proof. intros H. destruct v; unfold coverage_at; moved. Qed.
#[local] Hint Resolve coverage_moved : moved.

Lemma class_record_moved p q v :
  q = k + p -> (class_record_at g p v <-> class_record_at f q v).
Proof. intros H. destruct v; unfold class_record_at; moved. Qed.
#[local] Hint Resolve class_record_moved : moved.

Lemma class1_moved p q v :
  q = k + p -> (class1_at g p v <-> class1_at f q v).
Proof. intros H. destruct v; unfold class1_at; moved. Qed.
#[local] Hint Resolve class1_moved : moved.

Lemma class2_moved p q v :
  q = k + p -> (class2_at g p v <-> class2_at f q v).
Proof. intros H. destruct v; unfold class2_at; moved. Qed.
#[local] Hint Resolve class2_moved : moved.

Lemma class_moved p q v :
  q = k + p -> (class_at g p v <-> class_at f q v).
Proof. intros H. destruct v; unfold class_at; moved. Qed.
#[local] Hint Resolve class_moved : moved.

Lemma device_moved p q v :
  q = k + p -> (device_at g p v <-> device_at f q v).
Proof. intros H. destruct v; unfold device_at; moved. Qed.
#[local] Hint Resolve device_moved : moved.

Lemma variation_moved p q v :
  q = k + p -> (variation_at g p v <-> variation_at f q v).
Proof. intros H. destruct v; unfold variation_at; moved. Qed.
#[local] Hint Resolve variation_moved : moved.

Lemma correction_moved p q v :
  q = k + p -> (correction_at g p v <-> correction_at f q v).
Proof. intros H. destruct v; unfold correction_at; moved. Qed.
#[local] Hint Resolve correction_moved : moved.

Lemma action_moved p q v :
  q = k + p -> (action_at g p v <-> action_at f q v).
Proof. intros H. destruct v; unfold action_at; moved. Qed.
#[local] Hint Resolve action_moved : moved.

Lemma context_record_moved p q v :
  q = k + p -> (context_record_at g p v <-> context_record_at f q v).
Proof. intros H. destruct v; unfold context_record_at; moved. Qed.
#[local] Hint Resolve context_record_moved : moved.

Lemma context_records_moved p q v :
  q = k + p -> (context_records_at g p v <-> context_records_at f q v).
Proof. intros H. destruct v; unfold context_records_at; moved. Qed.
#[local] Hint Resolve context_records_moved : moved.

Lemma context_class_record_moved p q v :
  q = k + p -> (context_class_record_at g p v <-> context_class_record_at f q v).
Proof. intros H. destruct v; unfold context_class_record_at; moved. Qed.
#[local] Hint Resolve context_class_record_moved : moved.

Lemma context_class_records_moved p q v :
  q = k + p -> (context_class_records_at g p v <-> context_class_records_at f q v).
Proof. intros H. destruct v; unfold context_class_records_at; moved. Qed.
#[local] Hint Resolve context_class_records_moved : moved.

Lemma chained_record_moved p q v :
  q = k + p -> (chained_record_at g p v <-> chained_record_at f q v).
Proof. intros H. destruct v; unfold chained_record_at; moved. Qed.
#[local] Hint Resolve chained_record_moved : moved.

Lemma chained_records_moved p q v :
  q = k + p -> (chained_records_at g p v <-> chained_records_at f q v).
Proof. intros H. destruct v; unfold chained_records_at; moved. Qed.
#[local] Hint Resolve chained_records_moved : moved.

Lemma chained_class_record_moved p q v :
  q = k + p -> (chained_class_record_at g p v <-> chained_class_record_at f q v).
Proof. intros H. destruct v; unfold chained_class_record_at; moved. Qed.
#[local] Hint Resolve chained_class_record_moved : moved.

Lemma chained_class_records_moved p q v :
  q = k + p -> (chained_class_records_at g p v <-> chained_class_records_at f q v).
Proof. intros H. destruct v; unfold chained_class_records_at; moved. Qed.
#[local] Hint Resolve chained_class_records_moved : moved.

Lemma context1_moved p q v :
  q = k + p -> (context1_at g p v <-> context1_at f q v).
Proof. intros H. destruct v; unfold context1_at; moved. Qed.
#[local] Hint Resolve context1_moved : moved.

Lemma context2_moved p q v :
  q = k + p -> (context2_at g p v <-> context2_at f q v).
Proof. intros H. destruct v; unfold context2_at; moved. Qed.
#[local] Hint Resolve context2_moved : moved.

Lemma context3_moved p q v :
  q = k + p -> (context3_at g p v <-> context3_at f q v).
Proof. intros H. destruct v; unfold context3_at; moved. Qed.
#[local] Hint Resolve context3_moved : moved.

Lemma context_moved p q v :
  q = k + p -> (context_at g p v <-> context_at f q v).
Proof. intros H. destruct v; unfold context_at; moved. Qed.
#[local] Hint Resolve context_moved : moved.

Lemma chained_context1_moved p q v :
  q = k + p -> (chained_context1_at g p v <-> chained_context1_at f q v).
Proof. intros H. destruct v; unfold chained_context1_at; moved. Qed.
#[local] Hint Resolve chained_context1_moved : moved.

Lemma chained_context2_moved p q v :
  q = k + p -> (chained_context2_at g p v <-> chained_context2_at f q v).
Proof. intros H. destruct v; unfold chained_context2_at; moved. Qed.
#[local] Hint Resolve chained_context2_moved : moved.

Lemma chained_context3_moved p q v :
  q = k + p -> (chained_context3_at g p v <-> chained_context3_at f q v).
Proof. intros H. destruct v; unfold chained_context3_at; moved. Qed.
#[local] Hint Resolve chained_context3_moved : moved.

Lemma chained_context_moved p q v :
  q = k + p -> (chained_context_at g p v <-> chained_context_at f q v).
Proof. intros H. destruct v; unfold chained_context_at; moved. Qed.
#[local] Hint Resolve chained_context_moved : moved.

Lemma language_header_moved p q v :
  q = k + p -> (language_header_at g p v <-> language_header_at f q v).
Proof. intros H. destruct v; unfold language_header_at; moved. Qed.
#[local] Hint Resolve language_header_moved : moved.

Lemma language_record_moved p q v :
  q = k + p -> (language_record_at g p v <-> language_record_at f q v).
Proof. intros H. destruct v; unfold language_record_at; moved. Qed.
#[local] Hint Resolve language_record_moved : moved.

Lemma script_header_moved p q v :
  q = k + p -> (script_header_at g p v <-> script_header_at f q v).
Proof. intros H. destruct v; unfold script_header_at; moved. Qed.
#[local] Hint Resolve script_header_moved : moved.

Lemma script_record_moved p q v :
  q = k + p -> (script_record_at g p v <-> script_record_at f q v).
Proof. intros H. destruct v; unfold script_record_at; moved. Qed.
#[local] Hint Resolve script_record_moved : moved.

Lemma scripts_moved p q v :
  q = k + p -> (scripts_at g p v <-> scripts_at f q v).
Proof. intros H. destruct v; unfold scripts_at; moved. Qed.
#[local] Hint Resolve scripts_moved : moved.

Lemma feature_header_moved p q v :
  q = k + p -> (feature_header_at g p v <-> feature_header_at f q v).
Proof. intros H. destruct v; unfold feature_header_at; moved. Qed.
#[local] Hint Resolve feature_header_moved : moved.

Lemma feature_record_moved p q v :
  q = k + p -> (feature_record_at g p v <-> feature_record_at f q v).
Proof. intros H. destruct v; unfold feature_record_at; moved. Qed.
#[local] Hint Resolve feature_record_moved : moved.

Lemma features_moved p q v :
  q = k + p -> (features_at g p v <-> features_at f q v).
Proof. intros H. destruct v; unfold features_at; moved. Qed.
#[local] Hint Resolve features_moved : moved.

Lemma feature_variations_moved p q v :
  q = k + p -> (feature_variations_at g p v <-> feature_variations_at f q v).
Proof. intros H. destruct v; unfold feature_variations_at; moved. Qed.
#[local] Hint Resolve feature_variations_moved : moved.

Section Lookup.
Context {T : Type} (o : options) (table_at : N -> file -> N -> T -> Prop).
Context (table_moved : forall type_ p q v, q = k + p -> (table_at type_ g p v <-> table_at type_ f q v)).
#[local] Hint Resolve table_moved : moved.

Lemma lookup_record_moved p q v :
  q = k + p -> (lookup_record_at o table_at g p v <-> lookup_record_at o table_at f q v).
Proof. intros H. destruct v. unfold lookup_record_at. moved. Qed.
#[local] Hint Resolve lookup_record_moved : moved.

Lemma lookups_moved p q v :
  q = k + p -> (lookups_at o table_at g p v <-> lookups_at o table_at f q v).
Proof. intros H. destruct v. unfold lookups_at. moved. Qed.
#[local] Hint Resolve lookups_moved : moved.

Lemma directory_moved p q v :
  q = k + p -> (directory_at o table_at g p v <-> directory_at o table_at f q v).
Proof. intros H. destruct v. unfold directory_at. moved. Qed.
End Lookup.

Lemma store_record_moved o p q v :
  q = k + p -> (store_record_at o g p v <-> store_record_at o f q v).
Proof. intros H. destruct v; unfold store_record_at; moved. Qed.
#[local] Hint Resolve store_record_moved : moved.

Lemma store_moved o p q v :
  q = k + p -> (store_at o g p v <-> store_at o f q v).
Proof. intros H. destruct v; unfold store_at; moved. Qed.
#[local] Hint Resolve store_moved : moved.

Lemma alternates_moved p q v :
  q = k + p -> (alternates_at g p v <-> alternates_at f q v).
Proof. intros H. destruct v; unfold alternates_at; moved. Qed.
#[local] Hint Resolve alternates_moved : moved.

Lemma ligature_moved p q v :
  q = k + p -> (ligature_at g p v <-> ligature_at f q v).
Proof. intros H. destruct v; unfold ligature_at; moved. Qed.
#[local] Hint Resolve ligature_moved : moved.

Lemma ligatures_moved p q v :
  q = k + p -> (ligatures_at g p v <-> ligatures_at f q v).
Proof. intros H. destruct v; unfold ligatures_at; moved. Qed.
#[local] Hint Resolve ligatures_moved : moved.

Lemma sequence_moved p q v :
  q = k + p -> (sequence_at g p v <-> sequence_at f q v).
Proof. intros H. destruct v; unfold sequence_at; moved. Qed.
#[local] Hint Resolve sequence_moved : moved.

Lemma single_substitution1_moved p q v :
  q = k + p -> (single_substitution1_at g p v <-> single_substitution1_at f q v).
Proof. intros H. destruct v; unfold single_substitution1_at; moved. Qed.
#[local] Hint Resolve single_substitution1_moved : moved.

Lemma single_substitution2_moved p q v :
  q = k + p -> (single_substitution2_at g p v <-> single_substitution2_at f q v).
Proof. intros H. destruct v; unfold single_substitution2_at; moved. Qed.
#[local] Hint Resolve single_substitution2_moved : moved.

Lemma single_substitution_moved p q v :
  q = k + p -> (single_substitution_at g p v <-> single_substitution_at f q v).
Proof. intros H. destruct v; unfold single_substitution_at; moved. Qed.
#[local] Hint Resolve single_substitution_moved : moved.

Lemma multiple_substitution_moved p q v :
  q = k + p -> (multiple_substitution_at g p v <-> multiple_substitution_at f q v).
Proof. intros H. destruct v; unfold multiple_substitution_at; moved. Qed.
#[local] Hint Resolve multiple_substitution_moved : moved.

Lemma alternate_substitution_moved p q v :
  q = k + p -> (alternate_substitution_at g p v <-> alternate_substitution_at f q v).
Proof. intros H. destruct v; unfold alternate_substitution_at; moved. Qed.
#[local] Hint Resolve alternate_substitution_moved : moved.

Lemma ligature_substitution_moved p q v :
  q = k + p -> (ligature_substitution_at g p v <-> ligature_substitution_at f q v).
Proof. intros H. destruct v; unfold ligature_substitution_at; moved. Qed.
#[local] Hint Resolve ligature_substitution_moved : moved.

Lemma extension_substitution_moved p q v :
  q = k + p -> (extension_substitution_at g p v <-> extension_substitution_at f q v).
Proof. intros H. destruct v; unfold extension_substitution_at; moved. Qed.
#[local] Hint Resolve extension_substitution_moved : moved.

Lemma reverse_chained_contextual_substibution_moved p q v :
  q = k + p -> (reverse_chained_contextual_substibution_at g p v <->
    reverse_chained_contextual_substibution_at f q v).
Proof. intros H. destruct v; unfold reverse_chained_contextual_substibution_at; moved. Qed.
#[local] Hint Resolve reverse_chained_contextual_substibution_moved : moved.

Lemma gsub_type_moved type_ p q v :
  q = k + p -> (gsub_type_at type_ g p v <-> gsub_type_at type_ f q v).
Proof. intros H. destruct v; unfold gsub_type_at; moved. Qed.
#[local] Hint Resolve gsub_type_moved : moved.

Lemma glyph_substitution_moved o p q v :
  q = k + p -> (glyph_substitution_at o g p v <-> glyph_substitution_at o f q v).
Proof. apply directory_moved. exact gsub_type_moved. Qed.

Lemma anchor1_moved p q v :
  q = k + p -> (anchor1_at g p v <-> anchor1_at f q v).
Proof. intros H. destruct v; unfold anchor1_at; moved. Qed.
#[local] Hint Resolve anchor1_moved : moved.

Lemma anchor2_moved p q v :
  q = k + p -> (anchor2_at g p v <-> anchor2_at f q v).
Proof. intros H. destruct v; unfold anchor2_at; moved. Qed.
#[local] Hint Resolve anchor2_moved : moved.

Lemma anchor3_moved p q v :
  q = k + p -> (anchor3_at g p v <-> anchor3_at f q v).
Proof. intros H. destruct v; unfold anchor3_at; moved. Qed.
#[local] Hint Resolve anchor3_moved : moved.

Lemma anchor_moved p q v :
  q = k + p -> (anchor_at g p v <-> anchor_at f q v).
Proof. intros H. destruct v; unfold anchor_at; moved. Qed.
#[local] Hint Resolve anchor_moved : moved.

Lemma base_moved base base' mark_class_count p q v :
  base' = k + base -> q = k + p -> (base_at g base mark_class_count p v <->
    base_at f base' mark_class_count q v).
Proof. intros Hb H. destruct v; unfold base_at; moved. Qed.
#[local] Hint Resolve base_moved : moved.

Lemma bases_moved mark_class_count p q v :
  q = k + p -> (bases_at g mark_class_count p v <-> bases_at f mark_class_count q v).
Proof. intros H. destruct v; unfold bases_at; moved. Qed.
#[local] Hint Resolve bases_moved : moved.

Lemma component_moved base base' mark_class_count p q v :
  base' = k + base -> q = k + p -> (component_at g base mark_class_count p v <->
    component_at f base' mark_class_count q v).
Proof. intros Hb H. destruct v; unfold component_at; moved. Qed.
#[local] Hint Resolve component_moved : moved.

Lemma gpos_ligature_moved mark_class_count p q v :
  q = k + p -> (gpos_ligature_at g mark_class_count p v <-> gpos_ligature_at f mark_class_count q v).
Proof. intros H. destruct v; unfold gpos_ligature_at; moved. Qed.
#[local] Hint Resolve gpos_ligature_moved : moved.

Lemma gpos_ligatures_moved mark_class_count p q v :
  q = k + p -> (gpos_ligatures_at g mark_class_count p v <-> gpos_ligatures_at f mark_class_count q v).
Proof. intros H. destruct v; unfold gpos_ligatures_at; moved. Qed.
#[local] Hint Resolve gpos_ligatures_moved : moved.

Lemma mark2_moved base base' mark_class_count p q v :
  base' = k + base -> q = k + p -> (mark2_at g base mark_class_count p v <->
    mark2_at f base' mark_class_count q v).
Proof. intros Hb H. destruct v; unfold mark2_at; moved. Qed.
#[local] Hint Resolve mark2_moved : moved.

Lemma mark2s_moved mark_class_count p q v :
  q = k + p -> (mark2s_at g mark_class_count p v <-> mark2s_at f mark_class_count q v).
Proof. intros H. destruct v; unfold mark2s_at; moved. Qed.
#[local] Hint Resolve mark2s_moved : moved.

Lemma mark1_moved base base' o p q v :
  base' = k + base -> q = k + p -> (mark1_at o g base p v <-> mark1_at o f base' q v).
Proof. intros Hb H. destruct v; unfold mark1_at; moved. Qed.
#[local] Hint Resolve mark1_moved : moved.

Lemma mark1s_moved o p q v :
  q = k + p -> (mark1s_at o g p v <-> mark1s_at o f q v).
Proof. intros H. destruct v; unfold mark1s_at; moved. Qed.
#[local] Hint Resolve mark1s_moved : moved.

Lemma connection_moved base base' p q v :
  base' = k + base -> q = k + p -> (connection_at g base p v <-> connection_at f base' q v).
Proof. intros Hb H. destruct v; unfold connection_at; moved. Qed.
#[local] Hint Resolve connection_moved : moved.

Lemma corrected_moved base base' offset v :
  base' = k + base -> (corrected_at g base offset v <-> corrected_at f base' offset v).
Proof. intros H. destruct offset; unfold corrected_at; moved. Qed.
#[local] Hint Resolve corrected_moved : moved.

Lemma single_moved base base' flags p q v :
  base' = k + base -> q = k + p -> (single_at g base flags p v <-> single_at f base' flags q v).
Proof. intros Hb H. destruct v; unfold single_at; moved. Qed.
#[local] Hint Resolve single_moved : moved.

Lemma value_moved base base' flags p q v :
  base' = k + base -> q = k + p -> (value_at g base flags p v <-> value_at f base' flags q v).
Proof. intros Hb H. destruct v; unfold value_at; moved. Qed.
#[local] Hint Resolve value_moved : moved.

Lemma pair1_moved base base' flags1 flags2 p q v :
  base' = k + base -> q = k + p -> (pair1_at g base flags1 flags2 p v <-> pair1_at f base' flags1 flags2 q v).
Proof. intros Hb H. destruct v; unfold pair1_at; moved. Qed.
#[local] Hint Resolve pair1_moved : moved.

Lemma pair1s_moved flags1 flags2 p q v :
  q = k + p -> (pair1s_at g flags1 flags2 p v <-> pair1s_at f flags1 flags2 q v).
Proof. intros H. destruct v; unfold pair1s_at; moved. Qed.
#[local] Hint Resolve pair1s_moved : moved.

Lemma pair2_moved base base' flags1 flags2 p q v :
  base' = k + base -> q = k + p -> (pair2_at g base flags1 flags2 p v <-> pair2_at f base' flags1 flags2 q v).
Proof. intros Hb H. destruct v; unfold pair2_at; moved. Qed.
#[local] Hint Resolve pair2_moved : moved.

Lemma pair2s_moved base base' count2 flags1 flags2 p q v :
  base' = k + base -> q = k + p -> (pair2s_at g base count2 flags1 flags2 p v <->
    pair2s_at f base' count2 flags1 flags2 q v).
Proof. intros Hb H. destruct v; unfold pair2s_at; moved. Qed.
#[local] Hint Resolve pair2s_moved : moved.

Lemma value_flags_moved o p q v :
  q = k + p -> (value_flags_at o g p v <-> value_flags_at o f q v).
Proof. apply flags_moved. Qed.
#[local] Hint Resolve value_flags_moved : moved.

Lemma single_adjustment1_moved o p q v :
  q = k + p -> (single_adjustment1_at o g p v <-> single_adjustment1_at o f q v).
Proof. intros H. destruct v; unfold single_adjustment1_at; moved. Qed.
#[local] Hint Resolve single_adjustment1_moved : moved.

Lemma single_adjustment2_moved o p q v :
  q = k + p -> (single_adjustment2_at o g p v <-> single_adjustment2_at o f q v).
Proof. intros H. destruct v; unfold single_adjustment2_at; moved. Qed.
#[local] Hint Resolve single_adjustment2_moved : moved.

Lemma single_adjustment_moved o p q v :
  q = k + p -> (single_adjustment_at o g p v <-> single_adjustment_at o f q v).
Proof. intros H. destruct v; unfold single_adjustment_at; moved. Qed.
#[local] Hint Resolve single_adjustment_moved : moved.

Lemma pair_adjustment1_moved o p q v :
  q = k + p -> (pair_adjustment1_at o g p v <-> pair_adjustment1_at o f q v).
Proof. intros H. destruct v; unfold pair_adjustment1_at; moved. Qed.
#[local] Hint Resolve pair_adjustment1_moved : moved.

Lemma pair_adjustment2_moved o p q v :
  q = k + p -> (pair_adjustment2_at o g p v <-> pair_adjustment2_at o f q v).
Proof. intros H. destruct v; unfold pair_adjustment2_at; moved. Qed.
#[local] Hint Resolve pair_adjustment2_moved : moved.

Lemma pair_adjustment_moved o p q v :
  q = k + p -> (pair_adjustment_at o g p v <-> pair_adjustment_at o f q v).
Proof. intros H. destruct v; unfold pair_adjustment_at; moved. Qed.
#[local] Hint Resolve pair_adjustment_moved : moved.

Lemma cursive_attachment_moved p q v :
  q = k + p -> (cursive_attachment_at g p v <-> cursive_attachment_at f q v).
Proof. intros H. destruct v; unfold cursive_attachment_at; moved. Qed.
#[local] Hint Resolve cursive_attachment_moved : moved.

Lemma mark_to_base_attachment_moved o p q v :
  q = k + p -> (mark_to_base_attachment_at o g p v <-> mark_to_base_attachment_at o f q v).
Proof. intros H. destruct v; unfold mark_to_base_attachment_at; moved. Qed.
#[local] Hint Resolve mark_to_base_attachment_moved : moved.

Lemma mark_to_ligature_attachment_moved o p q v :
  q = k + p -> (mark_to_ligature_attachment_at o g p v <-> mark_to_ligature_attachment_at o f q v).
Proof. intros H. destruct v; unfold mark_to_ligature_attachment_at; moved. Qed.
#[local] Hint Resolve mark_to_ligature_attachment_moved : moved.

Lemma mark_to_mark_attachment_moved o p q v :
  q = k + p -> (mark_to_mark_attachment_at o g p v <-> mark_to_mark_attachment_at o f q v).
Proof. intros H. destruct v; unfold mark_to_mark_attachment_at; moved. Qed.
#[local] Hint Resolve mark_to_mark_attachment_moved : moved.

Lemma extension_positioning_moved p q v :
  q = k + p -> (extension_positioning_at g p v <-> extension_positioning_at f q v).
Proof. intros H. destruct v; unfold extension_positioning_at; moved. Qed.
#[local] Hint Resolve extension_positioning_moved : moved.

Lemma gpos_type_moved o type_ p q v :
  q = k + p -> (gpos_type_at o type_ g p v <-> gpos_type_at o type_ f q v).
Proof. intros H. destruct v; unfold gpos_type_at; moved. Qed.
#[local] Hint Resolve gpos_type_moved : moved.

Lemma glyph_positioning_moved o p q v :
  q = k + p -> (glyph_positioning_at o g p v <-> glyph_positioning_at o f q v).
Proof. apply directory_moved. exact (gpos_type_moved o). Qed.

Lemma attachment_moved p q v :
  q = k + p -> (attachment_at g p v <-> attachment_at f q v).
Proof. intros H. destruct v; unfold attachment_at; moved. Qed.
#[local] Hint Resolve attachment_moved : moved.

Lemma attachments_moved p q v :
  q = k + p -> (attachments_at g p v <-> attachments_at f q v).
Proof. intros H. destruct v; unfold attachments_at; moved. Qed.
#[local] Hint Resolve attachments_moved : moved.

Lemma caret1_moved p q v :
  q = k + p -> (caret1_at g p v <-> caret1_at f q v).
Proof. intros H. destruct v; unfold caret1_at; moved. Qed.
#[local] Hint Resolve caret1_moved : moved.

Lemma caret2_moved p q v :
  q = k + p -> (caret2_at g p v <-> caret2_at f q v).
Proof. intros H. destruct v; unfold caret2_at; moved. Qed.
#[local] Hint Resolve caret2_moved : moved.

Lemma caret3_moved p q v :
  q = k + p -> (caret3_at g p v <-> caret3_at f q v).
Proof. intros H. destruct v; unfold caret3_at; moved. Qed.
#[local] Hint Resolve caret3_moved : moved.

Lemma caret_moved p q v :
  q = k + p -> (caret_at g p v <-> caret_at f q v).
Proof. intros H. destruct v; unfold caret_at; moved. Qed.
#[local] Hint Resolve caret_moved : moved.

Lemma gdef_ligature_moved p q v :
  q = k + p -> (gdef_ligature_at g p v <-> gdef_ligature_at f q v).
Proof. intros H. destruct v; unfold gdef_ligature_at; moved. Qed.
#[local] Hint Resolve gdef_ligature_moved : moved.

Lemma gdef_ligatures_moved p q v :
  q = k + p -> (gdef_ligatures_at g p v <-> gdef_ligatures_at f q v).
Proof. intros H. destruct v; unfold gdef_ligatures_at; moved. Qed.
#[local] Hint Resolve gdef_ligatures_moved : moved.

Lemma marks_moved p q v :
  q = k + p -> (marks_at g p v <-> marks_at f q v).
Proof. intros H. destruct v; unfold marks_at; moved. Qed.
#[local] Hint Resolve marks_moved : moved.

Lemma gdef_header1_moved p q v :
  q = k + p -> (gdef_header1_at g p v <-> gdef_header1_at f q v).
Proof. intros H. destruct v; unfold gdef_header1_at; moved. Qed.
#[local] Hint Resolve gdef_header1_moved : moved.

Lemma gdef_header12_moved p q v :
  q = k + p -> (gdef_header12_at g p v <-> gdef_header12_at f q v).
Proof. intros H. destruct v; unfold gdef_header12_at; moved. Qed.
#[local] Hint Resolve gdef_header12_moved : moved.

Lemma gdef_header13_moved p q v :
  q = k + p -> (gdef_header13_at g p v <-> gdef_header13_at f q v).
Proof. intros H. destruct v; unfold gdef_header13_at; moved. Qed.
#[local] Hint Resolve gdef_header13_moved : moved.

Lemma gdef_header_moved p q v :
  q = k + p -> (gdef_header_at g p v <-> gdef_header_at f q v).
Proof. intros H. destruct v; unfold gdef_header_at; moved. Qed.
#[local] Hint Resolve gdef_header_moved : moved.

Lemma glyph_definition_moved o w p q v :
  q = k + p -> (glyph_definition_with w o g p v <-> glyph_definition_with w o f q v).
Proof.
  intros H. destruct v as [h ? ? ? ? ? ?]. unfold glyph_definition_with.
  destruct (gdef_offsets h) as [[[[[? ?] ?] ?] ?] ?]. moved.
Qed.

Lemma cpal_header0_moved p q v :
  q = k + p -> (cpal_header0_at g p v <-> cpal_header0_at f q v).
Proof. intros H. destruct v; unfold cpal_header0_at; moved. Qed.
#[local] Hint Resolve cpal_header0_moved : moved.

Lemma cpal_header1_moved p q v :
  q = k + p -> (cpal_header1_at g p v <-> cpal_header1_at f q v).
Proof. intros H. destruct v; unfold cpal_header1_at; moved. Qed.
#[local] Hint Resolve cpal_header1_moved : moved.

Lemma cpal_header_moved p q v :
  q = k + p -> (cpal_header_at g p v <-> cpal_header_at f q v).
Proof. intros H. destruct v; unfold cpal_header_at; moved. Qed.
#[local] Hint Resolve cpal_header_moved : moved.

Lemma color_moved p q v :
  q = k + p -> (color_at g p v <-> color_at f q v).
Proof. intros H. destruct v; unfold color_at; moved. Qed.
#[local] Hint Resolve color_moved : moved.

Lemma color_palettes_moved p q v :
  q = k + p -> (color_palettes_at g p v <-> color_palettes_at f q v).
Proof.
  intros H. destruct v as [h ?]. unfold color_palettes_at.
  destruct (cpal_layout h) as [[[? ?] ?] ?]. moved.
Qed.

Lemma fvar_header_moved p q v :
  q = k + p -> (fvar_header_at g p v <-> fvar_header_at f q v).
Proof. intros H. destruct v; unfold fvar_header_at; moved. Qed.
#[local] Hint Resolve fvar_header_moved : moved.

Lemma axis_record_moved o p q v :
  q = k + p -> (axis_record_at o g p v <-> axis_record_at o f q v).
Proof. intros H. destruct v; unfold axis_record_at; moved. Qed.
#[local] Hint Resolve axis_record_moved : moved.

Lemma instance_record_moved o axis_count p q v :
  q = k + p -> (instance_record_at o g axis_count p v <-> instance_record_at o f axis_count q v).
Proof. intros H. destruct v; unfold instance_record_at; moved. Qed.
#[local] Hint Resolve instance_record_moved : moved.

Lemma font_variations_moved o p q v :
  q = k + p -> (font_variations_at o g p v <-> font_variations_at o f q v).
Proof. intros H. destruct v as [[] ? ?]. unfold font_variations_at. moved. Qed.

Lemma offset_record_moved p q v :
  q = k + p -> (offset_record_at g p v <-> offset_record_at f q v).
Proof. intros H. destruct v; unfold offset_record_at; moved. Qed.
#[local] Hint Resolve offset_record_moved : moved.

Lemma offsets_header_moved p q v :
  q = k + p -> (offsets_header_at g p v <-> offsets_header_at f q v).
Proof. intros H. destruct v; unfold offsets_header_at; moved. Qed.
#[local] Hint Resolve offsets_header_moved : moved.

Lemma offsets_moved p q v :
  q = k + p -> (offsets_at g p v <-> offsets_at f q v).
Proof. intros H. destruct v; unfold offsets_at; moved. Qed.
#[local] Hint Resolve offsets_moved : moved.

End Relocate.
