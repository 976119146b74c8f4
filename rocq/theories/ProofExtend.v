(** Reading from a file and from an extension of it. *)

From Verif Require Export Api ModelFont SpecBuilds.

(** Nothing but the overflow checks may go from the first build to the second. *)
Definition relaxes (o o' : options) : Prop :=
  o' = o \/ overflow_checks o = true /\ o' = with_overflow false o.

(** On [g] the reader does what it does on [f], unless on [f] it runs out of bytes;
    without overflow checks it does what it does with them, unless they stop it. *)
Definition mono {A} (m : M A) : Prop := forall o o' f g p, relaxes o o' -> extends f g ->
  match m (mkEnv f o) p with
  | Err UnexpectedEnd => f = g -> m (mkEnv g o') p = Err UnexpectedEnd
  | Panic => o = o' -> m (mkEnv g o') p = Panic
  | r => m (mkEnv g o') p = r
  end.

Lemma mono_ret {A} (a : A) : mono (ret a).
Proof. intros o o' f g p _ _. reflexivity. Qed.

Lemma mono_raise {A} x : mono (@raise A x).
Proof. intros o o' f g p _ _. destruct x; cbn; intros; reflexivity. Qed.

Lemma mono_panic {A} : mono (@panic A).
Proof. intros o o' f g p _ _ _. reflexivity. Qed.

Lemma mono_ask {A} (k : options -> M A) :
  (forall o o', relaxes o o' -> k o = k o') -> (forall o, mono (k o)) -> mono (bind ask k).
Proof.
  intros Hk Hm o o' f g p Ho H. unfold bind, ask. cbn [opts]. rewrite <- (Hk o o' Ho).
  exact (Hm o o o' f g p Ho H).
Qed.

Lemma mono_get_position : mono get_position.
Proof. intros o o' f g p _ _. reflexivity. Qed.

Lemma mono_jump q : mono (jump q).
Proof. intros o o' f g p _ _. reflexivity. Qed.

Lemma mono_take_byte : mono take_byte.
Proof.
  intros o o' f g p _ H. unfold take_byte. cbn [content].
  destruct (f p) eqn:E; [rewrite (H _ _ E); reflexivity|]. intros <-. rewrite E. reflexivity.
Qed.

Lemma mono_bind {A B} (m : M A) (k : A -> M B) :
  mono m -> (forall a, mono (k a)) -> mono (bind m k).
Proof.
  intros Hm Hk o o' f g p Ho H. specialize (Hm o o' f g p Ho H). unfold bind.
  destruct (m (mkEnv f o) p) as [[a q]|x|].
  - rewrite Hm. apply Hk; assumption.
  - destruct x; try (rewrite Hm; reflexivity). intros E. rewrite (Hm E). reflexivity.
  - intros E. rewrite (Hm E). reflexivity.
Qed.

Lemma mono_stay {A} (m : M A) : mono m -> mono (stay m).
Proof.
  intros Hm o o' f g p Ho H. specialize (Hm o o' f g p Ho H). unfold stay.
  destruct (m (mkEnv f o) p) as [[a q]|x|].
  - rewrite Hm. reflexivity.
  - destruct x; try (rewrite Hm; reflexivity). intros E. rewrite (Hm E). reflexivity.
  - intros E. rewrite (Hm E). reflexivity.
Qed.

Lemma mono_for_range {A} i count (m : nat -> M A) : (forall i, mono (m i)) -> mono (for_range i count m).
Proof.
  intros Hm. revert i. induction count as [|count IH]; intros i; cbn.
  - apply mono_ret.
  - apply mono_bind; [apply Hm|]. intros a. apply mono_bind; [apply IH|]. intros b. apply mono_ret.
Qed.

Lemma mono_for_n {A} count (m : nat -> M A) : (forall i, mono (m i)) -> mono (for_n count m).
Proof. apply mono_for_range. Qed.

Lemma mono_take_vec {A} count (m : M A) : mono m -> mono (take_vec count m).
Proof. intros Hm. apply mono_for_range. intros _. exact Hm. Qed.

Create HintDb mono.
#[export] Hint Resolve mono_ret mono_raise mono_panic mono_get_position mono_jump
  mono_take_byte mono_for_n mono_take_vec : mono.

(** Follow the structure of a reader. *)
Ltac mono :=
  repeat match goal with
  | |- mono (bind ask _) => apply mono_ask; [intros ? ? [->|[_ ->]]; reflexivity|]
  | |- mono (bind _ _) => apply mono_bind
  | |- mono (stay _) => apply mono_stay
  | |- mono (peek _) => apply mono_stay
  | |- mono (for_range _ _ _) => apply mono_for_range
  | |- mono (for_n _ _) => apply mono_for_range
  | |- mono (take_vec _ _) => apply mono_for_range
  | |- forall _, _ => intros ?
  | |- mono _ => solve [auto with mono]
  | |- mono (match ?x with _ => _ end) => destruct x
  | |- mono (let '(_, _) := ?x in _) => destruct x
  end.

Ltac mono_def x := unfold x; mono.

Lemma mono_take_u8 : mono take_u8. Proof. mono_def take_u8. Qed.
Lemma mono_take_u16 : mono take_u16. Proof. mono_def take_u16. Qed.
Lemma mono_take_u32 : mono take_u32. Proof. mono_def take_u32. Qed.
Lemma mono_take_tag : mono take_tag. Proof. mono_def take_tag. Qed.
#[export] Hint Resolve mono_take_u8 mono_take_u16 mono_take_u32 mono_take_tag : mono.
Lemma mono_take_i16 : mono take_i16. Proof. mono_def take_i16. Qed.
Lemma mono_take_q32 : mono take_q32. Proof. mono_def take_q32. Qed.
Lemma mono_take_const m c : mono m -> mono (take_const m c).
Proof. intros Hm. mono_def take_const. Qed.
Lemma mono_take_flags x : mono (take_flags x). Proof. mono_def take_flags. Qed.
Lemma mono_add_wrapping n a b : mono (add_wrapping n a b).
Proof.
  intros o o' f g p Ho _. unfold add_wrapping, bind, ask. cbn [opts].
  destruct (a + b <? 2 ^ n); [reflexivity|].
  destruct Ho as [->|[Hc ->]]; [destruct (overflow_checks o); cbn; intros; reflexivity|].
  rewrite Hc. cbn. intros E. rewrite E in Hc. discriminate Hc.
Qed.
Lemma mono_add_u16 a b : mono (add_u16 a b). Proof. apply mono_add_wrapping. Qed.
Lemma mono_add_u64 a b : mono (add_u64 a b). Proof. apply mono_add_wrapping. Qed.
Lemma mono_index {A} (l : list A) i : mono (index l i). Proof. unfold index. mono. Qed.
#[export] Hint Resolve mono_take_i16 mono_take_q32 mono_take_const mono_take_flags mono_add_u16
  mono_add_u64 mono_index : mono.
Lemma mono_jump_take {A} a b (m : M A) : mono m -> mono (jump_take a b m).
Proof. intros Hm. mono_def @jump_take. Qed.
#[export] Hint Resolve mono_jump_take : mono.
Lemma mono_jump_take_each {A} a b offset (m : M A) :
  (forall i, mono (offset i)) -> mono m -> mono (jump_take_each a b offset m).
Proof. intros Ho Hm. mono_def @jump_take_each. Qed.
#[export] Hint Resolve mono_jump_take_each : mono.
Ltac mono_each := repeat (mono; try apply mono_jump_take_each).

Lemma mono_jump_take_n {A} a b offsets (m : M A) : mono m -> mono (jump_take_n a b offsets m).
Proof. intros Hm. mono_def @jump_take_n. Qed.
Lemma mono_jump_take_maybe {A} a b (m : M A) : mono m -> mono (jump_take_maybe a b m).
Proof. intros Hm. mono_def @jump_take_maybe. Qed.
#[export] Hint Resolve mono_jump_take_n mono_jump_take_maybe : mono.
Lemma mono_jump_take_maybe_n {A} a b offsets (m : M A) : mono m -> mono (jump_take_maybe_n a b offsets m).
Proof. intros Hm. mono_def @jump_take_maybe_n. Qed.
#[export] Hint Resolve mono_jump_take_maybe_n : mono.

(** ** ModelLayout *)

Lemma mono_read_coverage_record : mono read_coverage_record.
Proof. unfold read_coverage_record; mono_each. Qed.
#[export] Hint Resolve mono_read_coverage_record : mono.
Lemma mono_read_coverage1 : mono read_coverage1.
Proof. unfold read_coverage1; mono_each. Qed.
#[export] Hint Resolve mono_read_coverage1 : mono.
Lemma mono_read_coverage2 : mono read_coverage2.
Proof. unfold read_coverage2; mono_each. Qed.
#[export] Hint Resolve mono_read_coverage2 : mono.
Lemma mono_read_coverage : mono read_coverage.
Proof. unfold read_coverage; mono_each. Qed.
#[export] Hint Resolve mono_read_coverage : mono.
Lemma mono_read_class_record : mono read_class_record.
Proof. unfold read_class_record; mono_each. Qed.
#[export] Hint Resolve mono_read_class_record : mono.
Lemma mono_read_class1 : mono read_class1.
Proof. unfold read_class1; mono_each. Qed.
#[export] Hint Resolve mono_read_class1 : mono.
Lemma mono_read_class2 : mono read_class2.
Proof. unfold read_class2; mono_each. Qed.
#[export] Hint Resolve mono_read_class2 : mono.
Lemma mono_read_class : mono read_class.
Proof. unfold read_class; mono_each. Qed.
#[export] Hint Resolve mono_read_class : mono.
Lemma mono_read_device : mono read_device.
Proof. unfold read_device; mono_each. Qed.
#[export] Hint Resolve mono_read_device : mono.
Lemma mono_read_variation : mono read_variation.
Proof. unfold read_variation; mono_each. Qed.
#[export] Hint Resolve mono_read_variation : mono.
Lemma mono_read_correction : mono read_correction.
Proof. unfold read_correction; mono_each. Qed.
#[export] Hint Resolve mono_read_correction : mono.
Lemma mono_read_action : mono read_action.
Proof. unfold read_action; mono_each. Qed.
#[export] Hint Resolve mono_read_action : mono.
Lemma mono_read_context_record : mono read_context_record.
Proof. unfold read_context_record; mono_each. Qed.
#[export] Hint Resolve mono_read_context_record : mono.
Lemma mono_read_context_records : mono read_context_records.
Proof. unfold read_context_records; mono_each. Qed.
#[export] Hint Resolve mono_read_context_records : mono.
Lemma mono_read_context_class_record : mono read_context_class_record.
Proof. unfold read_context_class_record; mono_each. Qed.
#[export] Hint Resolve mono_read_context_class_record : mono.
Lemma mono_read_context_class_records : mono read_context_class_records.
Proof. unfold read_context_class_records; mono_each. Qed.
#[export] Hint Resolve mono_read_context_class_records : mono.
Lemma mono_read_chained_record : mono read_chained_record.
Proof. unfold read_chained_record; mono_each. Qed.
#[export] Hint Resolve mono_read_chained_record : mono.
Lemma mono_read_chained_records : mono read_chained_records.
Proof. unfold read_chained_records; mono_each. Qed.
#[export] Hint Resolve mono_read_chained_records : mono.
Lemma mono_read_chained_class_record : mono read_chained_class_record.
Proof. unfold read_chained_class_record; mono_each. Qed.
#[export] Hint Resolve mono_read_chained_class_record : mono.
Lemma mono_read_chained_class_records : mono read_chained_class_records.
Proof. unfold read_chained_class_records; mono_each. Qed.
#[export] Hint Resolve mono_read_chained_class_records : mono.
Lemma mono_read_context1 : mono read_context1.
Proof. unfold read_context1; mono_each. Qed.
#[export] Hint Resolve mono_read_context1 : mono.
Lemma mono_read_context2 : mono read_context2.
Proof. unfold read_context2; mono_each. Qed.
#[export] Hint Resolve mono_read_context2 : mono.
Lemma mono_read_context3 : mono read_context3.
Proof. unfold read_context3; mono_each. Qed.
#[export] Hint Resolve mono_read_context3 : mono.
Lemma mono_read_context : mono read_context.
Proof. unfold read_context; mono_each. Qed.
#[export] Hint Resolve mono_read_context : mono.
Lemma mono_read_chained_context1 : mono read_chained_context1.
Proof. unfold read_chained_context1; mono_each. Qed.
#[export] Hint Resolve mono_read_chained_context1 : mono.
Lemma mono_read_chained_context2 : mono read_chained_context2.
Proof. unfold read_chained_context2; mono_each. Qed.
#[export] Hint Resolve mono_read_chained_context2 : mono.
Lemma mono_read_chained_context3 : mono read_chained_context3.
Proof. unfold read_chained_context3; mono_each. Qed.
#[export] Hint Resolve mono_read_chained_context3 : mono.
Lemma mono_read_chained_context : mono read_chained_context.
Proof. unfold read_chained_context; mono_each. Qed.
#[export] Hint Resolve mono_read_chained_context : mono.
Lemma mono_read_language_header : mono read_language_header.
Proof. unfold read_language_header; mono_each. Qed.
#[export] Hint Resolve mono_read_language_header : mono.
Lemma mono_read_language_record : mono read_language_record.
Proof. unfold read_language_record; mono_each. Qed.
#[export] Hint Resolve mono_read_language_record : mono.
Lemma mono_read_script_header : mono read_script_header.
Proof. unfold read_script_header; mono_each. Qed.
#[export] Hint Resolve mono_read_script_header : mono.
Lemma mono_read_script_record : mono read_script_record.
Proof. unfold read_script_record; mono_each. Qed.
#[export] Hint Resolve mono_read_script_record : mono.
Lemma mono_read_scripts : mono read_scripts.
Proof. unfold read_scripts; mono_each. Qed.
#[export] Hint Resolve mono_read_scripts : mono.
Lemma mono_read_feature_header : mono read_feature_header.
Proof. unfold read_feature_header; mono_each. Qed.
#[export] Hint Resolve mono_read_feature_header : mono.
Lemma mono_read_feature_record : mono read_feature_record.
Proof. unfold read_feature_record; mono_each. Qed.
#[export] Hint Resolve mono_read_feature_record : mono.
Lemma mono_read_features : mono read_features.
Proof. unfold read_features; mono_each. Qed.
#[export] Hint Resolve mono_read_features : mono.
Lemma mono_read_feature_variations : mono read_feature_variations.
Proof. unfold read_feature_variations; mono_each. Qed.
#[export] Hint Resolve mono_read_feature_variations : mono.
Lemma mono_take_lookup_flags : mono take_lookup_flags.
Proof. unfold take_lookup_flags; mono_each. Qed.
#[export] Hint Resolve mono_take_lookup_flags : mono.
Lemma mono_read_lookup_record {T} (read_table : N -> M T) : (forall x, mono (read_table x)) ->
  mono (read_lookup_record read_table).
Proof. intros. unfold read_lookup_record; mono_each. Qed.
#[export] Hint Resolve mono_read_lookup_record : mono.
Lemma mono_read_lookups {T} (read_table : N -> M T) : (forall x, mono (read_table x)) ->
  mono (read_lookups read_table).
Proof. intros. unfold read_lookups; mono_each. Qed.
#[export] Hint Resolve mono_read_lookups : mono.
Lemma mono_jump_take_list {A} (position offset : N) (m : M A) (default : A) :
  mono m -> mono (jump_take_list position offset m default).
Proof. intros. unfold jump_take_list; mono_each. Qed.
#[export] Hint Resolve mono_jump_take_list : mono.
Lemma mono_read_directory {T} (read_table : N -> M T) : (forall x, mono (read_table x)) ->
  mono (read_directory read_table).
Proof. intros. unfold read_directory; mono_each. Qed.
#[export] Hint Resolve mono_read_directory : mono.
Lemma mono_read_store_record : mono read_store_record.
Proof. unfold read_store_record; mono_each. Qed.
#[export] Hint Resolve mono_read_store_record : mono.
Lemma mono_read_store : mono read_store.
Proof. unfold read_store; mono_each. Qed.
#[export] Hint Resolve mono_read_store : mono.

(** ** ModelGdef *)

Lemma mono_read_attachment : mono read_attachment.
Proof. unfold read_attachment; mono_each. Qed.
#[export] Hint Resolve mono_read_attachment : mono.
Lemma mono_read_attachments : mono read_attachments.
Proof. unfold read_attachments; mono_each. Qed.
#[export] Hint Resolve mono_read_attachments : mono.
Lemma mono_read_caret1 : mono read_caret1.
Proof. unfold read_caret1; mono_each. Qed.
#[export] Hint Resolve mono_read_caret1 : mono.
Lemma mono_read_caret2 : mono read_caret2.
Proof. unfold read_caret2; mono_each. Qed.
#[export] Hint Resolve mono_read_caret2 : mono.
Lemma mono_read_caret3 : mono read_caret3.
Proof. unfold read_caret3; mono_each. Qed.
#[export] Hint Resolve mono_read_caret3 : mono.
Lemma mono_read_caret : mono read_caret.
Proof. unfold read_caret; mono_each. Qed.
#[export] Hint Resolve mono_read_caret : mono.
Lemma mono_read_gdef_ligature : mono read_gdef_ligature.
Proof. unfold read_gdef_ligature; mono_each. Qed.
#[export] Hint Resolve mono_read_gdef_ligature : mono.
Lemma mono_read_gdef_ligatures : mono read_gdef_ligatures.
Proof. unfold read_gdef_ligatures; mono_each. Qed.
#[export] Hint Resolve mono_read_gdef_ligatures : mono.
Lemma mono_read_marks : mono read_marks.
Proof. unfold read_marks; mono_each. Qed.
#[export] Hint Resolve mono_read_marks : mono.
Lemma mono_read_gdef_header1 : mono read_gdef_header1.
Proof. unfold read_gdef_header1; mono_each. Qed.
#[export] Hint Resolve mono_read_gdef_header1 : mono.
Lemma mono_read_gdef_header12 : mono read_gdef_header12.
Proof. unfold read_gdef_header12; mono_each. Qed.
#[export] Hint Resolve mono_read_gdef_header12 : mono.
Lemma mono_read_gdef_header13 : mono read_gdef_header13.
Proof. unfold read_gdef_header13; mono_each. Qed.
#[export] Hint Resolve mono_read_gdef_header13 : mono.
Lemma mono_read_gdef_header : mono read_gdef_header.
Proof. unfold read_gdef_header; mono_each. Qed.
#[export] Hint Resolve mono_read_gdef_header : mono.
Lemma mono_read_glyph_definition : mono read_glyph_definition.
Proof. unfold read_glyph_definition; mono_each. Qed.
#[export] Hint Resolve mono_read_glyph_definition : mono.

(** ** ModelGsub *)

Lemma mono_read_alternates : mono read_alternates.
Proof. unfold read_alternates; mono_each. Qed.
#[export] Hint Resolve mono_read_alternates : mono.
Lemma mono_read_ligature : mono read_ligature.
Proof. unfold read_ligature; mono_each. Qed.
#[export] Hint Resolve mono_read_ligature : mono.
Lemma mono_read_ligatures : mono read_ligatures.
Proof. unfold read_ligatures; mono_each. Qed.
#[export] Hint Resolve mono_read_ligatures : mono.
Lemma mono_read_sequence : mono read_sequence.
Proof. unfold read_sequence; mono_each. Qed.
#[export] Hint Resolve mono_read_sequence : mono.
Lemma mono_read_single_substitution1 : mono read_single_substitution1.
Proof. unfold read_single_substitution1; mono_each. Qed.
#[export] Hint Resolve mono_read_single_substitution1 : mono.
Lemma mono_read_single_substitution2 : mono read_single_substitution2.
Proof. unfold read_single_substitution2; mono_each. Qed.
#[export] Hint Resolve mono_read_single_substitution2 : mono.
Lemma mono_read_single_substitution : mono read_single_substitution.
Proof. unfold read_single_substitution; mono_each. Qed.
#[export] Hint Resolve mono_read_single_substitution : mono.
Lemma mono_read_multiple_substitution : mono read_multiple_substitution.
Proof. unfold read_multiple_substitution; mono_each. Qed.
#[export] Hint Resolve mono_read_multiple_substitution : mono.
Lemma mono_read_alternate_substitution : mono read_alternate_substitution.
Proof. unfold read_alternate_substitution; mono_each. Qed.
#[export] Hint Resolve mono_read_alternate_substitution : mono.
Lemma mono_read_ligature_substitution : mono read_ligature_substitution.
Proof. unfold read_ligature_substitution; mono_each. Qed.
#[export] Hint Resolve mono_read_ligature_substitution : mono.
Lemma mono_read_extension_substitution : mono read_extension_substitution.
Proof. unfold read_extension_substitution; mono_each. Qed.
#[export] Hint Resolve mono_read_extension_substitution : mono.
Lemma mono_read_reverse_chained_contextual_substibution : mono read_reverse_chained_contextual_substibution.
Proof. unfold read_reverse_chained_contextual_substibution; mono_each. Qed.
#[export] Hint Resolve mono_read_reverse_chained_contextual_substibution : mono.
Lemma mono_read_gsub_type (type_ : N) : mono (read_gsub_type type_).
Proof. unfold read_gsub_type; mono_each. Qed.
#[export] Hint Resolve mono_read_gsub_type : mono.
Lemma mono_read_glyph_substitution : mono read_glyph_substitution.
Proof. apply mono_read_directory; auto with mono. Qed.
#[export] Hint Resolve mono_read_glyph_substitution : mono.

(** ** ModelGpos *)

Lemma mono_read_anchor1 : mono read_anchor1.
Proof. unfold read_anchor1; mono_each. Qed.
#[export] Hint Resolve mono_read_anchor1 : mono.
Lemma mono_read_anchor2 : mono read_anchor2.
Proof. unfold read_anchor2; mono_each. Qed.
#[export] Hint Resolve mono_read_anchor2 : mono.
Lemma mono_read_anchor3 : mono read_anchor3.
Proof. unfold read_anchor3; mono_each. Qed.
#[export] Hint Resolve mono_read_anchor3 : mono.
Lemma mono_read_anchor : mono read_anchor.
Proof. unfold read_anchor; mono_each. Qed.
#[export] Hint Resolve mono_read_anchor : mono.
Lemma mono_read_base (position mark_class_count : N) : mono (read_base position mark_class_count).
Proof. unfold read_base; mono_each. Qed.
#[export] Hint Resolve mono_read_base : mono.
Lemma mono_read_bases (mark_class_count : N) : mono (read_bases mark_class_count).
Proof. unfold read_bases; mono_each. Qed.
#[export] Hint Resolve mono_read_bases : mono.
Lemma mono_read_component (position mark_class_count : N) : mono (read_component position mark_class_count).
Proof. unfold read_component; mono_each. Qed.
#[export] Hint Resolve mono_read_component : mono.
Lemma mono_read_gpos_ligature (mark_class_count : N) : mono (read_gpos_ligature mark_class_count).
Proof. unfold read_gpos_ligature; mono_each. Qed.
#[export] Hint Resolve mono_read_gpos_ligature : mono.
Lemma mono_read_gpos_ligatures (mark_class_count : N) : mono (read_gpos_ligatures mark_class_count).
Proof. unfold read_gpos_ligatures; mono_each. Qed.
#[export] Hint Resolve mono_read_gpos_ligatures : mono.
Lemma mono_read_mark1 (position : N) : mono (read_mark1 position).
Proof. unfold read_mark1; mono_each. Qed.
#[export] Hint Resolve mono_read_mark1 : mono.
Lemma mono_read_mark1s : mono read_mark1s.
Proof. unfold read_mark1s; mono_each. Qed.
#[export] Hint Resolve mono_read_mark1s : mono.
Lemma mono_read_mark2 (position mark_class_count : N) : mono (read_mark2 position mark_class_count).
Proof. unfold read_mark2; mono_each. Qed.
#[export] Hint Resolve mono_read_mark2 : mono.
Lemma mono_read_mark2s (mark_class_count : N) : mono (read_mark2s mark_class_count).
Proof. unfold read_mark2s; mono_each. Qed.
#[export] Hint Resolve mono_read_mark2s : mono.
Lemma mono_read_connection (position : N) : mono (read_connection position).
Proof. unfold read_connection; mono_each. Qed.
#[export] Hint Resolve mono_read_connection : mono.
Lemma mono_take_value_flags : mono take_value_flags.
Proof. unfold take_value_flags; mono_each. Qed.
#[export] Hint Resolve mono_take_value_flags : mono.
Lemma mono_take_if {A} (flag : bool) (m : M A) : mono m -> mono (take_if flag m).
Proof. intros. unfold take_if; mono_each. Qed.
#[export] Hint Resolve mono_take_if : mono.
Lemma mono_take_linked (position : N) (offset : option N) : mono (take_linked position offset).
Proof. unfold take_linked; mono_each. Qed.
#[export] Hint Resolve mono_take_linked : mono.
Lemma mono_read_single (position flags : N) : mono (read_single position flags).
Proof. unfold read_single; mono_each. Qed.
#[export] Hint Resolve mono_read_single : mono.
Lemma mono_read_pair1 (position value1_flags value2_flags : N) :
  mono (read_pair1 position value1_flags value2_flags).
Proof. unfold read_pair1; mono_each. Qed.
#[export] Hint Resolve mono_read_pair1 : mono.
Lemma mono_read_pair1s (value1_flags value2_flags : N) : mono (read_pair1s value1_flags value2_flags).
Proof. unfold read_pair1s; mono_each. Qed.
#[export] Hint Resolve mono_read_pair1s : mono.
Lemma mono_read_pair2 (position value1_flags value2_flags : N) :
  mono (read_pair2 position value1_flags value2_flags).
Proof. unfold read_pair2; mono_each. Qed.
#[export] Hint Resolve mono_read_pair2 : mono.
Lemma mono_read_pair2s (position class2_count value1_flags value2_flags : N) :
  mono (read_pair2s position class2_count value1_flags value2_flags).
Proof. unfold read_pair2s; mono_each. Qed.
#[export] Hint Resolve mono_read_pair2s : mono.
Lemma mono_read_single_adjustment1 : mono read_single_adjustment1.
Proof. unfold read_single_adjustment1; mono_each. Qed.
#[export] Hint Resolve mono_read_single_adjustment1 : mono.
Lemma mono_read_single_adjustment2 : mono read_single_adjustment2.
Proof. unfold read_single_adjustment2; mono_each. Qed.
#[export] Hint Resolve mono_read_single_adjustment2 : mono.
Lemma mono_read_single_adjustment : mono read_single_adjustment.
Proof. unfold read_single_adjustment; mono_each. Qed.
#[export] Hint Resolve mono_read_single_adjustment : mono.
Lemma mono_read_pair_adjustment1 : mono read_pair_adjustment1.
Proof. unfold read_pair_adjustment1; mono_each. Qed.
#[export] Hint Resolve mono_read_pair_adjustment1 : mono.
Lemma mono_read_pair_adjustment2 : mono read_pair_adjustment2.
Proof. unfold read_pair_adjustment2; mono_each. Qed.
#[export] Hint Resolve mono_read_pair_adjustment2 : mono.
Lemma mono_read_pair_adjustment : mono read_pair_adjustment.
Proof. unfold read_pair_adjustment; mono_each. Qed.
#[export] Hint Resolve mono_read_pair_adjustment : mono.
Lemma mono_read_cursive_attachment : mono read_cursive_attachment.
Proof. unfold read_cursive_attachment; mono_each. Qed.
#[export] Hint Resolve mono_read_cursive_attachment : mono.
Lemma mono_read_mark_to_base_attachment : mono read_mark_to_base_attachment.
Proof. unfold read_mark_to_base_attachment; mono_each. Qed.
#[export] Hint Resolve mono_read_mark_to_base_attachment : mono.
Lemma mono_read_mark_to_ligature_attachment : mono read_mark_to_ligature_attachment.
Proof. unfold read_mark_to_ligature_attachment; mono_each. Qed.
#[export] Hint Resolve mono_read_mark_to_ligature_attachment : mono.
Lemma mono_read_mark_to_mark_attachment : mono read_mark_to_mark_attachment.
Proof. unfold read_mark_to_mark_attachment; mono_each. Qed.
#[export] Hint Resolve mono_read_mark_to_mark_attachment : mono.
Lemma mono_read_extension_positioning : mono read_extension_positioning.
Proof. unfold read_extension_positioning; mono_each. Qed.
#[export] Hint Resolve mono_read_extension_positioning : mono.
Lemma mono_read_gpos_type (type_ : N) : mono (read_gpos_type type_).
Proof. unfold read_gpos_type; mono_each. Qed.
#[export] Hint Resolve mono_read_gpos_type : mono.
Lemma mono_read_glyph_positioning : mono read_glyph_positioning.
Proof. apply mono_read_directory; auto with mono. Qed.
#[export] Hint Resolve mono_read_glyph_positioning : mono.

(** ** ModelCpal *)

Lemma mono_read_cpal_header0 : mono read_cpal_header0.
Proof. unfold read_cpal_header0; mono_each. Qed.
#[export] Hint Resolve mono_read_cpal_header0 : mono.
Lemma mono_read_cpal_header1 : mono read_cpal_header1.
Proof. unfold read_cpal_header1; mono_each. Qed.
#[export] Hint Resolve mono_read_cpal_header1 : mono.
Lemma mono_read_cpal_header : mono read_cpal_header.
Proof. unfold read_cpal_header; mono_each. Qed.
#[export] Hint Resolve mono_read_cpal_header : mono.
Lemma mono_read_color : mono read_color.
Proof. unfold read_color; mono_each. Qed.
#[export] Hint Resolve mono_read_color : mono.
Lemma mono_read_color_palettes : mono read_color_palettes.
Proof. unfold read_color_palettes; mono_each. Qed.
#[export] Hint Resolve mono_read_color_palettes : mono.

(** ** ModelFvar *)

Lemma mono_take_axis_flags : mono take_axis_flags.
Proof. unfold take_axis_flags; mono_each. Qed.
#[export] Hint Resolve mono_take_axis_flags : mono.
Lemma mono_take_instance_flags : mono take_instance_flags.
Proof. unfold take_instance_flags; mono_each. Qed.
#[export] Hint Resolve mono_take_instance_flags : mono.
Lemma mono_read_fvar_header : mono read_fvar_header.
Proof. unfold read_fvar_header; mono_each. Qed.
#[export] Hint Resolve mono_read_fvar_header : mono.
Lemma mono_read_axis_record : mono read_axis_record.
Proof. unfold read_axis_record; mono_each. Qed.
#[export] Hint Resolve mono_read_axis_record : mono.
Lemma mono_read_instance_record (axis_count : N) : mono (read_instance_record axis_count).
Proof. unfold read_instance_record; mono_each. Qed.
#[export] Hint Resolve mono_read_instance_record : mono.
Lemma mono_read_font_variations : mono read_font_variations.
Proof. unfold read_font_variations; mono_each. Qed.
#[export] Hint Resolve mono_read_font_variations : mono.

(** ** ModelFont *)

Lemma mono_read_offset_record : mono read_offset_record.
Proof. unfold read_offset_record; mono_each. Qed.
#[export] Hint Resolve mono_read_offset_record : mono.
Lemma mono_read_offsets_header : mono read_offsets_header.
Proof. unfold read_offsets_header; mono_each. Qed.
#[export] Hint Resolve mono_read_offsets_header : mono.
Lemma mono_read_offsets (d : deps) : mono (read_offsets d).
Proof. unfold read_offsets; mono_each. Qed.
#[export] Hint Resolve mono_read_offsets : mono.
Lemma mono_read_font (d : deps) : mono (read_font d).
Proof. unfold read_font; mono_each. Qed.
#[export] Hint Resolve mono_read_font : mono.
Lemma mono_read_file (d : deps) : mono (read_file d).
Proof. unfold read_file; mono_each. Qed.
#[export] Hint Resolve mono_read_file : mono.

(** ** Consequences *)

Lemma mono_reads {A} (m : M A) o f g p v :
  mono m -> extends f g -> reads o m f p v -> reads o m g p v.
Proof.
  intros Hm He [q H]. specialize (Hm o o f g p (or_introl eq_refl) He). rewrite H in Hm.
  exists q. exact Hm.
Qed.

Lemma mono_truncated {A} (m : M A) o f g p v :
  mono m -> extends f g -> reads o m g p v ->
  reads o m f p v \/ m (mkEnv f o) p = Err UnexpectedEnd.
Proof.
  intros Hm He [q H]. specialize (Hm o o f g p (or_introl eq_refl) He).
  destruct (m (mkEnv f o) p) as [[w r]|x|] eqn:E.
  - left. rewrite H in Hm. injection Hm as <- <-. exists q. exact E.
  - right. destruct x; congruence.
  - specialize (Hm eq_refl). congruence.
Qed.

Lemma mono_refused {A} (m : M A) o f g p x :
  mono m -> extends f g -> m (mkEnv f o) p = Err x -> x <> UnexpectedEnd ->
  m (mkEnv g o) p = Err x.
Proof.
  intros Hm He H Hx. specialize (Hm o o f g p (or_introl eq_refl) He). rewrite H in Hm.
  destruct x; congruence.
Qed.

(** Overflow checks only ever add panics. *)
Lemma mono_unchecked {A} (m : M A) o f p : mono m ->
  m (mkEnv f (with_overflow true o)) p = m (mkEnv f (with_overflow false o)) p \/
  m (mkEnv f (with_overflow true o)) p = Panic.
Proof.
  intros Hm.
  specialize (Hm (with_overflow true o) (with_overflow false o) f f p
                (or_intror (conj eq_refl eq_refl)) (fun _ _ H => H)).
  destruct (m (mkEnv f (with_overflow true o)) p) as [r|x|].
  - left. symmetry. exact Hm.
  - left. symmetry. destruct x; auto.
  - right. reflexivity.
Qed.

Lemma extends_append l r : extends (file_of l) (file_of (l ++ r)).
Proof.
  intros p b. unfold file_of. intros H.
  rewrite nth_error_app1; [exact H|]. apply nth_error_Some. congruence.
Qed.

Lemma extends_truncate n l : extends (file_of (firstn n l)) (file_of l).
Proof. rewrite <- (firstn_skipn n l) at 2. apply extends_append. Qed.
