(** On a file, the steps of a reader give what the reader of the model gives. *)

From Verif Require Export SpecSteps.
From Verif Require Import ModelFont StepsReaders.

Definition same {A} (m : steps A) (m' : M A) : Prop := forall e p, run m e p = m' e p.

Lemma run_bind {A B} (m : steps A) (k : A -> steps B) e p :
  run (bind m k) e p =
    match run m e p with
    | Ok (a, q) => run (k a) e q
    | Err x => Err x
    | Panic => Panic
    end.
Proof.
  revert p. induction m as [a|x| |m IH|m IH|m IH|q m IH|m IH]; intros p; cbn; auto.
  destruct (content e p); auto.
Qed.

Lemma bind_same {A B} (m : steps A) m' (k : A -> steps B) k' :
  same m m' -> (forall a, same (k a) (k' a)) -> same (bind m k) (Tape.bind m' k').
Proof.
  intros H K e p. rewrite run_bind, H. unfold Tape.bind. destruct (m' e p) as [[]| |]; auto. apply K.
Qed.

Lemma ret_same {A} (a : A) : same (ret a) (Tape.ret a).
Proof. intros e p. reflexivity. Qed.

Lemma raise_same {A} x : same (@raise A x) (Tape.raise x).
Proof. intros e p. reflexivity. Qed.

Lemma panic_same {A} : same (@panic A) Tape.panic.
Proof. intros e p. reflexivity. Qed.

Lemma ask_same : same ask Tape.ask.
Proof. intros e p. reflexivity. Qed.

Lemma get_position_same : same get_position Tape.get_position.
Proof. intros e p. reflexivity. Qed.

Lemma jump_same q : same (jump q) (Tape.jump q).
Proof. intros e p. reflexivity. Qed.

Lemma take_byte_same : same take_byte Tape.take_byte.
Proof. intros e p. reflexivity. Qed.

Lemma stay_same {A} (m : steps A) m' : same m m' -> same (stay m) (Tape.stay m').
Proof.
  intros H e p. unfold stay, Tape.stay, get_position, jump, ret. cbn. rewrite run_bind, H.
  destruct (m' e p) as [[]| |]; reflexivity.
Qed.

Lemma peek_same {A} (m : steps A) m' : same m m' -> same (peek m) (Tape.peek m').
Proof. exact (stay_same m m'). Qed.

Lemma for_range_same {A} (f : nat -> steps A) f' : (forall i, same (f i) (f' i)) ->
  forall count i, same (for_range i count f) (Tape.for_range i count f').
Proof.
  intros H. induction count as [|count IH]; intros i e p; [reflexivity|]. cbn [for_range Tape.for_range run].
  apply bind_same; [apply H|intros v]. apply bind_same; [apply IH|intros vs]. apply ret_same.
Qed.

#[export] Hint Resolve bind_same ret_same raise_same panic_same ask_same get_position_same jump_same
  take_byte_same stay_same peek_same for_range_same : steps.

Ltac head_of t := match t with ?f _ => head_of f | _ => t end.

Ltac same_step :=
  first
    [ progress intros
    | apply bind_same
    | apply ret_same
    | apply raise_same
    | apply panic_same
    | solve [auto with steps]
    | match goal with |- same (match ?x with _ => _ end) _ => destruct x end
    | match goal with |- same _ (match ?x with _ => _ end) => destruct x end
    | apply stay_same
    | apply peek_same
    | apply for_range_same
    | eauto with steps ].

Ltac same :=
  intros;
  match goal with |- same ?l ?r =>
    let l := head_of l in let r := head_of r in unfold l, r end;
  repeat same_step.

(** ** Tape.v *)

Lemma take_u8_same :
  same take_u8 Tape.take_u8.
Proof. same. Qed.
#[export] Hint Resolve take_u8_same : steps.

Lemma take_u16_same :
  same take_u16 Tape.take_u16.
Proof. same. Qed.
#[export] Hint Resolve take_u16_same : steps.

Lemma take_u32_same :
  same take_u32 Tape.take_u32.
Proof. same. Qed.
#[export] Hint Resolve take_u32_same : steps.

Lemma take_i16_same :
  same take_i16 Tape.take_i16.
Proof. same. Qed.
#[export] Hint Resolve take_i16_same : steps.

Lemma take_q32_same :
  same take_q32 Tape.take_q32.
Proof. same. Qed.
#[export] Hint Resolve take_q32_same : steps.

Lemma take_tag_same :
  same take_tag Tape.take_tag.
Proof. same. Qed.
#[export] Hint Resolve take_tag_same : steps.

Lemma take_const_same (m : steps N) (m' : M N) (constant : N) :
  same m m' -> same (take_const m constant) (Tape.take_const m' constant).
Proof. same. Qed.
#[export] Hint Resolve take_const_same : steps.

Lemma take_flags_same (invalid : N) :
  same (take_flags invalid) (Tape.take_flags invalid).
Proof. same. Qed.
#[export] Hint Resolve take_flags_same : steps.

Lemma add_wrapping_same (bits : N) (a : N) (b : N) :
  same (add_wrapping bits a b) (Tape.add_wrapping bits a b).
Proof. same. Qed.
#[export] Hint Resolve add_wrapping_same : steps.

Lemma add_u16_same x y :
  same (add_u16 x y) (Tape.add_u16 x y).
Proof. same. Qed.
#[export] Hint Resolve add_u16_same : steps.

Lemma add_u64_same x y :
  same (add_u64 x y) (Tape.add_u64 x y).
Proof. same. Qed.
#[export] Hint Resolve add_u64_same : steps.

Lemma for_n_same {A} (count : N) (f : nat -> steps A) (f' : nat -> M A) :
  (forall x, same (f x) (f' x)) -> same (for_n count f) (Tape.for_n count f').
Proof. same. Qed.
#[export] Hint Resolve for_n_same : steps.

Lemma take_vec_same {A} (count : N) (m : steps A) (m' : M A) :
  same m m' -> same (take_vec count m) (Tape.take_vec count m').
Proof. same. Qed.
#[export] Hint Resolve take_vec_same : steps.

Lemma index_same {A} (values : list A) (i : nat) :
  same (index values i) (Tape.index values i).
Proof. same. Qed.
#[export] Hint Resolve index_same : steps.

Lemma jump_take_same {A} (position : N) (offset : N) (m : steps A) (m' : M A) :
  same m m' -> same (jump_take position offset m) (Tape.jump_take position offset m').
Proof. same. Qed.
#[export] Hint Resolve jump_take_same : steps.

Lemma jump_take_each_same {A} (position : N) (count : N) (offset : nat -> steps N) (offset' :
  nat -> M N) (m : steps A) (m' : M A) :
  (forall x, same (offset x) (offset' x)) -> same m m' ->
    same (jump_take_each position count offset m) (Tape.jump_take_each position count offset' m').
Proof. same. Qed.
#[export] Hint Resolve jump_take_each_same : steps.

Lemma jump_take_n_same {A} (position : N) (count : N) (offsets : list N) (m : steps A) (m' : M A) :
  same m m' -> same (jump_take_n position count offsets m) (Tape.jump_take_n position count offsets m').
Proof. same. Qed.
#[export] Hint Resolve jump_take_n_same : steps.

Lemma jump_take_maybe_same {A} (position : N) (offset : N) (m : steps A) (m' : M A) :
  same m m' -> same (jump_take_maybe position offset m) (Tape.jump_take_maybe position offset m').
Proof. same. Qed.
#[export] Hint Resolve jump_take_maybe_same : steps.

Lemma jump_take_maybe_n_same {A} (position : N) (count : N) (offsets : list N) (m : steps A) (m' : M A) :
  same m m' -> same (jump_take_maybe_n position count offsets m)
    (Tape.jump_take_maybe_n position count offsets m').
Proof. same. Qed.
#[export] Hint Resolve jump_take_maybe_n_same : steps.

(** ** ModelLayout.v *)

Lemma read_coverage_record_same :
  same read_coverage_record ModelLayout.read_coverage_record.
Proof. same. Qed.
#[export] Hint Resolve read_coverage_record_same : steps.

Lemma read_coverage1_same :
  same read_coverage1 ModelLayout.read_coverage1.
Proof. same. Qed.
#[export] Hint Resolve read_coverage1_same : steps.

Lemma read_coverage2_same :
  same read_coverage2 ModelLayout.read_coverage2.
Proof. same. Qed.
#[export] Hint Resolve read_coverage2_same : steps.

Lemma read_coverage_same :
  same read_coverage ModelLayout.read_coverage.
Proof. same. Qed.
#[export] Hint Resolve read_coverage_same : steps.

Lemma read_class_record_same :
  same read_class_record ModelLayout.read_class_record.
Proof. same. Qed.
#[export] Hint Resolve read_class_record_same : steps.

Lemma read_class1_same :
  same read_class1 ModelLayout.read_class1.
Proof. same. Qed.
#[export] Hint Resolve read_class1_same : steps.

Lemma read_class2_same :
  same read_class2 ModelLayout.read_class2.
Proof. same. Qed.
#[export] Hint Resolve read_class2_same : steps.

Lemma read_class_same :
  same read_class ModelLayout.read_class.
Proof. same. Qed.
#[export] Hint Resolve read_class_same : steps.

Lemma read_device_same :
  same read_device ModelLayout.read_device.
Proof. same. Qed.
#[export] Hint Resolve read_device_same : steps.

Lemma read_variation_same :
  same read_variation ModelLayout.read_variation.
Proof. same. Qed.
#[export] Hint Resolve read_variation_same : steps.

Lemma read_correction_same :
  same read_correction ModelLayout.read_correction.
Proof. same. Qed.
#[export] Hint Resolve read_correction_same : steps.

Lemma read_action_same :
  same read_action ModelLayout.read_action.
Proof. same. Qed.
#[export] Hint Resolve read_action_same : steps.

Lemma read_context_record_same :
  same read_context_record ModelLayout.read_context_record.
Proof. same. Qed.
#[export] Hint Resolve read_context_record_same : steps.

Lemma read_context_records_same :
  same read_context_records ModelLayout.read_context_records.
Proof. same. Qed.
#[export] Hint Resolve read_context_records_same : steps.

Lemma read_context_class_record_same :
  same read_context_class_record ModelLayout.read_context_class_record.
Proof. same. Qed.
#[export] Hint Resolve read_context_class_record_same : steps.

Lemma read_context_class_records_same :
  same read_context_class_records ModelLayout.read_context_class_records.
Proof. same. Qed.
#[export] Hint Resolve read_context_class_records_same : steps.

Lemma read_chained_record_same :
  same read_chained_record ModelLayout.read_chained_record.
Proof. same. Qed.
#[export] Hint Resolve read_chained_record_same : steps.

Lemma read_chained_records_same :
  same read_chained_records ModelLayout.read_chained_records.
Proof. same. Qed.
#[export] Hint Resolve read_chained_records_same : steps.

Lemma read_chained_class_record_same :
  same read_chained_class_record ModelLayout.read_chained_class_record.
Proof. same. Qed.
#[export] Hint Resolve read_chained_class_record_same : steps.

Lemma read_chained_class_records_same :
  same read_chained_class_records ModelLayout.read_chained_class_records.
Proof. same. Qed.
#[export] Hint Resolve read_chained_class_records_same : steps.

Lemma read_context1_same :
  same read_context1 ModelLayout.read_context1.
Proof. same. Qed.
#[export] Hint Resolve read_context1_same : steps.

Lemma read_context2_same :
  same read_context2 ModelLayout.read_context2.
Proof. same. Qed.
#[export] Hint Resolve read_context2_same : steps.

Lemma read_context3_same :
  same read_context3 ModelLayout.read_context3.
Proof. same. Qed.
#[export] Hint Resolve read_context3_same : steps.

Lemma read_context_same :
  same read_context ModelLayout.read_context.
Proof. same. Qed.
#[export] Hint Resolve read_context_same : steps.

Lemma read_chained_context1_same :
  same read_chained_context1 ModelLayout.read_chained_context1.
Proof. same. Qed.
#[export] Hint Resolve read_chained_context1_same : steps.

Lemma read_chained_context2_same :
  same read_chained_context2 ModelLayout.read_chained_context2.
Proof. same. Qed.
#[export] Hint Resolve read_chained_context2_same : steps.

Lemma read_chained_context3_same :
  same read_chained_context3 ModelLayout.read_chained_context3.
Proof. same. Qed.
#[export] Hint Resolve read_chained_context3_same : steps.

Lemma read_chained_context_same :
  same read_chained_context ModelLayout.read_chained_context.
Proof. same. Qed.
#[export] Hint Resolve read_chained_context_same : steps.

Lemma read_language_header_same :
  same read_language_header ModelLayout.read_language_header.
Proof. same. Qed.
#[export] Hint Resolve read_language_header_same : steps.

Lemma read_language_record_same :
  same read_language_record ModelLayout.read_language_record.
Proof. same. Qed.
#[export] Hint Resolve read_language_record_same : steps.

Lemma read_script_header_same :
  same read_script_header ModelLayout.read_script_header.
Proof. same. Qed.
#[export] Hint Resolve read_script_header_same : steps.

Lemma read_script_record_same :
  same read_script_record ModelLayout.read_script_record.
Proof. same. Qed.
#[export] Hint Resolve read_script_record_same : steps.

Lemma read_scripts_same :
  same read_scripts ModelLayout.read_scripts.
Proof. same. Qed.
#[export] Hint Resolve read_scripts_same : steps.

Lemma read_feature_header_same :
  same read_feature_header ModelLayout.read_feature_header.
Proof. same. Qed.
#[export] Hint Resolve read_feature_header_same : steps.

Lemma read_feature_record_same :
  same read_feature_record ModelLayout.read_feature_record.
Proof. same. Qed.
#[export] Hint Resolve read_feature_record_same : steps.

Lemma read_features_same :
  same read_features ModelLayout.read_features.
Proof. same. Qed.
#[export] Hint Resolve read_features_same : steps.

Lemma read_feature_variations_same :
  same read_feature_variations ModelLayout.read_feature_variations.
Proof. same. Qed.
#[export] Hint Resolve read_feature_variations_same : steps.

Lemma take_lookup_flags_same :
  same take_lookup_flags ModelLayout.take_lookup_flags.
Proof. same. Qed.
#[export] Hint Resolve take_lookup_flags_same : steps.

Lemma read_lookup_record_same {T} (read_table : N -> steps T) (read_table' : N -> M T) :
  (forall x, same (read_table x) (read_table' x)) ->
    same (read_lookup_record read_table) (ModelLayout.read_lookup_record read_table').
Proof. same. Qed.
#[export] Hint Resolve read_lookup_record_same : steps.

Lemma read_lookups_same {T} (read_table : N -> steps T) (read_table' : N -> M T) :
  (forall x, same (read_table x) (read_table' x)) ->
    same (read_lookups read_table) (ModelLayout.read_lookups read_table').
Proof. same. Qed.
#[export] Hint Resolve read_lookups_same : steps.

Lemma jump_take_list_same {A} (position : N) (offset : N) (m : steps A) (m' : M A) (default : A) :
  same m m' -> same (jump_take_list position offset m default)
    (ModelLayout.jump_take_list position offset m' default).
Proof. same. Qed.
#[export] Hint Resolve jump_take_list_same : steps.

Lemma read_directory_same {T} (read_table : N -> steps T) (read_table' : N -> M T) :
  (forall x, same (read_table x) (read_table' x)) ->
    same (read_directory read_table) (ModelLayout.read_directory read_table').
Proof. same. Qed.
#[export] Hint Resolve read_directory_same : steps.

Lemma read_store_record_same :
  same read_store_record ModelLayout.read_store_record.
Proof. same. Qed.
#[export] Hint Resolve read_store_record_same : steps.

Lemma read_store_same :
  same read_store ModelLayout.read_store.
Proof. same. Qed.
#[export] Hint Resolve read_store_same : steps.

(** ** ModelGdef.v *)

Lemma read_attachment_same :
  same read_attachment ModelGdef.read_attachment.
Proof. same. Qed.
#[export] Hint Resolve read_attachment_same : steps.

Lemma read_attachments_same :
  same read_attachments ModelGdef.read_attachments.
Proof. same. Qed.
#[export] Hint Resolve read_attachments_same : steps.

Lemma read_caret1_same :
  same read_caret1 ModelGdef.read_caret1.
Proof. same. Qed.
#[export] Hint Resolve read_caret1_same : steps.

Lemma read_caret2_same :
  same read_caret2 ModelGdef.read_caret2.
Proof. same. Qed.
#[export] Hint Resolve read_caret2_same : steps.

Lemma read_caret3_same :
  same read_caret3 ModelGdef.read_caret3.
Proof. same. Qed.
#[export] Hint Resolve read_caret3_same : steps.

Lemma read_caret_same :
  same read_caret ModelGdef.read_caret.
Proof. same. Qed.
#[export] Hint Resolve read_caret_same : steps.

Lemma read_gdef_ligature_same :
  same read_gdef_ligature ModelGdef.read_gdef_ligature.
Proof. same. Qed.
#[export] Hint Resolve read_gdef_ligature_same : steps.

Lemma read_gdef_ligatures_same :
  same read_gdef_ligatures ModelGdef.read_gdef_ligatures.
Proof. same. Qed.
#[export] Hint Resolve read_gdef_ligatures_same : steps.

Lemma read_marks_same :
  same read_marks ModelGdef.read_marks.
Proof. same. Qed.
#[export] Hint Resolve read_marks_same : steps.

Lemma read_gdef_header1_same :
  same read_gdef_header1 ModelGdef.read_gdef_header1.
Proof. same. Qed.
#[export] Hint Resolve read_gdef_header1_same : steps.

Lemma read_gdef_header12_same :
  same read_gdef_header12 ModelGdef.read_gdef_header12.
Proof. same. Qed.
#[export] Hint Resolve read_gdef_header12_same : steps.

Lemma read_gdef_header13_same :
  same read_gdef_header13 ModelGdef.read_gdef_header13.
Proof. same. Qed.
#[export] Hint Resolve read_gdef_header13_same : steps.

Lemma read_gdef_header_same :
  same read_gdef_header ModelGdef.read_gdef_header.
Proof. same. Qed.
#[export] Hint Resolve read_gdef_header_same : steps.

Lemma read_glyph_definition_same :
  same read_glyph_definition ModelGdef.read_glyph_definition.
Proof. same. Qed.
#[export] Hint Resolve read_glyph_definition_same : steps.

(** ** ModelGsub.v *)

Lemma read_alternates_same :
  same read_alternates ModelGsub.read_alternates.
Proof. same. Qed.
#[export] Hint Resolve read_alternates_same : steps.

Lemma read_ligature_same :
  same read_ligature ModelGsub.read_ligature.
Proof. same. Qed.
#[export] Hint Resolve read_ligature_same : steps.

Lemma read_ligatures_same :
  same read_ligatures ModelGsub.read_ligatures.
Proof. same. Qed.
#[export] Hint Resolve read_ligatures_same : steps.

Lemma read_sequence_same :
  same read_sequence ModelGsub.read_sequence.
Proof. same. Qed.
#[export] Hint Resolve read_sequence_same : steps.

Lemma read_single_substitution1_same :
  same read_single_substitution1 ModelGsub.read_single_substitution1.
Proof. same. Qed.
#[export] Hint Resolve read_single_substitution1_same : steps.

Lemma read_single_substitution2_same :
  same read_single_substitution2 ModelGsub.read_single_substitution2.
Proof. same. Qed.
#[export] Hint Resolve read_single_substitution2_same : steps.

Lemma read_single_substitution_same :
  same read_single_substitution ModelGsub.read_single_substitution.
Proof. same. Qed.
#[export] Hint Resolve read_single_substitution_same : steps.

Lemma read_multiple_substitution_same :
  same read_multiple_substitution ModelGsub.read_multiple_substitution.
Proof. same. Qed.
#[export] Hint Resolve read_multiple_substitution_same : steps.

Lemma read_alternate_substitution_same :
  same read_alternate_substitution ModelGsub.read_alternate_substitution.
Proof. same. Qed.
#[export] Hint Resolve read_alternate_substitution_same : steps.

Lemma read_ligature_substitution_same :
  same read_ligature_substitution ModelGsub.read_ligature_substitution.
Proof. same. Qed.
#[export] Hint Resolve read_ligature_substitution_same : steps.

Lemma read_extension_substitution_same :
  same read_extension_substitution ModelGsub.read_extension_substitution.
Proof. same. Qed.
#[export] Hint Resolve read_extension_substitution_same : steps.

Lemma read_reverse_chained_contextual_substibution_same :
  same read_reverse_chained_contextual_substibution ModelGsub.read_reverse_chained_contextual_substibution.
Proof. same. Qed.
#[export] Hint Resolve read_reverse_chained_contextual_substibution_same : steps.

Lemma read_gsub_type_same (type_ : N) :
  same (read_gsub_type type_) (ModelGsub.read_gsub_type type_).
Proof. same. Qed.
#[export] Hint Resolve read_gsub_type_same : steps.

Lemma read_glyph_substitution_same :
  same read_glyph_substitution ModelGsub.read_glyph_substitution.
Proof. same. Qed.
#[export] Hint Resolve read_glyph_substitution_same : steps.

(** ** ModelGpos.v *)

Lemma read_anchor1_same :
  same read_anchor1 ModelGpos.read_anchor1.
Proof. same. Qed.
#[export] Hint Resolve read_anchor1_same : steps.

Lemma read_anchor2_same :
  same read_anchor2 ModelGpos.read_anchor2.
Proof. same. Qed.
#[export] Hint Resolve read_anchor2_same : steps.

Lemma read_anchor3_same :
  same read_anchor3 ModelGpos.read_anchor3.
Proof. same. Qed.
#[export] Hint Resolve read_anchor3_same : steps.

Lemma read_anchor_same :
  same read_anchor ModelGpos.read_anchor.
Proof. same. Qed.
#[export] Hint Resolve read_anchor_same : steps.

Lemma read_base_same (position : N) (mark_class_count : N) :
  same (read_base position mark_class_count) (ModelGpos.read_base position mark_class_count).
Proof. same. Qed.
#[export] Hint Resolve read_base_same : steps.

Lemma read_bases_same (mark_class_count : N) :
  same (read_bases mark_class_count) (ModelGpos.read_bases mark_class_count).
Proof. same. Qed.
#[export] Hint Resolve read_bases_same : steps.

Lemma read_component_same (position : N) (mark_class_count : N) :
  same (read_component position mark_class_count) (ModelGpos.read_component position mark_class_count).
Proof. same. Qed.
#[export] Hint Resolve read_component_same : steps.

Lemma read_gpos_ligature_same (mark_class_count : N) :
  same (read_gpos_ligature mark_class_count) (ModelGpos.read_gpos_ligature mark_class_count).
Proof. same. Qed.
#[export] Hint Resolve read_gpos_ligature_same : steps.

Lemma read_gpos_ligatures_same (mark_class_count : N) :
  same (read_gpos_ligatures mark_class_count) (ModelGpos.read_gpos_ligatures mark_class_count).
Proof. same. Qed.
#[export] Hint Resolve read_gpos_ligatures_same : steps.

Lemma read_mark1_same (position : N) :
  same (read_mark1 position) (ModelGpos.read_mark1 position).
Proof. same. Qed.
#[export] Hint Resolve read_mark1_same : steps.

Lemma read_mark1s_same :
  same read_mark1s ModelGpos.read_mark1s.
Proof. same. Qed.
#[export] Hint Resolve read_mark1s_same : steps.

Lemma read_mark2_same (position : N) (mark_class_count : N) :
  same (read_mark2 position mark_class_count) (ModelGpos.read_mark2 position mark_class_count).
Proof. same. Qed.
#[export] Hint Resolve read_mark2_same : steps.

Lemma read_mark2s_same (mark_class_count : N) :
  same (read_mark2s mark_class_count) (ModelGpos.read_mark2s mark_class_count).
Proof. same. Qed.
#[export] Hint Resolve read_mark2s_same : steps.

Lemma read_connection_same (position : N) :
  same (read_connection position) (ModelGpos.read_connection position).
Proof. same. Qed.
#[export] Hint Resolve read_connection_same : steps.

Lemma take_value_flags_same :
  same take_value_flags ModelGpos.take_value_flags.
Proof. same. Qed.
#[export] Hint Resolve take_value_flags_same : steps.

Lemma take_if_same {A} (flag : bool) (m : steps A) (m' : M A) :
  same m m' -> same (take_if flag m) (ModelGpos.take_if flag m').
Proof. same. Qed.
#[export] Hint Resolve take_if_same : steps.

Lemma take_linked_same (position : N) (offset : option N) :
  same (take_linked position offset) (ModelGpos.take_linked position offset).
Proof. same. Qed.
#[export] Hint Resolve take_linked_same : steps.

Lemma read_single_same (position : N) (flags : N) :
  same (read_single position flags) (ModelGpos.read_single position flags).
Proof. same. Qed.
#[export] Hint Resolve read_single_same : steps.

Lemma read_pair1_same (position : N) (value1_flags : N) (value2_flags : N) :
  same (read_pair1 position value1_flags value2_flags)
    (ModelGpos.read_pair1 position value1_flags value2_flags).
Proof. same. Qed.
#[export] Hint Resolve read_pair1_same : steps.

Lemma read_pair1s_same (value1_flags : N) (value2_flags : N) :
  same (read_pair1s value1_flags value2_flags) (ModelGpos.read_pair1s value1_flags value2_flags).
Proof. same. Qed.
#[export] Hint Resolve read_pair1s_same : steps.

Lemma read_pair2_same (position : N) (value1_flags : N) (value2_flags : N) :
  same (read_pair2 position value1_flags value2_flags)
    (ModelGpos.read_pair2 position value1_flags value2_flags).
Proof. same. Qed.
#[export] Hint Resolve read_pair2_same : steps.

Lemma read_pair2s_same (position : N) (class2_count : N) (value1_flags : N) (value2_flags : N) :
  same (read_pair2s position class2_count value1_flags value2_flags)
    (ModelGpos.read_pair2s position class2_count value1_flags value2_flags).
Proof. same. Qed.
#[export] Hint Resolve read_pair2s_same : steps.

Lemma read_single_adjustment1_same :
  same read_single_adjustment1 ModelGpos.read_single_adjustment1.
Proof. same. Qed.
#[export] Hint Resolve read_single_adjustment1_same : steps.

Lemma read_single_adjustment2_same :
  same read_single_adjustment2 ModelGpos.read_single_adjustment2.
Proof. same. Qed.
#[export] Hint Resolve read_single_adjustment2_same : steps.

Lemma read_single_adjustment_same :
  same read_single_adjustment ModelGpos.read_single_adjustment.
Proof. same. Qed.
#[export] Hint Resolve read_single_adjustment_same : steps.

Lemma read_pair_adjustment1_same :
  same read_pair_adjustment1 ModelGpos.read_pair_adjustment1.
Proof. same. Qed.
#[export] Hint Resolve read_pair_adjustment1_same : steps.

Lemma read_pair_adjustment2_same :
  same read_pair_adjustment2 ModelGpos.read_pair_adjustment2.
Proof. same. Qed.
#[export] Hint Resolve read_pair_adjustment2_same : steps.

Lemma read_pair_adjustment_same :
  same read_pair_adjustment ModelGpos.read_pair_adjustment.
Proof. same. Qed.
#[export] Hint Resolve read_pair_adjustment_same : steps.

Lemma read_cursive_attachment_same :
  same read_cursive_attachment ModelGpos.read_cursive_attachment.
Proof. same. Qed.
#[export] Hint Resolve read_cursive_attachment_same : steps.

Lemma read_mark_to_base_attachment_same :
  same read_mark_to_base_attachment ModelGpos.read_mark_to_base_attachment.
Proof. same. Qed.
#[export] Hint Resolve read_mark_to_base_attachment_same : steps.

Lemma read_mark_to_ligature_attachment_same :
  same read_mark_to_ligature_attachment ModelGpos.read_mark_to_ligature_attachment.
Proof. same. Qed.
#[export] Hint Resolve read_mark_to_ligature_attachment_same : steps.

Lemma read_mark_to_mark_attachment_same :
  same read_mark_to_mark_attachment ModelGpos.read_mark_to_mark_attachment.
Proof. same. Qed.
#[export] Hint Resolve read_mark_to_mark_attachment_same : steps.

Lemma read_extension_positioning_same :
  same read_extension_positioning ModelGpos.read_extension_positioning.
Proof. same. Qed.
#[export] Hint Resolve read_extension_positioning_same : steps.

Lemma read_gpos_type_same (type_ : N) :
  same (read_gpos_type type_) (ModelGpos.read_gpos_type type_).
Proof. same. Qed.
#[export] Hint Resolve read_gpos_type_same : steps.

Lemma read_glyph_positioning_same :
  same read_glyph_positioning ModelGpos.read_glyph_positioning.
Proof. same. Qed.
#[export] Hint Resolve read_glyph_positioning_same : steps.

(** ** ModelCpal.v *)

Lemma read_cpal_header0_same :
  same read_cpal_header0 ModelCpal.read_cpal_header0.
Proof. same. Qed.
#[export] Hint Resolve read_cpal_header0_same : steps.

Lemma read_cpal_header1_same :
  same read_cpal_header1 ModelCpal.read_cpal_header1.
Proof. same. Qed.
#[export] Hint Resolve read_cpal_header1_same : steps.

Lemma read_cpal_header_same :
  same read_cpal_header ModelCpal.read_cpal_header.
Proof. same. Qed.
#[export] Hint Resolve read_cpal_header_same : steps.

Lemma read_color_same :
  same read_color ModelCpal.read_color.
Proof. same. Qed.
#[export] Hint Resolve read_color_same : steps.

Lemma read_color_palettes_same :
  same read_color_palettes ModelCpal.read_color_palettes.
Proof. same. Qed.
#[export] Hint Resolve read_color_palettes_same : steps.

(** ** ModelFvar.v *)

Lemma take_axis_flags_same :
  same take_axis_flags ModelFvar.take_axis_flags.
Proof. same. Qed.
#[export] Hint Resolve take_axis_flags_same : steps.

Lemma take_instance_flags_same :
  same take_instance_flags ModelFvar.take_instance_flags.
Proof. same. Qed.
#[export] Hint Resolve take_instance_flags_same : steps.

Lemma read_fvar_header_same :
  same read_fvar_header ModelFvar.read_fvar_header.
Proof. same. Qed.
#[export] Hint Resolve read_fvar_header_same : steps.

Lemma read_axis_record_same :
  same read_axis_record ModelFvar.read_axis_record.
Proof. same. Qed.
#[export] Hint Resolve read_axis_record_same : steps.

Lemma read_instance_record_same (axis_count : N) :
  same (read_instance_record axis_count) (ModelFvar.read_instance_record axis_count).
Proof. same. Qed.
#[export] Hint Resolve read_instance_record_same : steps.

Lemma read_font_variations_same :
  same read_font_variations ModelFvar.read_font_variations.
Proof. same. Qed.
#[export] Hint Resolve read_font_variations_same : steps.

(** ** ModelFont.v *)

Lemma read_offset_record_same :
  same read_offset_record ModelFont.read_offset_record.
Proof. same. Qed.
#[export] Hint Resolve read_offset_record_same : steps.

Lemma read_offsets_header_same :
  same read_offsets_header ModelFont.read_offsets_header.
Proof. same. Qed.
#[export] Hint Resolve read_offsets_header_same : steps.

Lemma read_offsets_same (d : deps) :
  same (read_offsets d) (ModelFont.read_offsets d).
Proof. same. Qed.
#[export] Hint Resolve read_offsets_same : steps.

Lemma read_font_same (d : deps) :
  same (read_font d) (ModelFont.read_font d).
Proof. same. Qed.
#[export] Hint Resolve read_font_same : steps.

Lemma read_file_same (d : deps) :
  same (read_file d) (ModelFont.read_file d).
Proof. same. Qed.
#[export] Hint Resolve read_file_same : steps.

(** ** The calls that compute a checksum *)

Lemma font_position_same checksum_of d this t : computes checksum_of d ->
  same (font_position checksum_of this t) (ModelFont.font_position d this t).
Proof.
  intros C. unfold font_position, ModelFont.font_position.
  induction (offsets_records (font_offsets this)) as [|r l IH];
    cbn [font_position_loop ModelFont.font_position_loop]; [apply ret_same|].
  destruct (tag_eqb _ _); [|exact IH]. apply bind_same; [apply ask_same|intros o].
  destruct (ignore_invalid_checksums o); [repeat same_step|].
  intros e p. unfold ret, raise, jump. rewrite !run_bind. specialize (C r e p). unfold outcome in C.
  unfold Tape.bind, Tape.jump, Tape.ret, take_checksum.
  rewrite <- C. destruct (run (checksum_of r) e p) as [[c q]| |]; cbn; try reflexivity.
  destruct (_ =? c); reflexivity.
Qed.

Lemma font_take_same {A} checksum_of d this t (m : steps A) m' : computes checksum_of d -> same m m' ->
  same (font_take checksum_of this t m) (ModelFont.font_take d this t m').
Proof.
  intros C H. unfold font_take, ModelFont.font_take. apply bind_same; [apply font_position_same, C|].
  repeat same_step.
Qed.

(** ** Requests *)

Lemma steps_of_same {A} (r : request A) : same (steps_of r) (reader r).
Proof. destruct r; unfold steps_of, reader; auto with steps. Qed.
