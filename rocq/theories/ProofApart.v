(** What is read has the parts that [parts] says. *)

From Verif Require Export SpecParts.
From Verif Require Import Reads ReadsTactics ProofLayout ProofGsub ProofGpos ProofGdef ProofCpal
  ProofFvar ProofFont
  ProofShape ProofParts.

Section Apart.
Context (o : options) (f : file) (Hb : bounded f).
Notation e := (mkEnv f o).

Definition apart (x : part) : Prop := readable o f x -> taken_apart o f x.

Lemma apart_node {A} (m : M A) p l : parts o f p m l -> readable o f (Part m p) -> Forall apart l ->
  taken_apart o f (Part m p).
Proof.
  intros Hp Hr Hl. apply (TakenApart _ _ _ _ _ _ Hp).
  apply (parts_readable _ _ _ _ _ _ Hb Hp) in Hr.
  rewrite Forall_forall in *. intros x Hx. exact (Hl x Hx (Hr x Hx)).
Qed.

Lemma apart_each {A} (m : M A) base offsets : (forall q, apart (Part m q)) ->
  Forall apart (each base m offsets).
Proof. intros H. unfold each. apply Forall_map, Forall_forall. auto. Qed.

Lemma apart_nonzero {A} (m : M A) base offsets : (forall q, apart (Part m q)) ->
  Forall apart (nonzero base m offsets).
Proof. apply apart_each. Qed.

Lemma apart_unless {A} (m : M A) b base offset : (forall q, apart (Part m q)) ->
  Forall apart (unless b base m offset).
Proof. intros H. unfold unless. destruct b; [apply apart_nonzero|apply apart_each]; exact H. Qed.

Lemma apart_row {A} (m : M A) q size n : (forall q, apart (Part m q)) -> Forall apart (row q size n m).
Proof. intros H. unfold row. apply Forall_map, Forall_forall. auto. Qed.

Lemma apart_app l l' : Forall apart l -> Forall apart l' -> Forall apart (l ++ l').
Proof. intros. apply Forall_app. auto. Qed.

Lemma apart_simple x : simple x -> apart x.
Proof. intros H _. apply TakenSimple, H. Qed.

Lemma finds_readable {A} (m : M A) p P : finds True m e p P -> readable o f (Part m p) -> exists v, P v.
Proof. intros [_ H] [v Hv]. exists v. apply H, Hv. Qed.

Lemma apart_value base flags p : (forall q, apart (Part (read_single base flags) q)) ->
  Forall apart (value_part base flags p).
Proof. intros H. unfold value_part. destruct (flags =? 0); [apply Forall_nil|].
  apply Forall_cons; [apply H|apply Forall_nil]. Qed.

Ltac sorted :=
  repeat first
  [ apply apart_app | apply apart_each | apply apart_nonzero | apply apart_unless | apply apart_row
    | apply apart_value
  | apply Forall_nil | apply Forall_cons ];
  intros; first [solve [apply apart_simple; constructor] | solve [eauto with apart]].

Ltac fitted := repeat first [eassumption | placed].

Ltac known_as lemma :=
  let H := fresh "H" in let v := fresh "v" in
  intros H; generalize H; intros [v ?]%(finds_readable _ _ _ lemma).

Ltac node := eapply apart_node; [once (econstructor; solve [fitted]) | eexists; eassumption | sorted].

Ltac unpack_each v := let t := fresh "t" in destruct v as [t|t|t] || destruct v as [t|t]; unpack t.

Lemma context_records_apart p : apart (Part read_context_records p).
Proof. known_as (read_context_records_finds True e Hb p). unpack v; node. Qed.
Hint Resolve context_records_apart : apart.

Lemma context_class_records_apart p : apart (Part read_context_class_records p).
Proof. known_as (read_context_class_records_finds True e Hb p). unpack v; node. Qed.
Hint Resolve context_class_records_apart : apart.

Lemma chained_records_apart p : apart (Part read_chained_records p).
Proof. known_as (read_chained_records_finds True e Hb p). unpack v; node. Qed.
Hint Resolve chained_records_apart : apart.

Lemma chained_class_records_apart p : apart (Part read_chained_class_records p).
Proof. known_as (read_chained_class_records_finds True e Hb p). unpack v; node. Qed.
Hint Resolve chained_class_records_apart : apart.

Lemma ligatures_apart p : apart (Part read_ligatures p).
Proof. known_as (read_ligatures_finds True e Hb p). unpack v; node. Qed.
Hint Resolve ligatures_apart : apart.

Lemma marks_apart p : apart (Part read_marks p).
Proof. known_as (read_marks_finds True e Hb p). unpack v; node. Qed.
Hint Resolve marks_apart : apart.

Lemma attachments_apart p : apart (Part read_attachments p).
Proof. known_as (read_attachments_finds True e Hb p). unpack v; node. Qed.
Hint Resolve attachments_apart : apart.

Lemma script_record_apart p : apart (Part read_script_record p).
Proof. known_as (read_script_record_finds True e Hb p). unpack v; node. Qed.
Hint Resolve script_record_apart : apart.

Lemma scripts_apart p : apart (Part read_scripts p).
Proof. known_as (read_scripts_finds True e Hb p). unpack v; node. Qed.
Hint Resolve scripts_apart : apart.

Lemma features_apart p : apart (Part read_features p).
Proof. known_as (read_features_finds True e Hb p). unpack v; node. Qed.
Hint Resolve features_apart : apart.

Lemma multiple_substitution_apart p : apart (Part read_multiple_substitution p).
Proof. known_as (read_multiple_substitution_finds True e Hb p). unpack v; node. Qed.
Hint Resolve multiple_substitution_apart : apart.

Lemma alternate_substitution_apart p : apart (Part read_alternate_substitution p).
Proof. known_as (read_alternate_substitution_finds True e Hb p). unpack v; node. Qed.
Hint Resolve alternate_substitution_apart : apart.

Lemma ligature_substitution_apart p : apart (Part read_ligature_substitution p).
Proof. known_as (read_ligature_substitution_finds True e Hb p). unpack v; node. Qed.
Hint Resolve ligature_substitution_apart : apart.

Lemma reverse_chained_contextual_substibution_apart p :
  apart (Part read_reverse_chained_contextual_substibution p).
Proof. known_as (read_reverse_chained_contextual_substibution_finds True e Hb p). unpack v; node. Qed.
Hint Resolve reverse_chained_contextual_substibution_apart : apart.

Lemma anchor_apart p : apart (Part read_anchor p).
Proof. known_as (read_anchor_finds True e Hb p). unpack_each v; node. Qed.
Hint Resolve anchor_apart : apart.

Lemma caret_apart p : apart (Part read_caret p).
Proof. known_as (read_caret_finds True e Hb p). unpack_each v; node. Qed.
Hint Resolve caret_apart : apart.

Lemma context_apart p : apart (Part read_context p).
Proof. known_as (read_context_finds True e Hb p). unpack_each v; node. Qed.
Hint Resolve context_apart : apart.

Lemma chained_context_apart p : apart (Part read_chained_context p).
Proof. known_as (read_chained_context_finds True e Hb p). unpack_each v; node. Qed.
Hint Resolve chained_context_apart : apart.

Lemma single_substitution_apart p : apart (Part read_single_substitution p).
Proof. known_as (read_single_substitution_finds True e Hb p). unpack_each v; node. Qed.
Hint Resolve single_substitution_apart : apart.

Lemma gdef_ligature_apart p : apart (Part read_gdef_ligature p).
Proof. known_as (read_gdef_ligature_finds True e Hb p). unpack v; node. Qed.
Hint Resolve gdef_ligature_apart : apart.

Lemma gdef_ligatures_apart p : apart (Part read_gdef_ligatures p).
Proof. known_as (read_gdef_ligatures_finds True e Hb p). unpack v; node. Qed.
Hint Resolve gdef_ligatures_apart : apart.

Lemma takes_readable {A} (m : M A) p P n : takes True m e p P n -> readable o f (Part m p) -> exists v, P v.
Proof. intros [_ H] [v [q Hv]]. exists v. apply H in Hv. apply Hv. Qed.

Ltac known_by lemma :=
  let H := fresh "H" in let v := fresh "v" in
  intros H; generalize H; intros [v ?]%(takes_readable _ _ _ _ lemma).

Lemma base_apart base k p : base < 2 ^ 63 -> apart (Part (read_base base k) p).
Proof. intros Hp. known_by (read_base_takes True e Hb base k p Hp). unpack v; node. Qed.
Hint Resolve base_apart : apart.

Lemma component_apart base k p : base < 2 ^ 63 -> apart (Part (read_component base k) p).
Proof. intros Hp. known_by (read_component_takes True e Hb base k p Hp). unpack v; node. Qed.
Hint Resolve component_apart : apart.

Lemma mark2_apart base k p : base < 2 ^ 63 -> apart (Part (read_mark2 base k) p).
Proof. intros Hp. known_by (read_mark2_takes True e Hb base k p Hp). unpack v; node. Qed.
Hint Resolve mark2_apart : apart.

Lemma mark1_apart base p : base < 2 ^ 63 -> apart (Part (read_mark1 base) p).
Proof. intros Hp. known_by (read_mark1_takes True e Hb base p Hp). unpack v; node. Qed.
Hint Resolve mark1_apart : apart.

Lemma connection_apart base p : base < 2 ^ 63 -> apart (Part (read_connection base) p).
Proof. intros Hp. known_by (read_connection_takes True e Hb base p Hp). unpack v; node. Qed.
Hint Resolve connection_apart : apart.

Lemma single_apart base flags p : base < 2 ^ 63 -> apart (Part (read_single base flags) p).
Proof. intros Hp. known_by (read_single_takes True e base flags p Hp). unpack v; node. Qed.
Hint Resolve single_apart : apart.

Lemma pair1_apart base flags1 flags2 p : base < 2 ^ 63 -> apart (Part (read_pair1 base flags1 flags2) p).
Proof. intros Hp. known_by (read_pair1_takes True e base flags1 flags2 p Hp). unpack v; node. Qed.
Hint Resolve pair1_apart : apart.

Lemma pair2_apart base flags1 flags2 p : base < 2 ^ 63 -> apart (Part (read_pair2 base flags1 flags2) p).
Proof. intros Hp. known_by (read_pair2_takes True e base flags1 flags2 p Hp). unpack v; node. Qed.
Hint Resolve pair2_apart : apart.

Lemma pair2s_apart base n flags1 flags2 p : base < 2 ^ 63 -> apart (Part (read_pair2s base n flags1 flags2) p).
Proof. intros Hp. known_by (read_pair2s_takes True e base n flags1 flags2 p Hp). unpack v; node. Qed.
Hint Resolve pair2s_apart : apart.

Lemma bases_apart k p : apart (Part (read_bases k) p).
Proof. known_as (read_bases_finds True e Hb k p). unpack v; (assert (p < 2 ^ 63) by base_small); node. Qed.
Hint Resolve bases_apart : apart.

Lemma gpos_ligature_apart k p : apart (Part (read_gpos_ligature k) p).
Proof. known_as (read_gpos_ligature_finds True e Hb k p).
  unpack v; (assert (p < 2 ^ 63) by base_small); node. Qed.
Hint Resolve gpos_ligature_apart : apart.

Lemma gpos_ligatures_apart k p : apart (Part (read_gpos_ligatures k) p).
Proof. known_as (read_gpos_ligatures_finds True e Hb k p).
  unpack v; (assert (p < 2 ^ 63) by base_small); node. Qed.
Hint Resolve gpos_ligatures_apart : apart.

Lemma mark2s_apart k p : apart (Part (read_mark2s k) p).
Proof. known_as (read_mark2s_finds True e Hb k p). unpack v; (assert (p < 2 ^ 63) by base_small); node. Qed.
Hint Resolve mark2s_apart : apart.

Lemma mark1s_apart  p : apart (Part (read_mark1s) p).
Proof. known_as (read_mark1s_finds True e Hb  p). unpack v; (assert (p < 2 ^ 63) by base_small); node. Qed.
Hint Resolve mark1s_apart : apart.

Lemma pair1s_apart flags1 flags2 p : apart (Part (read_pair1s flags1 flags2) p).
Proof. known_as (read_pair1s_finds True e Hb flags1 flags2 p).
  unpack v; (assert (p < 2 ^ 63) by base_small); node. Qed.
Hint Resolve pair1s_apart : apart.

Lemma cursive_attachment_apart  p : apart (Part (read_cursive_attachment) p).
Proof. known_as (read_cursive_attachment_finds True e Hb  p).
  unpack v; (assert (p < 2 ^ 63) by base_small); node. Qed.
Hint Resolve cursive_attachment_apart : apart.

Lemma mark_to_base_attachment_apart  p : apart (Part (read_mark_to_base_attachment) p).
Proof. known_as (read_mark_to_base_attachment_finds True e Hb  p).
  unpack v; (assert (p < 2 ^ 63) by base_small); node. Qed.
Hint Resolve mark_to_base_attachment_apart : apart.

Lemma mark_to_ligature_attachment_apart  p : apart (Part (read_mark_to_ligature_attachment) p).
Proof. known_as (read_mark_to_ligature_attachment_finds True e Hb  p).
  unpack v; (assert (p < 2 ^ 63) by base_small); node. Qed.
Hint Resolve mark_to_ligature_attachment_apart : apart.

Lemma mark_to_mark_attachment_apart  p : apart (Part (read_mark_to_mark_attachment) p).
Proof. known_as (read_mark_to_mark_attachment_finds True e Hb  p).
  unpack v; (assert (p < 2 ^ 63) by base_small); node. Qed.
Hint Resolve mark_to_mark_attachment_apart : apart.

Lemma single_adjustment_apart  p : apart (Part (read_single_adjustment) p).
Proof. known_as (read_single_adjustment_finds True e Hb  p).
  unpack_each v; (assert (p < 2 ^ 63) by base_small); node. Qed.
Hint Resolve single_adjustment_apart : apart.

Lemma pair_adjustment_apart  p : apart (Part (read_pair_adjustment) p).
Proof. known_as (read_pair_adjustment_finds True e Hb  p).
  unpack_each v; (assert (p < 2 ^ 63) by base_small); node. Qed.
Hint Resolve pair_adjustment_apart : apart.

Lemma gsub_type_apart t p : apart (Part (read_gsub_type t) p).
Proof.
  known_as (read_gsub_type_finds True e Hb t p). destruct v; cbn in *; break; subst t; node.
Qed.

Lemma gpos_type_apart t p : apart (Part (read_gpos_type t) p).
Proof.
  known_as (read_gpos_type_finds True e Hb t p). destruct v; cbn in *; break; subst t; node.
Qed.

Section Tables.
Context {T : Type} (read_table : N -> M T) (table_at : N -> file -> N -> T -> Prop).
Context (Ht : forall t p, finds True (read_table t) e p (table_at t f p)).
Context (Ha : forall t p, apart (Part (read_table t) p)).

Lemma lookup_record_apart p : apart (Part (read_lookup_record read_table) p).
Proof.
  known_as (read_lookup_record_finds True e Hb read_table table_at Ht p). destruct v. cbn in *. break.
  eapply apart_node; [econstructor; try eassumption | eexists; eassumption | apply apart_each;
    intros; apply Ha].
  intros E. rewrite E in *. destruct lookup_record_mark_filtering_set; break;
    [eexists; eassumption|discriminate].
Qed.

Lemma lookups_apart p : apart (Part (read_lookups read_table) p).
Proof.
  known_as (read_lookups_finds True e Hb read_table table_at Ht p). unpack v.
  eapply apart_node; [econstructor; fitted | eexists; eassumption | apply apart_each; intros;
    apply lookup_record_apart].
Qed.

Lemma directory_apart p : apart (Part (read_directory read_table) p).
Proof.
  known_as (read_directory_finds True e Hb read_table table_at Ht p). destruct v. cbn in *. break. subst.
  eapply apart_node; [econstructor; try eassumption | eexists; eassumption | ].
  - match goal with H : _ \/ _ |- _ => destruct H as [E|E]; [left|right]; auto end.
  - repeat apply apart_app; try apply apart_unless; try apply apart_nonzero; intros;
      [apply scripts_apart|apply features_apart|apply lookups_apart|apply apart_simple; constructor].
Qed.

End Tables.

Lemma store_apart p : apart (Part read_store p).
Proof.
  intros H. generalize H. intros [v Hv].  apply (read_store_finds False e Hb p) in Hv; [|intros []].
  unpack v. node.
Qed.
Hint Resolve store_apart : apart.

Lemma glyph_definition_apart p : apart (Part read_glyph_definition p).
Proof.
  intros H. generalize H. intros [v Hv]. apply (read_glyph_definition_finds False e Hb p) in Hv; [|intros []].
  destruct v as [h]. unfold glyph_definition_at, glyph_definition_with in Hv.
  destruct (gdef_offsets h) as [[[[[a b] c] d] m] i] eqn:E. destruct Hv as (Hh & _). 
  eapply apart_node; [eapply PartsGdef; eassumption | exact H | sorted].
Qed.

Lemma color_palettes_apart p : apart (Part read_color_palettes p).
Proof.
  intros H. destruct (finds_readable _ _ _ (read_color_palettes_finds True e Hb p) H) as [[[h|h] l] Hv].
  - destruct h, Hv as [Hh _]. eapply apart_node; [eapply PartsCpal0, Hh | exact H | sorted].
  - destruct h, Hv as [Hh _]. eapply apart_node; [eapply PartsCpal1, Hh | exact H | sorted].
Qed.

Lemma font_variations_apart p : apart (Part read_font_variations p).
Proof.
  intros H. destruct (finds_readable _ _ _ (read_font_variations_finds True e Hb p) H) as [[h l l'] Hv].
  destruct h, Hv as [Hh _]. eapply apart_node; [eapply PartsFvar, Hh | exact H | sorted].
Qed.

Lemma font_apart d p : apart (Part (read_font d) p).
Proof.
  intros H. destruct (finds_readable _ _ _ (read_font_finds True d e p) H) as [[[h l]] [Ha [Hh _]]].
  eapply apart_node; [exact (PartsFont _ _ _ _ _ Hh Ha) | exact H | sorted].
Qed.
Hint Resolve font_apart : apart.

Lemma file_apart d p : apart (Part (read_file d) p).
Proof.
  intros H. destruct (finds_readable _ _ _ (read_file_finds True d e p) H) as [v ([h l] & _ & Ht & _ & [Hh _])].
  eapply apart_node; [eapply PartsFile; [|exact Ht] | exact H | sorted]. destruct h. apply Hh.
Qed.

End Apart.

Lemma requested_apart o f d A (m : M A) p v : bounded f -> whole d m -> reads o m f p v ->
  taken_apart o f (Part m p).
Proof.
  intros Hb Hm Hv. assert (H : readable o f (Part m p)) by (exists v; exact Hv). destruct Hm.
  - exact (directory_apart o f Hb _ _ (read_gsub_type_finds True (mkEnv f o) Hb) (gsub_type_apart o f Hb) p H).
  - exact (directory_apart o f Hb _ _ (read_gpos_type_finds True (mkEnv f o) Hb) (gpos_type_apart o f Hb) p H).
  - exact (glyph_definition_apart o f Hb p H).
  - exact (color_palettes_apart o f Hb p H).
  - exact (font_variations_apart o f Hb p H).
  - exact (file_apart o f Hb d p H).
Qed.
