(** The work of a successful read is in proportion to what it gives (C79). *)

From Verif Require Export SpecWeight ProofWork.
From Verif Require Import ProofWeight Steps StepsReaders.

(** ** Steps *)

(** After elements weighing [s] have been read, [m] gives something that weighs [w] in all; every
    element is at least one step and at most [256], besides [k] of them. *)
Definition tally {A} (m : steps A) (s k : N) (w : A -> N) : Prop := forall e p a q,
  run m e p = Ok (a, q) -> w a <= s + work m e p /\ work m e p + 256 * s <= 256 * w a + k.

Definition nothing {A} (a : A) : N := 0.

Lemma bind_tally {A B} (m : steps A) (g : A -> steps B) s k k' w w' :
  tally m 0 k w -> (forall a, tally (g a) (s + w a) k' w') -> tally (bind m g) s (k + k') w'.
Proof.
  intros H G e p b r R. rewrite run_bind in R. rewrite work_bind.
  destruct (run m e p) as [[a q]| |] eqn:X; try discriminate R.
  destruct (H e p a q X) as [H1 H2]. destruct (G a e q b r R) as [G1 G2]. lia.
Qed.

Lemma tally_weaken {A} (m : steps A) s k k' w : tally m s k w -> k <= k' -> tally m s k' w.
Proof. intros H L e p a q R. destruct (H e p a q R). lia. Qed.

Lemma ret_tally {A} (a : A) s w : w a = s -> tally (ret a) s 0 w.
Proof. intros X e p b q R. inversion R. subst. cbn [work ret]. lia. Qed.

Lemma raise_tally {A} x s k w : tally (@raise A x) s k w.
Proof. intros e p b q R. discriminate R. Qed.

Lemma unless_tally {A} (b : bool) x (m : steps A) s k w :
  tally m s k w -> tally (if b then raise x else m) s k w.
Proof. intros H. destruct b; [apply raise_tally|exact H]. Qed.


Lemma work_tally {A} (m : steps A) k : (forall e p, work m e p <= k) -> tally m 0 k nothing.
Proof. intros H e p a q R. specialize (H e p). unfold nothing. lia. Qed.

Lemma take_byte_tally : tally take_byte 0 1 nothing.
Proof. apply work_tally. intros e p. cbn. destruct (content e p); cbn; lia. Qed.

Lemma ask_tally : tally ask 0 0 nothing.
Proof. apply work_tally. intros e p. cbn. lia. Qed.

Lemma get_position_tally : tally get_position 0 1 nothing.
Proof. apply work_tally. intros e p. cbn. lia. Qed.

Lemma jump_tally q : tally (jump q) 0 1 nothing.
Proof. apply work_tally. intros e p. cbn. lia. Qed.

Lemma stay_tally {A} (m : steps A) k w : tally m 0 k w -> tally (stay m) 0 (2 + k) w.
Proof.
  intros H e p a q R. unfold stay, get_position, jump, ret in *. cbn -[N.add N.mul] in *.
  rewrite run_bind in R. rewrite work_bind. destruct (run m e p) as [[b r]| |] eqn:X; try discriminate R.
  destruct (H e p b r X). cbn in R. inversion R. subst. cbn -[N.add N.mul]. lia.
Qed.

Lemma peek_tally {A} (m : steps A) k w : tally m 0 k w -> tally (peek m) 0 (2 + k) w.
Proof. apply stay_tally. Qed.

Create HintDb tally.
#[export] Hint Resolve take_byte_tally ask_tally get_position_tally jump_tally : tally.

(** ** Scalars *)

Ltac scalar := repeat (eapply bind_tally; [solve [eauto 1 with tally]|intros]); apply ret_tally; reflexivity.

Lemma take_u8_tally : tally take_u8 0 1 nothing.
Proof. apply (tally_weaken _ 0 (1 + 0)); [|lia]. unfold take_u8. scalar. Qed.

Lemma take_u16_tally : tally take_u16 0 2 nothing.
Proof. apply (tally_weaken _ 0 (1 + (1 + 0))); [|lia]. unfold take_u16. scalar. Qed.

Lemma take_u32_tally : tally take_u32 0 4 nothing.
Proof. apply (tally_weaken _ 0 (1 + (1 + (1 + (1 + 0))))); [|lia]. unfold take_u32. scalar. Qed.

Lemma take_tag_tally : tally take_tag 0 4 nothing.
Proof. apply (tally_weaken _ 0 (1 + (1 + (1 + (1 + 0))))); [|lia]. unfold take_tag. scalar. Qed.

#[export] Hint Resolve take_u8_tally take_u16_tally take_u32_tally take_tag_tally : tally.

Lemma take_i16_tally : tally take_i16 0 2 nothing.
Proof. apply (tally_weaken _ 0 (2 + 0)); [|lia]. unfold take_i16. scalar. Qed.

Lemma take_q32_tally : tally take_q32 0 4 nothing.
Proof. apply (tally_weaken _ 0 (4 + 0)); [|lia]. unfold take_q32. scalar. Qed.

Lemma take_const_tally c : tally (take_const take_u16 c) 0 2 nothing.
Proof.
  apply (tally_weaken _ 0 (2 + 0)); [|lia]. unfold take_const. eapply bind_tally; [eauto with tally|intros v].
  destruct (v =? c); [apply ret_tally; reflexivity|apply raise_tally].
Qed.

Lemma take_flags_tally invalid : tally (take_flags invalid) 0 2 nothing.
Proof.
  apply (tally_weaken _ 0 (2 + (0 + 0))); [|lia]. unfold take_flags.
  eapply bind_tally; [eauto with tally|intros v]. eapply bind_tally; [eauto with tally|intros o].
  destruct (_ && _); [apply raise_tally|apply ret_tally; reflexivity].
Qed.

Lemma take_lookup_flags_tally : tally take_lookup_flags 0 2 nothing.
Proof. apply take_flags_tally. Qed.

Lemma take_value_flags_tally : tally take_value_flags 0 2 nothing.
Proof. apply take_flags_tally. Qed.

Lemma take_axis_flags_tally : tally take_axis_flags 0 2 nothing.
Proof. apply take_flags_tally. Qed.

Lemma take_instance_flags_tally : tally take_instance_flags 0 2 nothing.
Proof. apply take_flags_tally. Qed.

Lemma add_wrapping_tally bits a b : tally (add_wrapping bits a b) 0 0 nothing.
Proof.
  apply work_tally. intros e p. unfold add_wrapping, ask. cbn [bind work].
  destruct (_ <? _); [|destruct (overflow_checks _)]; cbn [work ret panic]; lia.
Qed.

Lemma add_u64_tally a b : tally (add_u64 a b) 0 0 nothing.
Proof. apply add_wrapping_tally. Qed.

Lemma add_u16_tally a b : tally (add_u16 a b) 0 0 nothing.
Proof. apply add_wrapping_tally. Qed.

Lemma index_tally {A} (l : list A) i : tally (index l i) 0 0 nothing.
Proof. apply work_tally. intros e p. unfold index. destruct (nth_error l i); cbn [work ret panic]; lia. Qed.

#[export] Hint Resolve take_i16_tally take_q32_tally take_const_tally take_flags_tally take_lookup_flags_tally
  take_value_flags_tally take_axis_flags_tally take_instance_flags_tally add_u64_tally add_u16_tally
    index_tally : tally.

(** ** Vectors and parts *)

Lemma for_range_tally {A} (f : nat -> steps A) k w : k < 256 -> (forall i, tally (f i) 0 k w) ->
  forall count i, tally (for_range i count f) 0 0 (load w).
Proof.
  intros L H. induction count as [|count IH]; intros i.
  - apply ret_tally. reflexivity.
  - intros e p l q R. cbn [for_range run work] in *. rewrite run_bind in R. rewrite work_bind.
    destruct (run (f i) e p) as [[a r]| |] eqn:X; try discriminate R. destruct (H i e p a r X) as [H1 H2].
    rewrite run_bind in R. rewrite work_bind.
    destruct (run (for_range (Datatypes.S i) count f) e r) as [[l' q']| |] eqn:Z; try discriminate R.
    destruct (IH (Datatypes.S i) e r l' q' Z) as [I1 I2].
    cbn [run work ret] in *. inversion R. subst. rewrite load_cons. lia.
Qed.

Lemma for_n_tally {A} (f : nat -> steps A) k w n : (forall i, tally (f i) 0 k w) -> k < 256 ->
  tally (for_n n f) 0 0 (load w).
Proof. intros H L. apply (for_range_tally f k w L H). Qed.

Lemma load_nothing {A} (l : list A) : load nothing l = count l.
Proof. induction l as [|x l IH]; [reflexivity|]. rewrite load_cons, count_cons, IH. unfold nothing. lia. Qed.

Lemma take_vec_tally {A} (m : steps A) k n : tally m 0 k nothing -> k < 256 -> tally (take_vec n m) 0 0 count.
Proof.
  intros H L e p l q R. rewrite <- load_nothing.
  exact (for_n_tally (fun _ => m) k nothing n (fun _ => H) L e p l q R).
Qed.

Lemma jump_take_tally {A} position offset (m : steps A) k w : tally m 0 k w ->
  tally (jump_take position offset m) 0 (1 + k) w.
Proof.
  intros H. apply (tally_weaken _ 0 (0 + (1 + k))); [|lia]. unfold jump_take.
  eapply bind_tally; [apply add_u64_tally|intros q]. eapply bind_tally; [apply jump_tally|intros u]. exact H.
Qed.

Lemma jump_take_maybe_tally {A} position offset (m : steps A) k w : tally m 0 k w ->
  tally (jump_take_maybe position offset m) 0 (1 + k) (maybe_weight w).
Proof.
  intros H. apply (tally_weaken _ 0 (1 + k + 0)); [|lia]. unfold jump_take_maybe.
  destruct (0 <? offset).
  - eapply bind_tally; [apply jump_take_tally, H|intros v]. apply ret_tally. cbn. lia.
  - apply (tally_weaken _ 0 0); [apply ret_tally; reflexivity|lia].
Qed.

Lemma jump_take_each_tally {A} position n offset (m : steps A) k w : (forall i, tally (offset i) 0 0 nothing) ->
  tally m 0 k w -> k < 255 -> tally (jump_take_each position n offset m) 0 0 (load w).
Proof.
  intros O H L. unfold jump_take_each. eapply (for_n_tally _ (0 + (1 + k))); [intros i|lia].
  eapply bind_tally; [apply O|intros o]. apply jump_take_tally, H.
Qed.

Lemma jump_take_n_tally {A} position n offsets (m : steps A) k w :
  tally m 0 k w -> k < 255 -> tally (jump_take_n position n offsets m) 0 0 (load w).
Proof. intros H L. eapply jump_take_each_tally; [intros i; apply index_tally|exact H|exact L]. Qed.

Lemma jump_take_headers_tally {A H} position n (headers : list H) g (m : steps A) k w :
  tally m 0 k w -> k < 255 ->
  tally (jump_take_each position n (fun i => bind (index headers i) (fun h => ret (g h))) m) 0 0 (load w).
Proof.
  intros M L. eapply jump_take_each_tally; [intros i|exact M|exact L].
  apply (tally_weaken _ 0 (0 + 0)); [|lia].
  eapply bind_tally; [apply index_tally|intros; apply ret_tally; reflexivity].
Qed.

Lemma jump_take_maybe_n_tally {A} position n offsets (m : steps A) k w :
  tally m 0 k w -> k < 255 -> tally (jump_take_maybe_n position n offsets m) 0 0 (load (maybe_weight w)).
Proof.
  intros H L. unfold jump_take_maybe_n. eapply (for_n_tally _ (0 + (1 + k))); [intros i|lia].
  eapply bind_tally; [apply index_tally|intros o]. apply jump_take_maybe_tally, H.
Qed.

(** ** The readers, one after another *)

(** The tally of one field. *)
Ltac item :=
  lazymatch goal with
  | |- tally (take_vec _ _) _ _ _ => eapply take_vec_tally; [solve [eauto 1 with tally]|lia]
  | |- tally (if _ then raise _ else _) _ _ _ => eapply unless_tally; item
  | |- tally (peek _) _ _ _ => eapply peek_tally; item
  | |- tally (stay _) _ _ _ => eapply stay_tally; item
  | |- tally (jump_take_maybe _ _ _) _ _ _ => eapply jump_take_maybe_tally; item
  | |- tally (jump_take _ _ _) _ _ _ => eapply jump_take_tally; item
  | |- tally (jump_take_n _ _ _ _) _ _ _ => eapply jump_take_n_tally; [item|lia]
  | |- tally (jump_take_maybe_n _ _ _ _) _ _ _ => eapply jump_take_maybe_n_tally; [item|lia]
  | |- tally (jump_take_each _ _ _ _) _ _ _ => eapply jump_take_headers_tally; [item|lia]
  | |- tally (for_n _ _) _ _ _ => eapply for_n_tally; [intros; item|lia]
  | |- _ => solve [eauto 1 with tally]
  end.

(** The tallies of the fields of a table; [weigh] compares with what the value weighs. *)
Ltac items weigh :=
  lazymatch goal with
  | |- tally (bind _ _) _ _ _ => eapply bind_tally; [item|]; let a := fresh "a" in intros a; items weigh
  | |- tally (if _ then raise _ else _) _ _ _ => eapply unless_tally; items weigh
  | |- tally (ret _) _ _ _ => apply ret_tally; weigh
  | |- tally (raise _) _ _ _ => apply (raise_tally _ _ 0)
  end.

Ltac adds :=
  cbv beta; try match goal with
  | |- N.add _ _ = _ => idtac
  | |- ?w _ _ = _ => unfold w
  | |- ?w _ = _ => unfold w
  end; unfold nothing; cbn -[N.add N.mul count load]; lia.

Ltac whole := eapply tally_weaken; [items adds|lia].

Ltac choice :=
  repeat match goal with
  | |- tally (match ?v with _ => _ end) _ _ _ => destruct v
  end; (eapply tally_weaken; [items adds|lia]).

Ltac choices c := eapply tally_weaken; [eapply bind_tally with (k' := c); [item|intros; choice]|lia].

Lemma read_coverage_record_tally : tally read_coverage_record 0 6 nothing.
Proof. unfold read_coverage_record. whole. Qed.

Lemma read_class_record_tally : tally read_class_record 0 6 nothing.
Proof. unfold read_class_record. whole. Qed.

Lemma read_action_tally : tally read_action 0 4 nothing.
Proof. unfold read_action. whole. Qed.

#[export] Hint Resolve read_coverage_record_tally read_class_record_tally read_action_tally : tally.

Lemma read_coverage1_tally : tally read_coverage1 0 4 (fun t => coverage_weight (CoverageFormat1 t)).
Proof. unfold read_coverage1. whole. Qed.

Lemma read_coverage2_tally : tally read_coverage2 0 4 (fun t => coverage_weight (CoverageFormat2 t)).
Proof. unfold read_coverage2. whole. Qed.

#[export] Hint Resolve read_coverage1_tally read_coverage2_tally : tally.

Lemma read_coverage_tally : tally read_coverage 0 8 coverage_weight.
Proof. unfold read_coverage. choices 4. Qed.

#[export] Hint Resolve read_coverage_tally : tally.

Lemma read_class1_tally : tally read_class1 0 6 (fun t => class_weight (ClassFormat1 t)).
Proof. unfold read_class1. whole. Qed.

#[export] Hint Resolve read_class1_tally : tally.

Lemma read_class2_tally : tally read_class2 0 6 (fun t => class_weight (ClassFormat2 t)).
Proof. unfold read_class2. whole. Qed.

#[export] Hint Resolve read_class2_tally : tally.

Lemma read_class_tally : tally read_class 0 10 class_weight.
Proof. unfold read_class. choices 6. Qed.

#[export] Hint Resolve read_class_tally : tally.

Lemma read_device_tally : tally read_device 0 6 (fun t => correction_weight (CorrectionDevice t)).
Proof. unfold read_device. cbv zeta. whole. Qed.

#[export] Hint Resolve read_device_tally : tally.

Lemma read_variation_tally : tally read_variation 0 6 (fun t => correction_weight (CorrectionVariation t)).
Proof. unfold read_variation. whole. Qed.

#[export] Hint Resolve read_variation_tally : tally.

Lemma peek_format_tally : tally (peek (bind take_u32 (fun _ => take_u16))) 0 8 nothing.
Proof.
  eapply tally_weaken; [eapply peek_tally, bind_tally; [item|intros; apply take_u16_tally]|]. lia.
Qed.

#[export] Hint Resolve peek_format_tally : tally.

Lemma read_correction_tally : tally read_correction 0 14 correction_weight.
Proof.
  unfold read_correction. eapply tally_weaken;
    [eapply bind_tally with (k' := 6); [apply peek_format_tally|intros; choice]|lia].
Qed.

#[export] Hint Resolve read_correction_tally : tally.

(** *** Contexts *)

Lemma read_context_record_tally : tally read_context_record 0 4 context_record_weight.
Proof. unfold read_context_record. whole. Qed.

#[export] Hint Resolve read_context_record_tally : tally.

Lemma read_context_class_record_tally : tally read_context_class_record 0 4 context_class_record_weight.
Proof. unfold read_context_class_record. whole. Qed.

#[export] Hint Resolve read_context_class_record_tally : tally.

Lemma read_chained_record_tally : tally read_chained_record 0 8 chained_record_weight.
Proof. unfold read_chained_record. whole. Qed.

#[export] Hint Resolve read_chained_record_tally : tally.

Lemma read_chained_class_record_tally : tally read_chained_class_record 0 8 chained_class_record_weight.
Proof. unfold read_chained_class_record. whole. Qed.

#[export] Hint Resolve read_chained_class_record_tally : tally.

Lemma read_context_records_tally : tally read_context_records 0 3 context_records_weight.
Proof. unfold read_context_records. whole. Qed.

#[export] Hint Resolve read_context_records_tally : tally.

Lemma read_context_class_records_tally : tally read_context_class_records 0 3 context_class_records_weight.
Proof. unfold read_context_class_records. whole. Qed.

#[export] Hint Resolve read_context_class_records_tally : tally.

Lemma read_chained_records_tally : tally read_chained_records 0 3 chained_records_weight.
Proof. unfold read_chained_records. whole. Qed.

#[export] Hint Resolve read_chained_records_tally : tally.

Lemma read_chained_class_records_tally : tally read_chained_class_records 0 3 chained_class_records_weight.
Proof. unfold read_chained_class_records. whole. Qed.

#[export] Hint Resolve read_chained_class_records_tally : tally.

Lemma read_context1_tally : tally read_context1 0 16 (fun t => context_weight (ContextFormat1 t)).
Proof. unfold read_context1. whole. Qed.

#[export] Hint Resolve read_context1_tally : tally.

Lemma read_context2_tally : tally read_context2 0 29 (fun t => context_weight (ContextFormat2 t)).
Proof. unfold read_context2. whole. Qed.

#[export] Hint Resolve read_context2_tally : tally.

Lemma read_context3_tally : tally read_context3 0 7 (fun t => context_weight (ContextFormat3 t)).
Proof. unfold read_context3. whole. Qed.

#[export] Hint Resolve read_context3_tally : tally.

Lemma read_context_tally : tally read_context 0 33 context_weight.
Proof. unfold read_context. choices 29. Qed.

#[export] Hint Resolve read_context_tally : tally.

Lemma read_chained_context1_tally : tally read_chained_context1 0 16
  (fun t => chained_context_weight (ChainedContextFormat1 t)).
Proof. unfold read_chained_context1. whole. Qed.

#[export] Hint Resolve read_chained_context1_tally : tally.

Lemma read_chained_context2_tally : tally read_chained_context2 0 60
  (fun t => chained_context_weight (ChainedContextFormat2 t)).
Proof. unfold read_chained_context2. whole. Qed.

#[export] Hint Resolve read_chained_context2_tally : tally.

Lemma read_chained_context3_tally : tally read_chained_context3 0 11
  (fun t => chained_context_weight (ChainedContextFormat3 t)).
Proof. unfold read_chained_context3. whole. Qed.

#[export] Hint Resolve read_chained_context3_tally : tally.

Lemma read_chained_context_tally : tally read_chained_context 0 64 chained_context_weight.
Proof. unfold read_chained_context. choices 60. Qed.

#[export] Hint Resolve read_chained_context_tally : tally.

(** *** Directories *)

Lemma read_language_header_tally : tally read_language_header 0 6 nothing.
Proof. unfold read_language_header. whole. Qed.

#[export] Hint Resolve read_language_header_tally : tally.

Lemma read_script_header_tally : tally read_script_header 0 6 nothing.
Proof. unfold read_script_header. whole. Qed.

#[export] Hint Resolve read_script_header_tally : tally.

Lemma read_feature_header_tally : tally read_feature_header 0 6 nothing.
Proof. unfold read_feature_header. whole. Qed.

#[export] Hint Resolve read_feature_header_tally : tally.

Lemma read_language_record_tally : tally read_language_record 0 6 language_record_weight.
Proof. unfold read_language_record. whole. Qed.

#[export] Hint Resolve read_language_record_tally : tally.

Lemma read_script_record_tally : tally read_script_record 0 12 script_record_weight.
Proof. unfold read_script_record. whole. Qed.

#[export] Hint Resolve read_script_record_tally : tally.

Lemma read_scripts_tally : tally read_scripts 0 3 scripts_weight.
Proof. unfold read_scripts. whole. Qed.

#[export] Hint Resolve read_scripts_tally : tally.

Lemma read_parameters_tally (b : bool) position offset : tally
  (if b then bind (add_u64 position offset) (fun q => bind (jump q) (fun _ =>
     bind (take_vec 0 take_u8) (fun bytes => ret (Some bytes)))) else ret None) 0 1 (maybe_weight count).
Proof.
  destruct b; (eapply tally_weaken; [items adds|lia]).
Qed.

Lemma read_feature_record_tally : tally read_feature_record 0 6 feature_record_weight.
Proof.
  unfold read_feature_record. eapply tally_weaken; [|].
  - do 4 (eapply bind_tally; [item|intros]). eapply bind_tally; [apply read_parameters_tally|intros].
    apply ret_tally. adds.
  - lia.
Qed.

#[export] Hint Resolve read_feature_record_tally : tally.

Lemma read_features_tally : tally read_features 0 3 features_weight.
Proof. unfold read_features. whole. Qed.

#[export] Hint Resolve read_features_tally : tally.

Lemma read_feature_variations_tally : tally read_feature_variations 0 8 nothing.
Proof. unfold read_feature_variations. whole. Qed.

#[export] Hint Resolve read_feature_variations_tally : tally.

Lemma jump_take_list_tally {A} position offset (m : steps A) default k w : tally m 0 k w -> w default = 0 ->
  tally (jump_take_list position offset m default) 0 (1 + k) w.
Proof.
  intros H D. apply (tally_weaken _ 0 (0 + (1 + k + 0))); [|lia]. unfold jump_take_list.
  eapply bind_tally; [apply ask_tally|intros o]. destruct (ignore_incomplete_directories o).
  - eapply bind_tally; [apply jump_take_maybe_tally, H|intros [v|]]; apply ret_tally; cbn; unfold nothing; lia.
  - eapply tally_weaken; [apply jump_take_tally, H|lia].
Qed.

Section Directory.
Context {T : Type} (read_table : N -> steps T) (w : T -> N) (k : N) (L : k < 255).
Context (read_table_tally : forall t, tally (read_table t) 0 k w).

Lemma read_lookup_record_tally : tally (read_lookup_record read_table) 0 9 (lookup_record_weight w).
Proof.
  unfold read_lookup_record. eapply tally_weaken; [|].
  - do 5 (eapply bind_tally; [item|intros]). eapply bind_tally with (k := 2) (w := nothing); [|intros].
    + destruct (has_mark_filtering _); (eapply tally_weaken; [items adds|lia]).
    + eapply bind_tally; [eapply jump_take_n_tally; [apply read_table_tally|exact L]|intros].
      apply ret_tally. unfold lookup_record_weight. adds.
  - lia.
Qed.

Lemma read_lookups_tally : tally (read_lookups read_table) 0 3 (lookups_weight w).
Proof.
  unfold read_lookups. eapply tally_weaken; [|].
  - do 3 (eapply bind_tally; [item|intros]).
    eapply bind_tally; [eapply jump_take_n_tally; [apply read_lookup_record_tally|lia]|intros].
    apply ret_tally. unfold lookups_weight. adds.
  - lia.
Qed.

Lemma read_directory_tally : tally (read_directory read_table) 0 64 (directory_weight w).
Proof.
  unfold read_directory. eapply tally_weaken; [|].
  - do 3 (eapply bind_tally; [item|intros]). eapply bind_tally with (k := 0) (w := nothing); [|intros].
    { destruct (_ && _); [apply ret_tally; reflexivity|apply raise_tally]. }
    do 3 (eapply bind_tally; [item|intros]). eapply bind_tally with (k := 4) (w := nothing); [|intros].
    { destruct (_ && _); [item|eapply tally_weaken; [apply ret_tally; reflexivity|lia]]. }
    eapply bind_tally; [eapply jump_take_list_tally; [item|reflexivity]|intros].
    eapply bind_tally; [eapply jump_take_list_tally; [item|reflexivity]|intros].
    eapply bind_tally; [eapply jump_take_list_tally; [apply read_lookups_tally|reflexivity]|intros].
    eapply bind_tally; [item|intros o]. apply ret_tally. unfold nothing, directory_weight.
    destruct o; cbn; lia.
  - lia.
Qed.
End Directory.

(** *** Item variations *)

Lemma read_deltas_tally a b c : tally (bind (add_u16 a b) (fun k => take_vec (c * k) take_u8)) 0 0 count.
Proof.
  apply (tally_weaken _ 0 (0 + 0)); [|lia]. eapply bind_tally; [item|intros k]. cbn. item.
Qed.

#[export] Hint Resolve read_deltas_tally : tally.

Lemma read_store_record_tally : tally read_store_record 0 6 store_record_weight.
Proof. unfold read_store_record. whole. Qed.

#[export] Hint Resolve read_store_record_tally : tally.

Lemma read_store_tally : tally read_store 0 9 store_weight.
Proof. unfold read_store. whole. Qed.

#[export] Hint Resolve read_store_tally : tally.

(** *** Glyph definitions *)

Lemma read_attachment_tally : tally read_attachment 0 2 attachment_weight.
Proof. unfold read_attachment. whole. Qed.

#[export] Hint Resolve read_attachment_tally : tally.

Lemma read_attachments_tally : tally read_attachments 0 14 attachments_weight.
Proof. unfold read_attachments. whole. Qed.

#[export] Hint Resolve read_attachments_tally : tally.

Lemma read_caret1_tally : tally read_caret1 0 4 (fun t => caret_weight (CaretFormat1 t)).
Proof. unfold read_caret1. whole. Qed.

#[export] Hint Resolve read_caret1_tally : tally.

Lemma read_caret2_tally : tally read_caret2 0 4 (fun t => caret_weight (CaretFormat2 t)).
Proof. unfold read_caret2. whole. Qed.

#[export] Hint Resolve read_caret2_tally : tally.

Lemma read_caret3_tally : tally read_caret3 0 22 (fun t => caret_weight (CaretFormat3 t)).
Proof. unfold read_caret3. whole. Qed.

#[export] Hint Resolve read_caret3_tally : tally.

Lemma read_caret_tally : tally read_caret 0 28 caret_weight.
Proof. unfold read_caret. choices 22. Qed.

#[export] Hint Resolve read_caret_tally : tally.

Lemma read_gdef_ligature_tally : tally read_gdef_ligature 0 3 gdef_ligature_weight.
Proof. unfold read_gdef_ligature. whole. Qed.

#[export] Hint Resolve read_gdef_ligature_tally : tally.

Lemma read_gdef_ligatures_tally : tally read_gdef_ligatures 0 14 gdef_ligatures_weight.
Proof. unfold read_gdef_ligatures. whole. Qed.

#[export] Hint Resolve read_gdef_ligatures_tally : tally.

Lemma read_marks_tally : tally read_marks 0 5 marks_weight.
Proof. unfold read_marks. whole. Qed.

#[export] Hint Resolve read_marks_tally : tally.

Lemma read_gdef_header1_tally : tally read_gdef_header1 0 12 nothing.
Proof. unfold read_gdef_header1. whole. Qed.

#[export] Hint Resolve read_gdef_header1_tally : tally.

Lemma read_gdef_header12_tally : tally read_gdef_header12 0 14 nothing.
Proof. unfold read_gdef_header12. whole. Qed.

#[export] Hint Resolve read_gdef_header12_tally : tally.

Lemma read_gdef_header13_tally : tally read_gdef_header13 0 18 nothing.
Proof. unfold read_gdef_header13. whole. Qed.

#[export] Hint Resolve read_gdef_header13_tally : tally.

Lemma read_gdef_header_tally : tally read_gdef_header 0 24 nothing.
Proof. unfold read_gdef_header. choices 18. Qed.

#[export] Hint Resolve read_gdef_header_tally : tally.

Lemma read_glyph_definition_tally : tally read_glyph_definition 0 96 definition_weight.
Proof. unfold read_glyph_definition. whole. Qed.

(** *** Glyph substitution *)

Lemma read_alternates_tally : tally read_alternates 0 2 (fun r => count (alternates_glyph_ids r)).
Proof. unfold read_alternates. whole. Qed.

#[export] Hint Resolve read_alternates_tally : tally.

Lemma read_ligature_tally : tally read_ligature 0 4 ligature_weight.
Proof. unfold read_ligature. whole. Qed.

#[export] Hint Resolve read_ligature_tally : tally.

Lemma read_sequence_tally : tally read_sequence 0 2 (fun r => count (sequence_glyph_ids r)).
Proof. unfold read_sequence. whole. Qed.

#[export] Hint Resolve read_sequence_tally : tally.

Lemma read_ligatures_tally : tally read_ligatures 0 3 ligatures_weight.
Proof. unfold read_ligatures. whole. Qed.

#[export] Hint Resolve read_ligatures_tally : tally.

Lemma read_single_substitution1_tally :
  tally read_single_substitution1 0 16
    (fun t => gsub_type_weight (GsubSingleSubstitution (SingleSubstitutionFormat1 t))).
Proof. unfold read_single_substitution1. whole. Qed.

#[export] Hint Resolve read_single_substitution1_tally : tally.

Lemma read_single_substitution2_tally :
  tally read_single_substitution2 0 16
    (fun t => gsub_type_weight (GsubSingleSubstitution (SingleSubstitutionFormat2 t))).
Proof. unfold read_single_substitution2. whole. Qed.

#[export] Hint Resolve read_single_substitution2_tally : tally.

Lemma read_single_substitution_tally :
  tally read_single_substitution 0 20 (fun t => gsub_type_weight (GsubSingleSubstitution t)).
Proof. unfold read_single_substitution. choices 16. Qed.

#[export] Hint Resolve read_single_substitution_tally : tally.

Lemma read_multiple_substitution_tally :
  tally read_multiple_substitution 0 16 (fun t => gsub_type_weight (GsubMultipleSubstitution t)).
Proof. unfold read_multiple_substitution. whole. Qed.

#[export] Hint Resolve read_multiple_substitution_tally : tally.

Lemma read_alternate_substitution_tally :
  tally read_alternate_substitution 0 16 (fun t => gsub_type_weight (GsubAlternateSubstitution t)).
Proof. unfold read_alternate_substitution. whole. Qed.

#[export] Hint Resolve read_alternate_substitution_tally : tally.

Lemma read_ligature_substitution_tally :
  tally read_ligature_substitution 0 16 (fun t => gsub_type_weight (GsubLigatureSubstitution t)).
Proof. unfold read_ligature_substitution. whole. Qed.

#[export] Hint Resolve read_ligature_substitution_tally : tally.

Lemma read_extension_substitution_tally :
  tally read_extension_substitution 0 8 (fun t => gsub_type_weight (GsubExtensionSubstitution t)).
Proof. unfold read_extension_substitution. whole. Qed.

#[export] Hint Resolve read_extension_substitution_tally : tally.

Lemma read_reverse_chained_contextual_substibution_tally :
  tally read_reverse_chained_contextual_substibution 0 20
    (fun t => gsub_type_weight (GsubReverseChainedContextualSubstibution t)).
Proof. unfold read_reverse_chained_contextual_substibution. whole. Qed.

#[export] Hint Resolve read_reverse_chained_contextual_substibution_tally : tally.

Lemma read_gsub_type_tally t : tally (read_gsub_type t) 0 64 gsub_type_weight.
Proof. unfold read_gsub_type. choice. Qed.

#[export] Hint Resolve read_gsub_type_tally : tally.

Lemma read_glyph_substitution_tally : tally read_glyph_substitution 0 64 (directory_weight gsub_type_weight).
Proof. apply (read_directory_tally read_gsub_type gsub_type_weight 64); [lia|apply read_gsub_type_tally]. Qed.

(** *** Glyph positioning *)

Lemma read_anchor1_tally : tally read_anchor1 0 6 (fun t => anchor_weight (AnchorFormat1 t)).
Proof. unfold read_anchor1. whole. Qed.

#[export] Hint Resolve read_anchor1_tally : tally.

Lemma read_anchor2_tally : tally read_anchor2 0 8 (fun t => anchor_weight (AnchorFormat2 t)).
Proof. unfold read_anchor2. whole. Qed.

#[export] Hint Resolve read_anchor2_tally : tally.

Lemma read_anchor3_tally : tally read_anchor3 0 41 (fun t => anchor_weight (AnchorFormat3 t)).
Proof. unfold read_anchor3. whole. Qed.

#[export] Hint Resolve read_anchor3_tally : tally.

Lemma read_anchor_tally : tally read_anchor 0 45 anchor_weight.
Proof. unfold read_anchor. choices 41. Qed.

#[export] Hint Resolve read_anchor_tally : tally.

Lemma read_base_tally position k : tally (read_base position k) 0 2
  (fun r => row_weight (base_anchor_offsets r) (base_anchors r)).
Proof. unfold read_base. whole. Qed.

#[export] Hint Resolve read_base_tally : tally.

Lemma read_component_tally position k :
  tally (read_component position k) 0 2
    (fun r => row_weight (component_anchor_offsets r) (component_anchors r)).
Proof. unfold read_component. whole. Qed.

#[export] Hint Resolve read_component_tally : tally.

Lemma read_mark2_tally position k : tally (read_mark2 position k) 0 2
  (fun r => row_weight (mark2_anchor_offsets r) (mark2_anchors r)).
Proof. unfold read_mark2. whole. Qed.

#[export] Hint Resolve read_mark2_tally : tally.

Lemma read_bases_tally k : tally (read_bases k) 0 3 bases_weight.
Proof. unfold read_bases. whole. Qed.

#[export] Hint Resolve read_bases_tally : tally.

Lemma read_gpos_ligature_tally k : tally (read_gpos_ligature k) 0 3 gpos_ligature_weight.
Proof. unfold read_gpos_ligature. whole. Qed.

#[export] Hint Resolve read_gpos_ligature_tally : tally.

Lemma read_mark2s_tally k : tally (read_mark2s k) 0 3 mark2s_weight.
Proof. unfold read_mark2s. whole. Qed.

#[export] Hint Resolve read_mark2s_tally : tally.

Lemma read_gpos_ligatures_tally k : tally (read_gpos_ligatures k) 0 5 gpos_ligatures_weight.
Proof. unfold read_gpos_ligatures. whole. Qed.

#[export] Hint Resolve read_gpos_ligatures_tally : tally.

Lemma read_mark1_tally position : tally (read_mark1 position) 0 52 (fun r => anchor_weight (mark1_anchor r)).
Proof.
  unfold read_mark1. eapply tally_weaken; [|].
  - do 3 (eapply bind_tally; [item|intros]).
    eapply bind_tally with (k := 48) (w := anchor_weight); [|intros; apply ret_tally; adds].
    destruct (ignore_incomplete_marks _).
    + eapply tally_weaken; [eapply bind_tally; [item|intros [v|]; apply ret_tally; adds]|lia].
    + eapply tally_weaken; [item|lia].
  - lia.
Qed.

#[export] Hint Resolve read_mark1_tally : tally.

Lemma read_mark1s_tally : tally read_mark1s 0 3 mark1s_weight.
Proof. unfold read_mark1s. whole. Qed.

#[export] Hint Resolve read_mark1s_tally : tally.

Lemma read_connection_tally position : tally (read_connection position) 0 98 connection_weight.
Proof.
  unfold read_connection. eapply tally_weaken; [|].
  - do 2 (eapply bind_tally; [item|intros]).
    eapply bind_tally with (w := fun x =>
      maybe_weight anchor_weight (fst x) + maybe_weight anchor_weight (snd x));
      [apply stay_tally|intros [x y]; apply ret_tally; adds].
    do 2 (eapply bind_tally; [item|intros]). apply ret_tally. adds.
  - lia.
Qed.

#[export] Hint Resolve read_connection_tally : tally.

Lemma take_if_tally {A} b (m : steps A) k : tally m 0 k nothing -> tally (take_if b m) 0 k nothing.
Proof.
  intros H. unfold take_if. destruct b.
  - eapply tally_weaken; [eapply bind_tally; [exact H|intros; apply ret_tally; reflexivity]|lia].
  - eapply tally_weaken; [apply ret_tally; reflexivity|lia].
Qed.

Lemma take_linked_tally position o : tally (take_linked position o) 0 15 (maybe_weight correction_weight).
Proof.
  unfold take_linked. destruct o; [eapply tally_weaken; [item|lia]|].
  eapply tally_weaken; [apply ret_tally; reflexivity|lia].
Qed.

Lemma read_single_tally position flags : tally (read_single position flags) 0 78 single_weight.
Proof.
  unfold read_single. eapply tally_weaken; [|].
  - do 4 (eapply bind_tally; [apply take_if_tally, take_i16_tally|intros]).
    do 4 (eapply bind_tally; [apply take_if_tally, take_u16_tally|intros]).
    eapply bind_tally with (w := fun x :
      option Correction * option Correction * option Correction * option Correction =>
      let '(x, y, z, t) := x in
      maybe_weight correction_weight x + maybe_weight correction_weight y +
      maybe_weight correction_weight z + maybe_weight correction_weight t);
      [apply stay_tally|intros [[[x y] z] t]; apply ret_tally; adds].
    do 4 (eapply bind_tally; [apply take_linked_tally|intros]). apply ret_tally. adds.
  - lia.
Qed.

#[export] Hint Resolve read_single_tally : tally.

Lemma value_tally position flags :
  tally (if 0 <? flags then bind (read_single position flags) (fun v => ret (Some v)) else ret None) 0 78
    (maybe_weight single_weight).
Proof. destruct (0 <? flags); (eapply tally_weaken; [items adds|lia]). Qed.

Lemma read_pair1_tally position f1 f2 : tally (read_pair1 position f1 f2) 0 158 pair1_weight.
Proof.
  unfold read_pair1. eapply tally_weaken; [|].
  - eapply bind_tally; [item|intros]. do 2 (eapply bind_tally; [apply value_tally|intros]).
    apply ret_tally. adds.
  - lia.
Qed.

#[export] Hint Resolve read_pair1_tally : tally.

Lemma read_pair2_tally position f1 f2 : tally (read_pair2 position f1 f2) 0 158 pair2_weight.
Proof.
  unfold read_pair2. eapply tally_weaken; [|].
  - do 2 (eapply bind_tally; [apply value_tally|intros]). apply ret_tally. adds.
  - lia.
Qed.

#[export] Hint Resolve read_pair2_tally : tally.

Lemma read_pair1s_tally f1 f2 : tally (read_pair1s f1 f2) 0 3 pair1s_weight.
Proof. unfold read_pair1s. whole. Qed.

#[export] Hint Resolve read_pair1s_tally : tally.

Lemma read_pair2s_tally position count f1 f2 : tally (read_pair2s position count f1 f2) 0 0 pair2s_weight.
Proof. unfold read_pair2s. whole. Qed.

#[export] Hint Resolve read_pair2s_tally : tally.

Lemma read_single_adjustment1_tally :
  tally read_single_adjustment1 0 100 (fun t =>
    gpos_type_weight (GposSingleAdjustment (SingleAdjustmentFormat1 t))).
Proof. unfold read_single_adjustment1. whole. Qed.

#[export] Hint Resolve read_single_adjustment1_tally : tally.

Lemma read_single_adjustment2_tally :
  tally read_single_adjustment2 0 24 (fun t =>
    gpos_type_weight (GposSingleAdjustment (SingleAdjustmentFormat2 t))).
Proof. unfold read_single_adjustment2. whole. Qed.

#[export] Hint Resolve read_single_adjustment2_tally : tally.

Lemma read_single_adjustment_tally :
  tally read_single_adjustment 0 104 (fun t => gpos_type_weight (GposSingleAdjustment t)).
Proof. unfold read_single_adjustment. choices 100. Qed.

#[export] Hint Resolve read_single_adjustment_tally : tally.

Lemma read_pair_adjustment1_tally : tally read_pair_adjustment1 0 24
  (fun t => gpos_type_weight (GposPairAdjustment (PairAdjustmentFormat1 t))).
Proof. unfold read_pair_adjustment1. whole. Qed.

#[export] Hint Resolve read_pair_adjustment1_tally : tally.

Lemma read_pair_adjustment2_tally : tally read_pair_adjustment2 0 54
  (fun t => gpos_type_weight (GposPairAdjustment (PairAdjustmentFormat2 t))).
Proof. unfold read_pair_adjustment2. whole. Qed.

#[export] Hint Resolve read_pair_adjustment2_tally : tally.

Lemma read_pair_adjustment_tally : tally read_pair_adjustment 0 60
  (fun t => gpos_type_weight (GposPairAdjustment t)).
Proof. unfold read_pair_adjustment. choices 54. Qed.

#[export] Hint Resolve read_pair_adjustment_tally : tally.

Lemma read_cursive_attachment_tally :
  tally read_cursive_attachment 0 20 (fun t => gpos_type_weight (GposCursiveAttachment t)).
Proof. unfold read_cursive_attachment. whole. Qed.

#[export] Hint Resolve read_cursive_attachment_tally : tally.

Lemma read_mark_to_base_attachment_tally :
  tally read_mark_to_base_attachment 0 40 (fun t => gpos_type_weight (GposMarkToBaseAttachment t)).
Proof. unfold read_mark_to_base_attachment. whole. Qed.

#[export] Hint Resolve read_mark_to_base_attachment_tally : tally.

Lemma read_mark_to_ligature_attachment_tally :
  tally read_mark_to_ligature_attachment 0 42 (fun t => gpos_type_weight (GposMarkToLigatureAttachment t)).
Proof. unfold read_mark_to_ligature_attachment. whole. Qed.

#[export] Hint Resolve read_mark_to_ligature_attachment_tally : tally.

Lemma read_mark_to_mark_attachment_tally :
  tally read_mark_to_mark_attachment 0 40 (fun t => gpos_type_weight (GposMarkToMarkAttachment t)).
Proof. unfold read_mark_to_mark_attachment. whole. Qed.

#[export] Hint Resolve read_mark_to_mark_attachment_tally : tally.

Lemma read_extension_positioning_tally :
  tally read_extension_positioning 0 8 (fun t => gpos_type_weight (GposExtensionPositioning t)).
Proof. unfold read_extension_positioning. whole. Qed.

#[export] Hint Resolve read_extension_positioning_tally : tally.

Lemma read_gpos_type_tally t : tally (read_gpos_type t) 0 104 gpos_type_weight.
Proof. unfold read_gpos_type. choice. Qed.

#[export] Hint Resolve read_gpos_type_tally : tally.

Lemma read_glyph_positioning_tally : tally read_glyph_positioning 0 64 (directory_weight gpos_type_weight).
Proof. apply (read_directory_tally read_gpos_type gpos_type_weight 104); [lia|apply read_gpos_type_tally]. Qed.

(** *** Color palettes, font variations and fonts *)

Lemma read_color_tally : tally read_color 0 4 nothing.
Proof. unfold read_color. whole. Qed.

#[export] Hint Resolve read_color_tally : tally.

Lemma read_cpal_header0_tally : tally read_cpal_header0 0 12 (fun h => count (cpal_header0_color_indices h)).
Proof. unfold read_cpal_header0. whole. Qed.

#[export] Hint Resolve read_cpal_header0_tally : tally.

Lemma read_cpal_header1_tally : tally read_cpal_header1 0 12 (fun h => count (cpal_header1_color_indices h)).
Proof. unfold read_cpal_header1. whole. Qed.

#[export] Hint Resolve read_cpal_header1_tally : tally.

Definition indices_weight (h : CpalHeader) : N :=
  match h with
  | CpalVersion0 h => count (cpal_header0_color_indices h)
  | CpalVersion1 h => count (cpal_header1_color_indices h)
  end.

Lemma read_cpal_header_tally : tally read_cpal_header 0 16 indices_weight.
Proof. unfold read_cpal_header. choices 12. Qed.

#[export] Hint Resolve read_cpal_header_tally : tally.

Lemma read_color_palettes_tally : tally read_color_palettes 0 18 color_weight.
Proof.
  unfold read_color_palettes. eapply tally_weaken; [|].
  - eapply bind_tally; [item|intros]. eapply bind_tally with (k' := 1); [item|intros [h|h]]; cbv beta iota;
      (eapply tally_weaken; [items adds|lia]).
  - lia.
Qed.

Lemma read_fvar_header_tally : tally read_fvar_header 0 16 nothing.
Proof. unfold read_fvar_header. whole. Qed.

#[export] Hint Resolve read_fvar_header_tally : tally.

Lemma read_axis_record_tally : tally read_axis_record 0 20 nothing.
Proof. unfold read_axis_record. whole. Qed.

#[export] Hint Resolve read_axis_record_tally : tally.

Lemma read_instance_record_tally k :
  tally (read_instance_record k) 0 6 (fun r => count (instance_record_coordinates r)).
Proof. unfold read_instance_record. whole. Qed.

#[export] Hint Resolve read_instance_record_tally : tally.

Lemma read_font_variations_tally : tally read_font_variations 0 17 variation_weight.
Proof.
  unfold read_font_variations. eapply tally_weaken; [|].
  - do 3 (eapply bind_tally; [item|intros]). eapply bind_tally; [item|intros]. eapply bind_tally; [item|intros].
    eapply bind_tally; [item|intros]. apply ret_tally. unfold variation_weight. rewrite load_nothing. adds.
  - lia.
Qed.

Lemma read_offset_record_tally : tally read_offset_record 0 16 nothing.
Proof. unfold read_offset_record. whole. Qed.

#[export] Hint Resolve read_offset_record_tally : tally.

Lemma read_offsets_header_tally : tally read_offsets_header 0 12 nothing.
Proof. unfold read_offsets_header. whole. Qed.

#[export] Hint Resolve read_offsets_header_tally : tally.

Lemma read_font_tally d : tally (read_font d) 0 18 font_weight.
Proof.
  unfold read_font. eapply tally_weaken; [|].
  - eapply bind_tally with (w := fun x => count (offsets_records x)); [|intros; apply ret_tally; adds].
    unfold read_offsets. eapply bind_tally with (k' := 12); [item|intros t].
    destruct (truetype_accept d t); [|apply raise_tally]. eapply tally_weaken; [items adds|lia].
  - lia.
Qed.

#[export] Hint Resolve read_font_tally : tally.

(** The only font of a file is no step of its own, but the first look at the file is several. *)
Lemma read_file_tally d : tally (read_file d) 0 24 (fun v => load font_weight (file_fonts v)).
Proof.
  intros e p v q R. unfold read_file in *. rewrite run_bind in R. rewrite work_bind.
  assert (P : 2 <= work (peek take_tag) e p).
  { unfold peek, stay, get_position. cbn -[N.add]. destruct (content e p); cbn -[N.add]; lia. }
  destruct (run (peek take_tag) e p) as [[t r]| |] eqn:X; try discriminate R.
  destruct (peek_tally take_tag 4 nothing take_tag_tally e p t r X) as [_ P'].
  destruct (tag_eqb t ttcf); [discriminate R|]. rewrite run_bind in R. rewrite work_bind.
  destruct (run (read_font d) e r) as [[font r']| |] eqn:Z; try discriminate R.
  destruct (read_font_tally d e r font r' Z) as [F1 F2].
  cbn [run ret work] in *. inversion R. cbn [file_fonts]. rewrite load_cons.
  replace (load font_weight []) with 0 by reflexivity. unfold nothing in P'. lia.
Qed.

(** ** Requests *)

Lemma request_tally {A} (r : request A) : tally (steps_of r) 0 256 (weight r).
Proof.
  destruct r; cbn [steps_of weight].
  - eapply tally_weaken; [apply read_file_tally|lia].
  - eapply tally_weaken; [apply read_font_tally|lia].
  - eapply tally_weaken; [apply read_glyph_definition_tally|lia].
  - eapply tally_weaken; [apply read_glyph_positioning_tally|lia].
  - eapply tally_weaken; [apply read_glyph_substitution_tally|lia].
  - eapply tally_weaken; [apply read_color_palettes_tally|lia].
  - eapply tally_weaken; [apply read_font_variations_tally|lia].
Qed.

Lemma request_proportion {A} (r : request A) o f p v : reads o (reader r) f p v ->
  weight r v <= work (steps_of r) (mkEnv f o) p /\ work (steps_of r) (mkEnv f o) p <= 256 * (weight r v + 1).
Proof.
  intros [q R]. rewrite <- (steps_of_same r) in R. destruct (request_tally r _ _ _ _ R). lia.
Qed.
