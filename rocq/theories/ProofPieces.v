(** What holds of every part that can be asked for by itself (C82, C83). *)

From Verif Require Export Pieces.
From Verif Require Import Reads ReadsTactics ProofLayout ProofGsub ProofGpos ProofGdef ProofCpal ProofFvar
  ProofExtend ProofRelocate ProofRequests ProofFormats.
From Verif Require Import Encode Steps ProofTapes ProofLoose.
From Verif Require StepsReaders.

Lemma piece_finds {A} (r : piece A) (S : Prop) o f p :
  bounded f -> piece_base r < 2 ^ 63 -> (S -> has_store r = false \/ overflow_checks o = false) ->
  finds S (piece_reader r) (mkEnv f o) p (piece_conforms o r f p).
Proof.
  intros Hb Hp Hs. destruct r; cbn [piece_reader piece_conforms piece_base] in *.
  - eapply takes_finds. apply read_coverage_record_takes; assumption.
  - apply read_coverage1_finds; assumption.
  - apply read_coverage2_finds; assumption.
  - apply read_coverage_finds; assumption.
  - eapply takes_finds. apply read_class_record_takes; assumption.
  - apply read_class1_finds; assumption.
  - apply read_class2_finds; assumption.
  - apply read_class_finds; assumption.
  - apply read_device_finds; assumption.
  - eapply takes_finds. apply read_variation_takes; assumption.
  - apply read_correction_finds; assumption.
  - eapply takes_finds. apply read_action_takes; assumption.
  - apply read_context_record_finds; assumption.
  - apply read_context_records_finds; assumption.
  - apply read_context_class_record_finds; assumption.
  - apply read_context_class_records_finds; assumption.
  - apply read_chained_record_finds; assumption.
  - apply read_chained_records_finds; assumption.
  - apply read_chained_class_record_finds; assumption.
  - apply read_chained_class_records_finds; assumption.
  - apply read_context1_finds; assumption.
  - apply read_context2_finds; assumption.
  - apply read_context3_finds; assumption.
  - apply read_context_finds; assumption.
  - apply read_chained_context1_finds; assumption.
  - apply read_chained_context2_finds; assumption.
  - apply read_chained_context3_finds; assumption.
  - apply read_chained_context_finds; assumption.
  - eapply takes_finds. apply read_language_header_takes; assumption.
  - apply read_language_record_finds; assumption.
  - eapply takes_finds. apply read_script_header_takes; assumption.
  - apply read_script_record_finds; assumption.
  - apply read_scripts_finds; assumption.
  - eapply takes_finds. apply read_feature_header_takes; assumption.
  - apply read_feature_record_finds; assumption.
  - apply read_features_finds; assumption.
  - apply read_feature_variations_finds; assumption.
  - apply (read_lookup_record_finds S (mkEnv f o) Hb read_gsub_type).
    intros. apply read_gsub_type_finds. exact Hb.
  - apply (read_lookups_finds S (mkEnv f o) Hb read_gsub_type). intros. apply read_gsub_type_finds. exact Hb.
  - apply (read_lookup_record_finds S (mkEnv f o) Hb read_gpos_type).
    intros. apply read_gpos_type_finds. exact Hb.
  - apply (read_lookups_finds S (mkEnv f o) Hb read_gpos_type). intros. apply read_gpos_type_finds. exact Hb.
  - apply read_store_record_finds; try assumption.
    intros H. destruct (Hs H) as [E|E]; [discriminate E|exact E].
  - apply read_store_finds; try assumption. intros H. destruct (Hs H) as [E|E]; [discriminate E|exact E].
  - apply read_alternates_finds; assumption.
  - apply read_ligature_finds; assumption.
  - apply read_ligatures_finds; assumption.
  - apply read_sequence_finds; assumption.
  - apply read_single_substitution1_finds; assumption.
  - apply read_single_substitution2_finds; assumption.
  - apply read_single_substitution_finds; assumption.
  - apply read_multiple_substitution_finds; assumption.
  - apply read_alternate_substitution_finds; assumption.
  - apply read_ligature_substitution_finds; assumption.
  - apply read_extension_substitution_finds; assumption.
  - apply read_reverse_chained_contextual_substibution_finds; assumption.
  - apply read_gsub_type_finds; assumption.
  - apply read_anchor1_finds; assumption.
  - apply read_anchor2_finds; assumption.
  - apply read_anchor3_finds; assumption.
  - apply read_anchor_finds; assumption.
  - eapply takes_finds. apply read_base_takes; assumption.
  - apply read_bases_finds; assumption.
  - eapply takes_finds. apply read_component_takes; assumption.
  - apply read_gpos_ligature_finds; assumption.
  - apply read_gpos_ligatures_finds; assumption.
  - eapply takes_finds. apply read_mark1_takes; assumption.
  - apply read_mark1s_finds; assumption.
  - eapply takes_finds. apply read_mark2_takes; assumption.
  - apply read_mark2s_finds; assumption.
  - eapply takes_finds. apply read_connection_takes; assumption.
  - eapply takes_finds. apply read_single_takes; assumption.
  - eapply takes_finds. apply read_pair1_takes; assumption.
  - apply read_pair1s_finds; assumption.
  - eapply takes_finds. apply read_pair2_takes; assumption.
  - eapply takes_finds. apply read_pair2s_takes; assumption.
  - apply read_single_adjustment1_finds; assumption.
  - apply read_single_adjustment2_finds; assumption.
  - apply read_single_adjustment_finds; assumption.
  - apply read_pair_adjustment1_finds; assumption.
  - apply read_pair_adjustment2_finds; assumption.
  - apply read_pair_adjustment_finds; assumption.
  - apply read_cursive_attachment_finds; assumption.
  - apply read_mark_to_base_attachment_finds; assumption.
  - apply read_mark_to_ligature_attachment_finds; assumption.
  - apply read_mark_to_mark_attachment_finds; assumption.
  - apply read_extension_positioning_finds; assumption.
  - apply read_gpos_type_finds; assumption.
  - apply read_attachment_finds; assumption.
  - apply read_attachments_finds; assumption.
  - apply read_caret1_finds; assumption.
  - apply read_caret2_finds; assumption.
  - apply read_caret3_finds; assumption.
  - apply read_caret_finds; assumption.
  - apply read_gdef_ligature_finds; assumption.
  - apply read_gdef_ligatures_finds; assumption.
  - apply read_marks_finds; assumption.
  - apply read_gdef_header1_finds; assumption.
  - apply read_gdef_header12_finds; assumption.
  - apply read_gdef_header13_finds; assumption.
  - apply read_gdef_header_finds; assumption.
  - apply read_cpal_header0_finds; assumption.
  - apply read_cpal_header1_finds; assumption.
  - apply read_cpal_header_finds; assumption.
  - eapply takes_finds. apply read_color_takes; assumption.
  - apply read_fvar_header_finds; assumption.
  - apply read_axis_record_finds; assumption.
  - apply read_instance_record_finds; assumption.
  - eapply takes_finds. apply take_flags_takes.
  - eapply takes_finds. apply take_flags_takes.
  - eapply takes_finds. apply take_flags_takes.
  - eapply takes_finds. apply take_flags_takes.
Qed.

Lemma piece_mono {A} (r : piece A) : mono (piece_reader r).
Proof. destruct r; cbn [piece_reader]; auto with mono. Qed.

Lemma piece_moved {A} (r : piece A) o k f g p v :
  drops k f g -> (piece_conforms o r g p v <-> piece_conforms o (shifted k r) f (k + p) v).
Proof.
  intros H. destruct r; cbn [piece_conforms shifted].
  - apply (coverage_record_moved k f g H); reflexivity.
  - apply (coverage1_moved k f g H); reflexivity.
  - apply (coverage2_moved k f g H); reflexivity.
  - apply (coverage_moved k f g H); reflexivity.
  - apply (class_record_moved k f g H); reflexivity.
  - apply (class1_moved k f g H); reflexivity.
  - apply (class2_moved k f g H); reflexivity.
  - apply (class_moved k f g H); reflexivity.
  - apply (device_moved k f g H); reflexivity.
  - apply (variation_moved k f g H); reflexivity.
  - apply (correction_moved k f g H); reflexivity.
  - apply (action_moved k f g H); reflexivity.
  - apply (context_record_moved k f g H); reflexivity.
  - apply (context_records_moved k f g H); reflexivity.
  - apply (context_class_record_moved k f g H); reflexivity.
  - apply (context_class_records_moved k f g H); reflexivity.
  - apply (chained_record_moved k f g H); reflexivity.
  - apply (chained_records_moved k f g H); reflexivity.
  - apply (chained_class_record_moved k f g H); reflexivity.
  - apply (chained_class_records_moved k f g H); reflexivity.
  - apply (context1_moved k f g H); reflexivity.
  - apply (context2_moved k f g H); reflexivity.
  - apply (context3_moved k f g H); reflexivity.
  - apply (context_moved k f g H); reflexivity.
  - apply (chained_context1_moved k f g H); reflexivity.
  - apply (chained_context2_moved k f g H); reflexivity.
  - apply (chained_context3_moved k f g H); reflexivity.
  - apply (chained_context_moved k f g H); reflexivity.
  - apply (language_header_moved k f g H); reflexivity.
  - apply (language_record_moved k f g H); reflexivity.
  - apply (script_header_moved k f g H); reflexivity.
  - apply (script_record_moved k f g H); reflexivity.
  - apply (scripts_moved k f g H); reflexivity.
  - apply (feature_header_moved k f g H); reflexivity.
  - apply (feature_record_moved k f g H); reflexivity.
  - apply (features_moved k f g H); reflexivity.
  - apply (feature_variations_moved k f g H); reflexivity.
  - apply (lookup_record_moved k f g H); [intros; apply (gsub_type_moved k f g H); assumption|reflexivity].
  - apply (lookups_moved k f g H); [intros; apply (gsub_type_moved k f g H); assumption|reflexivity].
  - apply (lookup_record_moved k f g H); [intros; apply (gpos_type_moved k f g H); assumption|reflexivity].
  - apply (lookups_moved k f g H); [intros; apply (gpos_type_moved k f g H); assumption|reflexivity].
  - apply (store_record_moved k f g H); reflexivity.
  - apply (store_moved k f g H); reflexivity.
  - apply (alternates_moved k f g H); reflexivity.
  - apply (ligature_moved k f g H); reflexivity.
  - apply (ligatures_moved k f g H); reflexivity.
  - apply (sequence_moved k f g H); reflexivity.
  - apply (single_substitution1_moved k f g H); reflexivity.
  - apply (single_substitution2_moved k f g H); reflexivity.
  - apply (single_substitution_moved k f g H); reflexivity.
  - apply (multiple_substitution_moved k f g H); reflexivity.
  - apply (alternate_substitution_moved k f g H); reflexivity.
  - apply (ligature_substitution_moved k f g H); reflexivity.
  - apply (extension_substitution_moved k f g H); reflexivity.
  - apply (reverse_chained_contextual_substibution_moved k f g H); reflexivity.
  - apply (gsub_type_moved k f g H); reflexivity.
  - apply (anchor1_moved k f g H); reflexivity.
  - apply (anchor2_moved k f g H); reflexivity.
  - apply (anchor3_moved k f g H); reflexivity.
  - apply (anchor_moved k f g H); reflexivity.
  - apply (base_moved k f g H); reflexivity.
  - apply (bases_moved k f g H); reflexivity.
  - apply (component_moved k f g H); reflexivity.
  - apply (gpos_ligature_moved k f g H); reflexivity.
  - apply (gpos_ligatures_moved k f g H); reflexivity.
  - apply (mark1_moved k f g H); reflexivity.
  - apply (mark1s_moved k f g H); reflexivity.
  - apply (mark2_moved k f g H); reflexivity.
  - apply (mark2s_moved k f g H); reflexivity.
  - apply (connection_moved k f g H); reflexivity.
  - apply (single_moved k f g H); reflexivity.
  - apply (pair1_moved k f g H); reflexivity.
  - apply (pair1s_moved k f g H); reflexivity.
  - apply (pair2_moved k f g H); reflexivity.
  - apply (pair2s_moved k f g H); reflexivity.
  - apply (single_adjustment1_moved k f g H); reflexivity.
  - apply (single_adjustment2_moved k f g H); reflexivity.
  - apply (single_adjustment_moved k f g H); reflexivity.
  - apply (pair_adjustment1_moved k f g H); reflexivity.
  - apply (pair_adjustment2_moved k f g H); reflexivity.
  - apply (pair_adjustment_moved k f g H); reflexivity.
  - apply (cursive_attachment_moved k f g H); reflexivity.
  - apply (mark_to_base_attachment_moved k f g H); reflexivity.
  - apply (mark_to_ligature_attachment_moved k f g H); reflexivity.
  - apply (mark_to_mark_attachment_moved k f g H); reflexivity.
  - apply (extension_positioning_moved k f g H); reflexivity.
  - apply (gpos_type_moved k f g H); reflexivity.
  - apply (attachment_moved k f g H); reflexivity.
  - apply (attachments_moved k f g H); reflexivity.
  - apply (caret1_moved k f g H); reflexivity.
  - apply (caret2_moved k f g H); reflexivity.
  - apply (caret3_moved k f g H); reflexivity.
  - apply (caret_moved k f g H); reflexivity.
  - apply (gdef_ligature_moved k f g H); reflexivity.
  - apply (gdef_ligatures_moved k f g H); reflexivity.
  - apply (marks_moved k f g H); reflexivity.
  - apply (gdef_header1_moved k f g H); reflexivity.
  - apply (gdef_header12_moved k f g H); reflexivity.
  - apply (gdef_header13_moved k f g H); reflexivity.
  - apply (gdef_header_moved k f g H); reflexivity.
  - apply (cpal_header0_moved k f g H); reflexivity.
  - apply (cpal_header1_moved k f g H); reflexivity.
  - apply (cpal_header_moved k f g H); reflexivity.
  - apply (color_moved k f g H); reflexivity.
  - apply (fvar_header_moved k f g H); reflexivity.
  - apply (axis_record_moved k f g H); reflexivity.
  - apply (instance_record_moved k f g H); reflexivity.
  - apply (flags_moved k f g H); reflexivity.
  - apply (flags_moved k f g H); reflexivity.
  - apply (flags_moved k f g H); reflexivity.
  - apply (flags_moved k f g H); reflexivity.
Qed.

Lemma piece_same {A} (r : piece A) : same (piece_steps r) (piece_reader r).
Proof. destruct r; cbn [piece_steps piece_reader]; auto with steps. Qed.

(** ** In any file *)

Lemma piece_exactly {A} (r : piece A) o f p :
  bounded f -> piece_base r < 2 ^ 63 -> has_store r = false \/ overflow_checks o = false ->
  reads_exactly o (piece_reader r) f p (piece_conforms o r f p).
Proof. intros Hb Hp Hs. apply finds_exactly. apply piece_finds; auto. Qed.

Lemma piece_reads {A} (r : piece A) o f p v :
  bounded f -> piece_base r < 2 ^ 63 -> (reads o (piece_reader r) f p v <-> piece_conforms o r f p v).
Proof. intros Hb Hp. apply (proj2 (piece_finds r False o f p Hb Hp ltac:(tauto))). Qed.

Lemma piece_unique {A} (r : piece A) o f p v w :
  bounded f -> piece_base r < 2 ^ 63 -> piece_conforms o r f p v -> piece_conforms o r f p w -> v = w.
Proof.
    intros Hb Hp. apply (finds_functional _ _ _ _ _ _ _ (piece_finds r False o f p Hb Hp ltac:(tauto))). Qed.

Lemma piece_holes {A} (r : piece A) o f g p : extends f g ->
  piece_reader r (mkEnv f o) p = piece_reader r (mkEnv g o) p \/
  piece_reader r (mkEnv f o) p = Err UnexpectedEnd.
Proof.
  intros He. pose proof (piece_mono r o o f g p (or_introl eq_refl) He) as H.
  destruct (piece_reader r (mkEnv f o) p) as [x|[]|]; auto; left; symmetry; auto.
Qed.

Lemma piece_relocate {A} (r : piece A) o prefix l p v :
  N.of_nat (length (prefix ++ l)) <= 2 ^ 63 ->
  piece_base (shifted (N.of_nat (length prefix)) r) < 2 ^ 63 ->
  (reads o (piece_reader (shifted (N.of_nat (length prefix)) r)) (file_of (prefix ++ l))
     (N.of_nat (length prefix) + p) v <->
   reads o (piece_reader r) (file_of l) p v).
Proof.
  intros H Hp. rewrite app_length in H. rewrite !piece_reads.
  - symmetry. apply piece_moved, drops_prefix.
  - apply file_of_bounded. lia.
  - revert Hp. destruct r; cbn; lia.
  - apply file_of_bounded. rewrite app_length. lia.
  - exact Hp.
Qed.

(** ** On any tape *)

Lemma piece_tape {A} (r : piece A) T f at_ o s p :
  serves T f at_ -> at_ s p -> faithful at_ (exec T (piece_steps r) o s) (piece_reader r (mkEnv f o) p).
Proof. apply same_exec, piece_same. Qed.

Lemma cpal_header_holds o : holds o StepsReaders.read_cpal_header any.
Proof.
  unfold StepsReaders.read_cpal_header. next.
  destruct a as [|[]]; first [apply holds_raise|next; exact I].
Qed.

Lemma piece_holds {A} (r : piece A) o :
  (has_store r = true -> overflow_checks o = false) -> within o (piece_base r) -> holds o (piece_steps r) any.
Proof.
  intros S W. destruct r; cbn [piece_steps piece_base has_store] in *;
    (eapply holds_weaken; [|intros; exact I]).
  - apply coverage_record_holds; auto.
  - apply coverage1_holds; auto.
  - apply coverage2_holds; auto.
  - apply coverage_holds; auto.
  - apply class_record_holds; auto.
  - apply class1_holds; auto.
  - apply class2_holds; auto.
  - apply class_holds; auto.
  - apply device_holds; auto.
  - apply variation_holds; auto.
  - apply correction_holds; auto.
  - apply action_holds; auto.
  - apply context_record_holds; auto.
  - apply context_records_holds; auto.
  - apply context_class_record_holds; auto.
  - apply context_class_records_holds; auto.
  - apply chained_record_holds; auto.
  - apply chained_records_holds; auto.
  - apply chained_class_record_holds; auto.
  - apply chained_class_records_holds; auto.
  - apply context1_holds; auto.
  - apply context2_holds; auto.
  - apply context3_holds; auto.
  - apply context_holds; auto.
  - apply chained_context1_holds; auto.
  - apply chained_context2_holds; auto.
  - apply chained_context3_holds; auto.
  - apply chained_context_holds; auto.
  - apply language_header_holds; auto.
  - apply language_record_holds; auto.
  - apply script_header_holds; auto.
  - apply script_record_holds; auto.
  - apply scripts_holds; auto.
  - apply feature_header_holds; auto.
  - apply feature_record_holds; auto.
  - apply features_holds; auto.
  - apply feature_variations_holds; auto.
  - apply lookup_record_holds. apply gsub_type_holds.
  - apply lookups_holds. apply gsub_type_holds.
  - apply lookup_record_holds. apply gpos_type_holds.
  - apply lookups_holds. apply gpos_type_holds.
  - apply store_record_holds; auto.
  - apply store_holds; auto.
  - apply alternates_holds; auto.
  - apply ligature_holds; auto.
  - apply ligatures_holds; auto.
  - apply sequence_holds; auto.
  - apply single_substitution1_holds; auto.
  - apply single_substitution2_holds; auto.
  - apply single_substitution_holds; auto.
  - apply multiple_substitution_holds; auto.
  - apply alternate_substitution_holds; auto.
  - apply ligature_substitution_holds; auto.
  - apply extension_substitution_holds; auto.
  - apply reverse_holds; auto.
  - apply gsub_type_holds; auto.
  - apply anchor1_holds; auto.
  - apply anchor2_holds; auto.
  - apply anchor3_holds; auto.
  - apply anchor_holds; auto.
  - apply base_holds; auto.
  - apply bases_holds; auto.
  - apply component_holds; auto.
  - apply gpos_ligature_holds; auto.
  - apply gpos_ligatures_holds; auto.
  - apply mark1_holds; auto.
  - apply mark1s_holds; auto.
  - apply mark2_holds; auto.
  - apply mark2s_holds; auto.
  - apply connection_holds; auto.
  - apply single_holds; auto.
  - apply pair1_holds; auto.
  - apply pair1s_holds; auto.
  - apply pair2_holds; auto.
  - apply pair2s_holds; auto.
  - apply single_adjustment1_holds; auto.
  - apply single_adjustment2_holds; auto.
  - apply single_adjustment_holds; auto.
  - apply pair_adjustment1_holds; auto.
  - apply pair_adjustment2_holds; auto.
  - apply pair_adjustment_holds; auto.
  - apply cursive_holds; auto.
  - apply mark_to_base_holds; auto.
  - apply mark_to_ligature_holds; auto.
  - apply mark_to_mark_holds; auto.
  - apply extension_positioning_holds; auto.
  - apply gpos_type_holds; auto.
  - apply attachment_holds; auto.
  - apply attachments_holds; auto.
  - apply caret1_holds; auto.
  - apply caret2_holds; auto.
  - apply caret3_holds; auto.
  - apply caret_holds; auto.
  - apply gdef_ligature_holds; auto.
  - apply gdef_ligatures_holds; auto.
  - apply marks_holds; auto.
  - apply gdef_header1_holds; auto.
  - apply gdef_header12_holds; auto.
  - apply gdef_header13_holds; auto.
  - apply gdef_header_holds; auto.
  - apply cpal_header0_holds; auto.
  - apply cpal_header1_holds; auto.
  - apply cpal_header_holds; auto.
  - apply color_holds; auto.
  - apply fvar_header_holds; auto.
  - apply axis_record_holds; auto.
  - apply instance_record_holds; auto.
  - apply holds_flags.
  - apply holds_flags.
  - apply holds_flags.
  - apply holds_flags.
Qed.

Lemma piece_any {A} (r : piece A) T o :
  (overflow_checks o = true -> has_store r = false /\ piece_base r <= 2 ^ 63 /\
    forall s, match tell T s with (Answer q, _) => q <= 2 ^ 63 | _ => True end) ->
  forall s, exec T (piece_steps r) o s <> Crashes.
Proof.
  intros H s E. assert (Y : forall s, match tell T s with (Answer q, _) => within o q | _ => True end).
  { intros s'. destruct (tell T s') as [[q| |] s''] eqn:E'; auto. intros O. destruct (H O) as (_ & _ & W).
    specialize (W s'). rewrite E' in W. exact W. }
  assert (X : holds o (piece_steps r) any).
  { apply piece_holds.
    - intros G. destruct (overflow_checks o) eqn:O; [|reflexivity]. destruct (H eq_refl) as [X _]. congruence.
    - intros O. apply H, O. }
  pose proof (exec_holds T _ o any Y X s) as Z. rewrite E in Z. exact Z.
Qed.

(** ** Tables of other types *)

Lemma exactly_finds {A} o (m : M A) f p P : reads_exactly o m f p P -> finds True m (mkEnv f o) p P.
Proof. intros (H & _ & N). split; [intros _; exact N|exact H]. Qed.

Lemma tables_exactly {T} (read_table : N -> M T) table_at o f :
  bounded f -> (forall n p, reads_exactly o (read_table n) f p (table_at n f p)) ->
  (forall p, reads_exactly o (read_lookup_record read_table) f p (lookup_record_at o table_at f p)) /\
  (forall p, reads_exactly o (read_lookups read_table) f p (lookups_at o table_at f p)) /\
  (forall p, reads_exactly o (read_directory read_table) f p (directory_at o table_at f p)).
Proof.
  intros Hb H. assert (F : forall n p, finds True (read_table n) (mkEnv f o) p (table_at n f p)).
  { intros n p. apply exactly_finds, H. }
  split; [|split]; intros p; apply finds_exactly.
  - apply (read_lookup_record_finds True (mkEnv f o) Hb read_table table_at F p).
  - apply (read_lookups_finds True (mkEnv f o) Hb read_table table_at F p).
  - apply (read_directory_finds True (mkEnv f o) Hb read_table table_at F p).
Qed.

(** ** Positions that are too far *)

Lemma far_panics :
  let far := 2 ^ 64 - 1 in
  let f := file_of (repeat Byte.x01 20) in
  panics debug_build (piece_reader (PieceBase far 1)) f 0 /\
  panics debug_build (piece_reader (PieceComponent far 1)) f 0 /\
  panics debug_build (piece_reader (PieceMark1 far)) f 0 /\
  panics debug_build (piece_reader (PieceMark2 far 1)) f 0 /\
  panics debug_build (piece_reader (PieceConnection far)) f 0 /\
  panics debug_build (piece_reader (PieceSingle far 16)) f 0 /\
  panics debug_build (piece_reader (PiecePair1 far 16 0)) f 0 /\
  panics debug_build (piece_reader (PiecePair2 far 16 0)) f 0 /\
  panics debug_build (piece_reader (PiecePair2s far 1 16 0)) f 0.
Proof. repeat (apply conj); vm_compute; reflexivity. Qed.

Lemma far_refuted :
  ~ (forall A (r : piece A) o f p, bounded f -> has_store r = false -> ~ panics o (piece_reader r) f p).
Proof.
  intros H. refine (H _ (PieceBase (2 ^ 64 - 1) 1) debug_build (file_of (repeat Byte.x01 20)) 0 _ _ _).
  - apply file_of_bounded. vm_compute. discriminate.
  - reflexivity.
  - vm_compute. reflexivity.
Qed.

(** When exactly a mark panics. *)

Lemma takes_panics {A B} (m : M A) (k : A -> M B) e p P n : takes True m e p P n ->
  (bind m k e p = Panic <-> exists v, P v /\ k v e (p + n) = Panic).
Proof.
  intros [N R]. unfold bind. destruct (m e p) as [[v q]|x|] eqn:E.
  - destruct (proj1 (R v q) eq_refl) as [V ->]. split; [eauto|]. intros (w & W & H).
    assert (X := proj2 (R w (p + n)) (conj W eq_refl)). injection X as ->. exact H.
  - split; [discriminate|]. intros (w & W & _). discriminate (proj2 (R w (p + n)) (conj W eq_refl)).
  - destruct (N I eq_refl).
Qed.

Lemma jump_panics {A} (m : M A) base offset e p :
  overflow_checks (opts e) = true -> m e (base + offset) <> Panic ->
  (jump_take base offset m e p = Panic <-> 2 ^ 64 <= base + offset).
Proof.
  intros O H. unfold jump_take, add_u64, add_wrapping, bind, ask, jump, ret, panic. rewrite O.
  destruct (N.ltb_spec (base + offset) (2 ^ 64)); split; try lia; tauto.
Qed.

Lemma stay_panics {A} (m : M A) e p : stay m e p = Panic <-> m e p = Panic.
Proof. unfold stay. destruct (m e p) as [[]| |]; split; congruence. Qed.

Lemma ret_panics {A B} (m : M A) (g : A -> B) e p : bind m (fun v => ret (g v)) e p = Panic <-> m e p = Panic.
Proof. unfold bind, ret. destruct (m e p) as [[]| |]; split; congruence. Qed.

Lemma mark1_panics o f p base : bounded f -> overflow_checks o = true ->
  (panics o (piece_reader (PieceMark1 base)) f p <->
   exists class_id offset, u16_at f p class_id /\ u16_at f (p + 2) offset /\
     (offset <> 0 \/ ignore_incomplete_marks o = false) /\ 2 ^ 64 <= base + offset).
Proof.
  intros Hb O. unfold panics. cbn [piece_reader]. unfold read_mark1.
  assert (J : forall offset q,
    jump_take base offset read_anchor (mkEnv f o) q = Panic <-> 2 ^ 64 <= base + offset).
  { intros. apply jump_panics; [exact O|]. apply (read_anchor_finds True (mkEnv f o) Hb). exact I. }
  rewrite (takes_panics _ _ _ _ _ _ (take_u16_takes True (mkEnv f o) p)).
  setoid_rewrite (takes_panics _ _ _ _ _ _ (take_u16_takes True (mkEnv f o) (p + 2))).
  split.
  - intros (c & C & offset & F & H). exists c, offset. split; [exact C|]. split; [exact F|].
    unfold bind at 1 in H. cbn [ask opts] in H. rewrite ret_panics in H. destruct (ignore_incomplete_marks o).
    + rewrite ret_panics, stay_panics in H. unfold jump_take_maybe in H.
      destruct (N.ltb_spec 0 offset); [|discriminate]. rewrite ret_panics, J in H. split; [left; lia|exact H].
    + rewrite stay_panics, J in H. auto.
  - intros (c & offset & C & F & Z & H). exists c. split; [exact C|]. exists offset. split; [exact F|].
    unfold bind at 1. cbn [ask opts]. rewrite ret_panics. destruct (ignore_incomplete_marks o).
    + rewrite ret_panics, stay_panics. unfold jump_take_maybe.
      destruct (N.ltb_spec 0 offset); [rewrite ret_panics, J; exact H|].
      destruct Z as [Z|Z]; [lia|discriminate].
    + rewrite stay_panics, J. exact H.
Qed.

(** ** A sample *)

Definition base_bytes : list byte :=
  be16 9 ++ be16 9 ++ be16 9 ++ be16 4 ++ be16 9 ++ be16 9 ++ be16 9 ++ be16 1 ++ be16 100 ++ be16 200.

Definition base_value : Base := mkBase [4] [Some (AnchorFormat1 (mkAnchor1 1 100 200))].
