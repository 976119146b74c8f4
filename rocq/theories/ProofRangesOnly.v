(** What may be given at all (C80): nothing but values of the ranges of SpecRanges.v and the shape
    of SpecLoose.v. *)

From Verif Require Export SpecRanges SpecSteps.
From Verif Require ReadsTactics ProofLayout.
From Verif Require Import Steps StepsReaders.

(** ** Steps *)

(** Some answers make the steps return [v]. *)
Fixpoint can {A} (o : options) (m : steps A) (v : A) : Prop :=
  match m with
  | Return a => a = v
  | Raise _ | Abort => False
  | Build k => can o (k o) v
  | Loop k => can o k v
  | Tell k => exists q, can o (k q) v
  | Seek _ k => can o k v
  | Take k => exists b, can o (k b) v
  end.

Lemma can_bind {A B} o (m : steps A) (k : A -> steps B) v :
  can o (bind m k) v <-> exists a, can o m a /\ can o (k a) v.
Proof.
  induction m as [a|x| |m IH|m IH|m IH|q m IH|m IH]; cbn [can bind].
  - split; [intros H; exists a; auto|intros (b & -> & H); exact H].
  - split; [intros []|intros (b & [] & _)].
  - split; [intros []|intros (b & [] & _)].
  - apply IH.
  - exact IH.
  - split.
    + intros (q & H). apply IH in H as (a & H & K). exists a. eauto.
    + intros (a & (q & H) & K). exists q. apply IH. eauto.
  - exact IH.
  - split.
    + intros (q & H). apply IH in H as (a & H & K). exists a. eauto.
    + intros (a & (q & H) & K). exists q. apply IH. eauto.
Qed.

(** Nothing is returned that does not have the property [P]. *)
Definition only {A} (o : options) (m : steps A) (P : A -> Prop) : Prop := forall v, can o m v -> P v.

Lemma only_weaken {A} o (m : steps A) (P Q : A -> Prop) : only o m P -> (forall a, P a -> Q a) -> only o m Q.
Proof. intros H I v V. auto. Qed.

Lemma only_bind {A B} o (m : steps A) (k : A -> steps B) P Q :
  only o m P -> (forall a, P a -> only o (k a) Q) -> only o (bind m k) Q.
Proof. intros H K v V. apply can_bind in V as (a & X & Y). exact (K a (H a X) v Y). Qed.

Lemma only_ret {A} o (a : A) (P : A -> Prop) : P a -> only o (ret a) P.
Proof. intros H v V. cbn in V. subst v. exact H. Qed.

Lemma only_raise {A} o x (P : A -> Prop) : only o (raise x) P.
Proof. intros v []. Qed.

Lemma only_ask {A} o (k : options -> steps A) P : only o (k o) P -> only o (bind ask k) P.
Proof. intros H v V. exact (H v V). Qed.

(** ** Operations *)

Definition any {A} (a : A) : Prop := True.

Lemma only_any {A} o (m : steps A) : only o m any.
Proof. intros v V. exact I. Qed.

Lemma only_u8 o : only o take_u8 u8.
Proof. intros v (b & <-). pose proof (Byte.to_N_bounded b). unfold u8. lia. Qed.

Lemma only_u16 o : only o take_u16 u16.
Proof.
  intros v (a & b & <-). pose proof (Byte.to_N_bounded a). pose proof (Byte.to_N_bounded b).
  unfold u16. lia.
Qed.

Lemma only_u32 o : only o take_u32 u32.
Proof.
  intros v (a & b & c & d & <-).
  pose proof (Byte.to_N_bounded a). pose proof (Byte.to_N_bounded b).
  pose proof (Byte.to_N_bounded c). pose proof (Byte.to_N_bounded d). unfold u32. lia.
Qed.

Lemma only_i16 o : only o take_i16 i16.
Proof.
  unfold take_i16. eapply only_bind; [apply only_u16|]. intros n H. apply only_ret.
  unfold to_i16, i16. pose proof (Z.mod_pos_bound (Z.of_N n + 32768) 65536 eq_refl). lia.
Qed.

Lemma only_q32 o : only o take_q32 i32.
Proof.
  unfold take_q32. eapply only_bind; [apply only_u32|]. intros n H. apply only_ret.
  unfold to_i32, i32. pose proof (Z.mod_pos_bound (Z.of_N n + 2147483648) 4294967296 eq_refl). lia.
Qed.

Lemma only_const o m c : only o (take_const m c) (eq c).
Proof.
  unfold take_const. eapply only_bind; [apply only_any|]. intros v _.
  destruct (N.eqb_spec v c); [apply only_ret; auto|apply only_raise].
Qed.

Lemma only_flags o mask : only o (take_flags mask) (flags16 (checked_flags o) mask).
Proof.
  unfold take_flags. eapply only_bind; [apply only_u16|]. intros v H. apply only_ask.
  destruct (checked_flags o && _) eqn:E; [apply only_raise|]. apply only_ret. split; [exact H|].
  intros C. rewrite C in E. cbn in E. destruct (N.eqb_spec (N.land v mask) 0); [assumption|discriminate].
Qed.

Lemma only_range {A} o (f : nat -> steps A) (P : nat -> A -> Prop) : (forall j, only o (f j) (P j)) ->
  forall count i, only o (for_range i count f)
    (fun l => length l = count /\ forall j v, nth_error l j = Some v -> P (i + j)%nat v).
Proof.
  intros H. induction count as [|count IH]; intros i; cbn [for_range].
  - apply only_ret. split; [reflexivity|]. intros [|j] v; discriminate.
  - intros l V. cbn [can] in V. revert l V.
    change (only o (bind (f i) (fun v => bind (for_range (S i) count f) (fun vs => ret (v :: vs))))
      (fun l => length l = S count /\ forall j v, nth_error l j = Some v -> P (i + j)%nat v)).
    eapply only_bind; [apply H|]. intros v V. eapply only_bind; [apply IH|].
    intros l [L E]. apply only_ret. split; [cbn; lia|]. intros [|j] w; cbn.
    + intros [= <-]. rewrite Nat.add_0_r. exact V.
    + intros N. rewrite <- plus_n_Sm. apply (E j w N).
Qed.

Lemma only_n {A} o n (f : nat -> steps A) (P : nat -> A -> Prop) : (forall i, only o (f i) (P i)) ->
  only o (for_n n f) (fun l => counts n l /\ forall i v, nth_error l i = Some v -> P i v).
Proof.
  intros H. unfold for_n. eapply only_weaken; [apply (only_range o f P H)|].
  intros l [L E]. split; [unfold counts; lia|exact E].
Qed.

Lemma nth_all {A} (P : A -> Prop) l : (forall i v, nth_error l i = Some v -> P v) -> Forall P l.
Proof. intros H. apply Forall_forall. intros v I. destruct (In_nth_error _ _ I) as [i E]. exact (H i v E). Qed.

Lemma only_all {A} o n (f : nat -> steps A) (P : A -> Prop) :
  (forall i, only o (f i) P) -> only o (for_n n f) (fun l => counts n l /\ Forall P l).
Proof.
  intros H. eapply only_weaken; [apply (only_n o n f (fun _ => P)); auto|].
  intros l [C E]. split; [exact C|]. exact (nth_all P l E).
Qed.

Lemma only_vec {A} o n (m : steps A) P :
  only o m P -> only o (take_vec n m) (fun l => counts n l /\ Forall P l).
Proof. intros H. apply only_all. intros _. exact H. Qed.

Lemma only_index {A} o (l : list A) i : only o (index l i) (fun v => nth_error l i = Some v).
Proof. unfold index. destruct (nth_error l i) as [v|]; [apply only_ret; reflexivity|intros v []]. Qed.

Lemma only_jump {A} o p q (m : steps A) P : only o m P -> only o (jump_take p q m) P.
Proof. intros H. unfold jump_take. eapply only_bind; [apply only_any|]. intros r _ v V. exact (H v V). Qed.

Lemma only_maybe {A} o p q (m : steps A) P : only o m P ->
  only o (jump_take_maybe p q m) (fun v => presence_wf q v /\ maybe_wf P v).
Proof.
  intros H. unfold jump_take_maybe. destruct (N.ltb_spec 0 q).
  - eapply only_bind; [apply only_jump, H|]. intros v V. apply only_ret. split; [|exact V].
    unfold presence_wf. split; [discriminate|lia].
  - apply only_ret. split; [|exact I]. unfold presence_wf. split; [lia|reflexivity].
Qed.

Lemma only_each {A} o p n offset (m : steps A) P : only o m P ->
  only o (jump_take_each p n offset m) (fun l => counts n l /\ Forall P l).
Proof.
  intros H. unfold jump_take_each. apply only_all. intros i. eapply only_bind; [apply only_any|].
  intros q _. apply only_jump, H.
Qed.

Lemma only_jumps {A} o p n offsets (m : steps A) P : only o m P ->
  only o (jump_take_n p n offsets m) (fun l => counts n l /\ Forall P l).
Proof. apply only_each. Qed.

Lemma only_maybes {A} o p n offsets (m : steps A) P : counts n offsets -> only o m P ->
  only o (jump_take_maybe_n p n offsets m)
    (fun l => counts n l /\ Forall (maybe_wf P) l /\ Forall2 presence_wf offsets l).
Proof.
  intros C H. unfold jump_take_maybe_n. eapply only_weaken.
  - apply (only_n o n _ (fun i v => exists q, nth_error offsets i = Some q /\ presence_wf q v /\ maybe_wf P v)).
    intros i. eapply only_bind; [apply only_index|]. intros q N.
    eapply only_weaken; [apply only_maybe, H|]. intros v V. exists q. split; assumption.
  - intros l [D E]. split; [exact D|]. split.
    + apply nth_all. intros i v N. destruct (E i v N) as (q & _ & _ & X). exact X.
    + unfold counts in *. assert (K : length offsets = length l) by lia. clear - E K.
      revert l E K. induction offsets as [|q offsets IH]; intros [|v l] E K; try discriminate; constructor.
      * destruct (E 0%nat v eq_refl) as (r & [= <-] & X & _). exact X.
      * apply IH; [|cbn in K; lia]. intros i w N. exact (E (S i) w N).
Qed.

Lemma only_stay {A} o (m : steps A) P : only o m P -> only o (stay m) P.
Proof.
  intros H. unfold stay. eapply only_bind; [apply only_any|]. intros p _. eapply only_bind; [exact H|].
  intros a V v W. cbn in W. subst v. exact V.
Qed.

(** ** Tactics *)

Lemma maybe_and {A} (P Q : A -> Prop) v : maybe_wf (fun x => P x /\ Q x) v -> maybe_wf P v /\ maybe_fits Q v.
Proof. destruct v as [x|]; cbn; tauto. Qed.

Lemma maybes_and {A} (P Q : A -> Prop) l :
  Forall (maybe_wf (fun x => P x /\ Q x)) l -> Forall (maybe_wf P) l /\ Forall (maybe_fits Q) l.
Proof.
  intros F. split; (eapply Forall_impl; [|exact F]); intros v H; apply maybe_and in H; apply H.
Qed.

Create HintDb only.

(** What is known of one field or part. *)
Ltac part :=
  lazymatch goal with
  | |- only _ get_position _ => apply only_any
  | |- only _ take_u8 _ => apply only_u8
  | |- only _ take_u16 _ => apply only_u16
  | |- only _ take_u32 _ => apply only_u32
  | |- only _ take_i16 _ => apply only_i16
  | |- only _ take_q32 _ => apply only_q32
  | |- only _ take_tag _ => apply only_any
  | |- only _ (take_const _ _) _ => eapply only_const
  | |- only _ (take_flags _) _ => apply only_flags
  | |- only _ (take_vec _ _) _ => eapply only_vec; part
  | |- only _ (for_n _ _) _ => eapply only_all; intros ?; part
  | |- only _ (jump_take _ _ _) _ => eapply only_jump; part
  | |- only _ (jump_take_maybe _ _ _) _ => eapply only_maybe; part
  | |- only _ (jump_take_n _ _ _ _) _ => eapply only_jumps; part
  | |- only _ (jump_take_maybe_n _ _ _ _) _ => eapply only_maybes; [eassumption|part]
  | |- only _ (jump_take_each _ _ _ _) _ => eapply only_each; part
  | |- only _ (stay _) _ => eapply only_stay; part
  | |- only _ (peek _) _ => apply only_any
  | |- _ => solve [eauto with only]
  end.

Ltac known :=
  repeat match goal with
  | H : _ /\ _ |- _ => destruct H
  | H : any _ |- _ => clear H
  | H : Forall (fun _ => _ /\ _) _ |- _ => apply Forall_and_inv in H
  | H : Forall (maybe_wf (fun _ => _ /\ _)) _ |- _ => apply maybes_and in H
  | H : maybe_wf (fun _ => _ /\ _) _ |- _ => apply maybe_and in H
  | H : ?c = ?x |- _ => is_var x; subst x
  end.

Ltac next := eapply only_bind; [part|intros ? ?; cbv beta in *; known].

Ltac settle :=
  lazymatch goal with
  | |- _ /\ _ => split; settle
  | |- _ => first [assumption | exact I | reflexivity | apply Forall_nil | progress hnf; settle]
  end.

(** A [table!]. *)
Ltac whole := repeat next; apply only_ret; settle.

(** A choice between formats. *)
Ltac formats :=
  repeat lazymatch goal with
  | |- only _ (raise _) _ => apply only_raise
  | |- only _ (match ?x with _ => _ end) _ => destruct x
  | |- only _ (bind (peek _) _) _ => next
  | |- only _ (bind _ _) _ => next; apply only_ret; settle
  end.

(** ** Common structures *)

Lemma coverage_record_only o : only o read_coverage_record coverage_record_fits.
Proof. unfold read_coverage_record. whole. Qed.
#[global] Hint Resolve coverage_record_only : only.

Lemma coverage1_only o : only o read_coverage1
  (fun v => coverage_loose (CoverageFormat1 v) /\ coverage_ranges (CoverageFormat1 v)).
Proof. unfold read_coverage1. whole. Qed.

Lemma coverage2_only o : only o read_coverage2
  (fun v => coverage_loose (CoverageFormat2 v) /\ coverage_ranges (CoverageFormat2 v)).
Proof. unfold read_coverage2. whole. Qed.
#[global] Hint Resolve coverage1_only coverage2_only : only.

Lemma coverage_only o : only o read_coverage (fun v => coverage_loose v /\ coverage_ranges v).
Proof. unfold read_coverage. formats. Qed.
#[global] Hint Resolve coverage_only : only.

Lemma class_record_only o : only o read_class_record class_record_fits.
Proof. unfold read_class_record. whole. Qed.
#[global] Hint Resolve class_record_only : only.

Lemma class1_only o : only o read_class1 (fun v => class_loose (ClassFormat1 v) /\
  class_ranges (ClassFormat1 v)).
Proof. unfold read_class1. whole. Qed.
#[global] Hint Resolve class1_only : only.

Lemma class2_only o : only o read_class2 (fun v => class_loose (ClassFormat2 v) /\
  class_ranges (ClassFormat2 v)).
Proof. unfold read_class2. whole. Qed.
#[global] Hint Resolve class2_only : only.

Lemma class_only o : only o read_class (fun v => class_loose v /\ class_ranges v).
Proof. unfold read_class. formats. Qed.
#[global] Hint Resolve class_only : only.

Lemma device_only o : only o read_device
  (fun v => correction_loose (CorrectionDevice v) /\ correction_ranges (CorrectionDevice v)).
Proof.
  unfold read_device. next. next. destruct (_ <? _) eqn:E; [apply only_raise|]. next.
  destruct (_ || _) eqn:F; [apply only_raise|]. cbv zeta. next. apply only_ret.
  cbn [correction_loose correction_wf].
  apply N.ltb_ge in E. apply orb_false_iff in F as [F G]. apply N.eqb_neq in F. apply N.ltb_ge in G.
  rewrite ProofLayout.device_word_count, N.shiftl_1_l in *. repeat split; first [assumption|lia].
Qed.
#[global] Hint Resolve device_only : only.

Lemma variation_only o : only o read_variation
  (fun v => correction_loose (CorrectionVariation v) /\ correction_ranges (CorrectionVariation v)).
Proof. unfold read_variation. whole. Qed.
#[global] Hint Resolve variation_only : only.

Lemma correction_only o : only o read_correction (fun v => correction_loose v /\ correction_ranges v).
Proof. unfold read_correction. formats. Qed.
#[global] Hint Resolve correction_only : only.

(** The rest of a rule: all glyphs but the first. *)
Lemma rest_only {A} o n (m : steps A) P : only o m P ->
  only o (if n =? 0 then raise Malformed else take_vec (n - 1) m) (fun l => counts_rest n l /\ Forall P l).
Proof.
  intros H. destruct (N.eqb_spec n 0); [apply only_raise|]. eapply only_weaken; [apply only_vec, H|].
  intros l [C F]. split; [|exact F]. unfold counts in C. unfold counts_rest. lia.
Qed.
#[global] Hint Resolve rest_only only_u16 : only.

Lemma action_only o : only o read_action action_fits.
Proof. unfold read_action. whole. Qed.
#[global] Hint Resolve action_only : only.

Lemma context_record_only o : only o read_context_record (fun v => context_record_wf v /\
  context_record_fits v).
Proof. unfold read_context_record. whole. Qed.
#[global] Hint Resolve context_record_only : only.

Lemma context_records_only o : only o read_context_records (fun v => context_records_wf v /\
  context_records_ranges v).
Proof. unfold read_context_records. whole. Qed.
#[global] Hint Resolve context_records_only : only.

Lemma context_class_record_only o : only o read_context_class_record
  (fun v => context_class_record_wf v /\ context_class_record_fits v).
Proof. unfold read_context_class_record. whole. Qed.
#[global] Hint Resolve context_class_record_only : only.

Lemma context_class_records_only o :
  only o read_context_class_records (fun v => context_class_records_wf v /\ context_class_records_ranges v).
Proof. unfold read_context_class_records. whole. Qed.
#[global] Hint Resolve context_class_records_only : only.

Lemma chained_record_only o : only o read_chained_record (fun v => chained_record_wf v /\
  chained_record_fits v).
Proof. unfold read_chained_record. whole. Qed.
#[global] Hint Resolve chained_record_only : only.

Lemma chained_records_only o : only o read_chained_records (fun v => chained_records_wf v /\
  chained_records_ranges v).
Proof. unfold read_chained_records. whole. Qed.
#[global] Hint Resolve chained_records_only : only.

Lemma chained_class_record_only o : only o read_chained_class_record
  (fun v => chained_class_record_wf v /\ chained_class_record_fits v).
Proof. unfold read_chained_class_record. whole. Qed.
#[global] Hint Resolve chained_class_record_only : only.

Lemma chained_class_records_only o :
  only o read_chained_class_records (fun v => chained_class_records_wf v /\ chained_class_records_ranges v).
Proof. unfold read_chained_class_records. whole. Qed.
#[global] Hint Resolve chained_class_records_only : only.

Lemma context1_only o : only o read_context1 (fun v => context_loose (ContextFormat1 v) /\
  context_ranges (ContextFormat1 v)).
Proof. unfold read_context1. whole. Qed.
#[global] Hint Resolve context1_only : only.

Lemma context2_only o : only o read_context2 (fun v => context_loose (ContextFormat2 v) /\
  context_ranges (ContextFormat2 v)).
Proof. unfold read_context2. whole. Qed.
#[global] Hint Resolve context2_only : only.

Lemma context3_only o : only o read_context3 (fun v => context_loose (ContextFormat3 v) /\
  context_ranges (ContextFormat3 v)).
Proof. unfold read_context3. whole. Qed.
#[global] Hint Resolve context3_only : only.

Lemma context_only o : only o read_context (fun v => context_loose v /\ context_ranges v).
Proof. unfold read_context. formats. Qed.
#[global] Hint Resolve context_only : only.

Lemma chained_context1_only o : only o read_chained_context1
  (fun v => chained_context_loose (ChainedContextFormat1 v) /\
    chained_context_ranges (ChainedContextFormat1 v)).
Proof. unfold read_chained_context1. whole. Qed.
#[global] Hint Resolve chained_context1_only : only.

Lemma chained_context2_only o : only o read_chained_context2
  (fun v => chained_context_loose (ChainedContextFormat2 v) /\
    chained_context_ranges (ChainedContextFormat2 v)).
Proof. unfold read_chained_context2. whole. Qed.
#[global] Hint Resolve chained_context2_only : only.

Lemma chained_context3_only o : only o read_chained_context3
  (fun v => chained_context_loose (ChainedContextFormat3 v) /\
    chained_context_ranges (ChainedContextFormat3 v)).
Proof. unfold read_chained_context3. whole. Qed.
#[global] Hint Resolve chained_context3_only : only.

Lemma chained_context_only o : only o read_chained_context (fun v => chained_context_loose v /\
  chained_context_ranges v).
Proof. unfold read_chained_context. formats. Qed.
#[global] Hint Resolve chained_context_only : only.

(** ** The directory *)

Lemma language_header_only o : only o read_language_header (fun v => u16 (language_header_offset v)).
Proof. unfold read_language_header. whole. Qed.
#[global] Hint Resolve language_header_only : only.

Lemma language_record_only o : only o read_language_record (fun v => language_record_wf v /\
  language_record_fits v).
Proof. unfold read_language_record. whole. Qed.
#[global] Hint Resolve language_record_only : only.

Lemma script_header_only o : only o read_script_header (fun v => u16 (script_header_offset v)).
Proof. unfold read_script_header. whole. Qed.
#[global] Hint Resolve script_header_only : only.

Lemma script_record_only o : only o read_script_record (fun v => script_record_wf v /\ script_record_ranges v).
Proof. unfold read_script_record. whole. Qed.
#[global] Hint Resolve script_record_only : only.

Lemma scripts_only o : only o read_scripts (fun v => scripts_wf v /\ scripts_ranges v).
Proof. unfold read_scripts. whole. Qed.
#[global] Hint Resolve scripts_only : only.

Lemma feature_header_only o : only o read_feature_header (fun v => u16 (feature_header_offset v)).
Proof. unfold read_feature_header. whole. Qed.
#[global] Hint Resolve feature_header_only : only.

Lemma feature_record_only o : only o read_feature_record (fun v => feature_record_wf v /\
  feature_record_ranges v).
Proof.
  unfold read_feature_record. next. next. next. next.
  eapply only_bind with (P := fun v => presence_wf a0 v /\ maybe_fits (eq []) v);
    [|intros v V; known; apply only_ret; settle].
  destruct (N.ltb_spec 0 a0).
  - eapply only_bind; [apply only_any|]. intros q _. eapply only_bind; [apply only_any|]. intros _ _.
    eapply only_bind; [apply only_vec, only_any|]. intros bytes [C _]. apply only_ret. split.
    + unfold presence_wf. split; [discriminate|lia].
    + cbn. destruct bytes; [reflexivity|discriminate].
  - apply only_ret. split; [|exact I]. unfold presence_wf. split; [lia|reflexivity].
Qed.
#[global] Hint Resolve feature_record_only : only.

Lemma features_only o : only o read_features (fun v => features_wf v /\ features_ranges v).
Proof. unfold read_features. whole. Qed.
#[global] Hint Resolve features_only : only.

Lemma feature_variations_only o : only o read_feature_variations
  (fun v => feature_variations_wf v /\ feature_variations_fits v).
Proof. unfold read_feature_variations. whole. Qed.
#[global] Hint Resolve feature_variations_only : only.

Lemma lookup_record_only {T} o (read_table : N -> steps T) P Q :
  (forall n, only o (read_table n) (fun v => P n v /\ Q v)) ->
  only o (read_lookup_record read_table) (fun v => lookup_record_wf P v /\ lookup_record_ranges o Q v).
Proof.
  intros H. unfold read_lookup_record, take_lookup_flags. do 5 next.
  match goal with flags : N, F : flags16 _ _ ?flags |- _ =>
    eapply only_bind with (P := fun set => (set = None <-> N.testbit flags 4 = false) /\ maybe_fits u16 set)
  end.
  - unfold has_mark_filtering. change 0x0010 with (2 ^ 4). rewrite ReadsTactics.has_flag_bit.
    destruct (N.testbit _ 4).
    + next. apply only_ret. split; [split; discriminate|assumption].
    + apply only_ret. split; [split; reflexivity|exact I].
  - intros set [E F]. next. apply only_ret. settle.
Qed.
#[global] Hint Resolve lookup_record_only : only.

Lemma lookups_only {T} o (read_table : N -> steps T) P Q :
  (forall n, only o (read_table n) (fun v => P n v /\ Q v)) ->
  only o (read_lookups read_table) (fun v => lookups_wf P v /\ lookups_ranges o Q v).
Proof. intros H. unfold read_lookups. whole. Qed.

Lemma list_only {A} o p q (m : steps A) default P : only o m P -> P default ->
  only o (jump_take_list p q m default)
    (fun v => P v /\ stands_in (ignore_incomplete_directories o) q v default).
Proof.
  intros H D. unfold jump_take_list. apply only_ask. unfold stands_in.
  destruct (ignore_incomplete_directories o).
  - eapply only_bind; [apply only_maybe, H|]. intros [v|] [X V]; apply only_ret; (split; [assumption|]).
    + intros _ Z. apply X in Z. discriminate.
    + reflexivity.
  - eapply only_weaken; [apply only_jump, H|]. intros v V. split; [exact V|discriminate].
Qed.

Lemma directory_only {T} o (read_table : N -> steps T) P Q :
  (forall n, only o (read_table n) (fun v => P n v /\ Q v)) ->
  only o (read_directory read_table) (fun v => directory_wf P v /\ directory_ranges o Q v).
Proof.
  intros H. unfold read_directory. next. next. next.
  destruct (_ && _) eqn:E; [|intros v []]. cbn [bind ret]. apply andb_prop in E as [E F].
  apply N.eqb_eq in E. subst a0.
  do 3 next.
  eapply only_bind with (P := fun q => u32 q /\ (a1 = 0 -> q = 0)).
  { cbn [N.eqb Pos.eqb andb]. destruct (N.eqb_spec a1 1); [|apply only_ret; unfold u32; lia].
    eapply only_weaken; [apply only_u32|]. cbn. intros q U. split; [exact U|lia]. }
  intros variation_offset [L Z].
  eapply only_bind; [eapply list_only; [apply scripts_only|]|].
  { settle. }
  intros scripts S. eapply only_bind; [eapply list_only; [apply features_only|]|].
  { settle. }
  intros features G. eapply only_bind; [eapply list_only; [apply lookups_only, H|]|].
  { settle. }
  intros lookups K. next. apply only_ret. cbv beta in *. known. apply orb_prop in F.
  split; [|settle]. hnf.
  repeat (lazymatch goal with |- _ /\ _ => split end); try assumption; [reflexivity|..].
  - destruct F as [F|F]; apply N.eqb_eq in F; auto.
  - intros M. match goal with X : presence_wf _ _ |- _ => apply X end. auto.
Qed.

(** ** [GSUB] *)

Lemma alternates_only o : only o read_alternates (fun v => alternates_wf v /\ alternates_fits v).
Proof. unfold read_alternates. whole. Qed.
#[global] Hint Resolve alternates_only : only.

Lemma ligature_only o : only o read_ligature (fun v => ligature_wf v /\ ligature_fits v).
Proof. unfold read_ligature. whole. Qed.
#[global] Hint Resolve ligature_only : only.

Lemma ligatures_only o : only o read_ligatures (fun v => ligatures_wf v /\ ligatures_ranges v).
Proof. unfold read_ligatures. whole. Qed.
#[global] Hint Resolve ligatures_only : only.

Lemma sequence_only o : only o read_sequence (fun v => sequence_wf v /\ sequence_fits v).
Proof. unfold read_sequence. whole. Qed.
#[global] Hint Resolve sequence_only : only.

Lemma single_substitution1_only o : only o read_single_substitution1
  (fun v => single_substitution_loose (SingleSubstitutionFormat1 v) /\
    single_substitution_ranges (SingleSubstitutionFormat1 v)).
Proof. unfold read_single_substitution1. whole. Qed.
#[global] Hint Resolve single_substitution1_only : only.

Lemma single_substitution2_only o : only o read_single_substitution2
  (fun v => single_substitution_loose (SingleSubstitutionFormat2 v) /\
    single_substitution_ranges (SingleSubstitutionFormat2 v)).
Proof. unfold read_single_substitution2. whole. Qed.
#[global] Hint Resolve single_substitution2_only : only.

Lemma single_substitution_only o : only o read_single_substitution
  (fun v => single_substitution_loose v /\ single_substitution_ranges v).
Proof. unfold read_single_substitution. formats. Qed.
#[global] Hint Resolve single_substitution_only : only.

Lemma multiple_substitution_only o :
  only o read_multiple_substitution (fun v => gsub_type_loose 2 (GsubMultipleSubstitution v) /\
    gsub_type_ranges (GsubMultipleSubstitution v)).
Proof. unfold read_multiple_substitution. whole. Qed.
#[global] Hint Resolve multiple_substitution_only : only.

Lemma alternate_substitution_only o :
  only o read_alternate_substitution (fun v => gsub_type_loose 3 (GsubAlternateSubstitution v) /\
    gsub_type_ranges (GsubAlternateSubstitution v)).
Proof. unfold read_alternate_substitution. whole. Qed.
#[global] Hint Resolve alternate_substitution_only : only.

Lemma ligature_substitution_only o :
  only o read_ligature_substitution (fun v => gsub_type_loose 4 (GsubLigatureSubstitution v) /\
    gsub_type_ranges (GsubLigatureSubstitution v)).
Proof. unfold read_ligature_substitution. whole. Qed.
#[global] Hint Resolve ligature_substitution_only : only.

Lemma extension_substitution_only o :
  only o read_extension_substitution (fun v => gsub_type_loose 7 (GsubExtensionSubstitution v) /\
    gsub_type_ranges (GsubExtensionSubstitution v)).
Proof. unfold read_extension_substitution. whole. Qed.
#[global] Hint Resolve extension_substitution_only : only.

Lemma reverse_only o : only o read_reverse_chained_contextual_substibution
  (fun v => gsub_type_loose 8 (GsubReverseChainedContextualSubstibution v) /\
    gsub_type_ranges (GsubReverseChainedContextualSubstibution v)).
Proof. unfold read_reverse_chained_contextual_substibution. whole. Qed.
#[global] Hint Resolve reverse_only : only.

Lemma gsub_type_only o n : only o (read_gsub_type n) (fun v => gsub_type_loose n v /\ gsub_type_ranges v).
Proof. unfold read_gsub_type. formats. Qed.
#[global] Hint Resolve gsub_type_only : only.

(** ** [GPOS] *)

Lemma anchor1_only o : only o read_anchor1 (fun v => anchor_loose (AnchorFormat1 v) /\
  anchor_ranges (AnchorFormat1 v)).
Proof. unfold read_anchor1. whole. Qed.
#[global] Hint Resolve anchor1_only : only.

Lemma anchor2_only o : only o read_anchor2 (fun v => anchor_loose (AnchorFormat2 v) /\
  anchor_ranges (AnchorFormat2 v)).
Proof. unfold read_anchor2. whole. Qed.
#[global] Hint Resolve anchor2_only : only.

Lemma anchor3_only o : only o read_anchor3 (fun v => anchor_loose (AnchorFormat3 v) /\
  anchor_ranges (AnchorFormat3 v)).
Proof. unfold read_anchor3. whole. Qed.
#[global] Hint Resolve anchor3_only : only.

Lemma anchor_only o : only o read_anchor (fun v => anchor_loose v /\ anchor_ranges v).
Proof. unfold read_anchor. formats. Qed.
#[global] Hint Resolve anchor_only : only.

Lemma base_only o p n : only o (read_base p n) (fun v => base_loose n v /\ base_ranges v).
Proof. unfold read_base. whole. Qed.
#[global] Hint Resolve base_only : only.

Lemma component_only o p n : only o (read_component p n) (fun v => component_loose n v /\ component_ranges v).
Proof. unfold read_component. whole. Qed.
#[global] Hint Resolve component_only : only.

Lemma mark2_only o p n : only o (read_mark2 p n) (fun v => mark2_loose n v /\ mark2_ranges v).
Proof. unfold read_mark2. whole. Qed.
#[global] Hint Resolve mark2_only : only.

Lemma bases_only o n : only o (read_bases n) (fun v => bases_loose n v /\ bases_ranges v).
Proof. unfold read_bases. whole. Qed.
#[global] Hint Resolve bases_only : only.

Lemma gpos_ligature_only o n : only o (read_gpos_ligature n) (fun v => gpos_ligature_loose n v /\
  gpos_ligature_ranges v).
Proof. unfold read_gpos_ligature. whole. Qed.
#[global] Hint Resolve gpos_ligature_only : only.

Lemma gpos_ligatures_only o n : only o (read_gpos_ligatures n) (fun v => gpos_ligatures_loose n v /\
  gpos_ligatures_ranges v).
Proof. unfold read_gpos_ligatures. whole. Qed.
#[global] Hint Resolve gpos_ligatures_only : only.

Lemma mark2s_only o n : only o (read_mark2s n) (fun v => mark2s_loose n v /\ mark2s_ranges v).
Proof. unfold read_mark2s. whole. Qed.
#[global] Hint Resolve mark2s_only : only.

Lemma mark1_only o p : only o (read_mark1 p) (fun v => mark1_loose v /\ mark1_ranges o v).
Proof.
  unfold read_mark1. next. next. apply only_ask.
  eapply only_bind with (P := fun v => anchor_loose v /\ anchor_ranges v /\
    stands_in (ignore_incomplete_marks o) a0 v (AnchorFormat1 (mkAnchor1 0 0 0)));
      [|intros v V; known; apply only_ret; settle].
  unfold stands_in. destruct (ignore_incomplete_marks o).
  - eapply only_bind; [apply only_stay, only_maybe, anchor_only|].
    intros [v|] [X V]; apply only_ret; cbn in V; known.
    + split; [assumption|]. split; [assumption|]. intros _ Z. apply X in Z. discriminate.
    + split; [exact I|]. split; [|reflexivity]. repeat split; discriminate.
  - eapply only_weaken; [part|]. cbv beta. intros v V. known. repeat split; try assumption. discriminate.
Qed.
#[global] Hint Resolve mark1_only : only.

Lemma mark1s_only o : only o read_mark1s (fun v => mark1s_loose v /\ mark1s_ranges o v).
Proof. unfold read_mark1s. whole. Qed.
#[global] Hint Resolve mark1s_only : only.

Lemma connection_only o p : only o (read_connection p) (fun v => connection_loose v /\ connection_ranges v).
Proof.
  unfold read_connection. next. next.
  eapply only_bind with (P := fun v =>
    (presence_wf a (fst v) /\ maybe_wf anchor_loose (fst v) /\ maybe_fits anchor_ranges (fst v)) /\
    presence_wf a0 (snd v) /\ maybe_wf anchor_loose (snd v) /\ maybe_fits anchor_ranges (snd v)).
  - eapply only_stay. next. next. apply only_ret. settle.
  - intros [x y] V. cbn [fst snd] in V. known. apply only_ret. settle.
Qed.
#[global] Hint Resolve connection_only : only.

Lemma if_only {A} o flags k (m : steps A) P : only o m P ->
  only o (take_if (has_flag flags (2 ^ k)) m) (fun v => announced flags k v /\ maybe_fits P v).
Proof.
  intros H. rewrite ReadsTactics.has_flag_bit. unfold take_if, announced. destruct (N.testbit flags k).
  - eapply only_bind; [exact H|]. intros v V. apply only_ret. split; [split; discriminate|exact V].
  - apply only_ret. split; [split; reflexivity|exact I].
Qed.

Lemma linked_only o p offset : only o (take_linked p offset)
  (fun v => corrected_loose offset v /\ maybe_fits correction_ranges v).
Proof.
  unfold take_linked. destruct offset as [offset|]; [|apply only_ret; split; [reflexivity|exact I]].
  eapply only_weaken; [part|]. cbv beta. intros v V. known. settle.
Qed.

Lemma single_only o p flags : only o (read_single p flags) (fun v => single_loose flags v /\ single_ranges v).
Proof.
  unfold read_single.
  eapply only_bind; [eapply (if_only o flags 0); part|intros ? [? ?]].
  eapply only_bind; [eapply (if_only o flags 1); part|intros ? [? ?]].
  eapply only_bind; [eapply (if_only o flags 2); part|intros ? [? ?]].
  eapply only_bind; [eapply (if_only o flags 3); part|intros ? [? ?]].
  eapply only_bind; [eapply (if_only o flags 4); part|intros ? [? ?]].
  eapply only_bind; [eapply (if_only o flags 5); part|intros ? [? ?]].
  eapply only_bind; [eapply (if_only o flags 6); part|intros ? [? ?]].
  eapply only_bind; [eapply (if_only o flags 7); part|intros ? [? ?]].
  eapply only_bind with (P := fun v => let '(b, c, d, e) := v in
      (corrected_loose a3 b /\ maybe_fits correction_ranges b) /\
        (corrected_loose a4 c /\ maybe_fits correction_ranges c) /\
      (corrected_loose a5 d /\ maybe_fits correction_ranges d) /\
        (corrected_loose a6 e /\ maybe_fits correction_ranges e)).
  - eapply only_stay. do 4 (eapply only_bind; [eapply linked_only|intros ? [? ?]]). apply only_ret. settle.
  - intros [[[b c] d] e] V. known. apply only_ret. settle.
Qed.
#[global] Hint Resolve single_only : only.

Lemma value_only o p flags :
  only o (if 0 <? flags then bind (read_single p flags) (fun v => ret (Some v)) else ret None)
    (fun v => value_loose flags v /\ maybe_fits single_ranges v).
Proof.
  unfold value_loose. destruct (N.ltb_spec 0 flags).
  - next. apply only_ret. repeat split; [discriminate|lia|assumption..].
  - apply only_ret. repeat split. lia.
Qed.
#[global] Hint Resolve value_only : only.

Lemma pair1_only o p x y : only o (read_pair1 p x y) (fun v => pair1_loose x y v /\ pair1_ranges v).
Proof. unfold read_pair1. whole. Qed.
#[global] Hint Resolve pair1_only : only.

Lemma pair2_only o p x y : only o (read_pair2 p x y) (fun v => pair2_loose x y v /\ pair2_ranges v).
Proof. unfold read_pair2. whole. Qed.
#[global] Hint Resolve pair2_only : only.

Lemma pair1s_only o x y : only o (read_pair1s x y) (fun v => pair1s_loose x y v /\ pair1s_ranges v).
Proof. unfold read_pair1s. whole. Qed.
#[global] Hint Resolve pair1s_only : only.

Lemma pair2s_only o p n x y : only o (read_pair2s p n x y) (fun v => pair2s_loose n x y v /\ pair2s_ranges v).
Proof. unfold read_pair2s. whole. Qed.
#[global] Hint Resolve pair2s_only : only.

Lemma single_adjustment1_only o : only o read_single_adjustment1
  (fun v => gpos_type_loose 1 (GposSingleAdjustment (SingleAdjustmentFormat1 v)) /\
    gpos_type_ranges o (GposSingleAdjustment (SingleAdjustmentFormat1 v))).
Proof. unfold read_single_adjustment1, take_value_flags. whole. Qed.
#[global] Hint Resolve single_adjustment1_only : only.

Lemma single_adjustment2_only o : only o read_single_adjustment2
  (fun v => gpos_type_loose 1 (GposSingleAdjustment (SingleAdjustmentFormat2 v)) /\
    gpos_type_ranges o (GposSingleAdjustment (SingleAdjustmentFormat2 v))).
Proof. unfold read_single_adjustment2, take_value_flags. whole. Qed.
#[global] Hint Resolve single_adjustment2_only : only.

Lemma single_adjustment_only o : only o read_single_adjustment
  (fun v => gpos_type_loose 1 (GposSingleAdjustment v) /\ gpos_type_ranges o (GposSingleAdjustment v)).
Proof. unfold read_single_adjustment. formats. Qed.
#[global] Hint Resolve single_adjustment_only : only.

Lemma pair_adjustment1_only o : only o read_pair_adjustment1
  (fun v => gpos_type_loose 2 (GposPairAdjustment (PairAdjustmentFormat1 v)) /\
    gpos_type_ranges o (GposPairAdjustment (PairAdjustmentFormat1 v))).
Proof. unfold read_pair_adjustment1, take_value_flags. whole. Qed.
#[global] Hint Resolve pair_adjustment1_only : only.

Lemma pair_adjustment2_only o : only o read_pair_adjustment2
  (fun v => gpos_type_loose 2 (GposPairAdjustment (PairAdjustmentFormat2 v)) /\
    gpos_type_ranges o (GposPairAdjustment (PairAdjustmentFormat2 v))).
Proof. unfold read_pair_adjustment2, take_value_flags. whole. Qed.
#[global] Hint Resolve pair_adjustment2_only : only.

Lemma pair_adjustment_only o : only o read_pair_adjustment
  (fun v => gpos_type_loose 2 (GposPairAdjustment v) /\ gpos_type_ranges o (GposPairAdjustment v)).
Proof. unfold read_pair_adjustment. formats. Qed.
#[global] Hint Resolve pair_adjustment_only : only.

Lemma cursive_attachment_only o : only o read_cursive_attachment
  (fun v => gpos_type_loose 3 (GposCursiveAttachment v) /\ gpos_type_ranges o (GposCursiveAttachment v)).
Proof. unfold read_cursive_attachment. whole. Qed.
#[global] Hint Resolve cursive_attachment_only : only.

Lemma mark_to_base_attachment_only o :
  only o read_mark_to_base_attachment (fun v => gpos_type_loose 4 (GposMarkToBaseAttachment v) /\
    gpos_type_ranges o (GposMarkToBaseAttachment v)).
Proof. unfold read_mark_to_base_attachment. whole. Qed.
#[global] Hint Resolve mark_to_base_attachment_only : only.

Lemma mark_to_ligature_attachment_only o :
  only o read_mark_to_ligature_attachment
    (fun v => gpos_type_loose 5 (GposMarkToLigatureAttachment v) /\
      gpos_type_ranges o (GposMarkToLigatureAttachment v)).
Proof. unfold read_mark_to_ligature_attachment. whole. Qed.
#[global] Hint Resolve mark_to_ligature_attachment_only : only.

Lemma mark_to_mark_attachment_only o :
  only o read_mark_to_mark_attachment (fun v => gpos_type_loose 6 (GposMarkToMarkAttachment v) /\
    gpos_type_ranges o (GposMarkToMarkAttachment v)).
Proof. unfold read_mark_to_mark_attachment. whole. Qed.
#[global] Hint Resolve mark_to_mark_attachment_only : only.

Lemma extension_positioning_only o :
  only o read_extension_positioning (fun v => gpos_type_loose 9 (GposExtensionPositioning v) /\
    gpos_type_ranges o (GposExtensionPositioning v)).
Proof. unfold read_extension_positioning. whole. Qed.
#[global] Hint Resolve extension_positioning_only : only.

Lemma gpos_type_only o n : only o (read_gpos_type n) (fun v => gpos_type_loose n v /\ gpos_type_ranges o v).
Proof. unfold read_gpos_type. formats. Qed.
#[global] Hint Resolve gpos_type_only : only.

(** ** [GDEF] *)

Lemma store_record_only o : only o read_store_record (fun v => store_record_wf v /\ store_record_fits o v).
Proof.
  unfold read_store_record. do 4 next.
  eapply only_bind with (P := fun l => counts (a * ((a0 + a1) mod 2 ^ 16)) l /\ Forall u8 l /\
    (overflow_checks o = true -> u16 (a0 + a1))).
  - eapply only_bind with (P := fun n => n = (a0 + a1) mod 2 ^ 16 /\
    (overflow_checks o = true -> u16 (a0 + a1))).
    + unfold add_u16, add_wrapping. apply only_ask. destruct (N.ltb_spec (a0 + a1) (2 ^ 16)).
      * apply only_ret. split; [symmetry; apply N.mod_small; assumption|]. intros _. assumption.
      * destruct (overflow_checks o); [intros v []|]. apply only_ret. split; [reflexivity|discriminate].
    + intros n [-> U]. eapply only_weaken; [part|]. cbv beta. intros l [C F]. auto.
  - intros deltas D. known. apply only_ret. settle.
Qed.
#[global] Hint Resolve store_record_only : only.

Lemma store_only o : only o read_store (fun v => store_wf v /\ store_ranges o v).
Proof. unfold read_store. whole. Qed.
#[global] Hint Resolve store_only : only.

Lemma attachment_only o : only o read_attachment (fun v => attachment_wf v /\ attachment_fits v).
Proof. unfold read_attachment. whole. Qed.
#[global] Hint Resolve attachment_only : only.

Lemma attachments_only o : only o read_attachments (fun v => attachments_loose v /\ attachments_ranges v).
Proof. unfold read_attachments. whole. Qed.
#[global] Hint Resolve attachments_only : only.

Lemma caret1_only o : only o read_caret1 (fun v => caret_loose (CaretFormat1 v) /\
  caret_ranges (CaretFormat1 v)).
Proof. unfold read_caret1. whole. Qed.
#[global] Hint Resolve caret1_only : only.

Lemma caret2_only o : only o read_caret2 (fun v => caret_loose (CaretFormat2 v) /\
  caret_ranges (CaretFormat2 v)).
Proof. unfold read_caret2. whole. Qed.
#[global] Hint Resolve caret2_only : only.

Lemma caret3_only o : only o read_caret3 (fun v => caret_loose (CaretFormat3 v) /\
  caret_ranges (CaretFormat3 v)).
Proof. unfold read_caret3. whole. Qed.
#[global] Hint Resolve caret3_only : only.

Lemma caret_only o : only o read_caret (fun v => caret_loose v /\ caret_ranges v).
Proof. unfold read_caret. formats. Qed.
#[global] Hint Resolve caret_only : only.

Lemma gdef_ligature_only o : only o read_gdef_ligature (fun v => gdef_ligature_loose v /\
  gdef_ligature_ranges v).
Proof. unfold read_gdef_ligature. whole. Qed.
#[global] Hint Resolve gdef_ligature_only : only.

Lemma gdef_ligatures_only o : only o read_gdef_ligatures (fun v => gdef_ligatures_loose v /\
  gdef_ligatures_ranges v).
Proof. unfold read_gdef_ligatures. whole. Qed.
#[global] Hint Resolve gdef_ligatures_only : only.

Lemma marks_only o : only o read_marks (fun v => marks_loose v /\ marks_ranges v).
Proof. unfold read_marks. whole. Qed.
#[global] Hint Resolve marks_only : only.

Lemma gdef_header1_only o : only o read_gdef_header1 (fun v => gdef_header_wf (GdefVersion1 v) /\
  gdef_header_ranges (GdefVersion1 v)).
Proof. unfold read_gdef_header1. whole. Qed.
#[global] Hint Resolve gdef_header1_only : only.

Lemma gdef_header12_only o : only o read_gdef_header12 (fun v => gdef_header_wf (GdefVersion12 v) /\
  gdef_header_ranges (GdefVersion12 v)).
Proof. unfold read_gdef_header12. whole. Qed.
#[global] Hint Resolve gdef_header12_only : only.

Lemma gdef_header13_only o : only o read_gdef_header13 (fun v => gdef_header_wf (GdefVersion13 v) /\
  gdef_header_ranges (GdefVersion13 v)).
Proof. unfold read_gdef_header13. whole. Qed.
#[global] Hint Resolve gdef_header13_only : only.

Lemma gdef_header_only o : only o read_gdef_header (fun v => gdef_header_wf v /\ gdef_header_ranges v).
Proof. unfold read_gdef_header. formats. Qed.
#[global] Hint Resolve gdef_header_only : only.

Lemma glyph_definition_only o : only o read_glyph_definition
  (fun v => glyph_definition_loose v /\ glyph_definition_ranges o v).
Proof.
  unfold read_glyph_definition. do 8 next. apply only_ret. split; [|settle]. unfold glyph_definition_loose.
  destruct a0 as [[]|[]|[]]; cbn -[gdef_header_wf maybe_wf presence_wf] in *;
    repeat (lazymatch goal with |- _ /\ _ => split end); assumption.
Qed.

(** ** [CPAL], [fvar], and the directory of a font *)

(** What is known of a header. *)
Definition cpal_header_known (h : CpalHeader) : Prop :=
  match h with
  | CpalVersion0 (mkCpalHeader0 version k n m offset indices) =>
      version = 0 /\ counts n indices /\ u16 k /\ u16 n /\ u16 m /\ u32 offset /\ Forall u16 indices
  | CpalVersion1 (mkCpalHeader1 version k n m offset indices) =>
      version = 1 /\ counts n indices /\ u16 k /\ u16 n /\ u16 m /\ u32 offset /\ Forall u16 indices
  end.

Lemma cpal_header0_only o : only o read_cpal_header0 (fun v => cpal_header_known (CpalVersion0 v)).
Proof. unfold read_cpal_header0. whole. Qed.
#[global] Hint Resolve cpal_header0_only : only.

Lemma cpal_header1_only o : only o read_cpal_header1 (fun v => cpal_header_known (CpalVersion1 v)).
Proof. unfold read_cpal_header1. whole. Qed.
#[global] Hint Resolve cpal_header1_only : only.

Lemma cpal_header_only o : only o read_cpal_header cpal_header_known.
Proof. unfold read_cpal_header. formats. Qed.
#[global] Hint Resolve cpal_header_only : only.

Lemma color_only o : only o read_color color_fits.
Proof. unfold read_color. whole. Qed.
#[global] Hint Resolve color_only : only.

Lemma color_palettes_only o : only o read_color_palettes (fun v => color_palettes_wf v /\
  color_palettes_ranges v).
Proof.
  unfold read_color_palettes. next. next. destruct a0 as [[]|[]]; cbn in * |-; known; cbn iota beta;
    next; apply only_ret; settle.
Qed.

Lemma fvar_header_only o : only o read_fvar_header
  (fun v => let '(mkFvarHeader major minor offset reserved n size1 m size2) := v in
  reserved = 2 /\ u16 major /\ u16 minor /\ u16 offset /\ u16 n /\ u16 size1 /\ u16 m /\ u16 size2).
Proof. unfold read_fvar_header. whole. Qed.
#[global] Hint Resolve fvar_header_only : only.

Lemma axis_record_only o : only o read_axis_record (axis_record_fits o).
Proof. unfold read_axis_record, take_axis_flags. whole. Qed.
#[global] Hint Resolve axis_record_only : only.

Lemma instance_record_only o n : only o (read_instance_record n)
  (fun v => counts n (instance_record_coordinates v) /\ instance_record_fits o v).
Proof. unfold read_instance_record, take_instance_flags. whole. Qed.
#[global] Hint Resolve instance_record_only : only.

Lemma font_variations_only o : only o read_font_variations (fun v => font_variations_wf v /\
  font_variations_ranges o v).
Proof.
  unfold read_font_variations. next. next. eapply only_bind; [apply only_any|]. intros p _. next.
  eapply only_bind; [apply only_any|]. intros q _. next. apply only_ret. destruct a0.
  known. settle.
Qed.

Lemma offset_record_only o : only o read_offset_record offset_record_fits.
Proof. unfold read_offset_record. whole. Qed.
#[global] Hint Resolve offset_record_only : only.

Lemma offsets_header_only o : only o read_offsets_header
  (fun v => let '(mkOffsetsHeader _ n a b c) := v in u16 n /\ u16 a /\ u16 b /\ u16 c).
Proof. unfold read_offsets_header. whole. Qed.
#[global] Hint Resolve offsets_header_only : only.

Lemma offsets_only o d : only o (read_offsets d)
  (fun v => counts (offsets_header_table_count (offsets_header v)) (offsets_records v) /\
    (exists t, truetype_accept d t = true) /\ offsets_fits v).
Proof.
  unfold read_offsets. next. destruct (truetype_accept d a) eqn:E; [|apply only_raise]. next. next.
  apply only_ret.
  split; [assumption|]. split; [exists a; exact E|]. destruct a0. known. settle.
Qed.

(** ** All requests *)

Lemma request_only {A} (r : request A) o : only o (steps_of r) (fun v => loose r v /\ ranges o r v).
Proof.
  destruct r; cbn [steps_of loose ranges].
  - unfold read_file, read_font. next. destruct (tag_eqb a ttcf); [apply only_raise|].
    eapply only_bind; [eapply only_bind; [apply offsets_only|]|].
    + intros v V. apply only_ret.
      instantiate (1 := fun v => counts (offsets_header_table_count (offsets_header (font_offsets v)))
        (offsets_records (font_offsets v)) /\ (exists t, truetype_accept d t = true) /\
          offsets_fits (font_offsets v)).
      exact V.
    + intros v V. cbv beta in V. known. apply only_ret. cbn. repeat split; auto.
  - unfold read_font. eapply only_bind; [apply offsets_only|]. intros v V. apply only_ret. exact V.
  - apply glyph_definition_only.
  - apply directory_only, gpos_type_only.
  - apply directory_only, gsub_type_only.
  - apply color_palettes_only.
  - apply font_variations_only.
Qed.

(** What a tape gives is something that can be given. *)
Lemma exec_can T {A} (m : steps A) o : forall s v s', exec T m o s = Gives v s' -> can o m v.
Proof.
  induction m as [a|x| |m IH|m IH|m IH|q m IH|m IH]; cbn [exec can]; intros s v s' E.
  - injection E as -> _. reflexivity.
  - discriminate.
  - discriminate.
  - exact (IH o _ _ _ E).
  - exact (IH _ _ _ E).
  - destruct (tell T s) as [[q| |] s1]; try discriminate. exists q. exact (IH q _ _ _ E).
  - destruct (seek T q s) as [[[]| |] s1]; try discriminate. exact (IH _ _ _ E).
  - destruct (take T s) as [[b| |] s1]; try discriminate. exists b. exact (IH b _ _ _ E).
Qed.
