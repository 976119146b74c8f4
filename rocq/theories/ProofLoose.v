(** What holds of every tape, whatever it answers (C80). *)

From Verif Require Export SpecLoose SpecSteps.
From Verif Require ReadsTactics ProofLayout.
From Verif Require Import Steps StepsReaders.

(** ** Steps *)

(** A position as [std::io::Seek] tells it. *)
Definition within (o : options) (q : N) : Prop := overflow_checks o = true -> q <= 2 ^ 63.

(** Whatever is told and taken, there is no panic, and what is returned has the property [P]. *)
Fixpoint holds {A} (o : options) (m : steps A) (P : A -> Prop) : Prop :=
  match m with
  | Return a => P a
  | Raise _ => True
  | Abort => False
  | Build k => holds o (k o) P
  | Loop k => holds o k P
  | Tell k => forall q, within o q -> holds o (k q) P
  | Seek _ k => holds o k P
  | Take k => forall b, holds o (k b) P
  end.

Lemma exec_holds T {A} (m : steps A) o P :
  (forall s, match tell T s with (Answer q, _) => within o q | _ => True end) -> holds o m P ->
  forall s, match exec T m o s with Gives v _ => P v | Crashes => False | _ => True end.
Proof.
  intros W. induction m as [a|x| |k IH|k IH|k IH|q k IH|k IH]; cbn [holds exec]; intros H s.
  - exact H.
  - exact I.
  - exact H.
  - exact (IH o H s).
  - exact (IH H s).
  - specialize (W s). destruct (tell T s) as [[q| |] s']; [exact (IH q (H q W) s')|exact I..].
  - destruct (seek T q s) as [[[]| |] s']; [exact (IH H s')|exact I..].
  - destruct (take T s) as [[b| |] s']; [exact (IH b (H b) s')|exact I..].
Qed.

Lemma holds_weaken {A} o (m : steps A) (P Q : A -> Prop) : holds o m P -> (forall a, P a -> Q a) -> holds o m Q.
Proof. intros H I. induction m; cbn [holds] in *; auto. Qed.

Lemma holds_bind {A B} o (m : steps A) (k : A -> steps B) P Q :
  holds o m P -> (forall a, P a -> holds o (k a) Q) -> holds o (bind m k) Q.
Proof. intros H K. induction m; cbn [holds bind] in *; auto. Qed.

(** ** Operations *)

Definition any {A} (a : A) : Prop := True.

Lemma holds_raise {A} o x (P : A -> Prop) : holds o (raise x) P.
Proof. exact I. Qed.

Lemma holds_position o : holds o get_position (within o).
Proof. cbn. auto. Qed.

Lemma holds_u8 o : holds o take_u8 any.
Proof. cbn. intros. exact I. Qed.

Lemma holds_u16 o : holds o take_u16 (fun v => v < 65536).
Proof. cbn [holds take_u16 bind take_byte ret]. intros a b. pose proof (Byte.to_N_bounded a).
  pose proof (Byte.to_N_bounded b). lia. Qed.

Lemma holds_u32 o : holds o take_u32 (fun v => v < 2 ^ 32).
Proof.
  cbn [holds take_u32 bind take_byte ret]. intros a b c d.
  pose proof (Byte.to_N_bounded a). pose proof (Byte.to_N_bounded b).
  pose proof (Byte.to_N_bounded c). pose proof (Byte.to_N_bounded d). lia.
Qed.

Lemma holds_i16 o : holds o take_i16 any.
Proof. cbn. intros. exact I. Qed.

Lemma holds_q32 o : holds o take_q32 any.
Proof. cbn. intros. exact I. Qed.

Lemma holds_tag o : holds o take_tag any.
Proof. cbn. intros. exact I. Qed.

Lemma holds_const o m c P : holds o m P -> holds o (take_const m c) (eq c).
Proof.
  intros H. unfold take_const. eapply holds_bind; [exact H|]. intros v _.
  destruct (N.eqb_spec v c); [cbn; auto|exact I].
Qed.

Lemma holds_flags o mask : holds o (take_flags mask) (fun v => v < 65536).
Proof.
  unfold take_flags. eapply holds_bind; [apply holds_u16|]. intros v H. cbn [holds bind ask].
  destruct (checked_flags o && _); [exact I|exact H].
Qed.

Lemma holds_range {A} o (f : nat -> steps A) (P : nat -> A -> Prop) : forall count i,
  (forall j, (i <= j < i + count)%nat -> holds o (f j) (P j)) ->
  holds o (for_range i count f)
    (fun l => length l = count /\ forall j v, nth_error l j = Some v -> P (i + j)%nat v).
Proof.
  induction count as [|count IH]; intros i H; cbn [for_range holds].
  - split; [reflexivity|]. intros [|j] v; discriminate.
  - eapply holds_bind; [apply H; lia|]. intros v V. eapply holds_bind; [apply IH; intros; apply H; lia|].
    intros l [L E]. cbn [ret holds]. split; [cbn; lia|]. intros [|j] w; cbn.
    + intros [= <-]. rewrite Nat.add_0_r. exact V.
    + intros N. rewrite <- plus_n_Sm. apply (E j w N).
Qed.

Lemma holds_n {A} o n (f : nat -> steps A) (P : nat -> A -> Prop) :
  (forall i, N.of_nat i < n -> holds o (f i) (P i)) ->
  holds o (for_n n f) (fun l => counts n l /\ forall i v, nth_error l i = Some v -> P i v).
Proof.
  intros H. unfold for_n. eapply holds_weaken.
  - apply (holds_range o f P). intros j L. apply H. lia.
  - intros l [L E]. split; [unfold counts; lia|exact E].
Qed.

Lemma nth_all {A} (P : A -> Prop) l : (forall i v, nth_error l i = Some v -> P v) -> Forall P l.
Proof. intros H. apply Forall_forall. intros v I. destruct (In_nth_error _ _ I) as [i E]. exact (H i v E). Qed.

Lemma holds_all {A} o n (f : nat -> steps A) (P : A -> Prop) :
  (forall i, holds o (f i) P) -> holds o (for_n n f) (fun l => counts n l /\ Forall P l).
Proof.
  intros H. eapply holds_weaken; [apply (holds_n o n f (fun _ => P)); auto|].
  intros l [C E]. split; [exact C|]. exact (nth_all P l E).
Qed.

Lemma holds_vec {A} o n (m : steps A) P :
  holds o m P -> holds o (take_vec n m) (fun l => counts n l /\ Forall P l).
Proof. intros H. apply holds_all. intros _. exact H. Qed.

Lemma holds_index {A} o (l : list A) n i (P : A -> Prop) : counts n l -> N.of_nat i < n -> Forall P l ->
  holds o (index l i) (fun v => nth_error l i = Some v /\ P v).
Proof.
  intros C L F. unfold index. destruct (nth_error l i) as [v|] eqn:E.
  - cbn. split; [reflexivity|]. rewrite Forall_forall in F. exact (F v (nth_error_In _ _ E)).
  - apply nth_error_None in E. unfold counts in C. lia.
Qed.

Lemma holds_add o p q : within o p -> q <= 2 ^ 32 -> holds o (add_u64 p q) any.
Proof.
  intros W L. unfold add_u64, add_wrapping. cbn [holds bind ask].
  destruct (p + q <? 2 ^ 64) eqn:E; [exact I|]. destruct (overflow_checks o) eqn:O; [|exact I].
  specialize (W O). apply N.ltb_ge in E. lia.
Qed.

Lemma holds_jump {A} o p q (m : steps A) P : within o p -> q <= 2 ^ 32 -> holds o m P ->
  holds o (jump_take p q m) P.
Proof. intros W L H. unfold jump_take. eapply holds_bind; [apply holds_add; assumption|].
  intros r _. exact H. Qed.

Lemma holds_maybe {A} o p q (m : steps A) P : within o p -> q <= 2 ^ 32 -> holds o m P ->
  holds o (jump_take_maybe p q m) (fun v => presence_wf q v /\ maybe_wf P v).
Proof.
  intros W L H. unfold jump_take_maybe. destruct (N.ltb_spec 0 q).
  - eapply holds_bind; [apply holds_jump; eassumption|]. intros v V. cbn. split; [|exact V].
    unfold presence_wf. split; [discriminate|lia].
  - cbn. split; [|exact I]. unfold presence_wf. split; [lia|reflexivity].
Qed.

Lemma holds_jumps {A} o p n offsets (m : steps A) P : within o p ->
  counts n offsets -> Forall (fun q => q <= 2 ^ 32) offsets -> holds o m P ->
  holds o (jump_take_n p n offsets m) (fun l => counts n l /\ Forall P l).
Proof.
  intros W C F H. unfold jump_take_n, jump_take_each. eapply holds_weaken.
  - apply (holds_n o n _ (fun _ => P)). intros i L.
    eapply holds_bind; [eapply holds_index; eassumption|]. intros q [_ Q]. apply holds_jump; assumption.
  - intros l [D E]. split; [exact D|]. exact (nth_all P l E).
Qed.

Lemma holds_maybes {A} o p n offsets (m : steps A) P : within o p ->
  counts n offsets -> Forall (fun q => q <= 2 ^ 32) offsets -> holds o m P ->
  holds o (jump_take_maybe_n p n offsets m)
    (fun l => counts n l /\ Forall (maybe_wf P) l /\ Forall2 presence_wf offsets l).
Proof.
  intros W C F H. unfold jump_take_maybe_n. eapply holds_weaken.
  - apply (holds_n o n _ (fun i v => exists q, nth_error offsets i = Some q /\ presence_wf q v /\
    maybe_wf P v)).
    intros i L. eapply holds_bind; [eapply holds_index; eassumption|]. intros q [N Q].
    eapply holds_weaken; [apply holds_maybe; eassumption|]. intros v V. exists q. split; assumption.
  - intros l [D E]. split; [exact D|]. split.
    + apply nth_all. intros i v N. destruct (E i v N) as (q & _ & _ & X). exact X.
    + unfold counts in *. assert (K : length offsets = length l) by lia. clear - E K.
      revert l E K. induction offsets as [|q offsets IH]; intros [|v l] E K; try discriminate; constructor.
      * destruct (E 0%nat v eq_refl) as (r & [= <-] & X & _). exact X.
      * apply IH; [|cbn in K; lia]. intros i w N. exact (E (S i) w N).
Qed.

Lemma holds_each {A B} o p n (l : list B) (g : B -> N) (m : steps A) P : within o p ->
  counts n l -> Forall (fun b => g b <= 2 ^ 32) l -> holds o m P ->
  holds o (jump_take_each p n (fun i => bind (index l i) (fun h => ret (g h))) m)
    (fun v => counts n v /\ Forall P v).
Proof.
  intros W C F H. unfold jump_take_each. eapply holds_weaken.
  - apply (holds_n o n _ (fun _ => P)). intros i L. eapply holds_bind.
    + eapply holds_bind; [eapply holds_index; eassumption|]. intros b [_ Q].
      instantiate (1 := fun q => q <= 2 ^ 32). exact Q.
    + intros q Q. apply holds_jump; assumption.
  - intros v [D E]. split; [exact D|]. exact (nth_all P v E).
Qed.

Lemma holds_stay {A} o (m : steps A) P : holds o m P -> holds o (stay m) P.
Proof.
  intros H. unfold stay. cbn [bind holds get_position]. intros q _. eapply holds_bind; [exact H|].
  intros a V. exact V.
Qed.

Lemma holds_peek {A} o (m : steps A) P : holds o m P -> holds o (peek m) P.
Proof. apply holds_stay. Qed.

(** ** Tactics *)

Lemma all_le n (l : list N) : Forall (fun q => q < n) l -> n <= 2 ^ 32 -> Forall (fun q => q <= 2 ^ 32) l.
Proof. intros F L. eapply Forall_impl; [|exact F]. cbn. intros; lia. Qed.

Ltac small := first [lia | eapply all_le; [eassumption|lia] | eapply Forall_impl; [|eassumption];
  cbn; intros; lia].

(** What is known of one field or part. *)
Ltac part :=
  lazymatch goal with
  | |- holds _ get_position _ => apply holds_position
  | |- holds _ take_u8 _ => apply holds_u8
  | |- holds _ take_u16 _ => apply holds_u16
  | |- holds _ take_u32 _ => apply holds_u32
  | |- holds _ take_i16 _ => apply holds_i16
  | |- holds _ take_q32 _ => apply holds_q32
  | |- holds _ take_tag _ => apply holds_tag
  | |- holds _ (take_const _ _) _ => eapply holds_const; part
  | |- holds _ (take_flags _) _ => apply holds_flags
  | |- holds _ (take_vec _ _) _ => eapply holds_vec; part
  | |- holds _ (for_n _ _) _ => eapply holds_all; intros ?; part
  | |- holds _ (jump_take _ _ _) _ => eapply holds_jump; [eassumption|small|part]
  | |- holds _ (jump_take_maybe _ _ _) _ => eapply holds_maybe; [eassumption|small|part]
  | |- holds _ (jump_take_n _ _ _ _) _ => eapply holds_jumps; [eassumption|eassumption|small|part]
  | |- holds _ (jump_take_maybe_n _ _ _ _) _ => eapply holds_maybes; [eassumption|eassumption|small|part]
  | |- holds _ (jump_take_each _ _ _ _) _ => eapply holds_each; [eassumption|eassumption|small|part]
  | |- holds _ (stay _) _ => eapply holds_stay; part
  | |- holds _ (peek _) _ => eapply holds_peek; part
  | |- _ => solve [eauto with holds]
  end.

Ltac known :=
  repeat match goal with
  | H : _ /\ _ |- _ => destruct H
  | H : any _ |- _ => clear H
  | H : _ = ?x |- _ => is_var x; subst x
  end.

Ltac next := eapply holds_bind; [part|intros ? ?; cbv beta in *; known].

Ltac done := cbn [ret holds]; first [exact I | assumption | hnf;
  repeat (lazymatch goal with |- _ /\ _ => split end); auto].

(** A [table!]. *)
Ltac whole := repeat next; done.

(** A choice between formats. *)
Ltac formats :=
  next;
  repeat lazymatch goal with
  | |- holds _ (raise _) _ => apply holds_raise
  | |- holds _ (match ?x with _ => _ end) _ => destruct x
  | |- holds _ (bind _ _) _ => next; done
  end.

(** ** Common structures *)

Lemma coverage_record_holds o : holds o read_coverage_record any.
Proof. unfold read_coverage_record. whole. Qed.
#[global] Hint Resolve coverage_record_holds : holds.

Lemma coverage1_holds o : holds o read_coverage1 (fun v => coverage_loose (CoverageFormat1 v)).
Proof. unfold read_coverage1. whole. Qed.
#[global] Hint Resolve coverage1_holds : holds.

Lemma coverage2_holds o : holds o read_coverage2 (fun v => coverage_loose (CoverageFormat2 v)).
Proof. unfold read_coverage2. whole. Qed.
#[global] Hint Resolve coverage2_holds : holds.

Lemma coverage_holds o : holds o read_coverage coverage_loose.
Proof. unfold read_coverage. formats. Qed.
#[global] Hint Resolve coverage_holds : holds.

Lemma class_record_holds o : holds o read_class_record any.
Proof. unfold read_class_record. whole. Qed.
#[global] Hint Resolve class_record_holds : holds.

Lemma class1_holds o : holds o read_class1 (fun v => class_loose (ClassFormat1 v)).
Proof. unfold read_class1. whole. Qed.
#[global] Hint Resolve class1_holds : holds.

Lemma class2_holds o : holds o read_class2 (fun v => class_loose (ClassFormat2 v)).
Proof. unfold read_class2. whole. Qed.
#[global] Hint Resolve class2_holds : holds.

Lemma class_holds o : holds o read_class class_loose.
Proof. unfold read_class. formats. Qed.
#[global] Hint Resolve class_holds : holds.

Lemma device_holds o : holds o read_device (fun v => correction_wf (CorrectionDevice v)).
Proof.
  unfold read_device. next. next. destruct (_ <? _) eqn:E; [apply holds_raise|]. next.
  destruct (_ || _) eqn:F; [apply holds_raise|]. cbv zeta. next. cbn [ret holds correction_wf].
  apply N.ltb_ge in E. apply orb_false_iff in F as [F G]. apply N.eqb_neq in F. apply N.ltb_ge in G.
  rewrite ProofLayout.device_word_count, N.shiftl_1_l in *. repeat split; [lia..|assumption].
Qed.
#[global] Hint Resolve device_holds : holds.

Lemma variation_holds o : holds o read_variation any.
Proof. unfold read_variation. whole. Qed.
#[global] Hint Resolve variation_holds : holds.

Lemma correction_holds o : holds o read_correction correction_loose.
Proof.
  unfold read_correction. eapply holds_bind; [apply holds_peek; next; part|]. intros value _.
  destruct (_ && _); [next; done|]. destruct (_ =? _); [next; done|apply holds_raise].
Qed.
#[global] Hint Resolve correction_holds : holds.

(** The rest of a rule: all glyphs but the first. *)
Lemma rest_holds {A} o n (m : steps A) P : holds o m P ->
  holds o (if n =? 0 then raise Malformed else take_vec (n - 1) m) (fun l => counts_rest n l /\ Forall P l).
Proof.
  intros H. destruct (N.eqb_spec n 0); [apply holds_raise|]. eapply holds_weaken; [apply holds_vec, H|].
  intros l [C F]. split; [|exact F]. unfold counts in C. unfold counts_rest. lia.
Qed.

Lemma action_holds o : holds o read_action any.
Proof. unfold read_action. whole. Qed.
#[global] Hint Resolve rest_holds holds_u16 action_holds : holds.

Lemma context_record_holds o : holds o read_context_record context_record_wf.
Proof. unfold read_context_record. whole. Qed.
#[global] Hint Resolve context_record_holds : holds.

Lemma context_records_holds o : holds o read_context_records context_records_wf.
Proof. unfold read_context_records. whole. Qed.
#[global] Hint Resolve context_records_holds : holds.

Lemma context_class_record_holds o : holds o read_context_class_record context_class_record_wf.
Proof. unfold read_context_class_record. whole. Qed.
#[global] Hint Resolve context_class_record_holds : holds.

Lemma context_class_records_holds o : holds o read_context_class_records context_class_records_wf.
Proof. unfold read_context_class_records. whole. Qed.
#[global] Hint Resolve context_class_records_holds : holds.

Lemma chained_record_holds o : holds o read_chained_record chained_record_wf.
Proof. unfold read_chained_record. whole. Qed.
#[global] Hint Resolve chained_record_holds : holds.

Lemma chained_records_holds o : holds o read_chained_records chained_records_wf.
Proof. unfold read_chained_records. whole. Qed.
#[global] Hint Resolve chained_records_holds : holds.

Lemma chained_class_record_holds o : holds o read_chained_class_record chained_class_record_wf.
Proof. unfold read_chained_class_record. whole. Qed.
#[global] Hint Resolve chained_class_record_holds : holds.

Lemma chained_class_records_holds o : holds o read_chained_class_records chained_class_records_wf.
Proof. unfold read_chained_class_records. whole. Qed.
#[global] Hint Resolve chained_class_records_holds : holds.

Lemma context1_holds o : holds o read_context1 (fun v => context_loose (ContextFormat1 v)).
Proof. unfold read_context1. whole. Qed.

Lemma context2_holds o : holds o read_context2 (fun v => context_loose (ContextFormat2 v)).
Proof. unfold read_context2. whole. Qed.

Lemma context3_holds o : holds o read_context3 (fun v => context_loose (ContextFormat3 v)).
Proof. unfold read_context3. whole. Qed.
#[global] Hint Resolve context1_holds context2_holds context3_holds : holds.

Lemma context_holds o : holds o read_context context_loose.
Proof. unfold read_context. formats. Qed.
#[global] Hint Resolve context_holds : holds.

Lemma chained_context1_holds o : holds o read_chained_context1
  (fun v => chained_context_loose (ChainedContextFormat1 v)).
Proof. unfold read_chained_context1. whole. Qed.

Lemma chained_context2_holds o : holds o read_chained_context2
  (fun v => chained_context_loose (ChainedContextFormat2 v)).
Proof. unfold read_chained_context2. whole. Qed.

Lemma chained_context3_holds o : holds o read_chained_context3
  (fun v => chained_context_loose (ChainedContextFormat3 v)).
Proof. unfold read_chained_context3. whole. Qed.
#[global] Hint Resolve chained_context1_holds chained_context2_holds chained_context3_holds : holds.

Lemma chained_context_holds o : holds o read_chained_context chained_context_loose.
Proof. unfold read_chained_context. formats. Qed.
#[global] Hint Resolve chained_context_holds : holds.

(** ** The directory *)

Lemma language_header_holds o : holds o read_language_header (fun v => language_header_offset v < 65536).
Proof. unfold read_language_header. whole. Qed.
#[global] Hint Resolve language_header_holds : holds.

Lemma language_record_holds o : holds o read_language_record language_record_wf.
Proof. unfold read_language_record. whole. Qed.
#[global] Hint Resolve language_record_holds : holds.

Lemma script_header_holds o : holds o read_script_header (fun v => script_header_offset v < 65536).
Proof. unfold read_script_header. whole. Qed.
#[global] Hint Resolve script_header_holds : holds.

Lemma script_record_holds o : holds o read_script_record script_record_wf.
Proof. unfold read_script_record. whole. Qed.
#[global] Hint Resolve script_record_holds : holds.

Lemma scripts_holds o : holds o read_scripts scripts_wf.
Proof. unfold read_scripts. whole. Qed.
#[global] Hint Resolve scripts_holds : holds.

Lemma feature_header_holds o : holds o read_feature_header (fun v => feature_header_offset v < 65536).
Proof. unfold read_feature_header. whole. Qed.
#[global] Hint Resolve feature_header_holds : holds.

Lemma feature_record_holds o : holds o read_feature_record feature_record_wf.
Proof.
  unfold read_feature_record. next. next. next. next. destruct (N.ltb_spec 0 a0).
  - eapply holds_bind.
    + eapply holds_bind; [apply holds_add; [eassumption|lia]|]. intros ? _. cbn [jump bind holds].
      eapply holds_bind; [part|]. intros bytes _. instantiate (1 := fun v => v <> None). discriminate.
    + intros v V. done. unfold presence_wf. split; [contradiction|lia].
  - cbn [bind ret holds]. done. unfold presence_wf. split; [lia|reflexivity].
Qed.
#[global] Hint Resolve feature_record_holds : holds.

Lemma features_holds o : holds o read_features features_wf.
Proof. unfold read_features. whole. Qed.
#[global] Hint Resolve features_holds : holds.

Lemma feature_variations_holds o : holds o read_feature_variations feature_variations_wf.
Proof. unfold read_feature_variations. whole. Qed.
#[global] Hint Resolve feature_variations_holds : holds.

Lemma lookup_record_holds {T} o (read_table : N -> steps T) P :
  (forall n, holds o (read_table n) (P n)) -> holds o (read_lookup_record read_table) (lookup_record_wf P).
Proof.
  intros H. unfold read_lookup_record, take_lookup_flags. do 5 next.
  eapply holds_bind with (P := fun set => set = None <-> N.testbit a1 4 = false).
  - unfold has_mark_filtering. change 0x0010 with (2 ^ 4). rewrite ReadsTactics.has_flag_bit.
    destruct (N.testbit a1 4).
    + next. cbn. split; discriminate.
    + cbn. split; reflexivity.
  - intros set E. next. done.
Qed.
#[global] Hint Resolve lookup_record_holds : holds.

Lemma lookups_holds {T} o (read_table : N -> steps T) P :
  (forall n, holds o (read_table n) (P n)) -> holds o (read_lookups read_table) (lookups_wf P).
Proof. intros H. unfold read_lookups. whole. Qed.
#[global] Hint Resolve lookups_holds : holds.

Lemma list_holds {A} o p q (m : steps A) default P : within o p -> q <= 2 ^ 32 -> holds o m P -> P default ->
  holds o (jump_take_list p q m default) P.
Proof.
  intros W L H D. unfold jump_take_list. cbn [bind ask holds]. destruct (ignore_incomplete_directories o).
  - eapply holds_bind; [apply holds_maybe; eassumption|]. intros [v|] [_ V]; assumption.
  - apply holds_jump; assumption.
Qed.

Lemma directory_holds {T} o (read_table : N -> steps T) P :
  (forall n, holds o (read_table n) (P n)) -> holds o (read_directory read_table) (directory_wf P).
Proof.
  intros H. unfold read_directory. next. next. next.
  destruct (_ && _) eqn:E; [|exact I]. cbn [bind ret]. apply andb_prop in E as [E F].
  apply N.eqb_eq in E. subst a0.
  do 3 next.
  eapply holds_bind with (P := fun q => q < 2 ^ 32 /\ (a1 = 0 -> q = 0)).
  { cbn [N.eqb Pos.eqb andb]. destruct (N.eqb_spec a1 1); [|cbn; lia].
    eapply holds_weaken; [apply holds_u32|]. cbn. lia. }
  intros variation_offset [L Z].
  eapply holds_bind; [eapply list_holds; [eassumption|small|part|]|].
  { hnf. repeat split. constructor. }
  intros scripts S. eapply holds_bind; [eapply list_holds; [eassumption|small|part|]|].
  { hnf. repeat split. constructor. }
  intros features G. eapply holds_bind; [eapply list_holds; [eassumption|small|apply lookups_holds, H|]|].
  { hnf. repeat split. constructor. }
  intros lookups K. next. cbn [ret holds]. hnf. apply orb_prop in F.
  repeat (lazymatch goal with |- _ /\ _ => split end); auto.
  - destruct F as [F|F]; apply N.eqb_eq in F; auto.
  - intros M. match goal with X : presence_wf _ _ |- _ => apply X end. auto.
Qed.
#[global] Hint Resolve directory_holds : holds.

(** ** [GSUB] *)

Lemma alternates_holds o : holds o read_alternates alternates_wf.
Proof. unfold read_alternates. whole. Qed.

Lemma ligature_holds o : holds o read_ligature ligature_wf.
Proof. unfold read_ligature. whole. Qed.
#[global] Hint Resolve alternates_holds ligature_holds : holds.

Lemma ligatures_holds o : holds o read_ligatures ligatures_wf.
Proof. unfold read_ligatures. whole. Qed.

Lemma sequence_holds o : holds o read_sequence sequence_wf.
Proof. unfold read_sequence. whole. Qed.

Lemma single_substitution1_holds o :
  holds o read_single_substitution1 (fun v => single_substitution_loose (SingleSubstitutionFormat1 v)).
Proof. unfold read_single_substitution1. whole. Qed.

Lemma single_substitution2_holds o :
  holds o read_single_substitution2 (fun v => single_substitution_loose (SingleSubstitutionFormat2 v)).
Proof. unfold read_single_substitution2. whole. Qed.
#[global] Hint Resolve ligatures_holds sequence_holds single_substitution1_holds
  single_substitution2_holds : holds.

Lemma single_substitution_holds o : holds o read_single_substitution single_substitution_loose.
Proof. unfold read_single_substitution. formats. Qed.

Lemma multiple_substitution_holds o :
  holds o read_multiple_substitution (fun v => gsub_type_loose 2 (GsubMultipleSubstitution v)).
Proof. unfold read_multiple_substitution. whole. Qed.

Lemma alternate_substitution_holds o :
  holds o read_alternate_substitution (fun v => gsub_type_loose 3 (GsubAlternateSubstitution v)).
Proof. unfold read_alternate_substitution. whole. Qed.

Lemma ligature_substitution_holds o :
  holds o read_ligature_substitution (fun v => gsub_type_loose 4 (GsubLigatureSubstitution v)).
Proof. unfold read_ligature_substitution. whole. Qed.

Lemma extension_substitution_holds o :
  holds o read_extension_substitution (fun v => gsub_type_loose 7 (GsubExtensionSubstitution v)).
Proof. unfold read_extension_substitution. whole. Qed.

Lemma reverse_holds o : holds o read_reverse_chained_contextual_substibution
  (fun v => gsub_type_loose 8 (GsubReverseChainedContextualSubstibution v)).
Proof. unfold read_reverse_chained_contextual_substibution. whole. Qed.
#[global] Hint Resolve single_substitution_holds multiple_substitution_holds alternate_substitution_holds
  ligature_substitution_holds extension_substitution_holds reverse_holds : holds.

Ltac types :=
  repeat lazymatch goal with
  | |- holds _ (raise _) _ => apply holds_raise
  | |- holds _ (match ?x with _ => _ end) _ => destruct x
  | |- holds _ (bind _ _) _ => next; done
  end.

Lemma gsub_type_holds o n : holds o (read_gsub_type n) (gsub_type_loose n).
Proof. unfold read_gsub_type. types. Qed.

(** ** [GPOS] *)

Lemma anchor1_holds o : holds o read_anchor1 any.
Proof. unfold read_anchor1. whole. Qed.

Lemma anchor2_holds o : holds o read_anchor2 any.
Proof. unfold read_anchor2. whole. Qed.

Lemma anchor3_holds o : holds o read_anchor3 (fun v => anchor_loose (AnchorFormat3 v)).
Proof. unfold read_anchor3. whole. Qed.
#[global] Hint Resolve anchor1_holds anchor2_holds anchor3_holds : holds.

Lemma anchor_holds o : holds o read_anchor anchor_loose.
Proof. unfold read_anchor. formats. Qed.
#[global] Hint Resolve anchor_holds : holds.

Lemma base_holds o p n : within o p -> holds o (read_base p n) (base_loose n).
Proof. intros W. unfold read_base. whole. Qed.

Lemma component_holds o p n : within o p -> holds o (read_component p n) (component_loose n).
Proof. intros W. unfold read_component. whole. Qed.

Lemma mark2_holds o p n : within o p -> holds o (read_mark2 p n) (mark2_loose n).
Proof. intros W. unfold read_mark2. whole. Qed.
#[global] Hint Resolve base_holds component_holds mark2_holds : holds.

Lemma bases_holds o n : holds o (read_bases n) (bases_loose n).
Proof. unfold read_bases. whole. Qed.

Lemma gpos_ligature_holds o n : holds o (read_gpos_ligature n) (gpos_ligature_loose n).
Proof. unfold read_gpos_ligature. whole. Qed.
#[global] Hint Resolve bases_holds gpos_ligature_holds : holds.

Lemma gpos_ligatures_holds o n : holds o (read_gpos_ligatures n) (gpos_ligatures_loose n).
Proof. unfold read_gpos_ligatures. whole. Qed.

Lemma mark2s_holds o n : holds o (read_mark2s n) (mark2s_loose n).
Proof. unfold read_mark2s. whole. Qed.

Lemma mark1_holds o p : within o p -> holds o (read_mark1 p) mark1_loose.
Proof.
  intros W. unfold read_mark1. next. next. cbn [bind ask holds]. eapply holds_bind with (P := anchor_loose).
  - destruct (ignore_incomplete_marks o); [|part]. next. destruct a1; done.
  - intros anchor V. done.
Qed.
#[global] Hint Resolve gpos_ligatures_holds mark2s_holds mark1_holds : holds.

Lemma mark1s_holds o : holds o read_mark1s mark1s_loose.
Proof. unfold read_mark1s. whole. Qed.

Lemma connection_holds o p : within o p -> holds o (read_connection p) connection_loose.
Proof.
  intros W. unfold read_connection. next. next. eapply holds_bind.
  - eapply holds_stay. next. next. cbn [ret holds].
    instantiate (1 := fun v => presence_wf a (fst v) /\ maybe_wf anchor_loose (fst v) /\
      presence_wf a0 (snd v) /\ maybe_wf anchor_loose (snd v)). cbn. auto.
  - intros [x y] V. cbn [fst snd] in V. known. done.
Qed.
#[global] Hint Resolve mark1s_holds connection_holds : holds.

Lemma if_holds {A} o flags k (m : steps A) P : holds o m P ->
  holds o (take_if (has_flag flags (2 ^ k)) m) (fun v => announced flags k v /\ maybe_wf P v).
Proof.
  intros H. rewrite ReadsTactics.has_flag_bit. unfold take_if, announced. destruct (N.testbit flags k).
  - eapply holds_bind; [exact H|]. intros v V. cbn. split; [split; discriminate|exact V].
  - cbn. split; [split; reflexivity|exact I].
Qed.

Lemma linked_holds o p offset : within o p -> maybe_wf (fun q => q < 65536) offset ->
  holds o (take_linked p offset) (corrected_loose offset).
Proof.
  intros W L. unfold take_linked. destruct offset as [offset|]; [|reflexivity]. cbn in L.
  apply holds_maybe; [exact W|lia|apply correction_holds].
Qed.

Lemma single_holds o p flags : within o p -> holds o (read_single p flags) (single_loose flags).
Proof.
  intros W. unfold read_single.
  eapply holds_bind; [eapply (if_holds o flags 0); part|intros ? [? _]].
  eapply holds_bind; [eapply (if_holds o flags 1); part|intros ? [? _]].
  eapply holds_bind; [eapply (if_holds o flags 2); part|intros ? [? _]].
  eapply holds_bind; [eapply (if_holds o flags 3); part|intros ? [? _]].
  eapply holds_bind; [eapply (if_holds o flags 4); part|intros ? [? ?]].
  eapply holds_bind; [eapply (if_holds o flags 5); part|intros ? [? ?]].
  eapply holds_bind; [eapply (if_holds o flags 6); part|intros ? [? ?]].
  eapply holds_bind; [eapply (if_holds o flags 7); part|intros ? [? ?]].
  eapply holds_bind.
  - eapply holds_stay. do 4 (eapply holds_bind; [eapply linked_holds; eassumption|intros ? ?]). cbn [ret holds].
    instantiate (1 := fun v => let '(b, c, d, e) := v in
      corrected_loose a3 b /\ corrected_loose a4 c /\ corrected_loose a5 d /\ corrected_loose a6 e).
    cbn. auto.
  - intros [[[b c] d] e] V. known. done.
Qed.
#[global] Hint Resolve single_holds : holds.

Lemma value_holds o p flags : within o p ->
  holds o (if 0 <? flags then bind (read_single p flags) (fun v => ret (Some v)) else ret None)
    (value_loose flags).
Proof.
  intros W. unfold value_loose. destruct (N.ltb_spec 0 flags).
  - next. cbn. split; [split; [discriminate|lia]|assumption].
  - cbn. split; [split; [lia|reflexivity]|exact I].
Qed.
#[global] Hint Resolve value_holds : holds.

Lemma pair1_holds o p x y : within o p -> holds o (read_pair1 p x y) (pair1_loose x y).
Proof. intros W. unfold read_pair1. whole. Qed.

Lemma pair2_holds o p x y : within o p -> holds o (read_pair2 p x y) (pair2_loose x y).
Proof. intros W. unfold read_pair2. whole. Qed.
#[global] Hint Resolve pair1_holds pair2_holds : holds.

Lemma pair1s_holds o x y : holds o (read_pair1s x y) (pair1s_loose x y).
Proof. unfold read_pair1s. whole. Qed.

Lemma pair2s_holds o p n x y : within o p -> holds o (read_pair2s p n x y) (pair2s_loose n x y).
Proof. intros W. unfold read_pair2s. whole. Qed.
#[global] Hint Resolve pair1s_holds pair2s_holds : holds.

Lemma single_adjustment1_holds o : holds o read_single_adjustment1
  (fun v => gpos_type_loose 1 (GposSingleAdjustment (SingleAdjustmentFormat1 v))).
Proof. unfold read_single_adjustment1, take_value_flags. whole. Qed.

Lemma single_adjustment2_holds o : holds o read_single_adjustment2
  (fun v => gpos_type_loose 1 (GposSingleAdjustment (SingleAdjustmentFormat2 v))).
Proof. unfold read_single_adjustment2, take_value_flags. whole. Qed.

Lemma pair_adjustment1_holds o : holds o read_pair_adjustment1
  (fun v => gpos_type_loose 2 (GposPairAdjustment (PairAdjustmentFormat1 v))).
Proof. unfold read_pair_adjustment1, take_value_flags. whole. Qed.

Lemma pair_adjustment2_holds o : holds o read_pair_adjustment2
  (fun v => gpos_type_loose 2 (GposPairAdjustment (PairAdjustmentFormat2 v))).
Proof. unfold read_pair_adjustment2, take_value_flags. whole. Qed.
#[global] Hint Resolve single_adjustment1_holds single_adjustment2_holds pair_adjustment1_holds
  pair_adjustment2_holds : holds.

Lemma single_adjustment_holds o :
  holds o read_single_adjustment (fun v => gpos_type_loose 1 (GposSingleAdjustment v)).
Proof. unfold read_single_adjustment. formats. Qed.

Lemma pair_adjustment_holds o : holds o read_pair_adjustment
  (fun v => gpos_type_loose 2 (GposPairAdjustment v)).
Proof. unfold read_pair_adjustment. formats. Qed.

Lemma cursive_holds o : holds o read_cursive_attachment (fun v => gpos_type_loose 3 (GposCursiveAttachment v)).
Proof. unfold read_cursive_attachment. whole. Qed.

Lemma mark_to_base_holds o :
  holds o read_mark_to_base_attachment (fun v => gpos_type_loose 4 (GposMarkToBaseAttachment v)).
Proof. unfold read_mark_to_base_attachment. whole. Qed.

Lemma mark_to_ligature_holds o :
  holds o read_mark_to_ligature_attachment (fun v => gpos_type_loose 5 (GposMarkToLigatureAttachment v)).
Proof. unfold read_mark_to_ligature_attachment. whole. Qed.

Lemma mark_to_mark_holds o :
  holds o read_mark_to_mark_attachment (fun v => gpos_type_loose 6 (GposMarkToMarkAttachment v)).
Proof. unfold read_mark_to_mark_attachment. whole. Qed.

Lemma extension_positioning_holds o :
  holds o read_extension_positioning (fun v => gpos_type_loose 9 (GposExtensionPositioning v)).
Proof. unfold read_extension_positioning. whole. Qed.
#[global] Hint Resolve single_adjustment_holds pair_adjustment_holds cursive_holds mark_to_base_holds
  mark_to_ligature_holds mark_to_mark_holds extension_positioning_holds : holds.

Lemma gpos_type_holds o n : holds o (read_gpos_type n) (gpos_type_loose n).
Proof. unfold read_gpos_type. types. Qed.

(** ** [GDEF] *)

Lemma store_record_holds o : overflow_checks o = false -> holds o read_store_record store_record_wf.
Proof.
  intros O. unfold read_store_record. do 4 next.
  eapply holds_bind with (P := counts (a * ((a0 + a1) mod 2 ^ 16))).
  - eapply holds_bind with (P := eq ((a0 + a1) mod 2 ^ 16)).
    + unfold add_u16, add_wrapping. cbn [bind ask holds]. destruct (N.ltb_spec (a0 + a1) (2 ^ 16)).
      * cbn [ret holds]. apply N.mod_small. assumption.
      * rewrite O. reflexivity.
    + intros ? <-. eapply holds_weaken; [part|]. intros l [C _]. exact C.
  - intros deltas D. done.
Qed.
#[global] Hint Resolve store_record_holds : holds.

Lemma store_holds o : overflow_checks o = false -> holds o read_store store_wf.
Proof. intros O. unfold read_store. whole. Qed.

Lemma attachment_holds o : holds o read_attachment attachment_wf.
Proof. unfold read_attachment. whole. Qed.
#[global] Hint Resolve store_holds attachment_holds : holds.

Lemma attachments_holds o : holds o read_attachments attachments_loose.
Proof. unfold read_attachments. whole. Qed.

Lemma caret1_holds o : holds o read_caret1 any.
Proof. unfold read_caret1. whole. Qed.

Lemma caret2_holds o : holds o read_caret2 any.
Proof. unfold read_caret2. whole. Qed.

Lemma caret3_holds o : holds o read_caret3 (fun v => caret_loose (CaretFormat3 v)).
Proof. unfold read_caret3. whole. Qed.
#[global] Hint Resolve attachments_holds caret1_holds caret2_holds caret3_holds : holds.

Lemma caret_holds o : holds o read_caret caret_loose.
Proof. unfold read_caret. formats. Qed.
#[global] Hint Resolve caret_holds : holds.

Lemma gdef_ligature_holds o : holds o read_gdef_ligature gdef_ligature_loose.
Proof. unfold read_gdef_ligature. whole. Qed.
#[global] Hint Resolve gdef_ligature_holds : holds.

Lemma gdef_ligatures_holds o : holds o read_gdef_ligatures gdef_ligatures_loose.
Proof. unfold read_gdef_ligatures. whole. Qed.

Lemma marks_holds o : holds o read_marks marks_loose.
Proof. unfold read_marks. whole. Qed.
#[global] Hint Resolve gdef_ligatures_holds marks_holds : holds.

(** The offsets of a header. *)
Definition near (h : GdefHeader) : Prop :=
  gdef_header_wf h /\
  gdef_glyph_class_offset h < 65536 /\ gdef_attachment_offset h < 65536 /\ gdef_ligature_offset h < 65536 /\
  gdef_mark_class_offset h < 65536 /\ gdef_mark_offset h < 65536 /\ gdef_mark_offset_of_version13 h < 65536.

Lemma gdef_header1_holds o : holds o read_gdef_header1 (fun v => near (GdefVersion1 v)).
Proof. unfold read_gdef_header1. repeat next. repeat split; first [assumption|reflexivity]. Qed.

Lemma gdef_header12_holds o : holds o read_gdef_header12 (fun v => near (GdefVersion12 v)).
Proof. unfold read_gdef_header12. repeat next. repeat split; first [assumption|reflexivity]. Qed.

Lemma gdef_header13_holds o : holds o read_gdef_header13 (fun v => near (GdefVersion13 v)).
Proof. unfold read_gdef_header13. repeat next. repeat split; first [assumption|reflexivity]. Qed.
#[global] Hint Resolve gdef_header1_holds gdef_header12_holds gdef_header13_holds : holds.

Lemma gdef_header_holds o : holds o read_gdef_header near.
Proof. unfold read_gdef_header. formats. Qed.
#[global] Hint Resolve gdef_header_holds : holds.

Lemma glyph_definition_holds o : overflow_checks o = false ->
  holds o read_glyph_definition glyph_definition_loose.
Proof.
  intros O. unfold read_glyph_definition. next. next. unfold near in *. known. do 6 next.
  cbn [ret holds]. unfold glyph_definition_loose.
  destruct a0 as [[]|[]|[]]; cbn -[gdef_header_wf maybe_wf presence_wf] in *;
    repeat (lazymatch goal with |- _ /\ _ => split end); assumption.
Qed.

(** ** [CPAL], [fvar], and the directory of a font *)

Lemma cpal_header0_holds o : holds o read_cpal_header0 (fun v =>
  cpal_header0_version v = 0 /\ counts (cpal_header0_palette_count v) (cpal_header0_color_indices v) /\
  cpal_header0_color_offset v < 2 ^ 32).
Proof. unfold read_cpal_header0. repeat next. cbn -[counts N.lt N.pow]. auto. Qed.

Lemma cpal_header1_holds o : holds o read_cpal_header1 (fun v =>
  cpal_header1_version v = 1 /\ counts (cpal_header1_palette_count v) (cpal_header1_color_indices v) /\
  cpal_header1_color_offset v < 2 ^ 32).
Proof. unfold read_cpal_header1. repeat next. cbn -[counts N.lt N.pow]. auto. Qed.

Lemma color_holds o : holds o read_color any.
Proof. unfold read_color. whole. Qed.
#[global] Hint Resolve cpal_header0_holds cpal_header1_holds color_holds : holds.

Lemma color_palettes_holds o : holds o read_color_palettes color_palettes_wf.
Proof.
  unfold read_color_palettes. next. unfold read_cpal_header.
  eapply holds_bind with (P := fun h => match h with
    | CpalVersion0 v =>
        cpal_header0_version v = 0 /\ counts (cpal_header0_palette_count v) (cpal_header0_color_indices v) /\
        cpal_header0_color_offset v < 2 ^ 32
    | CpalVersion1 v =>
        cpal_header1_version v = 1 /\ counts (cpal_header1_palette_count v) (cpal_header1_color_indices v) /\
        cpal_header1_color_offset v < 2 ^ 32
    end).
  - next. destruct a0 as [|[]]; first [apply holds_raise|next; cbn [ret holds]; auto].
  - intros [[u v n m q l]|[u v n m q l]] (K & C & L); cbn in K, C, L; cbn iota beta; subst u.
    + eapply holds_bind; [eapply holds_jump; [eassumption|cbn; lia|part]|]. intros colors [D _]. done.
    + eapply holds_bind; [eapply holds_jump; [eassumption|cbn; lia|part]|]. intros colors [D _]. done.
Qed.

Lemma fvar_header_holds o : holds o read_fvar_header (fun v => fvar_header_reserved v = 2 /\
  fvar_header_axis_offset v < 65536 /\ fvar_header_axis_count v < 65536 /\ fvar_header_axis_size v < 65536 /\
  fvar_header_instance_count v < 65536 /\ fvar_header_instance_size v < 65536).
Proof. unfold read_fvar_header. repeat next. cbn -[N.lt]. repeat split; lia. Qed.

Lemma axis_record_holds o : holds o read_axis_record any.
Proof. unfold read_axis_record, take_axis_flags. whole. Qed.

Lemma instance_record_holds o n :
  holds o (read_instance_record n) (fun v => counts n (instance_record_coordinates v)).
Proof. unfold read_instance_record, take_instance_flags. whole. Qed.
#[global] Hint Resolve fvar_header_holds axis_record_holds instance_record_holds : holds.

Lemma sum_holds o p q : (overflow_checks o = true -> p + q < 2 ^ 64) ->
  holds o (add_u64 p q) (fun r => overflow_checks o = true -> r = p + q).
Proof.
  intros W. unfold add_u64, add_wrapping. cbn [holds bind ask].
  destruct (N.ltb_spec (p + q) (2 ^ 64)) as [E|E]; [cbn; auto|]. destruct (overflow_checks o) eqn:O.
  - specialize (W eq_refl). lia.
  - cbn. discriminate.
Qed.

Lemma leap_holds {A} o p q (m : steps A) P : (overflow_checks o = true -> p + q < 2 ^ 64) -> holds o m P ->
  holds o (jump_take p q m) P.
Proof. intros W H. unfold jump_take. eapply holds_bind; [apply sum_holds, W|]. intros r _. exact H. Qed.

Lemma font_variations_holds o : holds o read_font_variations font_variations_wf.
Proof.
  unfold read_font_variations. next. next. unfold within in *.
  eapply holds_bind; [apply sum_holds; intros O; specialize (H O); lia|]. intros p P.
  eapply holds_bind with (P := counts (fvar_header_axis_count a0)).
  { eapply holds_weaken; [apply (holds_n o _ _ (fun _ => any))|intros l [C _]; exact C].
    intros i L. apply leap_holds; [|apply axis_record_holds]. intros O. specialize (H O). rewrite (P O). nia. }
  intros axes C. eapply holds_bind; [apply sum_holds; intros O; specialize (H O); rewrite (P O); nia|].
  intros q Q. eapply holds_bind.
  { apply (holds_n o _ _ (fun _ v => counts (fvar_header_axis_count a0) (instance_record_coordinates v))).
    intros i L. apply leap_holds; [|apply instance_record_holds]. intros O. specialize (H O).
    rewrite (Q O), (P O). nia. }
  intros instances [D E]. cbn [ret holds]. apply nth_all in E. destruct a0. cbn in *. auto.
Qed.

Lemma offset_record_holds o : holds o read_offset_record any.
Proof. unfold read_offset_record. whole. Qed.

Lemma offsets_header_holds o : holds o read_offsets_header any.
Proof. unfold read_offsets_header. whole. Qed.
#[global] Hint Resolve offset_record_holds offsets_header_holds : holds.

Lemma offsets_holds o d :
  holds o (read_offsets d) (fun v => counts (offsets_header_table_count (offsets_header v))
    (offsets_records v)).
Proof. unfold read_offsets. next. destruct (truetype_accept d a); [|apply holds_raise]. whole. Qed.

(** ** All requests *)

Lemma request_holds {A} (r : request A) o : (is_gdef r = true -> overflow_checks o = false) ->
  holds o (steps_of r) (loose r).
Proof.
  intros G. destruct r; cbn [steps_of loose].
  - unfold read_file, read_font. next. destruct (tag_eqb a ttcf); [apply holds_raise|].
    eapply holds_bind; [eapply holds_bind; [apply offsets_holds|]|].
    + intros v V. instantiate (1 := fun v =>
      counts (offsets_header_table_count (offsets_header (font_offsets v)))
        (offsets_records (font_offsets v))). exact V.
    + intros v V. exact V.
  - unfold read_font. eapply holds_bind; [apply offsets_holds|]. intros v V. exact V.
  - apply glyph_definition_holds, G. reflexivity.
  - apply directory_holds, gpos_type_holds.
  - apply directory_holds, gsub_type_holds.
  - apply color_palettes_holds.
  - apply font_variations_holds.
Qed.

Lemma exec_bind T {A B} (m : steps A) (k : A -> steps B) o s :
  exec T (bind m k) o s =
  match exec T m o s with
  | Gives a s' => exec T (k a) o s'
  | Refuses x => Refuses x
  | Crashes => Crashes
  | Breaks => Breaks
  end.
Proof.
  revert s. induction m as [a|x| |m IH|m IH|m IH|q m IH|m IH]; intros s; cbn; auto.
  - destruct (tell T s) as [[q| |] s']; auto.
  - destruct (seek T q s) as [[[]| |] s']; auto.
  - destruct (take T s) as [[b| |] s']; auto.
Qed.

Lemma request_any {A} (r : request A) T o :
  (overflow_checks o = true -> is_gdef r = false /\
    forall s, match tell T s with (Answer q, _) => q <= 2 ^ 63 | _ => True end) ->
  forall s, match exec T (steps_of r) o s with Gives v _ => loose r v | Crashes => False | _ => True end.
Proof.
  intros H. apply exec_holds.
  - intros s. destruct (tell T s) as [[q| |] s'] eqn:E; auto. intros O. destruct (H O) as [_ W].
    specialize (W s). rewrite E in W. exact W.
  - apply request_holds. intros G. destruct (overflow_checks o) eqn:O; [|reflexivity].
    destruct (H eq_refl) as [X _]. congruence.
Qed.

Lemma take_any {A} checksum_of this t (r : request A) T o :
  (overflow_checks o = true -> is_gdef r = false /\
    forall s, match tell T s with (Answer q, _) => q <= 2 ^ 63 | _ => True end) ->
  (forall record s, exec T (checksum_of record) o s <> Crashes) ->
  forall s, match exec T (font_take checksum_of this t (steps_of r)) o s with
    | Gives (Some v) _ => loose r v
    | Crashes => False
    | _ => True
    end.
Proof.
  intros H C s. unfold font_take. rewrite exec_bind.
  assert (E : exec T (font_position checksum_of this t) o s <> Crashes).
  { unfold font_position. induction (offsets_records (font_offsets this)) as [|record records IH];
    [discriminate|].
    cbn [font_position_loop]. destruct (tag_eqb _ _); [|exact IH]. cbn [bind ask exec].
    destruct (ignore_invalid_checksums o).
    - cbn. destruct (seek T _ s) as [[[]| |] s']; discriminate.
    - rewrite exec_bind, exec_bind. specialize (C record s).
      destruct (exec T (checksum_of record) o s) as [sum s'| | |]; try discriminate; [|contradiction].
      destruct (_ =? sum); cbn; [|discriminate]. destruct (seek T _ s') as [[[]| |] s'']; discriminate. }
  destruct (exec T (font_position checksum_of this t) o s) as [[x|] s'| | |]; auto; [|exact I].
  rewrite exec_bind. pose proof (request_any r T o H s') as R.
  destruct (exec T (steps_of r) o s') as [v s''| | |]; [exact R|exact I|exact R|exact I].
Qed.
