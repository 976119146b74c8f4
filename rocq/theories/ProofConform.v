(** Where the code reads what the specification prescribes (SpecConform.v). *)

From Verif Require Export SpecSupport Requests.
From Verif Require Import ProofRequests ProofCommon ProofFindings.

(** ** How a format of the code and one of the specification compare *)

(** [code] and [std] are what the code and the specification demand, [supported] and
    [strict] are as in SpecSupport.v. *)
Definition agrees (code std supported strict : Prop) : Prop :=
  (std -> strict) /\
  (std -> code -> supported) /\
  (supported -> strict -> (code <-> std)).

Lemma agrees_same P : agrees P P True True.
Proof. unfold agrees; tauto. Qed.

Lemma agrees_skip (P code std supported strict : Prop) :
  (P -> agrees code std supported strict) -> agrees (P /\ code) (P /\ std) supported strict.
Proof. unfold agrees; tauto. Qed.

Lemma agrees_both c1 s1 a1 b1 c2 s2 a2 b2 :
  agrees c1 s1 a1 b1 -> agrees c2 s2 a2 b2 -> agrees (c1 /\ c2) (s1 /\ s2) (a1 /\ a2) (b1 /\ b2).
Proof. unfold agrees; tauto. Qed.

Lemma agrees_strict c1 s1 b1 c2 s2 a2 b2 :
  agrees c1 s1 True b1 -> agrees c2 s2 a2 b2 -> agrees (c1 /\ c2) (s1 /\ s2) a2 (b1 /\ b2).
Proof. unfold agrees; tauto. Qed.

Lemma agrees_supported c1 s1 a1 c2 s2 a2 b2 :
  agrees c1 s1 a1 True -> agrees c2 s2 a2 b2 -> agrees (c1 /\ c2) (s1 /\ s2) (a1 /\ a2) b2.
Proof. unfold agrees; tauto. Qed.

(** The last of them is the last that matters. *)
Lemma agrees_last c1 s1 a1 b1 P : agrees c1 s1 a1 b1 -> agrees (c1 /\ P) (s1 /\ P) a1 b1.
Proof. unfold agrees; tauto. Qed.

Lemma agrees_end_strict c1 s1 b1 c2 s2 a2 :
  agrees c1 s1 True b1 -> agrees c2 s2 a2 True -> agrees (c1 /\ c2) (s1 /\ s2) a2 b1.
Proof. unfold agrees; tauto. Qed.

Lemma agrees_end_supported c1 s1 a1 c2 s2 b2 :
  agrees c1 s1 a1 True -> agrees c2 s2 True b2 -> agrees (c1 /\ c2) (s1 /\ s2) a1 b2.
Proof. unfold agrees; tauto. Qed.

(** What only the specification demands. *)
Lemma agrees_extra (P : Prop) code std supported strict :
  agrees code std supported strict -> agrees code (P /\ std) supported (P /\ strict).
Proof. unfold agrees; tauto. Qed.

Section Structures.

Context {A : Type} (code std : N -> A -> Prop) (supported strict : A -> Prop).
Hypothesis each : forall p v, agrees (code p v) (std p v) (supported v) (strict v).

Lemma agrees_vec stride p n vs :
  agrees (vec_at code stride p n vs) (vec_at std stride p n vs)
    (Forall supported vs) (Forall strict vs).
Proof.
  split; [|split].
  - intros [_ H]. apply Forall_forall. intros v [i Hi]%In_nth_error.
    exact (proj1 (each _ v) (H i v Hi)).
  - intros [_ H] [_ K]. apply Forall_forall. intros v [i Hi]%In_nth_error.
    exact (proj1 (proj2 (each _ v)) (H i v Hi) (K i v Hi)).
  - rewrite !Forall_forall. intros Ha Hb. unfold vec_at.
    assert (forall i v, nth_error vs i = Some v ->
      (code (p + stride * N.of_nat i) v <-> std (p + stride * N.of_nat i) v)) as E.
    { intros i v Hi%nth_error_In. apply each; auto. }
    split; (intros [H K]; split; [exact H|]; intros i v Hi; apply E; auto).
Qed.

Lemma agrees_link base offset v :
  agrees (code (base + offset) v) (link_at std base offset v) (supported v) (present strict
    offset v).
Proof.
  destruct (each (base + offset) v) as (E1 & E2 & E3).
  split; [|split]; unfold link_at, present.
  - intros [H K]. auto.
  - intros [H K]. auto.
  - intros Ha [Hn Hb]. specialize (E3 Ha Hb). tauto.
Qed.

Lemma agrees_maybe base offset v :
  agrees (maybe_at code base offset v) (maybe_at std base offset v)
    (given supported v) (given strict v).
Proof.
  destruct v as [v|]; unfold maybe_at, given; [|apply agrees_same].
  destruct (each (base + offset) v) as (E1 & E2 & E3).
  split; [|split].
  - intros [H K]. auto.
  - intros [_ H] [_ K]. auto.
  - intros Ha Hb. specialize (E3 Ha Hb). unfold maybe_at. tauto.
Qed.

Lemma agrees_linked base offsets vs :
  agrees (linked_at code base offsets vs) (links_at std base offsets vs)
    (Forall supported vs) (presents strict offsets vs).
Proof.
  unfold linked_at, links_at, presents, nonzero. revert vs.
  induction offsets as [|x offsets IH]; intros [|v vs];
    try (split; [|split]; intros H; inversion H; fail).
  - split; [intros _; split; constructor|split; [intros; constructor|intros; split; constructor]].
  - split; [|split]; intros H; try (inversion H; fail). intros _; split; intros K; inversion K.
  - split; [|split]; intros H; try (inversion H; fail). intros _; split; intros K; inversion K.
  - destruct (agrees_link base x v) as (E1 & E2 & E3), (IH vs) as (F1 & F2 & F3).
    split; [|split].
    + intros H. inversion_clear H. destruct (E1 H0), (F1 H1). split; constructor; assumption.
    + intros H K. inversion_clear H. inversion_clear K. constructor; auto.
    + intros H [K1 K2]. inversion_clear H. inversion_clear K1. inversion_clear K2.
      destruct (E3 H0 (conj H H3)), (F3 H1 (conj H2 H4)).
      split; (intros H'; inversion_clear H'; constructor; auto).
Qed.

Lemma agrees_maybes base offsets vs :
  agrees (maybes_at code base offsets vs) (maybes_at std base offsets vs)
    (Forall (given supported) vs) (Forall (given strict) vs).
Proof.
  unfold maybes_at. revert vs.
  induction offsets as [|x offsets IH]; intros [|v vs];
    try (split; [|split]; intros H; inversion H; fail).
  - split; [intros _; constructor|split; [intros; constructor|intros; split; constructor]].
  - split; [|split]; intros H; try (inversion H; fail). intros _; split; intros K; inversion K.
  - split; [|split]; intros H; try (inversion H; fail). intros _; split; intros K; inversion K.
  - destruct (agrees_maybe base x v) as (E1 & E2 & E3), (IH vs) as (F1 & F2 & F3).
    split; [|split].
    + intros H. inversion_clear H. constructor; auto.
    + intros H K. inversion_clear H. inversion_clear K. constructor; auto.
    + intros H K. inversion_clear H. inversion_clear K.
      destruct (E3 H0 H), (F3 H1 H2).
      split; (intros H'; inversion_clear H'; constructor; auto).
Qed.

End Structures.

Lemma agrees_iff code std a b a' b' :
  agrees code std a b -> (a <-> a') -> (b <-> b') -> agrees code std a' b'.
Proof. unfold agrees; tauto. Qed.

Lemma Forall_True {A} (P : A -> Prop) (vs : list A) : (forall v, P v) -> (Forall P vs <-> True).
Proof. intros H. split; [auto|intros _; apply Forall_forall; auto]. Qed.

Lemma agrees_link_same {A} (code : N -> A -> Prop) base offset v :
  agrees (code (base + offset) v) (link_at code base offset v) True (offset <> 0).
Proof. unfold link_at, agrees; tauto. Qed.

Lemma agrees_linked_same {A} (code : N -> A -> Prop) base offsets vs :
  agrees (linked_at code base offsets vs) (links_at code base offsets vs) True (nonzero offsets).
Proof.
  eapply agrees_iff;
    [apply (agrees_linked code code (fun _ => True) (fun _ => True)); intros; apply agrees_same
    |apply Forall_True; auto|].
  unfold presents. rewrite Forall_True by auto. tauto.
Qed.

(** The same without demands, on one side or the other. *)
Section Variants.

Context {A : Type} (code std : N -> A -> Prop) (this : A -> Prop).

Lemma agrees_vec_strict stride p n vs :
  (forall q v, agrees (code q v) (std q v) True (this v)) ->
  agrees (vec_at code stride p n vs) (vec_at std stride p n vs) True (Forall this vs).
Proof.
  intros H. eapply agrees_iff; [apply (agrees_vec _ _ (fun _ => True) this H)| |reflexivity].
  apply Forall_True; auto.
Qed.

Lemma agrees_vec_supported stride p n vs :
  (forall q v, agrees (code q v) (std q v) (this v) True) ->
  agrees (vec_at code stride p n vs) (vec_at std stride p n vs) (Forall this vs) True.
Proof.
  intros H. eapply agrees_iff; [apply (agrees_vec _ _ this (fun _ => True) H)|reflexivity|].
  apply Forall_True; auto.
Qed.

Lemma agrees_link_strict base offset v :
  (forall q v, agrees (code q v) (std q v) True (this v)) ->
  agrees (code (base + offset) v) (link_at std base offset v) True (present this offset v).
Proof. intros H. apply (agrees_link _ _ (fun _ => True) this H). Qed.

Lemma agrees_link_supported base offset v :
  (forall q v, agrees (code q v) (std q v) (this v) True) ->
  agrees (code (base + offset) v) (link_at std base offset v) (this v) (offset <> 0).
Proof.
  intros H. eapply agrees_iff; [apply (agrees_link _ _ this (fun _ => True) H)|reflexivity|].
  unfold present; tauto.
Qed.

Lemma agrees_linked_strict base offsets vs :
  (forall q v, agrees (code q v) (std q v) True (this v)) ->
  agrees (linked_at code base offsets vs) (links_at std base offsets vs) True
    (presents this offsets vs).
Proof.
  intros H. eapply agrees_iff; [apply (agrees_linked _ _ (fun _ => True) this H)| |reflexivity].
  apply Forall_True; auto.
Qed.

Lemma agrees_linked_supported base offsets vs :
  (forall q v, agrees (code q v) (std q v) (this v) True) ->
  agrees (linked_at code base offsets vs) (links_at std base offsets vs) (Forall this vs)
    (nonzero offsets).
Proof.
  intros H. eapply agrees_iff; [apply (agrees_linked _ _ this (fun _ => True) H)|reflexivity|].
  unfold presents. rewrite Forall_True by auto. tauto.
Qed.

Lemma agrees_maybe_strict base offset v :
  (forall q v, agrees (code q v) (std q v) True (this v)) ->
  agrees (maybe_at code base offset v) (maybe_at std base offset v) True (given this v).
Proof.
  intros H. eapply agrees_iff; [apply (agrees_maybe _ _ (fun _ => True) this H)| |reflexivity].
  destruct v; cbn [given]; tauto.
Qed.

Lemma agrees_maybe_supported base offset v :
  (forall q v, agrees (code q v) (std q v) (this v) True) ->
  agrees (maybe_at code base offset v) (maybe_at std base offset v) (given this v) True.
Proof.
  intros H. eapply agrees_iff; [apply (agrees_maybe _ _ this (fun _ => True) H)|reflexivity|].
  destruct v; cbn [given]; tauto.
Qed.

Lemma agrees_maybes_strict base offsets vs :
  (forall q v, agrees (code q v) (std q v) True (this v)) ->
  agrees (maybes_at code base offsets vs) (maybes_at std base offsets vs) True
    (Forall (given this) vs).
Proof.
  intros H. eapply agrees_iff; [apply (agrees_maybes _ _ (fun _ => True) this H)| |reflexivity].
  apply Forall_True. intros [v|]; exact I.
Qed.

Lemma agrees_maybes_supported base offsets vs :
  (forall q v, agrees (code q v) (std q v) (this v) True) ->
  agrees (maybes_at code base offsets vs) (maybes_at std base offsets vs)
    (Forall (given this) vs) True.
Proof.
  intros H. eapply agrees_iff; [apply (agrees_maybes _ _ this (fun _ => True) H)|reflexivity|].
  apply Forall_True. intros [v|]; exact I.
Qed.

End Variants.

Lemma agrees_flags checked reserved f p v :
  agrees (flags_at checked reserved f p v) (reserved_at reserved f p v) True (N.land v reserved
    = 0).
Proof. unfold agrees, flags_at, reserved_at. tauto. Qed.

Create HintDb conform.
#[export] Hint Resolve agrees_same agrees_vec agrees_vec_strict agrees_vec_supported
  agrees_link agrees_link_same agrees_link_strict agrees_link_supported
  agrees_linked agrees_linked_same agrees_linked_strict agrees_linked_supported
  agrees_maybe agrees_maybe_strict agrees_maybe_supported
  agrees_maybes agrees_maybes_strict agrees_maybes_supported agrees_flags : conform.

Ltac clause := solve [eauto 4 with conform nocore].

Ltac clauses :=
  lazymatch goal with
  | |- agrees (?P /\ _) (?P /\ _) _ _ => apply agrees_skip; intros _; clauses
  | |- agrees _ (?P /\ _) _ (?P /\ _) => apply agrees_extra; clauses
  | |- agrees (_ /\ _) (_ /\ _) _ _ =>
      first
        [ eapply agrees_both; [clause|clauses]
        | eapply agrees_strict; [clause|clauses]
        | eapply agrees_supported; [clause|clauses]
        | eapply agrees_end_strict; [clause|clauses]
        | eapply agrees_end_supported; [clause|clauses]
        | eapply agrees_last; clause ]
  | |- _ => clause
  end.

Ltac head t := lazymatch t with ?h _ => head h | _ => t end.

Ltac opened t := let h := head t in try unfold h.

(** One structure, clause by clause. *)
Ltac structure v :=
  destruct v;
  lazymatch goal with
  | |- agrees ?code ?std ?supported ?strict =>
      opened code; opened std; opened supported; opened strict
  end;
  cbv beta iota; clauses.

(** ** The structures *)

Lemma context_records_agrees f p v :
  agrees (context_records_at f p v) (std_context_records_at f p v)
    True (strict_context_records v).
Proof. structure v. Qed.
#[export] Hint Resolve context_records_agrees : conform.

Lemma context_class_records_agrees f p v :
  agrees (context_class_records_at f p v) (std_context_class_records_at f p v)
    True (strict_context_class_records v).
Proof. structure v. Qed.
#[export] Hint Resolve context_class_records_agrees : conform.

Lemma chained_records_agrees f p v :
  agrees (chained_records_at f p v) (std_chained_records_at f p v)
    True (strict_chained_records v).
Proof. structure v. Qed.
#[export] Hint Resolve chained_records_agrees : conform.

Lemma chained_class_records_agrees f p v :
  agrees (chained_class_records_at f p v) (std_chained_class_records_at f p v)
    True (strict_chained_class_records v).
Proof. structure v. Qed.
#[export] Hint Resolve chained_class_records_agrees : conform.

Lemma context1_agrees f p v :
  agrees (context1_at f p v) (std_context1_at f p v) True (strict_context1 v).
Proof. structure v. Qed.
#[export] Hint Resolve context1_agrees : conform.

Lemma context2_agrees f p v :
  agrees (context2_at f p v) (std_context2_at f p v) True (strict_context2 v).
Proof. structure v. Qed.
#[export] Hint Resolve context2_agrees : conform.

Lemma context3_agrees f p v :
  agrees (context3_at f p v) (std_context3_at f p v) True (strict_context3 v).
Proof. structure v. Qed.
#[export] Hint Resolve context3_agrees : conform.

Lemma context_agrees f p v :
  agrees (context_at f p v) (std_context_at f p v) True (strict_context v).
Proof. structure v. Qed.
#[export] Hint Resolve context_agrees : conform.

Lemma chained_context1_agrees f p v :
  agrees (chained_context1_at f p v) (std_chained_context1_at f p v)
    True (strict_chained_context1 v).
Proof. structure v. Qed.
#[export] Hint Resolve chained_context1_agrees : conform.

Lemma chained_context2_agrees f p v :
  agrees (chained_context2_at f p v) (std_chained_context2_at f p v)
    True (strict_chained_context2 v).
Proof. structure v. Qed.
#[export] Hint Resolve chained_context2_agrees : conform.

Lemma chained_context3_agrees f p v :
  agrees (chained_context3_at f p v) (std_chained_context3_at f p v)
    True (strict_chained_context3 v).
Proof. structure v. Qed.
#[export] Hint Resolve chained_context3_agrees : conform.

Lemma chained_context_agrees f p v :
  agrees (chained_context_at f p v) (std_chained_context_at f p v)
    True (strict_chained_context v).
Proof. structure v. Qed.
#[export] Hint Resolve chained_context_agrees : conform.

Lemma script_record_agrees f p v :
  agrees (script_record_at f p v) (std_script_record_at f p v) True (strict_script_record v).
Proof. structure v. Qed.
#[export] Hint Resolve script_record_agrees : conform.

Lemma scripts_agrees f p v :
  agrees (scripts_at f p v) (std_scripts_at f p v) True (strict_scripts v).
Proof. structure v. Qed.
#[export] Hint Resolve scripts_agrees : conform.

Lemma ligatures_agrees f p v :
  agrees (ligatures_at f p v) (std_ligatures_at f p v) True (strict_ligatures v).
Proof. structure v. Qed.
#[export] Hint Resolve ligatures_agrees : conform.

Lemma single_substitution1_agrees f p v :
  agrees (single_substitution1_at f p v) (std_single_substitution1_at f p v)
    True (strict_single_substitution1 v).
Proof. structure v. Qed.
#[export] Hint Resolve single_substitution1_agrees : conform.

Lemma single_substitution2_agrees f p v :
  agrees (single_substitution2_at f p v) (std_single_substitution2_at f p v)
    True (strict_single_substitution2 v).
Proof. structure v. Qed.
#[export] Hint Resolve single_substitution2_agrees : conform.

Lemma single_substitution_agrees f p v :
  agrees (single_substitution_at f p v) (std_single_substitution_at f p v)
    True (strict_single_substitution v).
Proof. structure v. Qed.
#[export] Hint Resolve single_substitution_agrees : conform.

Lemma multiple_substitution_agrees f p v :
  agrees (multiple_substitution_at f p v) (std_multiple_substitution_at f p v)
    True (strict_multiple_substitution v).
Proof. structure v. Qed.
#[export] Hint Resolve multiple_substitution_agrees : conform.

Lemma alternate_substitution_agrees f p v :
  agrees (alternate_substitution_at f p v) (std_alternate_substitution_at f p v)
    True (strict_alternate_substitution v).
Proof. structure v. Qed.
#[export] Hint Resolve alternate_substitution_agrees : conform.

Lemma ligature_substitution_agrees f p v :
  agrees (ligature_substitution_at f p v) (std_ligature_substitution_at f p v)
    True (strict_ligature_substitution v).
Proof. structure v. Qed.
#[export] Hint Resolve ligature_substitution_agrees : conform.

Lemma reverse_chained_contextual_substibution_agrees f p v :
  agrees (reverse_chained_contextual_substibution_at f p v)
    (std_reverse_chained_contextual_substibution_at f p v)
    True (strict_reverse_chained_contextual_substibution v).
Proof. structure v. Qed.
#[export] Hint Resolve reverse_chained_contextual_substibution_agrees : conform.

Lemma gsub_type_agrees type_ f p v :
  agrees (gsub_type_at type_ f p v) (std_gsub_type_at type_ f p v) True (strict_gsub_type v).
Proof. structure v. Qed.
#[export] Hint Resolve gsub_type_agrees : conform.

Lemma feature_record_agrees f p v :
  agrees (feature_record_at f p v) (std_feature_record_at f p v)
    (feature_record_parameters v = None) True.
Proof.
  destruct v as [offset count indices [bytes|]];
    cbv beta iota delta [feature_record_at std_feature_record_at feature_record_parameters
      parameters_at feature_record_parameter_offset]; do 3 (apply agrees_skip; intros _).
  - split; [auto|split].
    + intros (_ & Hn & _) [_ H]. contradiction.
    + discriminate.
  - eapply agrees_iff; [apply agrees_same| |]; tauto.
Qed.
#[export] Hint Resolve feature_record_agrees : conform.

Lemma features_agrees f p v :
  agrees (features_at f p v) (std_features_at f p v) (supported_features v) (strict_features v).
Proof.
  destruct v; cbv beta iota delta [features_at std_features_at supported_features strict_features].
  do 2 (apply agrees_skip; intros _). apply agrees_linked_supported. auto with conform.
Qed.

Lemma lookups_agrees {T} (code std : N -> file -> N -> T -> Prop) (supported strict : T -> Prop)
    o f p v :
  (forall type_ q t, agrees (code type_ f q t) (std type_ f q t) (supported t) (strict t)) ->
  agrees (lookups_at o code f p v) (std_lookups_at std f p v)
    (supported_lookups supported v) (strict_lookups strict v).
Proof.
  intros H.
  destruct v; cbv beta iota delta [lookups_at std_lookups_at supported_lookups strict_lookups].
  do 2 (apply agrees_skip; intros _). apply agrees_linked. clear p. intros p v.
  destruct v; cbv beta iota delta [lookup_record_at std_lookup_record_at supported_lookup_record
    strict_lookup_record].
  apply agrees_skip; intros _. apply agrees_strict; [apply agrees_flags|].
  do 3 (apply agrees_skip; intros _). apply agrees_linked, H.
Qed.

Lemma agrees_list {A} (code std : N -> A -> Prop) (supported strict : A -> Prop) o base offset
    default v :
  (forall q w, agrees (code q w) (std q w) (supported w) (strict w)) ->
  agrees (list_at o code base offset default v) (link_at std base offset v)
    (supported v) (present strict offset v).
Proof.
  intros H. destruct (H (base + offset) v) as (E1 & E2 & E3).
  unfold list_at, link_at, present. split; [|split].
  - intros [Hn K]. auto.
  - intros [Hn K] [[He _]|[_ L]]; [contradiction|auto].
  - intros Ha [Hn Hb]. specialize (E3 Ha Hb). tauto.
Qed.

Lemma directory_agrees {T} (code std : N -> file -> N -> T -> Prop) (supported strict : T -> Prop)
    o f p v :
  (forall type_ q t, agrees (code type_ f q t) (std type_ f q t) (supported t) (strict t)) ->
  agrees (directory_at o code f p v) (std_directory_at std f p v)
    (supported_directory supported v) (strict_directory strict v).
Proof.
  intros H.
  destruct v; cbv beta iota delta [directory_at std_directory_at supported_directory strict_directory].
  do 9 (apply agrees_skip; intros _).
  apply agrees_strict.
  { apply (agrees_list _ _ (fun _ => True)). intros; apply scripts_agrees. }
  apply agrees_both; [apply agrees_list; intros; apply features_agrees|].
  apply agrees_last. apply agrees_list. intros. apply lookups_agrees, H.
Qed.

Lemma words_for_iff bits : words_for bits = bits / 16 + 1 <-> bits mod 16 <> 0.
Proof.
  unfold words_for. pose proof (N.div_mod bits 16 ltac:(lia)) as E.
  pose proof (N.mod_upper_bound bits 16 ltac:(lia)) as B.
  set (m := bits mod 16) in *. set (q := bits / 16) in *. clearbody m q. subst bits.
  destruct (N.eq_dec m 0) as [->|Hm].
  - rewrite <- (N.div_unique (16 * q + 0 + 15) 16 q 15) by lia. lia.
  - rewrite <- (N.div_unique (16 * q + m + 15) 16 (q + 1) (m - 1)) by lia. lia.
Qed.

Lemma correction_agrees f p v :
  agrees (correction_at f p v) (std_correction_at f p v) (supported_correction v) True.
Proof.
  destruct v as [[start_size end_size format deltas]|v]; [|apply agrees_same].
  cbv beta iota delta [correction_at std_correction_at device_at standard_device_at
    supported_correction].
  do 5 (apply agrees_skip; intros _).
  eapply agrees_iff; [|apply words_for_iff|reflexivity]. split; [auto|split].
  - intros [<- _] [E _]. exact E.
  - intros -> _. reflexivity.
Qed.
#[export] Hint Resolve correction_agrees : conform.

Lemma corrected_agrees f base offset v :
  agrees (corrected_at f base offset v) (std_corrected_at f base offset v)
    (given supported_correction v) True.
Proof.
  destruct offset as [offset|]; cbv beta iota delta [corrected_at std_corrected_at]; [clause|].
  split; [auto|split]; [intros -> _; exact I|tauto].
Qed.
#[export] Hint Resolve corrected_agrees : conform.

Lemma anchor3_agrees f p v :
  agrees (anchor3_at f p v) (std_anchor3_at f p v) (supported_anchor3 v) True.
Proof. structure v. Qed.
#[export] Hint Resolve anchor3_agrees : conform.

Lemma anchor_agrees f p v :
  agrees (anchor_at f p v) (std_anchor_at f p v) (supported_anchor v) True.
Proof. structure v. Qed.
#[export] Hint Resolve anchor_agrees : conform.

Lemma base_agrees f base mark_class_count p v :
  agrees (base_at f base mark_class_count p v) (std_base_at f base mark_class_count p v)
    (supported_base v) True.
Proof. structure v. Qed.
#[export] Hint Resolve base_agrees : conform.

Lemma bases_agrees f mark_class_count p v :
  agrees (bases_at f mark_class_count p v) (std_bases_at f mark_class_count p v)
    (supported_bases v) True.
Proof. structure v. Qed.
#[export] Hint Resolve bases_agrees : conform.

Lemma component_agrees f base mark_class_count p v :
  agrees (component_at f base mark_class_count p v) (std_component_at f base mark_class_count p v)
    (supported_component v) True.
Proof. structure v. Qed.
#[export] Hint Resolve component_agrees : conform.

Lemma gpos_ligature_agrees f mark_class_count p v :
  agrees (gpos_ligature_at f mark_class_count p v) (std_gpos_ligature_at f mark_class_count p v)
    (supported_gpos_ligature v) True.
Proof. structure v. Qed.
#[export] Hint Resolve gpos_ligature_agrees : conform.

Lemma gpos_ligatures_agrees f mark_class_count p v :
  agrees (gpos_ligatures_at f mark_class_count p v) (std_gpos_ligatures_at f mark_class_count p v)
    (supported_gpos_ligatures v) (strict_gpos_ligatures v).
Proof. structure v. Qed.
#[export] Hint Resolve gpos_ligatures_agrees : conform.

Lemma mark2_agrees f base mark_class_count p v :
  agrees (mark2_at f base mark_class_count p v) (std_mark2_at f base mark_class_count p v)
    (supported_mark2 v) True.
Proof. structure v. Qed.
#[export] Hint Resolve mark2_agrees : conform.

Lemma mark2s_agrees f mark_class_count p v :
  agrees (mark2s_at f mark_class_count p v) (std_mark2s_at f mark_class_count p v)
    (supported_mark2s v) True.
Proof. structure v. Qed.
#[export] Hint Resolve mark2s_agrees : conform.

Lemma mark1_agrees o f base p v :
  agrees (mark1_at o f base p v) (std_mark1_at f base p v) (supported_mark1 v) (strict_mark1 v).
Proof.
  destruct v as [class_id offset anchor];
    cbv beta iota delta [mark1_at std_mark1_at supported_mark1 strict_mark1].
  do 2 (apply agrees_skip; intros _).
  destruct (anchor_agrees f (base + offset) anchor) as (E1 & E2 & E3).
  unfold link_at. split; [|split].
  - tauto.
  - intros [Hn K] [[He _]|[_ L]]; [contradiction|auto].
  - intros Ha Hn. specialize (E3 Ha I). tauto.
Qed.
#[export] Hint Resolve mark1_agrees : conform.

Lemma mark1s_agrees o f p v :
  agrees (mark1s_at o f p v) (std_mark1s_at f p v) (supported_mark1s v) (strict_mark1s v).
Proof. structure v. Qed.
#[export] Hint Resolve mark1s_agrees : conform.

Lemma connection_agrees f base p v :
  agrees (connection_at f base p v) (std_connection_at f base p v) (supported_connection v) True.
Proof. structure v. Qed.
#[export] Hint Resolve connection_agrees : conform.

Lemma single_agrees f base flags p v :
  agrees (single_at f base flags p v) (std_single_at f base flags p v) (supported_single v) True.
Proof. structure v. Qed.
#[export] Hint Resolve single_agrees : conform.

Lemma value_agrees f base flags p v :
  agrees (value_at f base flags p v) (std_value_at f base flags p v) (given supported_single v)
    True.
Proof.
  destruct v as [v|]; cbv beta iota delta [value_at std_value_at given]; [|apply agrees_same].
  apply agrees_skip; intros _. apply single_agrees.
Qed.
#[export] Hint Resolve value_agrees : conform.

Lemma pair1_agrees f base flags1 flags2 p v :
  agrees (pair1_at f base flags1 flags2 p v) (std_pair1_at f base flags1 flags2 p v)
    (supported_pair1 v) True.
Proof. structure v. Qed.
#[export] Hint Resolve pair1_agrees : conform.

Lemma pair1s_agrees f flags1 flags2 p v :
  agrees (pair1s_at f flags1 flags2 p v) (std_pair1s_at f flags1 flags2 p v)
    (supported_pair1s v) True.
Proof. structure v. Qed.
#[export] Hint Resolve pair1s_agrees : conform.

Lemma pair2_agrees f base flags1 flags2 p v :
  agrees (pair2_at f base flags1 flags2 p v) (std_pair2_at f base flags1 flags2 p v)
    (supported_pair2 v) True.
Proof. structure v. Qed.
#[export] Hint Resolve pair2_agrees : conform.

Lemma pair2s_agrees f base count2 flags1 flags2 p v :
  agrees (pair2s_at f base count2 flags1 flags2 p v) (std_pair2s_at f base count2 flags1 flags2 p v)
    (supported_pair2s v) True.
Proof. structure v. Qed.
#[export] Hint Resolve pair2s_agrees : conform.

Lemma single_adjustment1_agrees o f p v :
  agrees (single_adjustment1_at o f p v) (std_single_adjustment1_at f p v)
    (supported_single_adjustment1 v) (strict_single_adjustment1 v).
Proof. structure v. Qed.
#[export] Hint Resolve single_adjustment1_agrees : conform.

Lemma single_adjustment2_agrees o f p v :
  agrees (single_adjustment2_at o f p v) (std_single_adjustment2_at f p v)
    (supported_single_adjustment2 v) (strict_single_adjustment2 v).
Proof. structure v. Qed.
#[export] Hint Resolve single_adjustment2_agrees : conform.

Lemma single_adjustment_agrees o f p v :
  agrees (single_adjustment_at o f p v) (std_single_adjustment_at f p v)
    (supported_single_adjustment v) (strict_single_adjustment v).
Proof. structure v. Qed.
#[export] Hint Resolve single_adjustment_agrees : conform.

Lemma pair_adjustment1_agrees o f p v :
  agrees (pair_adjustment1_at o f p v) (std_pair_adjustment1_at f p v)
    (supported_pair_adjustment1 v) (strict_pair_adjustment1 v).
Proof. structure v. Qed.
#[export] Hint Resolve pair_adjustment1_agrees : conform.

Lemma pair_adjustment2_agrees o f p v :
  agrees (pair_adjustment2_at o f p v) (std_pair_adjustment2_at f p v)
    (supported_pair_adjustment2 v) (strict_pair_adjustment2 v).
Proof. structure v. Qed.
#[export] Hint Resolve pair_adjustment2_agrees : conform.

Lemma pair_adjustment_agrees o f p v :
  agrees (pair_adjustment_at o f p v) (std_pair_adjustment_at f p v)
    (supported_pair_adjustment v) (strict_pair_adjustment v).
Proof. structure v. Qed.
#[export] Hint Resolve pair_adjustment_agrees : conform.

Lemma cursive_attachment_agrees f p v :
  agrees (cursive_attachment_at f p v) (std_cursive_attachment_at f p v)
    (supported_cursive_attachment v) (strict_cursive_attachment v).
Proof. structure v. Qed.
#[export] Hint Resolve cursive_attachment_agrees : conform.

Lemma mark_to_base_attachment_agrees o f p v :
  agrees (mark_to_base_attachment_at o f p v) (std_mark_to_base_attachment_at f p v)
    (supported_mark_to_base_attachment v) (strict_mark_to_base_attachment v).
Proof. structure v. Qed.
#[export] Hint Resolve mark_to_base_attachment_agrees : conform.

Lemma mark_to_ligature_attachment_agrees o f p v :
  agrees (mark_to_ligature_attachment_at o f p v) (std_mark_to_ligature_attachment_at f p v)
    (supported_mark_to_ligature_attachment v) (strict_mark_to_ligature_attachment v).
Proof. structure v. Qed.
#[export] Hint Resolve mark_to_ligature_attachment_agrees : conform.

Lemma mark_to_mark_attachment_agrees o f p v :
  agrees (mark_to_mark_attachment_at o f p v) (std_mark_to_mark_attachment_at f p v)
    (supported_mark_to_mark_attachment v) (strict_mark_to_mark_attachment v).
Proof. structure v. Qed.
#[export] Hint Resolve mark_to_mark_attachment_agrees : conform.

Lemma gpos_type_agrees o type_ f p v :
  agrees (gpos_type_at o type_ f p v) (std_gpos_type_at type_ f p v)
    (supported_gpos_type v) (strict_gpos_type v).
Proof. structure v. Qed.
#[export] Hint Resolve gpos_type_agrees : conform.

Lemma attachments_agrees f p v :
  agrees (attachments_at f p v) (std_attachments_at f p v) True (strict_attachments v).
Proof. structure v. Qed.
#[export] Hint Resolve attachments_agrees : conform.

Lemma marks_agrees f p v :
  agrees (marks_at f p v) (std_marks_at f p v) True (strict_marks v).
Proof. structure v. Qed.
#[export] Hint Resolve marks_agrees : conform.

Lemma u16_same f p v w : u16_at f p v -> u16_at f p w -> v = w.
Proof. intros (a & b & Ha & Hb & ->) (c & d & Hc & Hd & ->). congruence. Qed.

(** A format of 16 bits that is also one of 32. *)
Lemma caret_apart f q caret : std_caret_at f q caret -> caret_at f q caret -> False.
Proof.
  intros H K.
  assert (exists format, u16_at f q format /\ format <> 0) as (format & Hf & Hn).
  { destruct caret as [[]|[]|[]]; destruct H as (H & -> & _); eexists; (split; [exact H|lia]). }
  assert (exists format, u32_at f q format /\ format < 65536) as (long & (h & l & Hh & _ & ->) & Hs).
  { destruct caret as [[]|[]|[]]; destruct K as (K & _); eexists; (split; [exact K|lia]). }
  pose proof (u16_same _ _ _ _ Hf Hh). lia.
Qed.

Lemma gdef_ligature_agrees f p v :
  agrees (gdef_ligature_at f p v) (std_gdef_ligature_at f p v) (supported_gdef_ligature v) True.
Proof.
  destruct v as [count offsets carets];
    cbv beta iota delta [gdef_ligature_at std_gdef_ligature_at supported_gdef_ligature].
  do 2 (apply agrees_skip; intros _). split; [auto|split].
  - intros H K. destruct H as [|offset caret offsets carets [_ H]]; [reflexivity|exfalso].
    inversion_clear K as [|? ? ? ? Hc _]. exact (caret_apart _ _ _ H Hc).
  - intros -> _. split; intros H; inversion_clear H; constructor.
Qed.
#[export] Hint Resolve gdef_ligature_agrees : conform.

Lemma gdef_ligatures_agrees f p v :
  agrees (gdef_ligatures_at f p v) (std_gdef_ligatures_at f p v)
    (supported_gdef_ligatures v) (strict_gdef_ligatures v).
Proof. structure v. Qed.
#[export] Hint Resolve gdef_ligatures_agrees : conform.

(** The bytes in a row, with one bit for [LONG_WORDS]. *)
Lemma words_split n : n < 65536 -> n = (if long_words n then 32768 else 0) + word_count n.
Proof.
  intros H. unfold long_words, word_count. change (2 ^ 15) with 32768.
  rewrite N.testbit_odd, N.shiftr_div_pow2. change (2 ^ 15) with 32768.
  pose proof (N.div_mod n 32768 ltac:(lia)) as E.
  assert (n / 32768 < 2) as B by (apply N.div_lt_upper_bound; lia).
  set (d := n / 32768) in *. set (r := n mod 32768) in *. clearbody d r.
  assert (d = 0 \/ d = 1) as [->| ->] by lia;
    [change (N.odd 0) with false|change (N.odd 1) with true]; cbv iota; lia.
Qed.

(** What both read, possibly in different places, is supported. *)
Lemma store_record_apart o f p q v :
  std_store_record_at f q v -> store_record_at o f p v -> supported_store_record o v.
Proof.
  destruct v as [items words regions indices deltas];
    cbv beta iota delta [store_record_at std_store_record_at supported_store_record].
  intros (_ & Hw%u16_below & Hr%u16_below & _ & Hs & Hn & _) (_ & _ & _ & _ & Hc & Hm & _).
  pose proof (words_split words Hw) as E. unfold row_size in Hn. change (2 ^ 16) with 65536 in *.
  rewrite Hn in Hm.
  pose proof (N.mod_upper_bound (words + regions) 65536 ltac:(lia)) as B.
  pose proof (N.div_mod (words + regions) 65536 ltac:(lia)) as D.
  set (r := (words + regions) mod 65536) in *. set (d := (words + regions) / 65536) in *.
  clearbody r d. assert (d < 2) by lia.
  split.
  - intros Hi. apply N.mul_cancel_l in Hm; [|exact Hi].
    destruct (long_words words); [exfalso; lia|reflexivity].
  - intros [Hi|Ho]; [|auto]. apply N.mul_cancel_l in Hm; [|exact Hi].
    destruct (long_words words); lia.
Qed.

Lemma store_record_agrees o f p v :
  agrees (store_record_at o f p v) (std_store_record_at f p v) (supported_store_record o v)
    (strict_store_record v).
Proof.
  split; [|split; [apply store_record_apart|]];
    destruct v as [items words regions indices deltas];
    cbv beta iota delta [store_record_at std_store_record_at supported_store_record
      strict_store_record]; [tauto|].
  intros [Hl Hc] Hs. split.
  - intros (Hi & Hw & Hr & Hx & _ & Hd). repeat (split; [assumption|]).
    revert Hd. apply u16_below in Hw. pose proof (words_split words Hw) as E. unfold row_size.
    destruct (N.eq_dec items 0) as [->|Hn]; [rewrite !N.mul_0_l; auto|].
    rewrite (Hl Hn) in E |- *. rewrite N.mod_small by auto.
    assert (words + regions = 1 * (2 * word_count words + (regions - word_count words))) as -> by lia.
    auto.
  - intros (Hi & Hw & Hr & Hx & _ & Hd). repeat (split; [assumption|]). split; [auto|].
    revert Hd. apply u16_below in Hw. pose proof (words_split words Hw) as E. unfold row_size.
    destruct (N.eq_dec items 0) as [->|Hn]; [rewrite !N.mul_0_l; auto|].
    rewrite (Hl Hn) in E |- *. rewrite N.mod_small by auto.
    assert (words + regions = 1 * (2 * word_count words + (regions - word_count words))) as <- by lia.
    auto.
Qed.
#[export] Hint Resolve store_record_agrees : conform.

Lemma store_agrees o f p v :
  agrees (store_at o f p v) (std_store_at f p v) (supported_store o v) (strict_store v).
Proof. structure v. Qed.
#[export] Hint Resolve store_agrees : conform.

Lemma store_apart o f p q v : std_store_at f q v -> store_at o f p v -> supported_store o v.
Proof.
  destruct v as [format region_offset count offsets records].
  cbv beta iota delta [store_at std_store_at supported_store].
  intros (_ & _ & _ & _ & _ & H) (_ & _ & _ & _ & _ & K).
  revert K. induction H as [|offset record offsets records [_ H] _ IH]; intros K; [constructor|].
  inversion_clear K as [|? ? ? ? K1 K2]. constructor; [|auto].
  exact (store_record_apart _ _ _ _ _ H K1).
Qed.

Lemma glyph_definition_agrees o f p v :
  agrees (glyph_definition_at o f p v) (std_glyph_definition_at f p v)
    (supported_glyph_definition o f p v) (strict_glyph_definition v).
Proof.
  destruct v as [header glyph_class attachments ligatures mark_class marks variations].
  cbv beta iota delta [glyph_definition_at glyph_definition_with std_glyph_definition_at
    supported_glyph_definition strict_glyph_definition].
  unfold standard_variation_offset.
  destruct (gdef_offsets header) as [[[[[a b] c] d] m] i].
  do 2 (apply agrees_skip; intros _).
  apply agrees_strict; [clause|]. apply agrees_both; [clause|].
  apply agrees_skip; intros _. apply agrees_strict; [clause|].
  assert (forall offset, agrees (maybe_at (store_at o f) p offset variations)
    (maybe_at (std_store_at f) p offset variations) (given (supported_store o) variations)
    (given strict_store variations)) as E by (intros; clause).
  destruct (E i) as (I1 & _ & _), (E (gdef_variation_offset header)) as (V1 & V2 & V3).
  assert (forall offset, maybe_at (std_store_at f) p offset variations ->
    maybe_at (store_at o f) p (gdef_variation_offset header) variations ->
    given (supported_store o) variations) as S.
  { destruct variations as [v|]; [|intros; exact I]. intros offset [_ H] [_ K].
    exact (store_apart _ _ _ _ _ H K). }
  split; [exact I1|split].
  - intros H K. pose proof (S _ H K) as Hs. split; [exact Hs|].
    specialize (V3 Hs (I1 H)). tauto.
  - intros [Hs Hi] Hb. specialize (V3 Hs Hb). tauto.
Qed.

Lemma axis_record_agrees o f p v :
  agrees (axis_record_at o f p v) (std_axis_record_at f p v) True (strict_axis_record v).
Proof. structure v. Qed.
#[export] Hint Resolve axis_record_agrees : conform.

Lemma instance_record_agrees o f axis_count p v :
  agrees (instance_record_at o f axis_count p v) (std_instance_record_at f axis_count p v) True
    (strict_instance_record v).
Proof. structure v. Qed.
#[export] Hint Resolve instance_record_agrees : conform.

Lemma vec_none {A} (elem elem' : N -> A -> Prop) stride stride' p p' vs :
  vec_at elem stride p 0 vs -> vec_at elem' stride' p' 0 vs.
Proof. intros [H _]. destruct vs; [|discriminate]. split; [reflexivity|]. intros []; discriminate. Qed.

(** Under a condition that the specification makes. *)
Lemma agrees_given (P : Prop) code std supported strict :
  (P -> agrees code std supported strict) -> (~ P -> supported) ->
  agrees code (P /\ std) supported (P /\ strict).
Proof. unfold agrees; tauto. Qed.

Lemma font_variations_agrees o f p v :
  agrees (font_variations_at o f p v) (std_font_variations_at f p v) True
    (strict_font_variations v).
Proof.
  destruct v as [[major minor offset reserved axis_count axis_size instance_count instance_size]
    axes instances].
  cbv beta iota delta [font_variations_at std_font_variations_at strict_font_variations].
  apply agrees_skip; intros _. apply agrees_given; [|auto].
  intros (_ & _ & _ & -> & Hi). apply agrees_strict; [clause|].
  rewrite (N.mul_comm axis_count 20). destruct Hi as [->|[_ ->]]; [clause|].
  pose proof (agrees_vec_strict (instance_record_at o f axis_count) (std_instance_record_at f axis_count)
    strict_instance_record (4 * axis_count + 6) (p + offset + 20 * axis_count) 0 instances
    (fun q w => instance_record_agrees o f axis_count q w)) as (E1 & E2 & E3).
  split; [exact E1|split; [auto|]]. intros _ Hs. specialize (E3 I Hs). rewrite <- E3.
  split; apply vec_none.
Qed.

Lemma color_palettes_agrees f p v :
  agrees (color_palettes_at f p v) (std_color_palettes_at f p v) True (strict_color_palettes v).
Proof.
  destruct v as [header colors].
  unfold color_palettes_at, std_color_palettes_at, strict_color_palettes. cbn [color_palettes_header].
  destruct (cpal_layout header) as [[[entries count] offset] indices].
  apply agrees_skip; intros _. unfold link_at, agrees. tauto.
Qed.

(** ** The tables *)

Lemma agrees_reads code std supported strict reads :
  (reads <-> code) -> agrees code std supported strict ->
  (std -> (reads <-> supported)) /\ (reads -> supported -> (std <-> strict)).
Proof. unfold agrees. tauto. Qed.

Lemma gsub_standard o f p v :
  bounded f ->
  (std_glyph_substitution_at f p v ->
    (reads o read_glyph_substitution f p v <-> supported_features (directory_features v))) /\
  (reads o read_glyph_substitution f p v -> supported_features (directory_features v) ->
    (std_glyph_substitution_at f p v <-> strict_directory strict_gsub_type v)).
Proof.
  intros Hb. eapply agrees_reads; [apply (request_reads RequestGsub o f p v Hb)|].
  eapply agrees_iff; [|  |reflexivity].
  - apply (directory_agrees _ _ (fun _ => True)). intros; apply gsub_type_agrees.
  - destruct v as [? ? ? ? ? ? scripts features [count offsets records] variations].
    unfold supported_directory, supported_lookups. cbn [directory_features].
    rewrite Forall_True; [tauto|]. intros []. apply Forall_forall. auto.
Qed.

Lemma gpos_standard o f p v :
  bounded f ->
  (std_glyph_positioning_at f p v ->
    (reads o read_glyph_positioning f p v <-> supported_directory supported_gpos_type v)) /\
  (reads o read_glyph_positioning f p v -> supported_directory supported_gpos_type v ->
    (std_glyph_positioning_at f p v <-> strict_directory strict_gpos_type v)).
Proof.
  intros Hb. eapply agrees_reads; [apply (request_reads RequestGpos o f p v Hb)|].
  apply directory_agrees. intros; apply gpos_type_agrees.
Qed.

Lemma gdef_standard o f p v :
  bounded f ->
  (std_glyph_definition_at f p v ->
    (reads o read_glyph_definition f p v <-> supported_glyph_definition o f p v)) /\
  (reads o read_glyph_definition f p v -> supported_glyph_definition o f p v ->
    (std_glyph_definition_at f p v <-> strict_glyph_definition v)).
Proof.
  intros Hb. eapply agrees_reads; [apply (request_reads RequestGdef o f p v Hb)|].
  apply glyph_definition_agrees.
Qed.

Lemma fvar_standard o f p v :
  bounded f ->
  (std_font_variations_at f p v -> reads o read_font_variations f p v) /\
  (reads o read_font_variations f p v ->
    (std_font_variations_at f p v <-> strict_font_variations v)).
Proof.
  intros Hb.
  destruct (agrees_reads _ _ _ _ _ (request_reads RequestFvar o f p v Hb)
    (font_variations_agrees o f p v)) as [H K].
  cbn [reader] in *. tauto.
Qed.

Lemma cpal_standard o f p v :
  bounded f ->
  (std_color_palettes_at f p v -> reads o read_color_palettes f p v) /\
  (reads o read_color_palettes f p v ->
    (std_color_palettes_at f p v <-> strict_color_palettes v)).
Proof.
  intros Hb.
  destruct (agrees_reads _ _ _ _ _ (request_reads RequestCpal o f p v Hb)
    (color_palettes_agrees f p v)) as [H K].
  cbn [reader] in *. tauto.
Qed.

(** ** Every [GSUB] table is read, but for the parameters of its features *)

Lemma agrees_code code std strict : agrees code std True strict -> std -> code.
Proof. unfold agrees. tauto. Qed.

Lemma blank_record_at f p v : std_feature_record_at f p v -> feature_record_at f p (blank_record v).
Proof.
  destruct v as [offset count indices [bytes|]];
    cbv beta iota delta [feature_record_at std_feature_record_at blank_record option_map
      feature_record_parameters parameters_at feature_record_parameter_offset]; tauto.
Qed.

Lemma blank_directory_at {T} (code std : N -> file -> N -> T -> Prop) (strict : T -> Prop) o f p v :
  (forall type_ q t, agrees (code type_ f q t) (std type_ f q t) True (strict t)) ->
  std_directory_at std f p v -> directory_at o code f p (blank_directory v).
Proof.
  intros H.
  destruct v as [major minor so fo lo vo scripts [count headers records] lookups variations].
  cbv beta iota delta [directory_at std_directory_at blank_directory].
  intros (H1 & H2 & H3 & H4 & H5 & H6 & H7 & H8 & H9 & Hs & [Hn (F1 & F2 & F3)] & Hl & Hv).
  do 9 (split; [assumption|]). split; [|split; [|split; [|exact Hv]]].
  - revert Hs. eapply agrees_code, (agrees_list _ _ (fun _ => True)). intros; apply scripts_agrees.
  - right. split; [left; exact Hn|]. split; [exact F1|]. split; [exact F2|].
    clear - F3. induction F3 as [|? ? ? ? [_ K] _ IH]; constructor; auto using blank_record_at.
  - revert Hl. eapply agrees_code. eapply agrees_iff; [|  |reflexivity].
    + apply agrees_list. intros. apply (lookups_agrees _ _ (fun _ => True)), H.
    + destruct lookups as [n offsets lookups]. unfold supported_lookups.
      apply Forall_True. intros []. apply Forall_forall. auto.
Qed.

Lemma gsub_standard_read o f p v :
  bounded f -> std_glyph_substitution_at f p v ->
  reads o read_glyph_substitution f p (blank_directory v).
Proof.
  intros Hb H. apply (request_reads RequestGsub o f p _ Hb). revert H.
  apply blank_directory_at with (strict := strict_gsub_type). intros; apply gsub_type_agrees.
Qed.
