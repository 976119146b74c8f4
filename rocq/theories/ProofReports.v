(** How reading can go wrong (C80, C82): nothing but what SpecReports.v says. *)

From Verif Require Export SpecReports.
From Verif Require Import ProofRangesOnly ProofRangesCan ProofFlags.
From Verif Require Import Steps StepsReaders.
Local Open Scope steps_scope.

(** ** Steps *)

(** Some answers make the steps end with the error, or, for [None], with a panic. *)
Fixpoint stops {A} (o : options) (m : steps A) (x : option error) : Prop :=
  match m with
  | Return _ => False
  | Raise y => x = Some y
  | Abort => x = None
  | Build k => stops o (k o) x
  | Loop k => stops o k x
  | Tell k => x = Some UnexpectedEnd \/ exists q, stops o (k q) x
  | Seek _ k => x = Some UnexpectedEnd \/ stops o k x
  | Take k => x = Some UnexpectedEnd \/ exists b, stops o (k b) x
  end.

Lemma stops_bind {A B} o (m : steps A) (k : A -> steps B) x :
  stops o (bind m k) x <-> stops o m x \/ exists a, can o m a /\ stops o (k a) x.
Proof.
  induction m as [a|y| |m IH|m IH|m IH|q m IH|m IH]; cbn [can stops bind].
  - split; [intros H; right; exists a; auto|intros [[]|(b & -> & H)]; exact H].
  - split; [auto|intros [H|(b & [] & _)]; exact H].
  - split; [auto|intros [H|(b & [] & _)]; exact H].
  - apply IH.
  - exact IH.
  - split.
    + intros [H|(q & H)]; [auto|]. apply IH in H as [H|(a & H & K)]; [eauto|]. right. exists a. eauto.
    + intros [[H|(q & H)]|(a & (q & H) & K)]; [auto| |]; right; exists q; apply IH; eauto.
  - rewrite IH. tauto.
  - split.
    + intros [H|(q & H)]; [auto|]. apply IH in H as [H|(a & H & K)]; [eauto|]. right. exists a. eauto.
    + intros [[H|(q & H)]|(a & (q & H) & K)]; [auto| |]; right; exists q; apply IH; eauto.
Qed.

Definition wrong {S A} (x : option error) : ending S A :=
  match x with Some x => Refuses x | None => Crashes end.

Lemma exec_stops (T : tape) {A} (m : steps A) o x : forall s, exec T m o s = wrong x -> stops o m x.
Proof.
  assert (U : forall S A, wrong (S := S) (A := A) x = Refuses UnexpectedEnd -> x = Some UnexpectedEnd).
  { intros S B. destruct x; cbn; [intros [= ->]; reflexivity|discriminate]. }
  induction m as [a|y| |m IH|m IH|m IH|q m IH|m IH]; cbn [stops exec]; intros s E.
  - destruct x; discriminate E.
  - destruct x; cbn in E; [injection E as <-; reflexivity|discriminate].
  - destruct x; cbn in E; [discriminate|reflexivity].
  - exact (IH o s E).
  - exact (IH s E).
  - destruct (tell T s) as [[q| |] s'];
    [right; exists q; exact (IH q s' E)|left; symmetry in E; exact (U _ _ E)|].
    destruct x; discriminate E.
  - destruct (seek T q s) as [[u| |] s']; [right; exact (IH s' E)|left; symmetry in E; exact (U _ _ E)|].
    destruct x; discriminate E.
  - destruct (take T s) as [[q| |] s'];
    [right; exists q; exact (IH q s' E)|left; symmetry in E; exact (U _ _ E)|].
    destruct x; discriminate E.
Qed.

(** The steps end with nothing else. *)
Definition within {A} (o : options) (m : steps A) (E : option error -> Prop) : Prop :=
  forall x, stops o m x -> E x.

Lemma within_bind {A B} o (m : steps A) (k : A -> steps B) E :
  within o m E -> (forall a, within o (k a) E) -> within o (bind m k) E.
Proof. intros H K x S. apply stops_bind in S as [S|(a & _ & S)]; [auto|exact (K a x S)]. Qed.

Lemma within_ret {A} o (a : A) E : within o (ret a) E.
Proof. intros x []. Qed.

Lemma within_raise {A} o x (E : option error -> Prop) : E (Some x) -> within (A := A) o (raise x) E.
Proof. intros H y S. cbn in S. subst y. exact H. Qed.

Lemma within_panic {A} o (E : option error -> Prop) : E None -> within (A := A) o panic E.
Proof. intros H y S. cbn in S. subst y. exact H. Qed.

Lemma within_ask {A} o (k : options -> steps A) E : within o (k o) E -> within o (bind ask k) E.
Proof. intros H x S. exact (H x S). Qed.

Lemma within_position o (E : option error -> Prop) : E (Some UnexpectedEnd) -> within o get_position E.
Proof. intros H x [-> |[q []]]. exact H. Qed.

Lemma within_jump o q (E : option error -> Prop) : E (Some UnexpectedEnd) -> within o (jump q) E.
Proof. intros H x [-> |[]]. exact H. Qed.

Lemma within_byte o (E : option error -> Prop) : E (Some UnexpectedEnd) -> within o take_byte E.
Proof. intros H x [-> |[q []]]. exact H. Qed.

Lemma within_range {A} o (m : nat -> steps A) n E : (forall i, within o (m i) E) ->
  forall i, within o (for_range i n m) E.
Proof.
  intros H. induction n as [|n IH]; intros i; cbn [for_range]; [apply within_ret|].
  intros x S. cbn [stops] in S. revert x S. apply within_bind; [apply H|]. intros v.
  apply within_bind; [apply IH|]. intros vs. apply within_ret.
Qed.

Lemma within_n {A} o n (m : nat -> steps A) E : (forall i, within o (m i) E) -> within o (for_n n m) E.
Proof. intros H. apply within_range, H. Qed.

Lemma none_within {A} o (m : nat -> steps A) E : within o (for_n 0 m) E.
Proof. apply within_ret. Qed.

(** ** Tactics *)

(** What is said of an error: that it is in a list, or that it is a panic. *)
Definition among (b : bool) (l : list error) (x : option error) : Prop :=
  match x with Some x => In x l | None => b = true end.

Create HintDb within.

Ltac head t := lazymatch t with ?f _ => head f | _ => t end.

Ltac listed := solve [assumption | reflexivity | cbn; tauto | cbn; intuition (auto || congruence)].

Ltac within_step :=
  match goal with
  | |- within _ (bind ask _) _ => apply within_ask
  | |- within _ (bind _ _) _ => apply within_bind; [|intros ?]
  | |- within _ (ret _) _ => apply within_ret
  | |- within _ (raise _) _ => apply within_raise; listed
  | |- within _ panic _ => apply within_panic; listed
  | |- within _ get_position _ => apply within_position; listed
  | |- within _ (jump _) _ => apply within_jump; listed
  | |- within _ take_byte _ => apply within_byte; listed
  | |- within _ (for_n 0 _) _ => apply none_within
  | |- within _ (for_n _ _) _ => apply within_n; intros ?
  | |- within _ (match ?x with _ => _ end) _ => destruct x
  | |- within _ ?m _ => solve [auto 2 with within]
  | |- within _ ?m _ => let h := head m in unfold h
  end.
Ltac within := cbv beta; repeat (within_step; cbv beta).

#[global] Hint Extern 3 => lazymatch goal with |- within _ _ _ => fail | |- _ => listed end : within.

Section Common.
Context (o : options) (E : option error -> Prop) (HE : E (Some UnexpectedEnd)).

Lemma u8_within : within o take_u8 E.
Proof. within. Qed.
Lemma u16_within : within o take_u16 E.
Proof. within. Qed.
Lemma u32_within : within o take_u32 E.
Proof. within. Qed.
Lemma tag_within : within o take_tag E.
Proof. within. Qed.

Lemma flags_within mask : (checked_flags o = true -> E (Some InvalidFlags)) -> within o (take_flags mask) E.
Proof.
  intros H. unfold take_flags. apply within_bind; [apply u16_within|]. intros v. apply within_ask.
  destruct (checked_flags o); [|apply within_ret]. cbn [andb]. within.
Qed.
End Common.
#[global] Hint Resolve u8_within u16_within u32_within tag_within flags_within : within.

Section Parts.
Context (o : options) (E : option error -> Prop) (HE : E (Some UnexpectedEnd)).

Lemma coverage_within : E (Some UnknownFormat) -> within o read_coverage E.
Proof. intros. within. Qed.
Lemma class_within : E (Some UnknownFormat) -> within o read_class E.
Proof. intros. within. Qed.
Lemma correction_within : E (Some UnknownFormat) -> E (Some Malformed) -> within o read_correction E.
Proof. intros. within. Qed.
End Parts.
#[global] Hint Resolve coverage_within class_within correction_within : within.

Section Tables.
Context (o : options) (E : option error -> Prop) (HE : E (Some UnexpectedEnd)).

Lemma context_within : E None -> E (Some UnknownFormat) -> E (Some Malformed) -> within o read_context E.
Proof. intros. within. Qed.
Lemma chained_context_within : E None -> E (Some UnknownFormat) -> E (Some Malformed) ->
  within o read_chained_context E.
Proof. intros. within. Qed.
Lemma anchor_within : E None -> E (Some UnknownFormat) -> E (Some Malformed) -> within o read_anchor E.
Proof. intros. within. Qed.
Lemma value_flags_within : (checked_flags o = true -> E (Some InvalidFlags)) -> within o take_value_flags E.
Proof. apply flags_within. exact HE. Qed.
End Tables.
#[global] Hint Resolve context_within chained_context_within anchor_within : within.

(** ** Values and what is made of them *)

Lemma corrected_bits flags : corrected flags = has_x_placement_correction flags ||
  (has_y_placement_correction flags || (has_x_advance_correction flags ||
  (has_y_advance_correction flags || false))).
Proof.
  destruct (flag_bits flags) as (_ & _ & _ & _ & _ & _ & _ & _ & _ & _ & -> & -> & -> & ->).
  reflexivity.
Qed.

Lemma within_next {A B} o (m : steps A) (k : A -> steps B) P E :
  only o m P -> within o m E -> (forall a, P a -> within o (k a) E) -> within o (bind m k) E.
Proof.
  intros H M K x S. apply stops_bind in S as [S|(a & V & S)]; [auto|]. exact (K a (H a V) x S).
Qed.

Section Values.
Context (o : options) (E : option error -> Prop) (HE : E (Some UnexpectedEnd)).

Lemma jump_within {A} p q (m : steps A) : (low p /\ short q) \/ E None -> within o m E ->
  within o (jump_take p q m) E.
Proof.
  intros H M. unfold jump_take. apply within_bind.
  - unfold add_u64, add_wrapping. apply within_ask. destruct (N.ltb_spec (p + q) (2 ^ 64)) as [L|L].
    + apply within_ret.
    + destruct (overflow_checks o); [|apply within_ret]. destruct H as [[P Q]|H].
      * unfold low, short in *. lia.
      * apply within_panic, H.
  - intros r. apply within_bind; [apply within_jump, HE|]. intros _. exact M.
Qed.

Definition offset_of (flag : bool) (v : option N) : Prop :=
  match v with Some q => flag = true /\ u16 q | None => True end.

Lemma offset_only flag : only o (take_if flag take_u16) (offset_of flag).
Proof.
  unfold take_if. destruct flag; [|apply only_ret; exact I]. eapply only_bind; [apply only_u16|].
  intros q Q. apply only_ret. split; [reflexivity|exact Q].
Qed.

Lemma linked_within p (flag : bool) v : offset_of flag v ->
  (flag = true -> (low p \/ E None) /\ E (Some UnknownFormat) /\ E (Some Malformed)) ->
  within o (take_linked p v) E.
Proof.
  intros V H. destruct v as [q|]; [|apply within_ret]. destruct V as [F Q].
  destruct (H F) as (L & H1 & H2). cbn [take_linked]. unfold jump_take_maybe.
  destruct (0 <? q); [|apply within_ret]. apply within_bind; [|intros; apply within_ret].
  apply jump_within; [|auto with within]. destruct L as [L|L]; [left|right; exact L].
  split; [exact L|exact (short16 q Q)].
Qed.

Lemma single_within p flags :
  (corrected flags = true -> (low p \/ E None) /\ E (Some UnknownFormat) /\ E (Some Malformed)) ->
  within o (read_single p flags) E.
Proof.
  rewrite corrected_bits. intros H. unfold read_single.
  do 4 (apply within_bind; [within|intros ?]).
  do 4 (eapply within_next; [apply offset_only|within|intros ? ?]).
  apply within_bind; [|intros [[[]]]; apply within_ret].
  unfold stay. apply within_bind; [within|intros ?]. apply within_bind; [|intros ?; within].
  do 4 (apply within_bind; [eapply linked_within; [eassumption|];
    intros F; rewrite F, ?Bool.orb_true_r in H; exact (H eq_refl)|intros ?]).
  apply within_ret.
Qed.

Lemma value_within p flags :
  (corrected flags = true -> (low p \/ E None) /\ E (Some UnknownFormat) /\ E (Some Malformed)) ->
  within o (if 0 <? flags then v <- read_single p flags;; ret (Some v) else ret None) E.
Proof.
  intros H. destruct (0 <? flags); [|apply within_ret].
  apply within_bind; [exact (single_within p flags H)|]. intros. apply within_ret.
Qed.

Lemma pair1_within p flags1 flags2 :
  (corrected flags1 || corrected flags2 = true ->
    (low p \/ E None) /\ E (Some UnknownFormat) /\ E (Some Malformed)) ->
  within o (read_pair1 p flags1 flags2) E.
Proof.
  intros H. unfold read_pair1. apply within_bind; [within|intros ?].
  apply within_bind; [apply value_within; intros F; rewrite F in H; exact (H eq_refl)|intros ?].
  apply within_bind; [apply value_within; intros F; rewrite F, Bool.orb_true_r in H;
    exact (H eq_refl)|intros ?].
  apply within_ret.
Qed.
End Values.
#[global] Hint Resolve single_within value_within pair1_within : within.

Lemma pair2_within o p flags1 flags2 (E : option error -> Prop) :
  ((flags1 =? 0) && (flags2 =? 0) = false -> E (Some UnexpectedEnd)) ->
  (corrected flags1 || corrected flags2 = true ->
    (low p \/ E None) /\ E (Some UnknownFormat) /\ E (Some Malformed)) ->
  within o (read_pair2 p flags1 flags2) E.
Proof.
  intros HE H. unfold read_pair2. destruct (N.eqb_spec flags1 0) as [->|Z1].
  - destruct (N.eqb_spec flags2 0) as [->|Z2].
    + cbn [N.ltb N.compare]. within.
    + apply within_bind; [cbn [N.ltb N.compare]; within|intros ?].
      apply within_bind; [|intros ?; apply within_ret]. apply value_within; [exact (HE eq_refl)|exact H].
  - apply within_bind; [apply value_within; [exact (HE eq_refl)|];
      intros F; rewrite F in H; exact (H eq_refl)|intros ?].
    apply within_bind; [apply value_within; [exact (HE eq_refl)|];
      intros F; rewrite F, Bool.orb_true_r in H; exact (H eq_refl)|intros ?].
    apply within_ret.
Qed.

Section Types.
Context (o : options) (E : option error -> Prop) (HE : E (Some UnexpectedEnd)) (HP : E None)
  (HV : E (Some UnexpectedValue)) (HF : E (Some UnknownFormat)) (HM : E (Some Malformed))
  (HT : E (Some UnknownType)) (HI : checked_flags o = true -> E (Some InvalidFlags)).

Lemma gsub_type_within n : within o (read_gsub_type n) E.
Proof. within. Qed.

Lemma gpos_type_within n : within o (read_gpos_type n) E.
Proof. within. Qed.
End Types.
#[global] Hint Resolve gsub_type_within gpos_type_within : within.

(** ** Parts *)

Lemma piece_within {A} (r : piece A) o : piece_base r < 2 ^ 63 ->
  within o (piece_steps r) (among (piece_sums r) (piece_errors o r)).
Proof.
  destruct r; cbn [piece_steps piece_base piece_sums piece_errors]; intros W;
    unfold lookup_errors, gpos_type_errors, flags_errors;
    lazymatch goal with
    | |- within _ (read_base _ _) _ => idtac
    | |- within _ (read_bases _) _ => idtac
    | |- within _ (read_component _ _) _ => idtac
    | |- within _ (read_gpos_ligature _) _ => idtac
    | |- within _ (read_gpos_ligatures _) _ => idtac
    | |- within _ (read_mark2 _ _) _ => idtac
    | |- within _ (read_mark2s _) _ => idtac
    | |- within _ (read_single _ _) _ => idtac
    | |- within _ (read_pair1 _ _ _) _ => idtac
    | |- within _ (read_pair1s _ _) _ => idtac
    | |- within _ (read_pair2 _ _ _) _ => idtac
    | |- within _ (read_pair2s _ _ _ _) _ => idtac
    | |- context [checked_flags o] => solve [destruct (checked_flags o) eqn:?; within]
    | |- _ => solve [within]
    end.
  - destruct mark_class_count; [|within]. unfold read_base, take_vec, jump_take_maybe_n. within.
  - destruct mark_class_count; [|within]. within.
  - destruct mark_class_count; [|within]. within.
  - destruct mark_class_count; [|within]. within.
  - destruct mark_class_count; [|within]. within.
  - destruct mark_class_count; [|within]. within.
  - destruct mark_class_count; [|within]. within.
  - apply single_within; [listed|]. intros H. rewrite H. split; [left; exact W|cbn; tauto].
  - apply pair1_within; [listed|]. intros H. rewrite H. split; [left; exact W|cbn; tauto].
  - unfold read_pair1s. apply within_bind; [within|intros ?]. apply within_bind; [within|intros ?].
    apply within_bind; [|intros ?; apply within_ret]. apply within_n. intros _.
    apply pair1_within; [listed|]. intros H. rewrite H. cbn. tauto.
  - apply pair2_within.
    + intros H. unfold pair2_errors. rewrite H. left. reflexivity.
    + intros H. unfold pair2_errors. rewrite H. split; [left; exact W|]. split; apply in_or_app; cbn; tauto.
  - unfold read_pair2s. apply within_bind; [|intros ?; apply within_ret].
    destruct class2_count; [apply within_ret|]. cbn [N.ltb N.compare]. apply within_n. intros _.
    apply pair2_within.
    + intros H. unfold pair2_errors. rewrite H. left. reflexivity.
    + intros H. unfold pair2_errors. rewrite H. split; [left; exact W|]. split; apply in_or_app; cbn; tauto.
Qed.

(** ** Tables *)

Lemma font_within d o : within o (StepsReaders.read_font d)
  (fun x => match x with Some x => errors_of_tapes o (RequestFont d) x | None => False end).
Proof.
  unfold StepsReaders.read_font, read_offsets. cbn [errors_of_tapes].
  apply within_bind; [|intros; apply within_ret].
  apply within_bind; [within|]. intros t. destruct (truetype_accept d t) eqn:A; [within|].
  apply within_raise. right. eauto.
Qed.

Lemma request_within {A} (r : request A) o : within o (steps_of r)
  (fun x => match x with Some x => errors_of_tapes o r x | None => request_sums r = true end).
Proof.
  destruct r; cbn [steps_of request_sums]; unfold errors_of_tapes.
  - within.
  - intros x S. specialize (font_within d o x S). destruct x; [auto|contradiction].
  - within.
  - unfold flags_errors. destruct (checked_flags o) eqn:?; within.
  - unfold flags_errors. destruct (checked_flags o) eqn:?; within.
  - within.
  - unfold flags_errors. destruct (checked_flags o) eqn:?; within.
Qed.
