(** Lemmas about the errors that reads report. *)

From Verif Require Import Reads ProofFont ProofAccess.
From Verif Require Export SpecErrors.

(** ** Which errors a reader can raise *)

Definition only {A} (E : list error) (m : M A) : Prop := forall e p x, m e p = Err x -> In x E.

Lemma only_bind {A B} E (m : M A) (k : A -> M B) :
  only E m -> (forall v, only E (k v)) -> only E (bind m k).
Proof.
  intros Hm Hk e p x. unfold bind. destruct (m e p) as [[v q]|y|] eqn:H; try discriminate.
  - apply Hk.
  - intros [= <-]. exact (Hm _ _ _ H).
Qed.

Lemma only_ret {A} E (a : A) : only E (ret a).
Proof. discriminate. Qed.

Lemma only_raise {A} E x : In x E -> only E (@raise A x).
Proof. intros H e p y [= <-]. exact H. Qed.

Lemma only_panic {A} E : only E (@panic A).
Proof. discriminate. Qed.

Lemma only_ask E : only E ask.
Proof. discriminate. Qed.

Lemma only_position E : only E get_position.
Proof. discriminate. Qed.

Lemma only_jump E q : only E (jump q).
Proof. discriminate. Qed.

Lemma only_stay {A} E (m : M A) : only E m -> only E (stay m).
Proof.
  intros Hm e p x. unfold stay. destruct (m e p) as [[v q]|y|] eqn:H; try discriminate.
  intros [= <-]. exact (Hm _ _ _ H).
Qed.

Lemma only_byte E : In UnexpectedEnd E -> only E take_byte.
Proof. intros H e p x. unfold take_byte. destruct (content e p); [discriminate|]. intros [= <-]. exact H. Qed.

Lemma only_for_range {A} E (m : nat -> M A) n : (forall i, only E (m i)) -> forall i, only E (for_range i n m).
Proof.
  intros Hm. induction n as [|n IH]; intros i; cbn [for_range]; [apply only_ret|].
  apply only_bind; [apply Hm|]. intros v. apply only_bind; [apply IH|]. intros vs. apply only_ret.
Qed.

Lemma only_for_n {A} E n (m : nat -> M A) : (forall i, only E (m i)) -> only E (for_n n m).
Proof. intros Hm. apply only_for_range, Hm. Qed.

Ltac reader_head t :=
  lazymatch t with
  | ?f _ => reader_head f
  | _ => t
  end.

Ltac only_step :=
  match goal with
  | |- only _ (bind _ _) => apply only_bind; [|intros ?]
  | |- only _ (ret _) => apply only_ret
  | |- only _ (raise _) => apply only_raise; solve [assumption | cbn; tauto]
  | |- only _ panic => apply only_panic
  | |- only _ ask => apply only_ask
  | |- only _ get_position => apply only_position
  | |- only _ (jump _) => apply only_jump
  | |- only _ (stay _) => apply only_stay
  | |- only _ take_byte => apply only_byte; solve [assumption | cbn; tauto]
  | |- only _ (for_n _ _) => apply only_for_n; intros ?
  | |- only _ (match ?x with _ => _ end) => destruct x
  | |- only _ ?m => solve [auto 2 with only]
  | |- only _ ?m => let h := reader_head m in unfold h
  end.

Ltac only_errors := repeat only_step.

Create HintDb only.
#[export] Hint Extern 1 (In _ _) => solve [assumption | cbn; tauto] : only.

Lemma only_u8 E : In UnexpectedEnd E -> only E take_u8.
Proof. intros. only_errors. Qed.
Lemma only_u16 E : In UnexpectedEnd E -> only E take_u16.
Proof. intros. only_errors. Qed.
Lemma only_u32 E : In UnexpectedEnd E -> only E take_u32.
Proof. intros. only_errors. Qed.
Lemma only_tag E : In UnexpectedEnd E -> only E take_tag.
Proof. intros. only_errors. Qed.
#[export] Hint Resolve only_u8 only_u16 only_u32 only_tag : only.

Lemma only_coverage E : In UnexpectedEnd E -> In UnknownFormat E -> only E read_coverage.
Proof. intros. only_errors. Qed.
Lemma only_class E : In UnexpectedEnd E -> In UnknownFormat E -> only E read_class.
Proof. intros. only_errors. Qed.
Lemma only_correction E :
  In UnexpectedEnd E -> In UnknownFormat E -> In Malformed E -> only E read_correction.
Proof. intros. only_errors. Qed.
#[export] Hint Resolve only_coverage only_class only_correction : only.

Lemma only_context E : In UnexpectedEnd E -> In UnknownFormat E -> In Malformed E -> only E read_context.
Proof. intros. only_errors. Qed.
Lemma only_chained_context E :
  In UnexpectedEnd E -> In UnknownFormat E -> In Malformed E -> only E read_chained_context.
Proof. intros. only_errors. Qed.
Lemma only_anchor E : In UnexpectedEnd E -> In UnknownFormat E -> In Malformed E -> only E read_anchor.
Proof. intros. only_errors. Qed.
Lemma only_single E position flags :
  In UnexpectedEnd E -> In UnknownFormat E -> In Malformed E -> only E (read_single position flags).
Proof. intros. only_errors. Qed.
#[export] Hint Resolve only_context only_chained_context only_anchor only_single : only.

(** The errors of layout tables but for their version. *)
Definition subtable_errors : list error :=
  [UnexpectedEnd; UnexpectedValue; InvalidFlags; UnknownFormat; Malformed].

Ltac known_type t :=
  destruct t as [|[[[[?|?|]|[?|?|]|]|[[?|?|]|[?|?|]|]|]|[[[?|?|]|[?|?|]|]|[[?|?|]|[?|?|]|]|]|]]; try congruence.

Lemma only_gsub_type E t :
  (~ (1 <= t <= 8) -> In UnknownType E) -> incl subtable_errors E -> only E (read_gsub_type t).
Proof.
  intros Ht HE. assert (forall x, In x subtable_errors -> In x E) as H by exact HE.
  unfold subtable_errors in H.
  assert (In UnexpectedEnd E) by (apply H; cbn; tauto).
  assert (In UnexpectedValue E) by (apply H; cbn; tauto).
  assert (In InvalidFlags E) by (apply H; cbn; tauto).
  assert (In UnknownFormat E) by (apply H; cbn; tauto).
  assert (In Malformed E) by (apply H; cbn; tauto).
  clear H HE. unfold read_gsub_type.
  repeat match goal with |- only _ (match ?x with _ => _ end) => destruct x end;
    solve [only_errors | apply only_raise, Ht; lia].
Qed.

Lemma only_gpos_type E t :
  (~ (1 <= t <= 9) -> In UnknownType E) -> incl subtable_errors E -> only E (read_gpos_type t).
Proof.
  intros Ht HE. assert (forall x, In x subtable_errors -> In x E) as H by exact HE.
  unfold subtable_errors in H.
  assert (In UnexpectedEnd E) by (apply H; cbn; tauto).
  assert (In UnexpectedValue E) by (apply H; cbn; tauto).
  assert (In InvalidFlags E) by (apply H; cbn; tauto).
  assert (In UnknownFormat E) by (apply H; cbn; tauto).
  assert (In Malformed E) by (apply H; cbn; tauto).
  clear H HE. unfold read_gpos_type.
  repeat match goal with |- only _ (match ?x with _ => _ end) => destruct x end;
    solve [only_errors | apply only_raise, Ht; lia].
Qed.


(** ** Running the first steps of a reader *)

Section Steps.
Context (e : env).
Notation f := (content e).

Lemma u16_now p : (exists n, u16_at f p n /\ take_u16 e p = Ok (n, p + 2)) \/
  (take_u16 e p = Err UnexpectedEnd /\ forall n, ~ u16_at f p n).
Proof.
  destruct (take_u16_takes True e p) as [Hp H].
  destruct (take_u16 e p) as [[n q]|x|] eqn:E.
  - left. exists n. destruct (proj1 (H n q) eq_refl) as [Hn ->]. auto.
  - right. split.
    + f_equal. assert (O : only [UnexpectedEnd] take_u16) by only_errors.
      destruct (O _ _ _ E) as [<-|[]]. reflexivity.
    + intros n Hn. discriminate (proj2 (H n (p + 2)) (conj Hn eq_refl)).
  - exfalso. exact (Hp I eq_refl).
Qed.

Lemma u16_run p n : u16_at f p n -> take_u16 e p = Ok (n, p + 2).
Proof. intros H. apply (take_u16_takes True e p). auto. Qed.

Lemma u32_run p n : u32_at f p n -> take_u32 e p = Ok (n, p + 4).
Proof. intros H. apply (take_u32_takes True e p). auto. Qed.

Lemma u32_now p : (exists n, u32_at f p n /\ take_u32 e p = Ok (n, p + 4)) \/
  (take_u32 e p = Err UnexpectedEnd /\ forall n, ~ u32_at f p n).
Proof.
  destruct (take_u32_takes True e p) as [Hp H].
  destruct (take_u32 e p) as [[n q]|x|] eqn:E.
  - left. exists n. destruct (proj1 (H n q) eq_refl) as [Hn ->]. auto.
  - right. split.
    + f_equal. assert (O : only [UnexpectedEnd] take_u32) by only_errors.
      destruct (O _ _ _ E) as [<-|[]]. reflexivity.
    + intros n Hn. discriminate (proj2 (H n (p + 4)) (conj Hn eq_refl)).
  - exfalso. exact (Hp I eq_refl).
Qed.

Lemma tag_run p t : tag_at f p t -> take_tag e p = Ok (t, p + 4).
Proof. intros H. apply (take_tag_takes True e p). auto. Qed.

Lemma tag_now p : (exists t, tag_at f p t /\ take_tag e p = Ok (t, p + 4)) \/
  (take_tag e p = Err UnexpectedEnd /\ forall t, ~ tag_at f p t).
Proof.
  destruct (take_tag_takes True e p) as [Hp H].
  destruct (take_tag e p) as [[n q]|x|] eqn:E.
  - left. exists n. destruct (proj1 (H n q) eq_refl) as [Hn ->]. auto.
  - right. split.
    + f_equal. assert (O : only [UnexpectedEnd] take_tag) by only_errors.
      destruct (O _ _ _ E) as [<-|[]]. reflexivity.
    + intros n Hn. discriminate (proj2 (H n (p + 4)) (conj Hn eq_refl)).
  - exfalso. exact (Hp I eq_refl).
Qed.

Lemma run_bind {A B} (m : M A) (k : A -> M B) p v q : m e p = Ok (v, q) -> bind m k e p = k v e q.
Proof. intros H. unfold bind. rewrite H. reflexivity. Qed.

Lemma run_stop {A B} (m : M A) (k : A -> M B) p x : m e p = Err x -> bind m k e p = Err x.
Proof. intros H. unfold bind. rewrite H. reflexivity. Qed.

Lemma run_peek {A B} (m : M A) (k : A -> M B) p v q : m e p = Ok (v, q) -> bind (peek m) k e p = k v e p.
Proof. intros H. unfold bind, peek, stay. rewrite H. reflexivity. Qed.

(** A format at the start that decides what follows. *)
Lemma peeked_error {B} (k : N -> M B) p x :
  bind (peek take_u16) k e p = Err x <->
  (exists n, u16_at f p n /\ k n e p = Err x) \/ (x = UnexpectedEnd /\ forall n, ~ u16_at f p n).
Proof.
  destruct (u16_now p) as [(n & Hn & E)|(E & Hn)].
  - rewrite (run_peek _ _ _ _ _ E). split; [eauto|]. intros [(m & Hm & K)|(_ & C)].
    + apply u16_run in Hm. rewrite E in Hm. injection Hm as <-. exact K.
    + destruct (C _ Hn).
  - unfold bind, peek, stay. rewrite E. split.
    + intros [= <-]. auto.
    + intros [(m & Hm & _)|(-> & _)]; [destruct (Hn _ Hm)|reflexivity].
Qed.

Lemma only_stop {A B} E (m : M A) (k : A -> B) p :
  (forall x, m e p = Err x -> In x E) -> forall x, bind m (fun v => ret (k v)) e p = Err x -> In x E.
Proof.
  intros H x. unfold bind. destruct (m e p) as [[v q]|y|] eqn:Em; try discriminate.
  intros [= <-]. apply H. reflexivity.
Qed.
End Steps.

(** The version of a color palette is read twice, so that the second read finds it. *)
Lemma only_const {A} E c (k : N -> M A) e p :
  (forall v, only E (k v)) -> In UnexpectedEnd E -> u16_at (content e) p c ->
  forall x, bind (take_const take_u16 c) k e p = Err x -> In x E.
Proof.
  intros Hk HE Hc x. unfold take_const. unfold bind at 1 2. rewrite (u16_run _ _ _ Hc), N.eqb_refl.
  apply Hk.
Qed.

Lemma only_cpal_header E : In UnexpectedEnd E -> In UnknownVersion E -> only E read_cpal_header.
Proof.
  intros H1 H2 e p x H. apply peeked_error in H. destruct H as [(n & Hn & H)|(-> & _)]; [|exact H1].
  destruct n as [|[?|?|]]; try (injection H as <-; exact H2).
  - revert H. apply only_stop. apply only_const; [|exact H1|exact Hn]. intros v. only_errors.
  - revert H. apply only_stop. apply only_const; [|exact H1|exact Hn]. intros v. only_errors.
Qed.
#[export] Hint Resolve only_cpal_header : only.

Lemma request_errors {A} (r : request A) o f p x :
  refuses o (reader r) f p x -> In x (possible_errors r).
Proof.
  unfold refuses. revert x. generalize (mkEnv f o). intros e x.
  enough (H : only (possible_errors r) (reader r)) by apply H. clear.
  destruct r; cbn [possible_errors reader].
  - only_errors.
  - only_errors.
  - only_errors.
  - unfold read_glyph_positioning, read_directory.
    assert (forall t, only (possible_errors RequestGpos) (read_gpos_type t)) as H
      by (intros t; apply only_gpos_type; [cbn; tauto|intros y; cbn; tauto]).
    cbn [possible_errors] in H. only_errors; apply H.
  - unfold read_glyph_substitution, read_directory.
    assert (forall t, only (possible_errors RequestGsub) (read_gsub_type t)) as H
      by (intros t; apply only_gsub_type; [cbn; tauto|intros y; cbn; tauto]).
    cbn [possible_errors] in H. only_errors; apply H.
  - only_errors.
  - only_errors.
Qed.

(** ** Formats *)

Lemma not_in_2 (n a b : N) : n <> a -> n <> b -> ~ In n [a; b].
Proof. intros Ha Hb [H|[H|[]]]; congruence. Qed.

Lemma coverage_format o f p : refuses o read_coverage f p UnknownFormat <-> other_format f p [1; 2].
Proof.
  unfold refuses, other_format, read_coverage. rewrite peeked_error. cbn [content]. split.
  - intros [(n & Hn & E)|(E & _)]; [|discriminate]. exists n. split; [exact Hn|].
    assert (only [UnexpectedEnd] (v <- read_coverage1;; ret (CoverageFormat1 v))) as O1 by only_errors.
    assert (only [UnexpectedEnd] (v <- read_coverage2;; ret (CoverageFormat2 v))) as O2 by only_errors.
    intros [<-|[<-|[]]]; [apply O1 in E|apply O2 in E]; destruct E as [E|[]]; discriminate E.
  - intros (n & Hn & H). left. exists n. split; [exact Hn|].
    destruct n as [|[[?|?|]|[?|?|]|]]; try reflexivity; destruct H; cbn; tauto.
Qed.

Lemma class_format o f p : refuses o read_class f p UnknownFormat <-> other_format f p [1; 2].
Proof.
  unfold refuses, other_format, read_class. rewrite peeked_error. cbn [content]. split.
  - intros [(n & Hn & E)|(E & _)]; [|discriminate]. exists n. split; [exact Hn|].
    assert (only [UnexpectedEnd] (v <- read_class1;; ret (ClassFormat1 v))) as O1 by only_errors.
    assert (only [UnexpectedEnd] (v <- read_class2;; ret (ClassFormat2 v))) as O2 by only_errors.
    intros [<-|[<-|[]]]; [apply O1 in E|apply O2 in E]; destruct E as [E|[]]; discriminate E.
  - intros (n & Hn & H). left. exists n. split; [exact Hn|].
    destruct n as [|[[?|?|]|[?|?|]|]]; try reflexivity; destruct H; cbn; tauto.
Qed.

Ltac unknown_format :=
  intros (n & Hn & H); unfold refuses; apply peeked_error; left; exists n; split; [exact Hn|];
  destruct n as [|[[?|?|]|[?|?|]|]]; try reflexivity; destruct H; cbn; tauto.

Lemma context_format o f p : other_format f p [1; 2; 3] -> refuses o read_context f p UnknownFormat.
Proof. unknown_format. Qed.
Lemma chained_context_format o f p :
  other_format f p [1; 2; 3] -> refuses o read_chained_context f p UnknownFormat.
Proof. unknown_format. Qed.
Lemma anchor_format o f p : other_format f p [1; 2; 3] -> refuses o read_anchor f p UnknownFormat.
Proof. unknown_format. Qed.
Lemma single_substitution_format o f p :
  other_format f p [1; 2] -> refuses o read_single_substitution f p UnknownFormat.
Proof. unknown_format. Qed.
Lemma single_adjustment_format o f p :
  other_format f p [1; 2] -> refuses o read_single_adjustment f p UnknownFormat.
Proof. unknown_format. Qed.
Lemma pair_adjustment_format o f p :
  other_format f p [1; 2] -> refuses o read_pair_adjustment f p UnknownFormat.
Proof. unknown_format. Qed.

(** The format of a correction is its third number, whichever it is. *)
Lemma correction_format o f p :
  refuses o read_correction f p UnknownFormat <->
  (exists n, u32_at f p n) /\ other_format f (p + 4) [1; 2; 3; 0x8000].
Proof.
  unfold refuses, read_correction. set (e := mkEnv f o).
  destruct (u32_now e p) as [(n & Hn & E)|(E & Hn)].
  2: { split; [|intros [[n H] _]; destruct (Hn _ H)].
       unfold bind, peek, stay. rewrite E. discriminate. }
  destruct (u16_now e (p + 4)) as [(m & Hm & E')|(E' & Hm)].
  2: { split; [|intros [_ (m & H & _)]; destruct (Hm _ H)].
       unfold bind, peek, stay. rewrite E, E'. discriminate. }
  rewrite (run_peek e (_ <- take_u32;; take_u16) _ p m (p + 4 + 2)) by (unfold bind; rewrite E; exact E').
  split.
  - intros H. split; [exists n; exact Hn|]. exists m. split; [exact Hm|].
    destruct ((1 <=? m) && (m <=? 3)) eqn:C.
    + exfalso. revert H. unfold bind, read_device.
      assert (Hs : exists s, u16_at f p s /\ exists t, u16_at f (p + 2) t).
      { destruct Hn as (h & l & Hh & Hl & _). exists h. split; [exact Hh|exists l; exact Hl]. }
      destruct Hs as (s & Hs & t & Ht).
      unfold bind. rewrite (u16_run e _ _ Hs), (u16_run e _ _ Ht).
      destruct (t <? s); [discriminate|]. replace (p + 2 + 2) with (p + 4) by lia. rewrite E'.
      apply andb_prop in C. destruct C as [C1 C2]. apply N.leb_le in C1, C2.
      replace (m =? 0) with false by (symmetry; apply N.eqb_neq; lia).
      replace (3 <? m) with false by (symmetry; apply N.ltb_ge; lia). cbn [orb].
      match goal with |- context [take_vec ?c take_u16 e ?q] =>
        destruct (take_vec c take_u16 e q) as [[v r]|y|] eqn:V end; try discriminate.
      assert (O : forall c, only [UnexpectedEnd] (take_vec c take_u16)) by (intros c; only_errors).
      apply O in V. destruct V as [<-|[]]. discriminate.
    + destruct (m =? 0x8000) eqn:C'.
      * exfalso. assert (O : only [UnexpectedEnd] (v <- read_variation;; ret (CorrectionVariation v)))
          by only_errors. apply O in H. destruct H as [H|[]]. discriminate.
      * intros [<-|[<-|[<-|[<-|[]]]]]; discriminate.
  - intros [_ (m' & Hm' & H)]. apply (u16_run e) in Hm'. rewrite E' in Hm'. injection Hm' as <-.
    destruct ((1 <=? m) && (m <=? 3)) eqn:C.
    + exfalso. apply andb_prop in C. destruct C as [C1 C2]. apply N.leb_le in C1, C2. apply H.
      assert (m = 1 \/ m = 2 \/ m = 3) as [->|[->| ->]] by lia; cbn; tauto.
    + destruct (m =? 0x8000) eqn:C'; [|reflexivity].
      apply N.eqb_eq in C'. subst m. destruct H. cbn. tauto.
Qed.

Lemma device_sizes o f p s t n :
  u16_at f p s -> u16_at f (p + 2) t -> u16_at f (p + 4) n -> 1 <= n <= 3 -> t < s ->
  refuses o read_correction f p Malformed.
Proof.
  intros Hs Ht Hn Bn H. unfold refuses, read_correction. set (e := mkEnv f o).
  assert (Hl : u32_at f p (65536 * s + t)) by (exists s, t; auto).
  rewrite (run_peek e (_ <- take_u32;; take_u16) _ p n (p + 4 + 2))
    by (unfold bind; rewrite (u32_run e _ _ Hl); apply (u16_run e), Hn).
  replace ((1 <=? n) && (n <=? 3)) with true
    by (symmetry; apply andb_true_intro; split; apply N.leb_le; lia).
  unfold read_device, bind. rewrite (u16_run e _ _ Hs), (u16_run e _ _ Ht).
  apply N.ltb_lt in H. rewrite H. reflexivity.
Qed.

Lemma caret_format o f p n :
  u32_at f p n -> ~ In n [1; 2; 3] -> refuses o read_caret f p UnknownFormat.
Proof.
  intros Hn H. unfold refuses, read_caret.
  rewrite (run_peek _ _ _ _ _ _ (u32_run (mkEnv f o) _ _ Hn)).
  destruct n as [|[[?|?|]|[?|?|]|]]; try reflexivity; destruct H; cbn; tauto.
Qed.

(** ** Constants *)

Lemma const_error o f p n c {A} (k : N -> M A) :
  u16_at f p n -> n <> c -> bind (take_const take_u16 c) k (mkEnv f o) p = Err UnexpectedValue.
Proof.
  intros Hn H. apply run_stop. unfold take_const. rewrite (run_bind _ _ _ _ _ _ (u16_run (mkEnv f o) _ _ Hn)).
  apply N.eqb_neq in H. rewrite H. reflexivity.
Qed.

Ltac unexpected := intros Hn H; unfold refuses; refine (const_error _ _ _ _ _ _ Hn H).

Lemma gsub_constants o f p n : u16_at f p n -> n <> 1 ->
  refuses o read_multiple_substitution f p UnexpectedValue /\
  refuses o read_alternate_substitution f p UnexpectedValue /\
  refuses o read_ligature_substitution f p UnexpectedValue /\
  refuses o read_extension_substitution f p UnexpectedValue.
Proof. intros Hn H. repeat split; exact (const_error _ _ _ _ _ _ Hn H). Qed.

Lemma gpos_constants o f p n : u16_at f p n -> n <> 1 ->
  refuses o read_cursive_attachment f p UnexpectedValue /\
  refuses o read_mark_to_base_attachment f p UnexpectedValue /\
  refuses o read_mark_to_ligature_attachment f p UnexpectedValue /\
  refuses o read_mark_to_mark_attachment f p UnexpectedValue /\
  refuses o read_extension_positioning f p UnexpectedValue.
Proof. intros Hn H. repeat split; exact (const_error _ _ _ _ _ _ Hn H). Qed.

Lemma language_constant o f p n : u16_at f p n -> n <> 0 ->
  refuses o read_language_record f p UnexpectedValue.
Proof. intros Hn H. exact (const_error _ _ _ _ _ _ Hn H). Qed.

Lemma definition_constants o f p n : u16_at f p n -> n <> 1 ->
  refuses o read_marks f p UnexpectedValue /\ refuses o read_store f p UnexpectedValue.
Proof. intros Hn H. repeat split; exact (const_error _ _ _ _ _ _ Hn H). Qed.

Lemma variations_constants o f p major minor :
  u16_at f p major -> u16_at f (p + 2) minor -> ~ (major = 1 /\ minor = 0) ->
  refuses o read_feature_variations f p UnexpectedValue.
Proof.
  intros H1 H2 H. unfold refuses, read_feature_variations.
  destruct (N.eq_dec major 1) as [->|C]; [|exact (const_error _ _ _ _ _ _ H1 C)].
  assert (C : minor <> 0) by tauto.
  erewrite run_bind; [exact (const_error _ _ _ _ _ _ H2 C)|].
  unfold take_const. rewrite (run_bind _ _ _ _ _ _ (u16_run (mkEnv f o) _ _ H1)). reflexivity.
Qed.

Lemma fvar_constant o f p a b c n :
  u16_at f p a -> u16_at f (p + 2) b -> u16_at f (p + 4) c -> u16_at f (p + 6) n -> n <> 2 ->
  refuses o read_font_variations f p UnexpectedValue.
Proof.
  intros Ha Hb Hc Hn H. unfold refuses, read_font_variations. rewrite bind_position. apply run_stop.
  unfold read_fvar_header. set (e := mkEnv f o).
  rewrite (run_bind _ _ _ _ _ _ (u16_run e _ _ Ha)), (run_bind _ _ _ _ _ _ (u16_run e _ _ Hb)).
  replace (p + 2 + 2) with (p + 4) by lia. rewrite (run_bind _ _ _ _ _ _ (u16_run e _ _ Hc)).
  replace (p + 4 + 2) with (p + 6) by lia. exact (const_error _ _ _ _ _ _ Hn H).
Qed.

(** ** Lists that are too short *)

Lemma empty_context_rules o f p n : u16_at f p 0 -> u16_at f (p + 2) n ->
  refuses o read_context_record f p Malformed /\ refuses o read_context_class_record f p Malformed.
Proof.
  intros H0 Hn. set (e := mkEnv f o).
  unfold refuses, read_context_record, read_context_class_record.
  split; rewrite (run_bind _ _ _ _ _ _ (u16_run e _ _ H0)), (run_bind _ _ _ _ _ _ (u16_run e _ _ Hn));
    reflexivity.
Qed.

Lemma empty_chained_rules o f p n before :
  u16_at f p n -> u16s_at f (p + 2) n before -> u16_at f (p + 2 + 2 * n) 0 ->
  refuses o read_chained_record f p Malformed /\ refuses o read_chained_class_record f p Malformed.
Proof.
  intros Hn Hb H0. set (e := mkEnv f o).
  assert (Hv : take_vec n take_u16 e (p + 2) = Ok (before, p + 2 + 2 * n))
    by (apply (take_u16s_takes True e); auto).
  unfold refuses, read_chained_record, read_chained_class_record.
  split; rewrite (run_bind _ _ _ _ _ _ (u16_run e _ _ Hn)), (run_bind _ _ _ _ _ _ Hv),
    (run_bind _ _ _ _ _ _ (u16_run e _ _ H0)); reflexivity.
Qed.

Lemma empty_ligature o f p n : u16_at f p n -> u16_at f (p + 2) 0 ->
  refuses o read_ligature f p Malformed.
Proof.
  intros Hn H0. set (e := mkEnv f o). unfold refuses, read_ligature.
  rewrite (run_bind _ _ _ _ _ _ (u16_run e _ _ Hn)), (run_bind _ _ _ _ _ _ (u16_run e _ _ H0)).
  reflexivity.
Qed.

(** ** Versions, types, tags *)

Lemma only_directory_tail {T} E (read_table : N -> M T) position a b c d :
  incl subtable_errors E -> (forall t, only E (read_table t)) ->
  only E (scripts <- jump_take_list position a read_scripts scripts_default;;
    features <- jump_take_list position b read_features features_default;;
    lookups <- jump_take_list position c (read_lookups read_table) lookups_default;;
    variations <- jump_take_maybe position d read_feature_variations;;
    ret (scripts, features, lookups, variations)).
Proof.
  intros HE H. assert (forall x, In x subtable_errors -> In x E) as H' by exact HE.
  unfold subtable_errors in H'.
  assert (In UnexpectedEnd E) by (apply H'; cbn; tauto).
  assert (In UnexpectedValue E) by (apply H'; cbn; tauto).
  assert (In InvalidFlags E) by (apply H'; cbn; tauto).
  clear H' HE. only_errors; apply H.
Qed.

Lemma directory_version {T} (read_table : N -> M T) o f p :
  (forall t, only (UnknownType :: subtable_errors) (read_table t)) ->
  (refuses o (read_directory read_table) f p UnknownVersion <-> other_version f p).
Proof.
  intros Ht. unfold refuses, read_directory. set (e := mkEnv f o). rewrite bind_position.
  destruct (u16_now e p) as [(a & Ha & Ea)|(Ea & Ha)].
  2: { rewrite (run_stop e _ _ _ _ Ea). split; [discriminate|]. intros (a & b & H & _). destruct (Ha _ H). }
  rewrite (run_bind e _ _ _ _ _ Ea).
  destruct (u16_now e (p + 2)) as [(b & Hb & Eb)|(Eb & Hb)].
  2: { rewrite (run_stop e _ _ _ _ Eb). split; [discriminate|]. intros (? & b & _ & H & _). destruct (Hb _ H). }
  rewrite (run_bind e _ _ _ _ _ Eb).
  destruct ((a =? 1) && ((b =? 0) || (b =? 1))) eqn:C.
  - split.
    + assert (O : forall T' (m : M T'), only (UnknownType :: subtable_errors) m ->
          m e (p + 2 + 2) = Err UnknownVersion -> False).
      { intros T' m O E. apply O in E. cbn in E. intuition discriminate. }
      intros E. exfalso. revert E. apply O. only_errors; apply Ht.
    + intros (a' & b' & Ha' & Hb' & H). exfalso. apply H.
      apply (u16_run e) in Ha'. rewrite Ea in Ha'. injection Ha' as <-.
      apply (u16_run e) in Hb'. rewrite Eb in Hb'. injection Hb' as <-.
      apply andb_prop in C. destruct C as [C1 C2]. apply N.eqb_eq in C1. apply orb_prop in C2.
      split; [exact C1|]. destruct C2 as [C2|C2]; apply N.eqb_eq in C2; auto.
  - split; [|intros _; reflexivity]. intros _. exists a, b. split; [exact Ha|]. split; [exact Hb|].
    intros [-> [->| ->]]; discriminate C.
Qed.

Lemma gsub_version o f p : refuses o read_glyph_substitution f p UnknownVersion <-> other_version f p.
Proof.
  apply directory_version. intros t. apply only_gsub_type; [cbn; tauto|intros x; cbn; tauto].
Qed.

Lemma gpos_version o f p : refuses o read_glyph_positioning f p UnknownVersion <-> other_version f p.
Proof.
  apply directory_version. intros t. apply only_gpos_type; [cbn; tauto|intros x; cbn; tauto].
Qed.

Lemma cpal_version o f p : refuses o read_color_palettes f p UnknownVersion <-> other_format f p [0; 1].
Proof.
  assert (O : only [UnexpectedEnd] read_color) by only_errors.
  unfold refuses, read_color_palettes. set (e := mkEnv f o). rewrite bind_position. split.
  - intros H.
    assert (E : read_cpal_header e p = Err UnknownVersion).
    { unfold bind at 1 in H. destruct (read_cpal_header e p) as [[h q]|x|] eqn:E; try discriminate.
      - exfalso. destruct h as [h|h].
        + revert H. assert (O' : only [UnexpectedEnd] (colors <- jump_take p (cpal_header0_color_offset h)
            (take_vec (cpal_header0_color_count h) read_color);; ret (mkColorPalettes (CpalVersion0 h) colors)))
            by only_errors.
          intros H. apply O' in H. destruct H as [H|[]]; discriminate.
        + revert H. assert (O' : only [UnexpectedEnd] (colors <- jump_take p (cpal_header1_color_offset h)
            (take_vec (cpal_header1_color_count h) read_color);; ret (mkColorPalettes (CpalVersion1 h) colors)))
            by only_errors.
          intros H. apply O' in H. destruct H as [H|[]]; discriminate.
      - injection H as <-. reflexivity. }
    apply peeked_error in E. destruct E as [(n & Hn & E)|(E & _)]; [|discriminate].
    exists n. split; [exact Hn|].
    intros [<-|[<-|[]]].
    + assert (N : In UnknownVersion [UnexpectedEnd]).
      { revert E. apply only_stop. apply only_const; [|cbn; tauto|exact Hn]. intros v. only_errors. }
      destruct N as [N|[]]; discriminate.
    + assert (N : In UnknownVersion [UnexpectedEnd]).
      { revert E. apply only_stop. apply only_const; [|cbn; tauto|exact Hn]. intros v. only_errors. }
      destruct N as [N|[]]; discriminate.
  - intros (n & Hn & H). apply run_stop. apply peeked_error. left. exists n. split; [exact Hn|].
    destruct n as [|[?|?|]]; try reflexivity; destruct H; cbn; tauto.
Qed.

Lemma gdef_version o f p n :
  u32_at f p n -> ~ In n [0x00010000; 0x00010002; 0x00010003] ->
  refuses o read_glyph_definition f p UnknownFormat.
Proof.
  intros Hn H. unfold refuses, read_glyph_definition. rewrite bind_position. apply run_stop.
  unfold read_gdef_header. rewrite (run_peek _ _ _ _ _ _ (u32_run (mkEnv f o) _ _ Hn)).
  repeat match goal with
  | |- (match ?x with _ => _ end) _ _ = _ => destruct x; try reflexivity
  end; destruct H; cbn; tauto.
Qed.

Lemma gsub_type_error o f p t : refuses o (read_gsub_type t) f p UnknownType <-> ~ (1 <= t <= 8).
Proof.
  split.
  - intros H C. assert (O : only subtable_errors (read_gsub_type t))
      by (apply only_gsub_type; [intros N; destruct (N C)|apply incl_refl]).
    apply O in H. cbn in H. intuition discriminate.
  - intros H. unfold refuses, read_gsub_type.
    repeat match goal with
    | |- (match ?x with _ => _ end) _ _ = _ => destruct x; try reflexivity
    end; lia.
Qed.

Lemma gpos_type_error o f p t : refuses o (read_gpos_type t) f p UnknownType <-> ~ (1 <= t <= 9).
Proof.
  split.
  - intros H C. assert (O : only subtable_errors (read_gpos_type t))
      by (apply only_gpos_type; [intros N; destruct (N C)|apply incl_refl]).
    apply O in H. cbn in H. intuition discriminate.
  - intros H. unfold refuses, read_gpos_type.
    repeat match goal with
    | |- (match ?x with _ => _ end) _ _ = _ => destruct x; try reflexivity
    end; lia.
Qed.

Lemma font_tag d o f p : refuses o (read_font d) f p Unsupported <-> other_tag d f p.
Proof.
  assert (O : only [UnexpectedEnd] (header <- read_offsets_header;;
    records <- take_vec (offsets_header_table_count header) read_offset_record;;
    ret (mkOffsets header records))) by only_errors.
  unfold refuses, read_font, read_offsets. set (e := mkEnv f o).
  destruct (tag_now e p) as [(t & Ht & E)|(E & Ht)].
  - split.
    + intros H. unfold bind at 1 in H. rewrite (run_peek e _ _ _ _ _ E) in H.
      exists t. split; [exact Ht|]. destruct (truetype_accept d t); [exfalso|reflexivity].
      match type of H with context [match ?x with _ => _ end] => destruct x as [[v q]|y|] eqn:X end;
        try discriminate.
      apply O in X. destruct X as [<-|[]]. discriminate.
    + intros (t' & Ht' & H). apply (tag_run e) in Ht'. rewrite E in Ht'. injection Ht' as <-.
      apply run_stop. rewrite (run_peek e _ _ _ _ _ E), H. reflexivity.
  - split; [|intros (t & H & _); destruct (Ht _ H)].
    unfold bind, peek, stay. rewrite E. discriminate.
Qed.

Lemma file_tag d o f p :
  refuses o (read_file d) f p Unsupported <-> tag_at f p (Tag "t" "t" "c" "f") \/ other_tag d f p.
Proof.
  unfold refuses, read_file. set (e := mkEnv f o).
  destruct (tag_now e p) as [(t & Ht & E)|(E & Ht)].
  - rewrite (run_peek e _ _ _ _ _ E). destruct (tag_eqb t ttcf) eqn:C.
    + split; [|reflexivity]. intros _. left.
      assert (t = Tag "t" "t" "c" "f") as <- by (apply tag_eqb_eq, C). exact Ht.
    + rewrite <- (font_tag d o f p). split.
      * intros H. right. unfold bind in H. unfold refuses. subst e.
        destruct (read_font d (mkEnv f o) p) as [[v q]|x|] eqn:X; try discriminate. congruence.
      * intros [H|H]; [|apply run_stop, H].
        apply (tag_run e) in H. rewrite E in H. injection H as ->. discriminate C.
  - split.
    + unfold bind, peek, stay. rewrite E. discriminate.
    + intros [H|(t & H & _)]; destruct (Ht _ H).
Qed.

(** ** Flags *)

Lemma lookup_flags_error {T} (read_table : N -> M T) o f p t v :
  u16_at f p t -> u16_at f (p + 2) v -> checked_flags o = true -> N.land v 0x00E0 <> 0 ->
  refuses o (read_lookup_record read_table) f p InvalidFlags.
Proof.
  intros Ht Hv Ho H. set (e := mkEnv f o). unfold refuses, read_lookup_record. rewrite bind_position.
  rewrite (run_bind _ _ _ _ _ _ (u16_run e _ _ Ht)). apply run_stop.
  unfold take_lookup_flags, take_flags. rewrite (run_bind _ _ _ _ _ _ (u16_run e _ _ Hv)), bind_ask.
  cbn [opts e]. apply N.eqb_neq in H. rewrite Ho, H. reflexivity.
Qed.

Lemma flags_error o f p v mask :
  u16_at f p v -> checked_flags o = true -> N.land v mask <> 0 ->
  take_flags mask (mkEnv f o) p = Err InvalidFlags.
Proof.
  intros Hv Ho H. unfold take_flags.
  rewrite (run_bind _ _ _ _ _ _ (u16_run (mkEnv f o) _ _ Hv)), bind_ask.
  cbn [opts]. apply N.eqb_neq in H. rewrite Ho, H. reflexivity.
Qed.

Lemma single_adjustment_flags o f p n c v :
  u16_at f p n -> n = 1 \/ n = 2 -> u16_at f (p + 2) c -> u16_at f (p + 4) v ->
  checked_flags o = true -> N.land v 0xFF00 <> 0 -> refuses o read_single_adjustment f p InvalidFlags.
Proof.
  intros Hn Bn Hc Hv Ho H. set (e := mkEnv f o). unfold refuses. apply peeked_error. left. exists n.
  split; [exact Hn|].
  destruct Bn as [->| ->]; apply run_stop;
    unfold read_single_adjustment1, read_single_adjustment2; rewrite bind_position;
    rewrite (run_bind _ _ _ _ _ _ (u16_run e _ _ Hn)), (run_bind _ _ _ _ _ _ (u16_run e _ _ Hc));
    replace (p + 2 + 2) with (p + 4) by lia; apply run_stop, flags_error with v; assumption.
Qed.

Lemma pair_adjustment_flags o f p n c v w :
  u16_at f p n -> n = 1 \/ n = 2 -> u16_at f (p + 2) c -> u16_at f (p + 4) v -> u16_at f (p + 6) w ->
  checked_flags o = true -> N.land v 0xFF00 <> 0 \/ N.land w 0xFF00 <> 0 ->
  refuses o read_pair_adjustment f p InvalidFlags.
Proof.
  intros Hn Bn Hc Hv Hw Ho H. set (e := mkEnv f o). unfold refuses. apply peeked_error. left. exists n.
  split; [exact Hn|].
  destruct Bn as [->| ->]; apply run_stop;
    unfold read_pair_adjustment1, read_pair_adjustment2; rewrite bind_position;
    rewrite (run_bind _ _ _ _ _ _ (u16_run e _ _ Hn)), (run_bind _ _ _ _ _ _ (u16_run e _ _ Hc));
    replace (p + 2 + 2) with (p + 4) by lia.
  all: destruct (N.eq_dec (N.land v 0xFF00) 0) as [Z|Z];
    [|apply run_stop, flags_error with v; assumption].
  all: assert (Z' : N.land w 0xFF00 <> 0) by tauto.
  all: assert (E : take_value_flags e (p + 4) = Ok (v, p + 6)) by
    (unfold take_value_flags, take_flags;
     rewrite (run_bind _ _ _ _ _ _ (u16_run e _ _ Hv)), bind_ask, Z, andb_comm; cbn [negb N.eqb andb];
     replace (p + 6) with (p + 4 + 2) by lia; reflexivity).
  all: rewrite (run_bind _ _ _ _ _ _ E); apply run_stop, flags_error with w; assumption.
Qed.

Lemma axis_flags_error o f p t a b c v :
  tag_at f p t -> u32_at f (p + 4) a -> u32_at f (p + 8) b -> u32_at f (p + 12) c ->
  u16_at f (p + 16) v -> checked_flags o = true -> N.land v 0xFFFE <> 0 ->
  refuses o read_axis_record f p InvalidFlags.
Proof.
  intros Ht Ha Hb Hc Hv Ho H. set (e := mkEnv f o). unfold refuses, read_axis_record.
  assert (Q : forall q n, u32_at f q n -> take_q32 e q = Ok (to_i32 n, q + 4)).
  { intros q n Hq. unfold take_q32. rewrite (run_bind _ _ _ _ _ _ (u32_run e _ _ Hq)). reflexivity. }
  rewrite (run_bind _ _ _ _ _ _ (tag_run e _ _ Ht)), (run_bind _ _ _ _ _ _ (Q _ _ Ha)).
  replace (p + 4 + 4) with (p + 8) by lia. rewrite (run_bind _ _ _ _ _ _ (Q _ _ Hb)).
  replace (p + 8 + 4) with (p + 12) by lia. rewrite (run_bind _ _ _ _ _ _ (Q _ _ Hc)).
  replace (p + 12 + 4) with (p + 16) by lia. apply run_stop, flags_error with v; assumption.
Qed.

Lemma instance_flags_error o f p n s v :
  u16_at f p s -> u16_at f (p + 2) v -> checked_flags o = true -> v <> 0 ->
  refuses o (read_instance_record n) f p InvalidFlags.
Proof.
  intros Hs Hv Ho H. set (e := mkEnv f o). unfold refuses, read_instance_record.
  rewrite (run_bind _ _ _ _ _ _ (u16_run e _ _ Hs)). apply run_stop.
  apply flags_error with v; [assumption|assumption|].
  apply u16_bound with (e := e) in Hv.
  change 0xFFFF with (N.ones 16). rewrite N.land_ones, N.mod_small; [exact H|exact Hv].
Qed.

Lemma unchecked_flags o f p : checked_flags o = false -> forall v mask,
  u16_at f p v -> take_flags mask (mkEnv f o) p = Ok (v, p + 2).
Proof.
  intros Ho v mask Hv. unfold take_flags.
  rewrite (run_bind _ _ _ _ _ _ (u16_run (mkEnv f o) _ _ Hv)), bind_ask.
  cbn [opts]. rewrite Ho. reflexivity.
Qed.

(** ** Checksums *)

Lemma checksum_error {A} d o this t r (m : M A) f p c :
  first_record (offsets_records (font_offsets this)) (table_tag t) r ->
  ignore_invalid_checksums o = false -> record_checksum d f r = Ok c -> c <> offset_record_checksum r ->
  refuses o (font_position d this t) f p Malformed /\ refuses o (font_take d this t m) f p Malformed.
Proof.
  intros Hr Ho Hc H.
  assert (C : checksum_test d (mkEnv f o) r = Err Malformed).
  { unfold checksum_test. cbn [opts content]. rewrite Ho, Hc.
    replace (offset_record_checksum r =? c) with false; [reflexivity|].
    symmetry. apply N.eqb_neq. congruence. }
  unfold refuses. split.
  - unfold font_position. rewrite (loop_present _ _ _ r) by exact Hr. rewrite C. reflexivity.
  - rewrite (take_present _ _ _ r) by exact Hr. rewrite C. reflexivity.
Qed.
