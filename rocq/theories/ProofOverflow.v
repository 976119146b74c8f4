(** Overflow-checked builds: when a read panics, and what differs otherwise. *)

From Verif Require Export Requests SpecOverflow.
From Verif Require Import Reads ReadsTactics ProofLayout ProofGdef ProofExtend ProofRequests ProofShape.

(** ** When a reader panics *)

Definition stops {A} (m : M A) (e : env) (p : N) (Q : Prop) : Prop := m e p = Panic <-> Q.

Lemma stops_conv {A} (m : M A) e p Q Q' : stops m e p Q -> (Q <-> Q') -> stops m e p Q'.
Proof. unfold stops. tauto. Qed.

Lemma bind_panic {A B} (m : M A) (k : A -> M B) e p :
  bind m k e p = Panic <-> m e p = Panic \/ exists a q, m e p = Ok (a, q) /\ k a e q = Panic.
Proof.
  unfold bind. destruct (m e p) as [[a q]|x|].
  - split; [eauto|]. intros [H|(a' & q' & [= <- <-] & H)]; [discriminate H|exact H].
  - split; [discriminate|]. intros [H|(a' & q' & H & _)]; discriminate H.
  - tauto.
Qed.

Lemma stops_bind {A B} (m : M A) (k : A -> M B) e p P Q :
  finds True m e p P -> (forall a q, P a -> stops (k a) e q (Q a)) ->
  stops (bind m k) e p (exists a, P a /\ Q a).
Proof.
  intros [Hn Hm] Hk. unfold stops. rewrite bind_panic. split.
  - intros [H|(a & q & H & E)]; [elim (Hn I H)|].
    assert (Pa : P a) by (apply Hm; eauto). exists a. split; [exact Pa|]. apply (Hk a q Pa), E.
  - intros (a & Pa & Qa). right. destruct (proj2 (Hm a) Pa) as [q Hq]. exists a, q.
    split; [exact Hq|]. apply (Hk a q Pa), Qa.
Qed.

Lemma stops_bind_takes {A B} (m : M A) (k : A -> M B) e p P n Q :
  takes True m e p P n -> (forall a, P a -> stops (k a) e (p + n) (Q a)) ->
  stops (bind m k) e p (exists a, P a /\ Q a).
Proof.
  intros [Hn Hm] Hk. unfold stops. rewrite bind_panic. split.
  - intros [H|(a & q & H & E)]; [elim (Hn I H)|].
    apply Hm in H as [Pa ->]. exists a. split; [exact Pa|]. apply (Hk a Pa), E.
  - intros (a & Pa & Qa). right. exists a, (p + n).
    split; [apply Hm; auto|]. apply (Hk a Pa), Qa.
Qed.

Lemma stops_bind_last {A B} (m : M A) (k : A -> M B) e p Q :
  stops m e p Q -> (forall a q, k a e q <> Panic) -> stops (bind m k) e p Q.
Proof.
  intros Hm Hk. unfold stops. rewrite bind_panic. split.
  - intros [H|(a & q & _ & E)]; [apply Hm, H|elim (Hk a q E)].
  - intros H. left. apply Hm, H.
Qed.

Lemma stops_jump_take {A} (m : M A) e p base offset Q :
  near base offset -> stops m e (base + offset) Q -> stops (jump_take base offset m) e p Q.
Proof.
  intros H Hm. unfold near in H. unfold stops, jump_take, add_u64, add_wrapping. apply N.ltb_lt in H.
  unfold bind at 1 2. unfold ask. rewrite H. exact Hm.
Qed.

Lemma stops_jump_take_maybe {A} (m : M A) e p base offset Q :
  near base offset -> stops m e (base + offset) Q ->
  stops (jump_take_maybe base offset m) e p (offset <> 0 /\ Q).
Proof.
  intros H Hm. unfold jump_take_maybe. destruct (N.ltb_spec 0 offset) as [Hp|Hz].
  - eapply stops_conv; [apply stops_bind_last; [apply stops_jump_take; eassumption|discriminate]|].
    split; [intros; split; [lia|assumption]|tauto].
  - split; [discriminate|]. intros [Hz' _]. lia.
Qed.

Lemma stops_range {A} (m : nat -> M A) e (P : N -> A -> Prop) (Q : N -> Prop) offsets :
  forall i p,
  (forall j o q, nth_error offsets j = Some o ->
     finds False (m (i + j)%nat) e q (P o) /\ stops (m (i + j)%nat) e q (Q o)) ->
  stops (for_range i (length offsets) m) e p
    (exists j o vs, nth_error offsets j = Some o /\ Forall2 P (firstn j offsets) vs /\ Q o).
Proof.
  induction offsets as [|o offsets IH]; intros i p H; cbn [for_range length].
  - split; [discriminate|]. intros (j & o & vs & Hj & _). destruct j; discriminate Hj.
  - assert (Hr : forall q, stops (for_range (Datatypes.S i) (length offsets) m) e q
      (exists j o vs, nth_error offsets j = Some o /\ Forall2 P (firstn j offsets) vs /\ Q o)).
    { intros q. apply IH. intros j o' q' Hj. specialize (H (Datatypes.S j) o' q' Hj).
      rewrite <- plus_n_Sm in H. exact H. }
    specialize (H 0%nat o p eq_refl) as [[_ Hf] Hs]. rewrite Nat.add_0_r in *.
    unfold stops. rewrite bind_panic. split.
    + intros [E|(a & q & Ha & E)].
      * exists 0%nat, o, []. split; [reflexivity|]. split; [constructor|]. apply Hs, E.
      * assert (Pa : P o a) by (apply Hf; eauto).
        apply (stops_bind_last _ _ _ _ _ (Hr q)) in E; [|discriminate].
        destruct E as (j & o' & vs & Hj & Hv & HQ).
        exists (Datatypes.S j), o', (a :: vs). cbn. auto.
    + intros (j & o' & vs & Hj & Hv & HQ). destruct j as [|j]; cbn in *.
      * injection Hj as ->. left. apply Hs, HQ.
      * inversion Hv as [|? a ? vs' Pa Hv']; subst. right.
        destruct (proj2 (Hf a) Pa) as [q Hq]. exists a, q. split; [exact Hq|].
        apply (stops_bind_last _ _ _ _ _ (Hr q)); [discriminate|]. eauto 7.
Qed.

Lemma stops_jump_take_n {A} (m : M A) e P Q base offsets count p :
  N.of_nat (length offsets) = count -> nears base offsets ->
  (forall o, near base o -> finds False m e (base + o) (P (base + o)) /\ stops m e (base + o) (Q (base + o))) ->
  stops (jump_take_n base count offsets m) e p
    (exists i o vs, nth_error offsets i = Some o /\ linked_at P base (firstn i offsets) vs /\ Q (base + o)).
Proof.
  intros <- Hn Hm. unfold jump_take_n, jump_take_each, for_n. rewrite Nat2N.id.
  apply (stops_range _ e (fun o => P (base + o)) (fun o => Q (base + o))).
  intros j o q Hj. cbn [Nat.add]. pose proof (nears_nth _ _ _ _ Hn Hj) as Ho.
  assert (E : forall q, (o <- index offsets j;; jump_take base o m) e q = jump_take base o m e q).
  { intros r. unfold bind, index. rewrite Hj. reflexivity. }
  split.
  - unfold finds. rewrite E. apply jump_take_finds; [exact Ho|]. apply Hm, Ho.
  - unfold stops. rewrite E. apply stops_jump_take; [exact Ho|]. apply Hm, Ho.
Qed.

(** ** When reading GDEF panics *)

Section Gdef.
Context (e : env) (Hb : bounded (content e)) (Hc : overflow_checks (opts e) = true).
Local Notation f := (content e).

Lemma deltas_stops item short region p :
  stops (per_item_count <- add_u16 short region;; take_vec (item * per_item_count) take_u8) e p
    (2 ^ 16 <= short + region).
Proof.
  unfold add_u16, add_wrapping. destruct (N.ltb_spec (short + region) (2 ^ 16)) as [L|L].
  - split; [|lia]. intros E. exfalso. revert E. unfold bind, ask, ret. cbv beta.
    apply (proj1 (take_u8s_takes True e _ _) I).
  - unfold stops, bind, ask. rewrite Hc. split; [intros _; exact L|reflexivity].
Qed.

Lemma store_record_stops p : stops read_store_record e p (store_record_overflows f p).
Proof.
  unfold read_store_record. eapply stops_conv.
  - eapply stops_bind_takes; [apply take_u16_takes|]. intros item H.
    eapply stops_bind_takes; [apply take_u16_takes|]. intros short H0.
    eapply stops_bind_takes; [apply take_u16_takes|]. intros region H1.
    eapply stops_bind_takes; [apply take_u16s_takes|]. intros indices H2.
    apply stops_bind_last; [apply deltas_stops|discriminate].
  - unfold store_record_overflows. split.
    + intros (item & H & short & H0 & region & H1 & indices & H2 & H3).
      exists item, short, region, indices. conjuncts; by_position || assumption.
    + intros (item & short & region & indices & H & H0 & H1 & H2 & H3).
      exists item. split; [exact H|]. exists short. split; [exact H0|]. exists region. split; [by_position|].
      exists indices. split; [by_position|exact H3].
Qed.

Lemma store_stops p : stops read_store e p (store_overflows (opts e) f p).
Proof.
  unfold read_store. eapply stops_conv.
  - change (stops (bind get_position ?k) e p ?Q) with (stops (k p) e p Q).
    eapply stops_bind_takes; [apply take_const_takes, take_u16_takes|]. intros format [H _].
    eapply stops_bind_takes; [apply take_u32_takes|]. intros region H0.
    eapply stops_bind_takes; [apply take_u16_takes|]. intros count H1.
    eapply stops_bind_takes; [apply take_u32s_takes|]. intros offsets H2.
    apply stops_bind_last; [|discriminate].
    apply stops_jump_take_n; [lengths|nearby|].
    intros o _. split; [apply read_store_record_finds; intros []|apply store_record_stops].
  - unfold store_overflows. split.
    + intros (format & [H ->] & region & H0 & count & H1 & offsets & H2 & H3).
      exists region, count, offsets. conjuncts; try by_position. exact H3.
    + intros (region & count & offsets & H & H0 & H1 & H2 & H3).
      exists 1. split; [auto|]. exists region. split; [by_position|]. exists count. split; [by_position|].
      exists offsets. split; [by_position|]. exact H3.
Qed.

Lemma glyph_definition_stops p :
  stops read_glyph_definition e p (glyph_definition_overflows (opts e) f p).
Proof.
  unfold read_glyph_definition. eapply stops_conv.
  - change (stops (bind get_position ?k) e p ?Q) with (stops (k p) e p Q).
    eapply stops_bind; [apply (read_gdef_header_finds True e p)|]. intros header q H.
    destruct (gdef_header_small _ Hb _ _ H) as (? & ? & ? & ? & ? & ? & ?).
    eapply stops_bind; [found|]. intros glyph_class q0 ?.
    eapply stops_bind; [found|]. intros attachments q1 ?.
    eapply stops_bind; [found|]. intros ligatures q2 ?.
    eapply stops_bind; [found|]. intros mark_class q3 ?.
    eapply stops_bind; [found|]. intros marks q4 ?.
    apply stops_bind_last; [|discriminate].
    apply stops_jump_take_maybe; [nearby|apply store_stops].
  - unfold glyph_definition_overflows. split.
    + intros (h & H & c & H0 & a & H1 & l & H2 & k & H3 & m & H4 & H5).
      exists h, c, a, l, k, m.
      destruct h as [[]|[]|[]]; cbn -[gdef_header_at maybe_at store_overflows] in *; auto 9.
    + intros (h & c & a & l & k & m & H).
      exists h. destruct h as [[]|[]|[]]; cbn -[gdef_header_at maybe_at store_overflows] in *; break;
        (split; [assumption|]; exists c; split; [assumption|]; exists a; split; [assumption|];
         exists l; split; [assumption|]; exists k; split; [assumption|]; exists m; split; [assumption|];
         auto).
Qed.
End Gdef.

(** ** Consequences *)

Lemma request_checks {A} (r : request A) o f p : bounded f -> is_gdef r = false ->
  reader r (mkEnv f (with_overflow true o)) p = reader r (mkEnv f (with_overflow false o)) p.
Proof.
  intros Hb Hr. destruct (mono_unchecked (reader r) o f p (request_mono r)) as [H|H]; [exact H|].
  elim (request_no_panic r (with_overflow true o) f p Hb (or_introl Hr) H).
Qed.

Lemma request_unchecked {A} (r : request A) o f p :
  reader r (mkEnv f (with_overflow true o)) p = reader r (mkEnv f (with_overflow false o)) p \/
  reader r (mkEnv f (with_overflow true o)) p = Panic.
Proof. apply mono_unchecked, request_mono. Qed.

Lemma gdef_panics o f p : bounded f ->
  (panics o read_glyph_definition f p <->
   overflow_checks o = true /\ glyph_definition_overflows o f p).
Proof.
  intros Hb. destruct (overflow_checks o) eqn:Hc.
  - pose proof (glyph_definition_stops (mkEnv f o) Hb Hc p) as H. unfold stops in H. cbn [opts content] in H.
    unfold panics. tauto.
  - split; [|intros [H _]; discriminate H]. intros H. exfalso. revert H.
    exact (request_no_panic RequestGdef o f p Hb (or_intror Hc)).
Qed.

Lemma store_record_checks o f p v :
  store_record_at (with_overflow true o) f p v <->
  store_record_at (with_overflow false o) f p v /\
  store_record_short_delta_count v + store_record_region_count v < 2 ^ 16.
Proof.
  destruct v as [n s r i d]. cbn -[N.mul N.add N.pow N.modulo]. split.
  - intros (H & H0 & H1 & H2 & H3 & H4). specialize (H3 eq_refl). conjuncts; try assumption. discriminate.
  - intros [(H & H0 & H1 & H2 & _ & H4) H3]. conjuncts; auto.
Qed.

Lemma linked_checks o f p offsets vs :
  linked_at (store_record_at (with_overflow true o) f) p offsets vs <->
  linked_at (store_record_at (with_overflow false o) f) p offsets vs /\
  Forall (fun r => store_record_short_delta_count r + store_record_region_count r < 2 ^ 16) vs.
Proof.
  unfold linked_at. split.
  - induction 1 as [|x y xs ys H _ IH]; [auto|]. apply store_record_checks in H. destruct IH.
    split; constructor; tauto.
  - intros [H Hf]. induction H as [|x y xs ys H _ IH]; [constructor|].
    inversion Hf; subst. constructor; [apply store_record_checks; auto|auto].
Qed.

Lemma store_checks o f p v :
  store_at (with_overflow true o) f p v <->
  store_at (with_overflow false o) f p v /\
  Forall (fun r => store_record_short_delta_count r + store_record_region_count r < 2 ^ 16) (store_records v).
Proof.
  destruct v as [format region count offsets records]. unfold store_at. cbn [store_records].
  rewrite linked_checks. tauto.
Qed.

Lemma gdef_checks o f p v :
  glyph_definition_at (with_overflow true o) f p v <->
  glyph_definition_at (with_overflow false o) f p v /\ counts_fit v.
Proof.
  destruct v as [h c a l k m s]. unfold glyph_definition_at, glyph_definition_with, counts_fit.
  cbn [glyph_definition_variations].
  destruct (gdef_offsets h) as [[[[[? ?] ?] ?] ?] ?].
  destruct s as [s|]; unfold maybe_at at 6 12; [rewrite store_checks|]; tauto.
Qed.

Lemma gdef_same o f p v : bounded f -> reads (with_overflow false o) read_glyph_definition f p v ->
  (counts_fit v -> reads (with_overflow true o) read_glyph_definition f p v) /\
  (~ counts_fit v -> panics (with_overflow true o) read_glyph_definition f p).
Proof.
  intros Hb H. pose proof (proj1 (request_reads RequestGdef _ f p v Hb) H) as Hv. split.
  - intros Hc. apply (request_reads RequestGdef _ f p v Hb), gdef_checks. auto.
  - intros Hc. destruct (request_unchecked RequestGdef o f p) as [E|E]; [|exact E].
    exfalso. apply Hc. destruct H as [q H]. cbn [reader] in E. rewrite H in E.
    assert (R : reads (with_overflow true o) (reader RequestGdef) f p v) by (exists q; exact E).
    apply request_reads in R; [|exact Hb]. apply gdef_checks in R. apply R.
Qed.
