(** The methods of the flags of what was read. *)

From Verif Require Export ModelFlags SpecFlags Requests.
From Verif Require Import ReadsTactics ProofRequests ProofWritten ProofGpos ProofGsub.

Lemma flag_bits flags :
  is_right_to_left flags = N.testbit flags 0 /\ should_ignore_base_glyphs flags = N.testbit flags 1 /\
  should_ignore_ligature flags = N.testbit flags 2 /\ should_ignore_marks flags = N.testbit flags 3 /\
  has_mark_filtering flags = N.testbit flags 4 /\ axis_is_hidden flags = N.testbit flags 0 /\
  has_x_placement flags = N.testbit flags 0 /\ has_y_placement flags = N.testbit flags 1 /\
  has_x_advance flags = N.testbit flags 2 /\ has_y_advance flags = N.testbit flags 3 /\
  has_x_placement_correction flags = N.testbit flags 4 /\
  has_y_placement_correction flags = N.testbit flags 5 /\
  has_x_advance_correction flags = N.testbit flags 6 /\
  has_y_advance_correction flags = N.testbit flags 7.
Proof.
  repeat (apply conj; [first [exact (has_flag_bit flags 0)|exact (has_flag_bit flags 1)
    |exact (has_flag_bit flags 2)|exact (has_flag_bit flags 3)|exact (has_flag_bit flags 4)
    |exact (has_flag_bit flags 5)|exact (has_flag_bit flags 6)]|]).
  exact (has_flag_bit flags 7).
Qed.

Lemma has_flag_none flags mask : has_flag flags mask = false <-> N.land flags mask = 0.
Proof. unfold has_flag. rewrite N.ltb_ge. lia. Qed.

(** A mask of consecutive bits. *)
Lemma has_flag_range flags a n :
  has_flag flags (N.shiftl (N.ones (N.succ n)) a) = true <-> some_bit flags a (a + n).
Proof.
  set (mask := N.shiftl _ _).
  assert (B : forall k, N.testbit mask k = (a <=? k) && (k <=? a + n)).
  { intros k. unfold mask. destruct (N.leb_spec a k) as [Ha|Ha].
    - rewrite N.shiftl_spec_high' by exact Ha. cbn [andb]. destruct (N.leb_spec k (a + n)) as [Hb|Hb].
      + apply N.ones_spec_low. lia.
      + apply N.ones_spec_high. lia.
    - rewrite N.shiftl_spec_low by exact Ha. reflexivity. }
  split.
  - intros H. unfold has_flag in H. rewrite N.ltb_lt in H.
    exists (N.log2 (N.land flags mask)).
    assert (T : N.testbit (N.land flags mask) (N.log2 (N.land flags mask)) = true)
      by (apply N.bit_log2; lia).
    rewrite N.land_spec, andb_true_iff, B, andb_true_iff, !N.leb_le in T. tauto.
  - intros (k & Hk & E). destruct (has_flag flags mask) eqn:H; [reflexivity|].
    apply has_flag_none in H. assert (T : N.testbit (N.land flags mask) k = true).
    { rewrite N.land_spec, E, B, andb_true_l, andb_true_iff, !N.leb_le. exact Hk. }
    rewrite H in T. rewrite N.bits_0 in T. discriminate T.
Qed.

Lemma invalid_bits flags :
  (lookup_is_invalid flags = true <-> some_bit flags 5 7) /\
  (value_is_invalid flags = true <-> some_bit flags 8 15) /\
  (axis_is_invalid flags = true <-> some_bit flags 1 15) /\
  (instance_is_invalid flags = true <-> some_bit flags 0 15).
Proof.
  exact (conj (has_flag_range flags 5 2) (conj (has_flag_range flags 8 7)
    (conj (has_flag_range flags 1 14) (has_flag_range flags 0 15)))).
Qed.

(** ** Lookups *)

Lemma announced_present {A} flags k (v : option A) : announced flags k v -> filled v = N.testbit flags k.
Proof.
  unfold announced. destruct v as [x|]; cbn; intros H.
  - destruct (N.testbit flags k); [reflexivity|]. discriminate (proj2 H eq_refl).
  - symmetry. apply H. reflexivity.
Qed.

Lemma directory_lookup_flags {T} o (P : N -> T -> Prop) (F : T -> Prop) v l :
  directory_wf P v -> directory_fits o F v -> In l (lookups_records (directory_lookups v)) ->
  filled (lookup_record_mark_filtering_set l) = has_mark_filtering (lookup_record_flags l) /\
  (checked_flags o = true -> lookup_is_invalid (lookup_record_flags l) = false).
Proof.
  destruct v as [a0 a1 s t lo x scripts features lookups variations].
  intros (_ & _ & _ & _ & Hw & _) (_ & _ & Hf & _) Hl. cbn in Hl.
  destruct lookups as [n offsets records]. destruct Hw as (_ & _ & Hw), Hf as (_ & Hf). cbn in Hl.
  rewrite Forall_forall in Hw, Hf. specialize (Hw l Hl). specialize (Hf l Hl).
  destruct l as [ty fl tc os set tables]. destruct Hw as (_ & _ & Hw & _), Hf as (_ & [_ Hf] & _). cbn.
  split.
  - rewrite (announced_present fl 4 set Hw). symmetry. exact (has_flag_bit fl 4).
  - intros Hc. apply has_flag_none, Hf, Hc.
Qed.

Lemma gsub_lookup_flags o f p v l :
  bounded f -> reads o read_glyph_substitution f p v -> In l (lookups_records (directory_lookups v)) ->
  filled (lookup_record_mark_filtering_set l) = has_mark_filtering (lookup_record_flags l) /\
  (checked_flags o = true -> lookup_is_invalid (lookup_record_flags l) = false).
Proof.
  intros B H. eapply directory_lookup_flags.
  - exact (request_shape RequestGsub o f p v B H).
  - exact (read_in_range RequestGsub o f p v B H).
Qed.

Lemma gpos_lookup_flags o f p v l :
  bounded f -> reads o read_glyph_positioning f p v -> In l (lookups_records (directory_lookups v)) ->
  filled (lookup_record_mark_filtering_set l) = has_mark_filtering (lookup_record_flags l) /\
  (checked_flags o = true -> lookup_is_invalid (lookup_record_flags l) = false).
Proof.
  intros B H. eapply directory_lookup_flags.
  - exact (request_shape RequestGpos o f p v B H).
  - exact (read_in_range RequestGpos o f p v B H).
Qed.

(** ** Values *)

Lemma directory_subtable {T} (P : N -> T -> Prop) v t :
  directory_wf P v -> has_subtable v t -> exists type_, P type_ t.
Proof.
  destruct v as [a0 a1 s ft lo x scripts features lookups variations].
  intros (_ & _ & _ & _ & Hw & _) (l & Hl & Ht). cbn in Hl.
  destruct lookups as [n offsets records]. destruct Hw as (_ & _ & Hw). cbn in Hl.
  rewrite Forall_forall in Hw. specialize (Hw l Hl). destruct l as [ty fl tc os set tables].
  destruct Hw as (_ & _ & _ & Hw). cbn in Ht. rewrite Forall_forall in Hw. eauto.
Qed.

Lemma directory_subtable_fits {T} o (F : T -> Prop) v t :
  directory_fits o F v -> has_subtable v t -> F t.
Proof.
  destruct v as [a0 a1 s ft lo x scripts features lookups variations].
  intros (_ & _ & Hf & _) (l & Hl & Ht). cbn in Hl.
  destruct lookups as [n offsets records]. destruct Hf as (_ & Hf). cbn in Hl.
  rewrite Forall_forall in Hf. specialize (Hf l Hl). destruct l as [ty fl tc os set tables].
  destruct Hf as (_ & _ & _ & _ & Hf). cbn in Ht. rewrite Forall_forall in Hf. eauto.
Qed.

Lemma values_wf o type_ t flags s :
  gpos_type_wf o type_ t -> In (flags, Some s) (values_of t) -> single_wf flags s.
Proof.
  destruct t as [[t|t]|[t|t]|t|t|t|t|t|t|t]; cbn [values_of]; try (intros _ []; fail); destruct t; cbn.
  - intros (_ & _ & H & _) [E|[]]. injection E as <- <-. exact H.
  - intros (_ & _ & _ & H & _) Hi. apply in_map_iff in Hi. destruct Hi as (x & E & Hx).
    injection E as <- <-. rewrite Forall_forall in H. auto.
  - intros (_ & _ & _ & _ & H & _) Hi. apply in_flat_map in Hi. destruct Hi as (set & Hs & Hi).
    rewrite Forall_forall in H. specialize (H _ Hs). destruct set as [n rs]. destruct H as [_ H].
    apply in_flat_map in Hi. destruct Hi as (r & Hr & Hi). cbn in Hr. rewrite Forall_forall in H.
    specialize (H _ Hr). destruct r as [g v1 v2]. destruct H as [[_ H1] [_ H2]]. cbn in Hi.
    destruct Hi as [E|[E|[]]]; injection E as <- ->; assumption.
  - intros (_ & _ & _ & H & _) Hi. apply in_flat_map in Hi. destruct Hi as (set & Hs & Hi).
    rewrite Forall_forall in H. specialize (H _ Hs). destruct set as [rs]. destruct H as [_ H].
    apply in_flat_map in Hi. destruct Hi as (r & Hr & Hi). cbn in Hr. rewrite Forall_forall in H.
    specialize (H _ Hr). destruct r as [v1 v2]. destruct H as [[_ H1] [_ H2]]. cbn in Hi.
    destruct Hi as [E|[E|[]]]; injection E as <- ->; assumption.
Qed.

Lemma gpos_values o f p v t flags s :
  bounded f -> reads o read_glyph_positioning f p v -> has_subtable v t -> In (flags, Some s) (values_of t) ->
  filled (single_x_placement s) = has_x_placement flags /\
  filled (single_y_placement s) = has_y_placement flags /\
  filled (single_x_advance s) = has_x_advance flags /\
  filled (single_y_advance s) = has_y_advance flags /\
  filled (single_x_placement_correction_offset s) = has_x_placement_correction flags /\
  filled (single_y_placement_correction_offset s) = has_y_placement_correction flags /\
  filled (single_x_advance_correction_offset s) = has_x_advance_correction flags /\
  filled (single_y_advance_correction_offset s) = has_y_advance_correction flags.
Proof.
  intros B H Ht Hs.
  destruct (directory_subtable _ _ _ (request_shape RequestGpos o f p v B H) Ht) as [ty Hw].
  pose proof (values_wf _ _ _ _ _ Hw Hs) as W. destruct s.
  destruct W as (H0 & H1 & H2 & H3 & H4 & H5 & H6 & H7 & _). cbn.
  rewrite (announced_present _ _ _ H0), (announced_present _ _ _ H1), (announced_present _ _ _ H2),
    (announced_present _ _ _ H3), (announced_present _ _ _ H4), (announced_present _ _ _ H5),
    (announced_present _ _ _ H6), (announced_present _ _ _ H7).
  pose proof (flag_bits flags) as (_ & _ & _ & _ & _ & _ & -> & -> & -> & -> & -> & -> & -> & ->).
  repeat apply conj; reflexivity.
Qed.

Lemma gpos_absent_values o f p v t flags :
  bounded f -> reads o read_glyph_positioning f p v -> has_subtable v t -> In (flags, None) (values_of t) ->
  flags = 0.
Proof.
  intros B H Ht.
  destruct (directory_subtable _ _ _ (request_shape RequestGpos o f p v B H) Ht) as [ty Hw]. revert Hw.
  destruct t as [[t|t]|[t|t]|t|t|t|t|t|t|t]; cbn [values_of]; try (intros _ []; fail); destruct t; cbn.
  - intros _ [E|[]]. discriminate E.
  - intros _ Hi. apply in_map_iff in Hi. destruct Hi as (x & E & _). discriminate E.
  - intros (_ & _ & _ & _ & W & _) Hi. apply in_flat_map in Hi. destruct Hi as (set & Hs & Hi).
    rewrite Forall_forall in W. specialize (W _ Hs). destruct set as [n rs]. destruct W as [_ W].
    apply in_flat_map in Hi. destruct Hi as (r & Hr & Hi). cbn in Hr. rewrite Forall_forall in W.
    specialize (W _ Hr). destruct r as [g v1 v2]. destruct W as [[H1 _] [H2 _]]. cbn in Hi.
    destruct Hi as [E|[E|[]]]; injection E as <- ->; [apply H1|apply H2]; reflexivity.
  - intros (_ & _ & _ & W & _) Hi. apply in_flat_map in Hi. destruct Hi as (set & Hs & Hi).
    rewrite Forall_forall in W. specialize (W _ Hs). destruct set as [rs]. destruct W as [_ W].
    apply in_flat_map in Hi. destruct Hi as (r & Hr & Hi). cbn in Hr. rewrite Forall_forall in W.
    specialize (W _ Hr). destruct r as [v1 v2]. destruct W as [[H1 _] [H2 _]]. cbn in Hi.
    destruct Hi as [E|[E|[]]]; injection E as <- ->; [apply H1|apply H2]; reflexivity.
Qed.

Lemma gpos_value_flags o f p v t flags :
  bounded f -> reads o read_glyph_positioning f p v -> has_subtable v t -> In flags (value_flags_of t) ->
  checked_flags o = true -> value_is_invalid flags = false.
Proof.
  intros B H Ht Hf Hc. apply has_flag_none.
  pose proof (directory_subtable_fits _ _ _ _ (read_in_range RequestGpos o f p v B H) Ht) as F.
  revert F Hf. unfold value_flags_of, gpos_type_fits, value_flags_fits, flags16.
  destruct t as [[t|t]|[t|t]|t|t|t|t|t|t|t]; try (intros _ []; fail); destruct t; cbn.
  - intros ([_ F] & _) [<-|[]]. auto.
  - intros ([_ F] & _) [<-|[]]. auto.
  - intros ([_ F] & [_ F'] & _) [<-|[<-|[]]]; auto.
  - intros ([_ F] & [_ F'] & _) [<-|[<-|[]]]; auto.
Qed.

(** ** Variations *)

Lemma fvar_flags o f p v :
  bounded f -> reads o read_font_variations f p v -> checked_flags o = true ->
  (forall a, In a (font_variations_axis_records v) -> axis_is_invalid (axis_record_flags a) = false) /\
  (forall i, In i (font_variations_instance_records v) ->
    instance_is_invalid (instance_record_flags i) = false).
Proof.
  intros B H Hc. pose proof (read_in_range RequestFvar o f p v B H) as F. cbn [in_range] in F.
  destruct v as [[a b c d n s m t] axes instances]. destruct F as (_ & _ & _ & _ & Fa & Fi). cbn.
  rewrite Forall_forall in Fa, Fi. split.
  - intros x Hx. specialize (Fa x Hx). destruct x. destruct Fa as (_ & _ & _ & [_ Fa] & _).
    apply has_flag_none. auto.
  - intros x Hx. specialize (Fi x Hx). destruct x. destruct Fi as (_ & [_ Fi] & _).
    apply has_flag_none. auto.
Qed.
