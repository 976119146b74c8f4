(** The readers of src/layout and src/variations read exactly the formats of
    SpecLayout.v. *)

From Verif Require Export ReadsTactics ModelLayout SpecLayout.

Section Layout.
Context (S : Prop) (e : env) (Hb : bounded (content e)).
Notation f := (content e).

Lemma read_coverage_record_takes p : takes S read_coverage_record e p (coverage_record_at f p) 6.
Proof. sequential. Qed.
Hint Resolve read_coverage_record_takes : reads.

Lemma read_coverage1_finds p : finds S read_coverage1 e p (coverage1_at f p).
Proof. linked. Qed.
Hint Resolve read_coverage1_finds : reads.

Lemma read_coverage2_finds p : finds S read_coverage2 e p (coverage2_at f p).
Proof. linked. Qed.
Hint Resolve read_coverage2_finds : reads.

Lemma read_coverage_finds p : finds S read_coverage e p (coverage_at f p).
Proof. dispatch. Qed.
Hint Resolve read_coverage_finds : reads.

Lemma read_class_record_takes p : takes S read_class_record e p (class_record_at f p) 6.
Proof. sequential. Qed.
Hint Resolve read_class_record_takes : reads.

Lemma read_class1_finds p : finds S read_class1 e p (class1_at f p).
Proof. linked. Qed.
Hint Resolve read_class1_finds : reads.

Lemma read_class2_finds p : finds S read_class2 e p (class2_at f p).
Proof. linked. Qed.
Hint Resolve read_class2_finds : reads.

Lemma read_class_finds p : finds S read_class e p (class_at f p).
Proof. dispatch. Qed.
Hint Resolve read_class_finds : reads.

(** The number of words the code computes. *)
Lemma device_word_count bits : N.shiftr (bits + 16 - bits mod 16) 4 = bits / 16 + 1.
Proof.
  rewrite N.shiftr_div_pow2. change (2 ^ 4) with 16.
  pose proof (N.div_mod bits 16 ltac:(lia)) as D.
  generalize dependent (bits mod 16). intros m D. generalize dependent (bits / 16). intros d D.
  replace (bits + 16 - m) with ((d + 1) * 16) by lia.
  apply N.div_mul. lia.
Qed.

Lemma device_shape start_size end_size format :
  N.shiftl 1 format * (end_size - start_size + 1) = device_bits start_size end_size format.
Proof. unfold device_bits. rewrite N.shiftl_1_l. reflexivity. Qed.

Lemma read_device_finds p : finds S read_device e p (device_at f p).
Proof.
  enter. eapply finds_conv.
  - step. step. apply finds_if; intros Hse; [step|]. step. apply finds_if; intros Hf; [step|].
    cbv zeta. rewrite device_shape, device_word_count. steps.
  - intros v; cbv beta; split.
    + intros (s & Hs & t & Ht & [[_ []]|[Hst (g & Hg & [[_ []]|[Hf (d & Hd & ->)]])]]).
      apply N.ltb_ge in Hst. apply orb_false_elim in Hf as [Hf0 Hf3].
      apply N.eqb_neq in Hf0. apply N.ltb_ge in Hf3. cbn. fields.
    + destruct v as [s t g d]. intros (Hs & Ht & Hst & Hg & Hf & Hd). cbn in Hd.
      exists s. split; [exact Hs|]. exists t. split; [exact Ht|]. right.
      split; [apply N.ltb_ge, Hst|]. exists g. split; [by_position|]. right. split.
      * apply orb_false_intro; [apply N.eqb_neq; lia|apply N.ltb_ge; lia].
      * exists d. split; [by_position|reflexivity].
Qed.
Hint Resolve read_device_finds : reads.

Lemma read_variation_takes p : takes S read_variation e p (variation_at f p) 6.
Proof. sequential. Qed.
Hint Resolve read_variation_takes : reads.

Lemma read_correction_finds p : finds S read_correction e p (correction_at f p).
Proof.
  enter. eapply finds_bind_peek with (P := fun v => (exists x, u32_at f p x) /\ u16_at f (p + 4) v).
  - eapply finds_conv; [eapply finds_bind_takes; [taken|intros; eapply takes_finds, take_u16_takes]|].
    intros v; cbv beta; split.
    + intros (x & Hx & H). split; [exists x; exact Hx|exact H].
    + intros ((x & Hx) & H). exists x. split; [exact Hx|exact H].
  - intros [[s t g d]|[s t g]].
    + intros (Hs & Ht & _ & Hg & _). exists g. split; [|exact Hg]. eexists; exists s, t. eauto.
    + intros (_ & Hs & Ht & Hg). exists g. split; [|exact Hg]. eexists; exists s, t. eauto.
  - intros x [_ Hx]. destruct ((1 <=? x) && (x <=? 3)) eqn:E1; [|destruct (x =? 0x8000) eqn:E2].
    + apply andb_prop in E1 as [E1 E1']. apply N.leb_le in E1, E1'.
      eapply finds_conv; [steps|]. intros v; cbv beta; split.
      * intros (t & Ht & ->). exact Ht.
      * destruct v as [t|t]; [intros Ht; exists t; split; [exact Ht|reflexivity]|].
        intros [Hf Ht]. exfalso. unpack t. lia.
    + apply N.eqb_eq in E2. eapply finds_conv; [steps|]. intros v; cbv beta; split.
      * intros (t & Ht & ->). cbn. split; [|exact Ht]. unpack t. reflexivity.
      * destruct v as [t|t].
        -- intros Ht. exfalso. unpack t. lia.
        -- intros [Hf Ht]. exists t. split; [exact Ht|reflexivity].
    + apply N.eqb_neq in E2. apply andb_false_iff in E1. rewrite !N.leb_gt in E1.
      eapply finds_conv; [apply finds_raise|]. intros v; cbv beta; split; [intros []|].
      destruct v as [t|t]; intros Ht; exfalso.
      * unpack t. lia.
      * destruct Ht. unpack t. lia.
Qed.
Hint Resolve read_correction_finds : reads.

Lemma read_action_takes p : takes S read_action e p (action_at f p) 4.
Proof. sequential. Qed.
Hint Resolve read_action_takes : reads.

(** A glyph sequence whose first glyph is given elsewhere. *)
Lemma take_following_takes x count p :
  takes S (if count =? 0 then raise x else take_vec (count - 1) take_u16) e p
    (fun v => 1 <= count /\ u16s_at f p (count - 1) v) (2 * (count - 1)).
Proof.
  eapply takes_conv.
  - apply takes_if; intros; [apply takes_raise|apply take_u16s_takes].
  - intros v; cbv beta; split.
    + intros [[_ []]|[H Hv]]. apply N.eqb_neq in H. split; [lia|exact Hv].
    + intros [H Hv]. right. split; [apply N.eqb_neq; lia|exact Hv].
  - reflexivity.
Qed.
Hint Resolve take_following_takes : reads.

Lemma read_context_record_finds p : finds S read_context_record e p (context_record_at f p).
Proof. linked. Qed.
Hint Resolve read_context_record_finds : reads.

Lemma read_context_records_finds p : finds S read_context_records e p (context_records_at f p).
Proof. linked. Qed.
Hint Resolve read_context_records_finds : reads.

Lemma read_context_class_record_finds p : finds S read_context_class_record e p (context_class_record_at f p).
Proof. linked. Qed.
Hint Resolve read_context_class_record_finds : reads.

Lemma read_context_class_records_finds p :
  finds S read_context_class_records e p (context_class_records_at f p).
Proof. linked. Qed.
Hint Resolve read_context_class_records_finds : reads.

Lemma read_chained_record_finds p : finds S read_chained_record e p (chained_record_at f p).
Proof. linked. Qed.
Hint Resolve read_chained_record_finds : reads.

Lemma read_chained_records_finds p : finds S read_chained_records e p (chained_records_at f p).
Proof. linked. Qed.
Hint Resolve read_chained_records_finds : reads.

Lemma read_chained_class_record_finds p : finds S read_chained_class_record e p (chained_class_record_at f p).
Proof. linked. Qed.
Hint Resolve read_chained_class_record_finds : reads.

Lemma read_chained_class_records_finds p :
  finds S read_chained_class_records e p (chained_class_records_at f p).
Proof. linked. Qed.
Hint Resolve read_chained_class_records_finds : reads.

Lemma read_context1_finds p : finds S read_context1 e p (context1_at f p).
Proof. linked. Qed.
Hint Resolve read_context1_finds : reads.

Lemma read_context2_finds p : finds S read_context2 e p (context2_at f p).
Proof. linked. Qed.
Hint Resolve read_context2_finds : reads.

Lemma read_context3_finds p : finds S read_context3 e p (context3_at f p).
Proof. linked. Qed.
Hint Resolve read_context3_finds : reads.

Lemma read_context_finds p : finds S read_context e p (context_at f p).
Proof. dispatch. Qed.
Hint Resolve read_context_finds : reads.

Lemma read_chained_context1_finds p : finds S read_chained_context1 e p (chained_context1_at f p).
Proof. linked. Qed.
Hint Resolve read_chained_context1_finds : reads.

Lemma read_chained_context2_finds p : finds S read_chained_context2 e p (chained_context2_at f p).
Proof. linked. Qed.
Hint Resolve read_chained_context2_finds : reads.

Lemma read_chained_context3_finds p : finds S read_chained_context3 e p (chained_context3_at f p).
Proof. linked. Qed.
Hint Resolve read_chained_context3_finds : reads.

Lemma read_chained_context_finds p : finds S read_chained_context e p (chained_context_at f p).
Proof. dispatch. Qed.
Hint Resolve read_chained_context_finds : reads.

Lemma read_language_header_takes p : takes S read_language_header e p (language_header_at f p) 6.
Proof. sequential. Qed.
Hint Resolve read_language_header_takes : reads.

Lemma read_language_record_finds p : finds S read_language_record e p (language_record_at f p).
Proof. linked. Qed.
Hint Resolve read_language_record_finds : reads.

Lemma read_script_header_takes p : takes S read_script_header e p (script_header_at f p) 6.
Proof. sequential. Qed.
Hint Resolve read_script_header_takes : reads.

Lemma read_script_record_finds p : finds S read_script_record e p (script_record_at f p).
Proof. linked. Qed.
Hint Resolve read_script_record_finds : reads.

Lemma read_scripts_finds p : finds S read_scripts e p (scripts_at f p).
Proof. linked. Qed.
Hint Resolve read_scripts_finds : reads.

Lemma read_feature_header_takes p : takes S read_feature_header e p (feature_header_at f p) 6.
Proof. sequential. Qed.
Hint Resolve read_feature_header_takes : reads.

Lemma take_parameters_finds base offset p :
  near base offset ->
  finds S (if 0 <? offset then
      q <- add_u64 base offset;;
      _ <- jump q;;
      bytes <- take_vec 0 take_u8;;
      ret (Some bytes)
    else ret None) e p
    (fun v => match v with None => offset = 0 | Some bytes => offset <> 0 /\ bytes = [] end).
Proof.
  intros H. eapply finds_conv.
  - apply finds_if with (P1 := fun v => v = Some []) (P2 := fun v => v = None); intros Ho;
      [|apply finds_ret].
    change (finds S (jump_take base offset (bytes <- take_vec 0 take_u8;; ret (Some bytes))) e p
      (fun v => v = Some [])).
    apply jump_take_finds; [exact H|]. apply (finds_ret S e (Some [])).
  - intros v; cbv beta; split.
    + intros [[Ho ->]|[Ho ->]]; [apply N.ltb_lt in Ho; split; [lia|reflexivity]|].
      apply N.ltb_ge in Ho. lia.
    + destruct v as [bytes|].
      * intros [Ho ->]. left. split; [apply N.ltb_lt; lia|reflexivity].
      * intros ->. right. auto.
Qed.

Lemma read_feature_record_finds p : finds S read_feature_record e p (feature_record_at f p).
Proof.
  enter. eapply finds_conv.
  - steps. eapply finds_bind; [apply take_parameters_finds; nearby|]. intros. apply finds_ret.
  - matches.
Qed.
Hint Resolve read_feature_record_finds : reads.

Lemma read_features_finds p : finds S read_features e p (features_at f p).
Proof. linked. Qed.
Hint Resolve read_features_finds : reads.

Lemma read_feature_variations_finds p : finds S read_feature_variations e p (feature_variations_at f p).
Proof. linked. Qed.
Hint Resolve read_feature_variations_finds : reads.

(** ** Lookups and directories *)

Lemma has_mark_filtering_bit flags : has_mark_filtering flags = N.testbit flags 4.
Proof. apply (has_flag_bit flags 4). Qed.

Lemma take_flags_at p reserved :
  takes S (take_flags reserved) e p (flags_at (checked_flags (opts e)) reserved f p) 2.
Proof. apply take_flags_takes. Qed.

Lemma take_lookup_flags_takes p :
  takes S take_lookup_flags e p (flags_at (checked_flags (opts e)) 0x00E0 f p) 2.
Proof. apply take_flags_takes. Qed.
Hint Resolve take_lookup_flags_takes : reads.

Lemma take_mark_set_finds flags p :
  finds S (if has_mark_filtering flags then v <- take_u16;; ret (Some v) else ret None) e p
    (fun v => match v with
     | None => N.testbit flags 4 = false
     | Some set => N.testbit flags 4 = true /\ u16_at f p set
     end).
Proof.
  rewrite has_mark_filtering_bit. eapply finds_conv.
  - apply finds_if; intros; steps.
  - intros v; cbv beta; split.
    + intros [[H (x & Hx & ->)]|[H ->]]; auto.
    + destruct v as [x|]; [intros [H Hx]; left; eauto|right; auto].
Qed.

Section Lookup.
Context {T : Type} (read_table : N -> M T) (table_at : N -> file -> N -> T -> Prop).
Context (table_finds : forall type_ p, finds S (read_table type_) e p (table_at type_ f p)).

Lemma read_lookup_record_finds p :
  finds S (read_lookup_record read_table) e p (lookup_record_at (opts e) table_at f p).
Proof.
  enter. eapply finds_conv.
  - steps. eapply finds_bind; [apply take_mark_set_finds|]. intros set Hset q. steps.
  - matches.
    all: match goal with |- match ?s with _ => _ end => destruct s end; break; try split;
      try assumption; by_position.
Qed.
Hint Resolve read_lookup_record_finds : reads.

Lemma read_lookups_finds p :
  finds S (read_lookups read_table) e p (lookups_at (opts e) table_at f p).
Proof. linked. Qed.
Hint Resolve read_lookups_finds : reads.

Lemma jump_take_list_finds {A} (m : M A) P base offset default p :
  near base offset -> finds S m e (base + offset) (P (base + offset)) ->
  finds S (jump_take_list base offset m default) e p (list_at (opts e) P base offset default).
Proof.
  intros Hn Hm. unfold jump_take_list, list_at. step.
  destruct (ignore_incomplete_directories (opts e)).
  - eapply finds_conv.
    + eapply finds_bind; [apply jump_take_maybe_finds; [exact Hn|exact Hm]|]. intros; apply finds_ret.
    + intros v; cbv beta; split.
      * intros ([x|] & Hx & ->); destruct Hx; auto.
      * intros [(-> & _ & ->)|[[Ho|] Hv]]; [exists None; split; reflexivity| |discriminate].
        exists (Some v). split; [split; assumption|reflexivity].
  - eapply finds_conv; [apply jump_take_finds; [exact Hn|exact Hm]|].
    intros v; cbv beta; split; [auto|]. intros [(_ & H & _)|[_ H]]; [discriminate|exact H].
Qed.

Lemma read_directory_finds p :
  finds S (read_directory read_table) e p (directory_at (opts e) table_at f p).
Proof.
  enter. eapply finds_conv.
  - steps. eapply finds_bind_takes with (P := fun _ => x = 1 /\ (x0 = 0 \/ x0 = 1)) (n := 0).
    { eapply takes_conv;
      [apply takes_if; intros; [apply takes_ret|apply takes_raise]| |reflexivity].
      intros []; cbv beta. rewrite andb_true_iff, orb_true_iff, !N.eqb_eq. tauto. }
    intros u [Hmajor Hminor]. steps.
    eapply finds_bind with (P := fun v =>
      (x0 = 0 -> v = 0) /\ (x0 = 1 -> u32_at f (p + 2 + 2 + 0 + 2 + 2 + 2) v)).
    { eapply finds_conv; [apply finds_if; intros; [found|apply finds_ret]|].
      intros v; cbv beta. rewrite andb_true_iff, andb_false_iff, !N.eqb_eq, !N.eqb_neq.
      destruct Hminor as [-> | ->]; intuition lia. }
    intros variation_offset Hvo q.
    assert (Hsmall : variation_offset < 2 ^ 32).
    { destruct Hminor as [E|E].
      - rewrite (proj1 Hvo E). reflexivity.
      - eapply u32_small, (proj2 Hvo E). }
    eapply finds_bind; [apply jump_take_list_finds; [nearby|found]|]. intros scripts Hscripts q1.
    eapply finds_bind; [apply jump_take_list_finds; [nearby|found]|]. intros features Hfeatures q2.
    eapply finds_bind; [apply jump_take_list_finds; [nearby|found]|]. intros lookups Hlookups q3.
    steps.
  - intros v; cbv beta; split.
    + intros; break; subst v. spell. fields. intros E. specialize (H11 E). by_position.
    + destruct v. spell. intros; break. unshelve build; fields.
      intros E.
      match goal with H : _ = 1 -> u32_at _ _ _ |- _ => specialize (H E) end. by_position.
Qed.
End Lookup.

(** ** Item variations *)

(** Without overflow checks the sum of the counts wraps; with them it may panic. *)
Lemma take_deltas_finds item_count short_delta_count region_count p :
  (S -> overflow_checks (opts e) = false) ->
  finds S (
      per_item_count <- add_u16 short_delta_count region_count;;
      take_vec (item_count * per_item_count) take_u8) e p
    (fun v => (overflow_checks (opts e) = true -> short_delta_count + region_count < 2 ^ 16) /\
      u8s_at f p (item_count * ((short_delta_count + region_count) mod 2 ^ 16)) v).
Proof.
  intros HS. unfold add_u16, add_wrapping.
  destruct (short_delta_count + region_count <? 2 ^ 16) eqn:E.
  - apply N.ltb_lt in E. rewrite N.mod_small by exact E. eapply finds_conv.
    + eapply finds_bind_takes; [apply takes_bind_ask; apply takes_ret|].
      intros x Hx. eapply takes_finds. apply take_u8s_takes.
    + intros v; cbv beta; split.
      * intros (x & -> & Hv). rewrite N.add_0_r in Hv. auto.
      * intros [_ Hv]. eexists. split; [reflexivity|]. rewrite N.add_0_r. exact Hv.
  - apply N.ltb_ge in E. destruct (overflow_checks (opts e)) eqn:O.
    + split.
      * intros s. specialize (HS s). discriminate HS.
      * intros v. unfold bind, ask, panic. rewrite O. split; [intros [q Hq]; discriminate|].
        intros [H _]. specialize (H eq_refl). lia.
    + eapply finds_conv.
      * eapply finds_bind_takes; [apply takes_bind_ask; rewrite O; apply takes_ret|].
        intros x Hx. eapply takes_finds. apply take_u8s_takes.
      * intros v; cbv beta; split.
        -- intros (x & -> & Hv). rewrite N.add_0_r in Hv. split; [discriminate|exact Hv].
        -- intros [_ Hv]. eexists. split; [reflexivity|]. rewrite N.add_0_r. exact Hv.
Qed.

Lemma read_store_record_finds p :
  (S -> overflow_checks (opts e) = false) ->
  finds S read_store_record e p (store_record_at (opts e) f p).
Proof.
  intros HS. enter. eapply finds_conv.
  - steps. eapply finds_bind; [apply take_deltas_finds, HS|]. intros; apply finds_ret.
  - matches.
Qed.
Hint Resolve read_store_record_finds : reads.

Lemma read_store_finds p :
  (S -> overflow_checks (opts e) = false) ->
  finds S read_store e p (store_at (opts e) f p).
Proof. intros HS. linked. Qed.
End Layout.

#[export] Hint Resolve read_coverage_record_takes read_coverage1_finds read_coverage2_finds read_coverage_finds
  read_class_record_takes read_class1_finds read_class2_finds read_class_finds read_device_finds
  read_variation_takes read_correction_finds read_action_takes read_context_record_finds
  read_context_records_finds read_context_class_record_finds read_context_class_records_finds
  read_chained_record_finds read_chained_records_finds read_chained_class_record_finds
  read_chained_class_records_finds read_context1_finds read_context2_finds read_context3_finds
  read_context_finds read_chained_context1_finds read_chained_context2_finds
  read_chained_context3_finds read_chained_context_finds read_language_header_takes
  read_language_record_finds read_script_header_takes read_script_record_finds
  read_scripts_finds read_feature_header_takes read_feature_record_finds read_features_finds
  read_feature_variations_finds read_lookups_finds read_store_record_finds read_store_finds
  take_flags_at : reads.
