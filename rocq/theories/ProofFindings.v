(** Where the code departs from the OpenType specification. *)

From Verif Require Export SpecStandard SpecSize Encode SpecAccess Requests ModelTags SpecTags.
From Verif Require Import Reads ReadsTactics ProofLayout ProofGdef ProofFvar ProofShape ProofAccess
  ProofRequests
  ProofRelocate.

(** ** Caret values *)

Lemma u16_below f p v : u16_at f p v -> v < 65536.
Proof. apply (u16_bound (mkEnv f debug_build)). Qed.

Lemma high_word f p v : u32_at f p v -> v < 65536 -> u16_at f p 0.
Proof. intros (h & l & Hh & Hl & ->) H. replace h with 0 in Hh by lia. exact Hh. Qed.

Lemma caret_starts_zero f p v : caret_at f p v -> u16_at f p 0.
Proof. destruct v; cbn; intros [H _]; eapply high_word; try exact H; lia. Qed.

Lemma caret_refused o f p format :
  bounded f -> u16_at f p format -> format <> 0 -> fails o read_caret f p.
Proof.
  intros Hb Hf Hn. apply (finds_fails _ _ _ _ (read_caret_finds True (mkEnv f o) Hb p)).
  intros [w Hw]. apply caret_starts_zero in Hw. apply Hn. eapply u16_fun; eassumption.
Qed.

Lemma standard_caret_refused o f p v :
  bounded f -> standard_caret_at f p v -> fails o read_caret f p.
Proof.
  intros Hb H.
  assert (E : exists format, u16_at f p format /\ format <> 0).
  { destruct v as [v|v|v]; destruct v; cbn in H; break; eexists; (split; [eassumption|lia]). }
  destruct E as (format & Hf & Hn). eapply caret_refused; eassumption.
Qed.

(** The converse side: what is read as a caret. *)
Lemma caret_read_iff o f p v : bounded f -> (reads o read_caret f p v <-> caret_at f p v).
Proof. intros Hb. apply (proj2 (read_caret_finds False (mkEnv f o) Hb p)). Qed.

Lemma vec_nth {A} (elem : N -> A -> Prop) s p n l i :
  vec_at elem s p n l -> i < n -> exists v, nth_error l (N.to_nat i) = Some v /\ elem (p + s * i) v.
Proof.
  intros [Hn H] Hi. destruct (nth_error l (N.to_nat i)) as [v|] eqn:E.
  - exists v. split; [reflexivity|]. apply H in E. rewrite N2Nat.id in E. exact E.
  - apply nth_error_None in E. lia.
Qed.

Lemma linked_nth {A} (elem : N -> A -> Prop) base offsets l i o :
  linked_at elem base offsets l -> nth_error offsets i = Some o ->
  exists v, nth_error l i = Some v /\ elem (base + o) v.
Proof.
  intros H. revert i. induction H as [|x v xs vs Hx _ IH]; intros [|i]; cbn; try discriminate.
  - intros [= <-]. eauto.
  - apply IH.
Qed.

Lemma gdef_ligature_offset_at f p h offset :
  gdef_header_at f p h -> u16_at f (p + 8) offset ->
  offset = let '(_, _, c, _, _, _) := gdef_offsets h in c.
Proof.
  intros Hh Ho. destruct h as [h|h|h]; destruct h; cbn in Hh |- *; break; eapply u16_fun; eassumption.
Qed.

Lemma gdef_caret_zero o f p q v :
  glyph_definition_at o f p v -> caret_position f p q -> u16_at f q 0.
Proof.
  intros H (list_offset & glyph_count & i & glyph_offset & caret_count & j & caret_offset &
    Hl & Hl0 & Hg & Hi & Hgo & Hc & Hj & Hco & ->).
  destruct v as [header glyph_class attachments ligatures mark_class marks variations].
  unfold glyph_definition_at, glyph_definition_with in H.
  pose proof (fun Hh => gdef_ligature_offset_at f p header list_offset Hh Hl) as E.
  destruct (gdef_offsets header) as [[[[[a b] c] d] m] x].
  destruct H as (Hh & _ & _ & H & _). specialize (E Hh). subst c.
  destruct ligatures as [v|]; [|cbn in H; congruence]. destruct H as [_ H].
  destruct v as [coverage_offset count offsets coverage records].
  destruct H as (_ & Hn & Hos & _ & H).
  assert (E := u16_fun _ _ _ _ Hg Hn). subst count.
  destruct (vec_nth _ _ _ _ _ _ Hos Hi) as (x0 & Hx & Hx').
  assert (E := u16_fun _ _ _ _ Hgo Hx'). subst x0.
  destruct (linked_nth _ _ _ _ _ _ H Hx) as ([count offsets' carets] & _ & Hn' & Hos' & H').
  assert (E := u16_fun _ _ _ _ Hc Hn'). subst count.
  destruct (vec_nth _ _ _ _ _ _ Hos' Hj) as (y & Hy & Hy').
  assert (E := u16_fun _ _ _ _ Hco Hy'). subst y.
  destruct (linked_nth _ _ _ _ _ _ H' Hy) as (v & _ & Hv).
  eapply caret_starts_zero, Hv.
Qed.

(** A table with a ligature caret in a format of the specification, or in any other
    format but zero, is never read. *)
Lemma gdef_caret_unread o f p q format v :
  bounded f -> caret_position f p q -> u16_at f q format -> format <> 0 ->
  ~ reads o read_glyph_definition f p v.
Proof.
  intros Hb Hq Hf Hn H. apply (request_reads RequestGdef) in H; [|exact Hb].
  apply Hn. eapply u16_fun; [exact Hf|]. eapply gdef_caret_zero; eassumption.
Qed.

(** ** Device tables *)

Lemma device_words bits : bits / 16 + 1 = if bits mod 16 =? 0 then words_for bits + 1 else words_for bits.
Proof.
  unfold words_for. pose proof (N.div_mod bits 16). pose proof (N.mod_lt bits 16).
  assert (E : forall n r, r < 16 -> (16 * n + r + 15) / 16 = n + if r =? 0 then 0 else 1).
  { intros n r Hr. destruct (N.eqb_spec r 0).
    - subst. symmetry. apply (N.div_unique _ 16 _ 15); lia.
    - symmetry. apply (N.div_unique _ 16 _ (r - 1)); lia. }
  replace ((bits + 15) / 16) with (bits / 16 + if bits mod 16 =? 0 then 0 else 1).
  - destruct (bits mod 16 =? 0); lia.
  - rewrite <- E by lia. f_equal. lia.
Qed.

Lemma device_read_length o f p start_size end_size format deltas :
  bounded f ->
  reads o read_correction f p (CorrectionDevice (mkDevice start_size end_size format deltas)) ->
  let bits := device_bits start_size end_size format in
  N.of_nat (length deltas) = if bits mod 16 =? 0 then words_for bits + 1 else words_for bits.
Proof.
  intros Hb H. apply (proj2 (read_correction_finds False (mkEnv f o) p)) in H.
  destruct H as (_ & _ & _ & _ & _ & H & _). rewrite H. apply device_words.
Qed.

(** A device table whose bits fill its words and that ends the file is refused. *)
Lemma device_last_refused o f p start_size end_size format deltas :
  bounded f -> standard_device_at f p (mkDevice start_size end_size format deltas) ->
  device_bits start_size end_size format mod 16 = 0 ->
  f (p + 6 + 2 * words_for (device_bits start_size end_size format)) = None ->
  fails o read_correction f p.
Proof.
  intros Hb (Hs & He & Hle & Hf & Hr & _) Hm Hn.
  apply (finds_fails _ _ _ _ (read_correction_finds True (mkEnv f o) p)).
  intros [[[s e x d]|[a b x]] H]; cbn [correction_at device_at variation_at variation_format content] in H.
  - destruct H as (Hs' & He' & _ & Hf' & _ & H).
    assert (E := u16_fun _ _ _ _ Hs Hs'). assert (E' := u16_fun _ _ _ _ He He').
    assert (E'' := u16_fun _ _ _ _ Hf Hf'). subst s e x.
    rewrite device_words, Hm in H. cbn [N.eqb] in H.
    destruct (vec_nth _ _ _ _ _ (words_for (device_bits start_size end_size format)) H) as (v & _ & Hv);
      [lia|].
    destruct Hv as (b0 & _ & Hb0 & _). congruence.
  - destruct H as (-> & _ & _ & H). assert (E := u16_fun _ _ _ _ Hf H). lia.
Qed.

(** Otherwise the specification and the code agree. *)
Lemma device_agree o f p start_size end_size format deltas :
  bounded f -> device_bits start_size end_size format mod 16 <> 0 ->
  (reads o read_correction f p (CorrectionDevice (mkDevice start_size end_size format deltas)) <->
   standard_device_at f p (mkDevice start_size end_size format deltas)).
Proof.
  intros Hb Hm. unfold reads. rewrite (proj2 (read_correction_finds False (mkEnv f o) p)).
  cbn [correction_at device_at standard_device_at content].
  rewrite device_words. destruct (N.eqb_spec (device_bits start_size end_size format mod 16) 0); [congruence|].
  reflexivity.
Qed.

(** ** The variations of GDEF *)

Lemma gdef13_variations o f p major minor a b c d mark_offset variation_offset
    glyph_class attachments ligatures mark_class marks variations :
  bounded f ->
  reads o read_glyph_definition f p
    (mkGlyphDefinition (GdefVersion13 (mkGdefHeader13 major minor a b c d mark_offset variation_offset))
      glyph_class attachments ligatures mark_class marks variations) ->
  (variations = None <-> mark_offset = 0) /\
  forall store, variations = Some store -> store_at o f (p + mark_offset) store.
Proof.
  intros Hb H. apply (request_reads RequestGdef) in H; [|exact Hb].
  destruct H as (_ & _ & _ & _ & _ & _ & H). cbn in H. split.
  - destruct variations; cbn in H; split; intros; try congruence; destruct H; tauto.
  - intros store ->. apply H.
Qed.

(** ** Instances of fvar *)

Lemma instance_size_needed o f p v :
  bounded f -> reads o read_font_variations f p v ->
  fvar_header_instance_count (font_variations_header v) <> 0 ->
  fvar_header_instance_size (font_variations_header v) =
    4 + 4 * fvar_header_axis_count (font_variations_header v) ->
  f (fvar_end p (font_variations_header v)) <> None.
Proof.
  intros Hb H Hn Hs. apply (request_reads RequestFvar) in H; [|exact Hb]. cbn [conforms] in H.
  destruct v as [[x0 x1 axis_offset x3 axis_count axis_size instance_count instance_size] axes instances].
  cbn -[N.mul N.add] in Hn, Hs |- *. destruct H as (_ & _ & H).
  destruct (vec_nth _ _ _ _ _ (instance_count - 1) H) as ([s fl cs ps] & _ & _ & _ & _ & Hp); [lia|].
  destruct Hp as (b0 & _ & Hb0 & _).
  replace (p + axis_offset + axis_count * axis_size + instance_count * instance_size)
    with (p + axis_offset + axis_count * axis_size + instance_size * (instance_count - 1) + 4 +
      4 * axis_count).
  - rewrite Hb0. discriminate.
  - subst instance_size. rewrite (N.mul_comm instance_count). rewrite N.mul_sub_distr_l.
    assert (Hx : 1 <= instance_count) by lia.
    assert ((4 + 4 * axis_count) * 1 <= (4 + 4 * axis_count) * instance_count) by (apply N.mul_le_mono_l, Hx).
    lia.
Qed.

(** A table that ends the file after an instance without a PostScript name is refused. *)
Lemma fvar_last_unread o f p v :
  bounded f ->
  fvar_header_at f p v -> fvar_header_instance_count v <> 0 ->
  fvar_header_instance_size v = 4 + 4 * fvar_header_axis_count v ->
  f (fvar_end p v) = None ->
  fails o read_font_variations f p.
Proof.
  intros Hb Hh Hn Hs He. apply (request_fails RequestFvar); [assumption|left; reflexivity|].
  intros [w Hw]. assert (E : font_variations_header w = v).
  { destruct w as [h axes instances]. cbn. cbn [conforms] in Hw.
    eapply (finds_functional False _ (mkEnv f o) p); [apply read_fvar_header_finds| |exact Hh].
    destruct h. apply Hw. }
  apply (request_reads RequestFvar) in Hw; [|exact Hb]. subst v.
  exact (instance_size_needed o f p w Hb Hw Hn Hs He).
Qed.

(** ** Feature parameters *)

Lemma parameters_empty o f p v :
  bounded f -> reads o read_feature_record f p v ->
  feature_record_parameters v = if feature_record_parameter_offset v =? 0 then None else Some [].
Proof.
  intros Hb H. apply (proj2 (read_feature_record_finds False (mkEnv f o) Hb p)) in H.
  destruct v as [offset n l ps]. destruct H as (_ & _ & _ & H). cbn.
  destruct ps as [bytes|].
  - destruct H as [H ->]. apply N.eqb_neq in H. rewrite H. reflexivity.
  - subst. reflexivity.
Qed.

Lemma parameters_never o f p v :
  bounded f -> reads o read_feature_record f p v -> feature_record_parameter_offset v <> 0 ->
  ~ parameters_at f p v.
Proof.
  intros Hb H Hn. apply parameters_empty in H; [|exact Hb]. unfold parameters_at. rewrite H.
  apply N.eqb_neq in Hn. rewrite Hn. tauto.
Qed.

(** ** Rule sets *)

Lemma context1_null o f p format coverage_offset n offsets coverage records i :
  bounded f ->
  reads o read_context f p (ContextFormat1 (mkContext1 format coverage_offset n offsets coverage records)) ->
  nth_error offsets i = Some 0 ->
  exists rule, nth_error records i = Some (mkContextRecords 1 [coverage_offset] [rule]) /\
    context_record_at f (p + coverage_offset) rule.
Proof.
  intros Hb H Hi. apply (proj2 (read_context_finds False (mkEnv f o) Hb p)) in H.
  cbn [context_at context1_format context1_at content] in H. destruct H as (-> & Hf & Hc & _ & _ & _ & H).
  destruct (linked_nth _ _ _ _ _ _ H Hi) as ([count os rs] & Hn & Hcount & Hos & Hrs).
  rewrite N.add_0_r in *. assert (E := u16_fun _ _ _ _ Hf Hcount). subst count.
  destruct (vec_nth _ _ _ _ _ 0 Hos) as (x & Hx & Hx'); [lia|].
  rewrite N.mul_0_r, N.add_0_r in Hx'. assert (E := u16_fun _ _ _ _ Hc Hx'). subst x.
  destruct Hos as [Hlen _]. destruct os as [|x [|y os]]; cbn in Hlen; try lia.
  cbn in Hx. injection Hx as ->.
  inversion Hrs as [|? rule ? rs' Hrule Hrest]; subst. inversion Hrest; subst.
  exists rule. auto.
Qed.

Lemma chained_context1_null o f p format coverage_offset n offsets coverage records i :
  bounded f ->
  reads o read_chained_context f p
    (ChainedContextFormat1 (mkChainedContext1 format coverage_offset n offsets coverage records)) ->
  nth_error offsets i = Some 0 ->
  exists rule, nth_error records i = Some (mkChainedRecords 1 [coverage_offset] [rule]) /\
    chained_record_at f (p + coverage_offset) rule.
Proof.
  intros Hb H Hi. apply (proj2 (read_chained_context_finds False (mkEnv f o) Hb p)) in H.
  cbn [chained_context_at chained_context1_format chained_context1_at content] in H.
  destruct H as (-> & Hf & Hc & _ & _ & _ & H).
  destruct (linked_nth _ _ _ _ _ _ H Hi) as ([count os rs] & Hn & Hcount & Hos & Hrs).
  rewrite N.add_0_r in *. assert (E := u16_fun _ _ _ _ Hf Hcount). subst count.
  destruct (vec_nth _ _ _ _ _ 0 Hos) as (x & Hx & Hx'); [lia|].
  rewrite N.mul_0_r, N.add_0_r in Hx'. assert (E := u16_fun _ _ _ _ Hc Hx'). subst x.
  destruct Hos as [Hlen _]. destruct os as [|x [|y os]]; cbn in Hlen; try lia.
  cbn in Hx. injection Hx as ->.
  inversion Hrs as [|? rule ? rs' Hrule Hrest]; subst. inversion Hrest; subst.
  exists rule. auto.
Qed.

(** In format 2 a rule set is absent exactly where its offset is zero. *)
Lemma context2_null o f p t i offset :
  bounded f -> reads o read_context f p (ContextFormat2 t) ->
  nth_error (context2_record_offsets t) i = Some offset ->
  exists set, nth_error (context2_records t) i = Some set /\ (set = None <-> offset = 0).
Proof.
  intros Hb H Hi. apply (proj2 (read_context_finds False (mkEnv f o) Hb p)) in H.
  destruct t as [format co cl n offsets coverage class records]. cbn in Hi |- *.
  destruct H as (_ & _ & _ & _ & _ & _ & _ & _ & H). apply maybes_presence in H.
  clear -H Hi. revert i Hi. induction H as [|x v xs vs Hx _ IH]; intros [|i]; cbn; try discriminate.
  - intros [= <-]. eauto.
  - apply IH.
Qed.

Lemma chained_context2_null o f p t i offset :
  bounded f -> reads o read_chained_context f p (ChainedContextFormat2 t) ->
  nth_error (chained_context2_record_offsets t) i = Some offset ->
  exists set, nth_error (chained_context2_records t) i = Some set /\ (set = None <-> offset = 0).
Proof.
  intros Hb H Hi. apply (proj2 (read_chained_context_finds False (mkEnv f o) Hb p)) in H.
  destruct t as [format co b c fw n offsets coverage bc cc fc records]. cbn in Hi |- *.
  destruct H as (_ & _ & _ & _ & _ & _ & _ & _ & _ & _ & _ & _ & H). apply maybes_presence in H.
  clear -H Hi. revert i Hi. induction H as [|x v xs vs Hx _ IH]; intros [|i]; cbn; try discriminate.
  - intros [= <-]. eauto.
  - apply IH.
Qed.

(** ** Bytes before a table *)

Lemma drop_bounded k f : bounded f -> bounded (fun q => f (k + q)).
Proof. intros Hb p Hp. apply Hb. lia. Qed.

(** Two files with the same bytes from [k] on. *)
Lemma request_suffix {A} (r : request A) o k f g v :
  bounded f -> bounded g -> (forall p, k <= p -> f p = g p) ->
  (reads o (reader r) f k v <-> reads o (reader r) g k v).
Proof.
  intros Hf Hg H. set (h := fun q => f (k + q)).
  rewrite <- (N.add_0_r k).
  rewrite (request_relocate r o k f h 0 v Hf (fun _ => eq_refl)).
  rewrite (request_relocate r o k g h 0 v Hg); [reflexivity|].
  intros p. unfold h. apply H. lia.
Qed.

(** ** Deltas *)

Lemma store_record_read_iff o f p v :
  bounded f -> (reads o read_store_record f p v <-> store_record_at o f p v).
Proof.
  intros Hb. apply (proj2 (read_store_record_finds False (mkEnv f o) p ltac:(tauto))).
Qed.

Lemma word_count_short n : long_words n = false -> n < 65536 -> word_count n = n.
Proof.
  unfold long_words, word_count. intros H Hn. apply N.mod_small.
  destruct (N.lt_ge_cases n (2 ^ 15)) as [L|L]; [exact L|exfalso].
  rewrite N.testbit_eqb in H. apply N.eqb_neq in H. apply H.
  replace (n / 2 ^ 15) with 1; [reflexivity|].
  apply (N.div_unique _ (2 ^ 15) _ (n - 2 ^ 15)); change (2 ^ 15) with 32768 in *; lia.
Qed.

Lemma word_count_long n : long_words n = true -> n < 65536 -> n = 32768 + word_count n /\ word_count n < 32768.
Proof.
  unfold long_words, word_count. intros H Hn.
  rewrite N.testbit_eqb in H. apply N.eqb_eq in H.
  pose proof (N.div_mod n (2 ^ 15)) as E. pose proof (N.mod_lt n (2 ^ 15)) as L.
  change (2 ^ 15) with 32768 in *.
  assert (n / 32768 < 2) by (apply N.div_lt_upper_bound; lia).
  assert (D : n / 32768 = 1).
  { destruct (N.eq_dec (n / 32768) 0) as [Z|Z]; [|lia]. rewrite Z in H. discriminate. }
  rewrite D in E. split; [apply E|apply L]; discriminate.
Qed.

(** Without the flag the deltas have the size the specification gives. *)
Lemma short_deltas o f p item_count word_delta_count region_count indices deltas :
  bounded f ->
  reads o read_store_record f p
    (mkStoreRecord item_count word_delta_count region_count indices deltas) ->
  long_words word_delta_count = false ->
  word_count word_delta_count <= region_count ->
  word_delta_count + region_count < 2 ^ 16 ->
  N.of_nat (length deltas) = item_count * row_size word_delta_count region_count.
Proof.
  intros Hb H Hl Hw Hs. apply store_record_read_iff in H; [|exact Hb].
  destruct H as (_ & Hw' & _ & _ & _ & H & _). rewrite H. rewrite N.mod_small by exact Hs.
  apply u16_below in Hw'. unfold row_size. rewrite Hl. rewrite word_count_short in * by assumption.
  f_equal. lia.
Qed.

(** With it they never have. *)
Lemma long_deltas o f p item_count word_delta_count region_count indices deltas :
  bounded f ->
  reads o read_store_record f p
    (mkStoreRecord item_count word_delta_count region_count indices deltas) ->
  long_words word_delta_count = true ->
  word_count word_delta_count <= region_count -> 0 < item_count ->
  N.of_nat (length deltas) < item_count * row_size word_delta_count region_count \/
  item_count * row_size word_delta_count region_count < N.of_nat (length deltas).
Proof.
  intros Hb H Hl Hw Hi. apply store_record_read_iff in H; [|exact Hb].
  destruct H as (_ & Hw' & Hr & _ & _ & H & _). rewrite H. apply u16_below in Hw', Hr.
  destruct (word_count_long _ Hl Hw') as [E L].
  unfold row_size. rewrite Hl. remember (word_count word_delta_count) as w. subst word_delta_count.
  change (2 ^ 16) with 65536.
  destruct (N.lt_ge_cases (w + region_count) 32768) as [C|C].
  - right. rewrite N.mod_small by lia. apply N.mul_lt_mono_pos_l; lia.
  - left. replace ((32768 + w + region_count) mod 65536) with (w + region_count - 32768).
    + apply N.mul_lt_mono_pos_l; lia.
    + apply (N.mod_unique _ _ 1); lia.
Qed.

(** ** The size of a result *)

(** [GDEF] 1.2 with [n] mark glyph sets, all of them the same coverage of [n] glyphs. *)
Definition amplifier (n : N) : list byte :=
  be16 1 ++ be16 2 ++ be16 0 ++ be16 0 ++ be16 0 ++ be16 0 ++ be16 14 ++
  be16 1 ++ be16 n ++ flat_map be32 (repeat (4 + 4 * n) (N.to_nat n)) ++
  be16 1 ++ be16 n ++ flat_map be16 (repeat 0 (N.to_nat n)).

Definition amplified (n : N) : GlyphDefinition :=
  mkGlyphDefinition (GdefVersion12 (mkGdefHeader12 1 2 0 0 0 0 14)) None None None None
    (Some (mkMarks 1 n (repeat (4 + 4 * n) (N.to_nat n))
      (repeat (CoverageFormat1 (mkCoverage1 1 n (repeat 0 (N.to_nat n)))) (N.to_nat n)))) None.

Lemma amplifier_length n : N.of_nat (length (amplifier n)) = 22 + 6 * n.
Proof.
  unfold amplifier. rewrite !app_length, !(flat_map_size be32 4), !(flat_map_size be16 2), !repeat_length;
    [|reflexivity|reflexivity].
  cbn [be16 length]. lia.
Qed.

Lemma sum_repeat n m c : coverage_glyphs c = n -> list_sum (map coverage_glyphs (repeat c m)) = (m * n)%nat.
Proof. intros <-. induction m as [|m IH]; [reflexivity|].
  cbn [repeat map list_sum fold_right Nat.mul] in *. unfold list_sum in *. cbn [fold_right] in *.
  rewrite IH. reflexivity.
Qed.

Lemma amplified_glyphs n : mark_glyphs (amplified n) = (N.to_nat n * N.to_nat n)%nat.
Proof. apply sum_repeat. cbn. apply repeat_length. Qed.

Lemma linked_repeat {A} (elem : N -> A -> Prop) base offset v n :
  elem (base + offset) v -> linked_at elem base (repeat offset n) (repeat v n).
Proof. intros H. induction n; constructor; assumption. Qed.

Lemma u16_eq f p q v : u16_at f p v -> p = q -> u16_at f q v.
Proof. intros H <-. exact H. Qed.

Lemma amplifier_reads o n :
  n < 65536 -> reads o read_glyph_definition (file_of (amplifier n)) 0 (amplified n).
Proof.
  intros Hn.
  assert (Hb : bounded (file_of (amplifier n))).
  { apply file_of_bounded. rewrite amplifier_length. change (2 ^ 63) with 9223372036854775808. lia. }
  apply (request_reads RequestGdef); [exact Hb|].
  pose proof (bytes_at_file (amplifier n)) as H. revert H. generalize (file_of (amplifier n)) as f.
  intros f. unfold amplifier. rewrite !bytes_at_app.
  intros (H0 & H1 & H2 & H3 & H4 & H5 & H6 & H7 & H8 & H9 & H10 & H11 & H12).
  rewrite !(flat_map_size be32 4), !repeat_length in * by reflexivity.
  cbn [be16 length N.of_nat] in *.
  apply bytes_at_be16 in H0, H1, H2, H3, H4, H5, H6, H7, H8, H10, H11; try lia.
  apply bytes_at_u32s in H9; [|intros v Hv; apply repeat_spec in Hv; lia].
  apply bytes_at_u16s in H12; [|intros v Hv; apply repeat_spec in Hv; lia].
  rewrite repeat_length, N2Nat.id in *.
  cbn [conforms glyph_definition_at glyph_definition_with amplified].
  repeat split; cbn -[N.mul N.add]; auto; try lia.
  - apply H9.
  - apply H9.
  - apply linked_repeat. replace (N.of_nat (4 * N.to_nat n)) with (4 * n) in * by lia.
    apply (u16_eq _ _ (0 + 14 + (4 + 4 * n))) in H10; [|lia].
    apply (u16_eq _ _ (0 + 14 + (4 + 4 * n) + 2)) in H11; [|lia].
    repeat split; auto; try (apply H12).
    intros i v Hi. destruct H12 as [_ H12]. specialize (H12 i v Hi).
    eapply u16_eq; [exact H12|lia].
Qed.

(** [GPOS] 1.0 with one lookup of one pair adjustment in format 2, for [n] times [m]
    classes and with empty value records. *)
Definition bomb (n m : N) : list byte :=
  be16 1 ++ be16 0 ++ be16 10 ++ be16 10 ++ be16 12 ++
  be16 0 ++
  be16 1 ++ be16 4 ++
  be16 2 ++ be16 0 ++ be16 1 ++ be16 8 ++
  be16 2 ++ be16 16 ++ be16 0 ++ be16 0 ++ be16 20 ++ be16 20 ++ be16 n ++ be16 m ++
  be16 1 ++ be16 0 ++
  be16 2 ++ be16 0.

Definition blast (n m : N) : GlyphPositioning :=
  mkDirectory 1 0 10 10 12 0 (mkScripts 0 [] []) (mkFeatures 0 [] [])
    (mkLookups 1 [4] [mkLookupRecord 2 0 1 [8] None
      [GposPairAdjustment (PairAdjustmentFormat2 (mkPairAdjustment2 2 16 0 0 20 20 n m
        (repeat (mkPair2s (repeat (mkPair2 None None) (N.to_nat m))) (N.to_nat n))
        (CoverageFormat1 (mkCoverage1 1 0 []))
        (ClassFormat2 (mkClass2 2 0 [])) (ClassFormat2 (mkClass2 2 0 []))))]]) None.

Lemma bomb_length n m : length (bomb n m) = 48%nat.
Proof. reflexivity. Qed.

Lemma blast_pairs n m : all_class_pairs (blast n m) = (N.to_nat n * N.to_nat m)%nat.
Proof.
  unfold all_class_pairs. cbn [blast directory_lookups lookups_records map lookup_record_tables class_pairs
    pair_adjustment2_records]. unfold list_sum. cbn [fold_right].
  rewrite !Nat.add_0_r. generalize (N.to_nat n). intros k. induction k as [|k IH]; [reflexivity|].
  cbn [repeat map fold_right Nat.mul pair2s_records]. rewrite IH, repeat_length. reflexivity.
Qed.

Lemma vec_repeat {A} (elem : N -> A -> Prop) s p n v :
  (forall q, elem q v) -> vec_at elem s p n (repeat v (N.to_nat n)).
Proof.
  intros H. split; [rewrite repeat_length; lia|]. intros i w Hi.
  apply nth_error_In, repeat_spec in Hi. subst w. apply H.
Qed.

Lemma vec_none {A} (elem : N -> A -> Prop) s p : vec_at elem s p 0 [].
Proof. split; [reflexivity|]. intros [|i] v; discriminate. Qed.

Lemma vec_one {A} (elem : N -> A -> Prop) s p v : elem p v -> vec_at elem s p 1 [v].
Proof.
  intros H. split; [reflexivity|]. intros [|[|i]] w; cbn; try discriminate.
  intros [= <-]. rewrite N.mul_0_r, N.add_0_r. exact H.
Qed.

Lemma bomb_reads o n m :
  n < 65536 -> m < 65536 -> reads o read_glyph_positioning (file_of (bomb n m)) 0 (blast n m).
Proof.
  intros Hn Hm.
  assert (Hb : bounded (file_of (bomb n m))).
  { apply file_of_bounded. rewrite bomb_length. discriminate. }
  apply (request_reads RequestGpos); [exact Hb|].
  pose proof (bytes_at_file (bomb n m)) as H. revert H. generalize (file_of (bomb n m)) as f.
  intros f. unfold bomb. rewrite !bytes_at_app. cbn [be16 length N.of_nat Pos.of_succ_nat Pos.succ].
  intros H. cbn [N.add Pos.add Pos.succ] in H.
  repeat match type of H with _ /\ _ => let E := fresh "E" in destruct H as [E H] end.
  repeat match goal with E : bytes_at _ _ _ |- _ => apply bytes_at_be16 in E; [|lia] end.
  assert (L : forall (A : Type) (elem : N -> A -> Prop) base offset default v, offset <> 0 ->
    elem (base + offset) v -> list_at o elem base offset default v).
  { intros. right. auto. }
  cbn [conforms blast]. unfold glyph_positioning_at, directory_at.
  repeat (split; [first [assumption|reflexivity|left; reflexivity|intros; discriminate]|]).
  split; [apply L; [discriminate|]; split; [assumption|split; [apply vec_none|constructor]]|].
  split; [apply L; [discriminate|]; split; [assumption|split; [apply vec_none|constructor]]|].
  split; [|reflexivity].
  apply L; [discriminate|]. cbn [N.add Pos.add Pos.succ].
  split; [assumption|]. split; [apply vec_one; assumption|]. constructor; [|constructor].
  cbn [N.add Pos.add Pos.succ].
  split; [assumption|]. split; [split; [assumption|reflexivity]|]. split; [assumption|].
  split; [apply vec_one; assumption|]. split; [reflexivity|]. constructor; [|constructor].
  split; [reflexivity|]. split; [reflexivity|]. cbn [N.add Pos.add Pos.succ].
  unfold pair_adjustment2_at, value_flags_at, flags_at. cbn [N.add Pos.add Pos.succ].
  repeat (split; [first [assumption|split; [assumption|reflexivity]]|]).
  split; [apply vec_repeat; intros q; apply vec_repeat; intros q'; split; reflexivity|].
  split; [split; [reflexivity|split; [assumption|split; [assumption|apply vec_none]]]|].
  split; (split; [reflexivity|split; [assumption|split; [assumption|apply vec_none]]]).
Qed.

(** The colors and the indices of [CPAL] are all in the file. *)
Lemma vec_within {A} (elem : N -> A -> Prop) s p n vs l :
  0 < s -> (forall q v, elem q v -> file_of l (q + (s - 1)) <> None) ->
  vec_at elem s p n vs -> s * N.of_nat (length vs) <= N.of_nat (length l).
Proof.
  intros Hs He [Hn H]. destruct (length vs) as [|k] eqn:E; [lia|].
  destruct (nth_error vs k) as [v|] eqn:Hk.
  - specialize (He _ _ (H _ _ Hk)). unfold file_of in He. apply nth_error_Some in He. lia.
  - apply nth_error_None in Hk. lia.
Qed.

Lemma cpal_linear o l p v :
  N.of_nat (length l) <= 2 ^ 63 -> reads o read_color_palettes (file_of l) p v ->
  let '(_, _, _, color_indices) := cpal_layout (color_palettes_header v) in
  4 * N.of_nat (length (color_palettes_colors v)) <= N.of_nat (length l) /\
  2 * N.of_nat (length color_indices) <= N.of_nat (length l).
Proof.
  intros Hl H. apply (request_reads RequestCpal) in H; [|apply file_of_bounded, Hl].
  destruct v as [header colors]. cbn [color_palettes_header color_palettes_colors conforms
    color_palettes_at] in *.
  assert (E : exists q n, u16s_at (file_of l) q n (snd (cpal_layout header))).
  { destruct header as [h|h]; destruct h; cbn in H |- *; destruct H as [H _]; break; eauto. }
  destruct (cpal_layout header) as [[[a b] c] indices]. destruct E as (q & n & E). destruct H as [_ H].
  split.
  - eapply vec_within; [| |exact H]; [lia|].
    intros r [b0 b1 b2 b3] (_ & _ & _ & x & Hx & _). cbn [N.sub Pos.sub_mask Pos.pred Pos.pred_double].
    change (4 - 1) with 3. congruence.
  - eapply vec_within; [| |exact E]; [lia|].
    intros r w (x0 & x1 & _ & Hx & _). change (2 - 1) with 1. congruence.
Qed.

(** ** Declared lengths *)

(** Two files that agree from the table's offset on. *)
Lemma take_suffix {A} (r : request A) d o this t f g record p v :
  bounded f -> bounded g ->
  first_record (offsets_records (font_offsets this)) (table_tag t) record ->
  record_checksum d f record = record_checksum d g record ->
  (forall q, offset_record_offset record <= q -> f q = g q) ->
  (reads o (font_take d this t (reader r)) f p v <-> reads o (font_take d this t (reader r)) g p v).
Proof.
  intros Hf Hg Hr Hc H. unfold reads.
  rewrite !(take_present _ _ _ _ _ _ _ Hr). unfold checksum_test. cbn [content opts]. rewrite Hc.
  assert (E : forall w, (exists q, reader r (mkEnv f o) (offset_record_offset record) = Ok (w, q)) <->
    (exists q, reader r (mkEnv g o) (offset_record_offset record) = Ok (w, q))).
  { intros w. exact (request_suffix r o _ f g w Hf Hg H). }
  match goal with |- context [match ?c with Ok _ => _ | Err x => Err x | Panic => Panic end] =>
    destruct c as [[]|x|] end; [|tauto|tauto].
  destruct (reader r (mkEnv f o) (offset_record_offset record)) as [[w q]|x|];
    destruct (reader r (mkEnv g o) (offset_record_offset record)) as [[w' q']|x'|].
  - destruct (proj1 (E w) (ex_intro _ q eq_refl)) as [q'' Hq]. injection Hq as -> ->.
    split; intros [q0 [= <- <-]]; eauto.
  - destruct (proj1 (E w) (ex_intro _ q eq_refl)); discriminate.
  - destruct (proj1 (E w) (ex_intro _ q eq_refl)); discriminate.
  - destruct (proj2 (E w') (ex_intro _ q' eq_refl)); discriminate.
  - split; intros [q [=]].
  - split; intros [q [=]].
  - destruct (proj2 (E w') (ex_intro _ q' eq_refl)); discriminate.
  - split; intros [q [=]].
  - split; intros [q [=]].
Qed.
