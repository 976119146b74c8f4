(** How much is read from a file of a given size (C76). *)

From Verif Require Export ProofWeight.
From Verif Require Import ProofRequests ProofSize ProofExtentUse ProofAccess ProofFindings ProofWriter.

(** ** From above *)

(** What is read is in the file. *)
Lemma extent_in_file {A} (r : request A) o l p v :
  N.of_nat (length l) <= 2 ^ 63 -> reads o (reader r) (file_of l) p v ->
    p + extent o r v <= N.of_nat (length l).
Proof.
  intros Hl [q H]. destruct (N.le_gt_cases (p + extent o r v) (N.of_nat (length l))) as [C|C];
    [exact C|exfalso].
  pose proof (proj2 (request_extent r o (file_of l) p v q _ (file_of_bounded _ Hl) H) C) as X.
  pose proof (request_mono r o o (file_of l) (cut (N.of_nat (length l)) (file_of l)) p
    (or_introl eq_refl)) as K.
  rewrite H, X in K. discriminate K. intros x b Hx. unfold cut.
  destruct (N.ltb_spec x (N.of_nat (length l))) as [L|L]; [exact Hx|]. unfold file_of in *.
  rewrite (proj2 (nth_error_None _ _)) in Hx by lia. discriminate Hx.
Qed.

Lemma capacity_mono {A} (r : request A) n m : n <= m -> capacity r n <= capacity r m.
Proof.
  intros L. destruct r; cbn [capacity]; try exact L.
  - apply N.pow_le_mono_l, L.
  - apply N.add_le_mono; [apply N.pow_le_mono_l, L|apply N.mul_le_mono_l, N.pow_le_mono_l, L].
  - apply N.pow_le_mono_l, L.
  - apply N.mul_le_mono_l, L.
Qed.

Theorem weight_by_file {A} (r : request A) o l p v :
  N.of_nat (length l) <= 2 ^ 63 -> reads o (reader r) (file_of l) p v ->
  weight r v <= capacity r (N.of_nat (length l)).
Proof.
  intros Hl H. eapply N.le_trans; [exact (weight_by_extent r o (file_of l) p v (file_of_bounded _ Hl) H)|].
  apply capacity_mono. pose proof (extent_in_file r o l p v Hl H). lia.
Qed.

(** ** From below *)

Lemma load_repeat {A} (w : A -> N) x n : load w (repeat x (N.to_nat n)) = n * (1 + w x).
Proof.
  rewrite <- (N2Nat.id n) at 2. induction (N.to_nat n) as [|k IH]; [reflexivity|].
  cbn [repeat]. rewrite load_cons, IH. lia.
Qed.

Lemma count_repeat {A} (x : A) n : count (repeat x (N.to_nat n)) = n.
Proof. unfold count. rewrite repeat_length. lia. Qed.

(** [GSUB] 1.0 with [a] lookups, all of them the same one of [b] subtables, all of them the same
    one of [c] sets, all of them the same one of [d] ligatures, all of them the same one of [k]
    glyphs after the first. *)
Definition heap (a b c d k : N) : list byte :=
  be16 1 ++ be16 0 ++ be16 10 ++ be16 10 ++ be16 12 ++
  be16 0 ++
  be16 a ++ flat_map be16 (repeat (2 + 2 * a) (N.to_nat a)) ++
  be16 4 ++ be16 0 ++ be16 b ++ flat_map be16 (repeat (6 + 2 * b) (N.to_nat b)) ++
  be16 1 ++ be16 (6 + 2 * c) ++ be16 c ++ flat_map be16 (repeat (10 + 2 * c) (N.to_nat c)) ++
  be16 1 ++ be16 0 ++
  be16 d ++ flat_map be16 (repeat (2 + 2 * d) (N.to_nat d)) ++
  be16 0 ++ be16 (k + 1) ++ flat_map be16 (repeat 0 (N.to_nat k)).

Definition heaped (a b c d k : N) : GlyphSubstitution :=
  mkDirectory 1 0 10 10 12 0 (mkScripts 0 [] []) (mkFeatures 0 [] [])
    (mkLookups a (repeat (2 + 2 * a) (N.to_nat a)) (repeat
      (mkLookupRecord 4 0 b (repeat (6 + 2 * b) (N.to_nat b)) None (repeat
        (GsubLigatureSubstitution (mkLigatureSubstitution 1 (6 + 2 * c) c
          (repeat (10 + 2 * c) (N.to_nat c)) (CoverageFormat1 (mkCoverage1 1 0 []))
          (repeat (mkLigatures d (repeat (2 + 2 * d) (N.to_nat d))
            (repeat (mkLigature 0 (k + 1) (repeat 0 (N.to_nat k))) (N.to_nat d))) (N.to_nat c))))
        (N.to_nat b)))
      (N.to_nat a))) None.

Lemma heap_length a b c d k : N.of_nat (length (heap a b c d k)) = 36 + 2 * (a + b + c + d + k).
Proof.
  unfold heap. rewrite !app_length, !(flat_map_size be16 2), !repeat_length; [|reflexivity..].
  repeat change (length (be16 _)) with 2%nat. lia.
Qed.

Lemma heaped_weight a b c d k :
  weight RequestGsub (heaped a b c d k) = a * (2 + b * (2 + c * (2 + d * (2 + k)))).
Proof.
  cbn [weight]. unfold directory_weight, scripts_weight, features_weight, lookups_weight, heaped.
  cbn [directory_scripts directory_features directory_lookups scripts_headers scripts_records features_headers
    features_records lookups_offsets lookups_records].
  rewrite load_repeat, count_repeat. unfold lookup_record_weight.
  cbn [lookup_record_table_offsets lookup_record_tables]. rewrite load_repeat, count_repeat.
  cbn [gsub_type_weight ligature_substitution_record_offsets ligature_substitution_coverage
    ligature_substitution_records coverage_weight coverage1_glyph_ids].
  rewrite load_repeat, count_repeat. unfold ligatures_weight. cbn [ligatures_offsets ligatures_records].
  rewrite load_repeat, count_repeat. unfold ligature_weight. cbn [ligature_glyph_ids]. rewrite count_repeat.
  change (count (@nil ScriptHeader) + load script_record_weight []) with 0.
  change (count (@nil FeatureHeader) + load feature_record_weight []) with 0.
  change (count (@nil N)) with 0. lia.
Qed.

Lemma heap_reads o a b c d k : a < 32763 -> b < 32763 -> c < 32763 -> d < 32763 -> k < 65535 ->
  reads o read_glyph_substitution (file_of (heap a b c d k)) 0 (heaped a b c d k).
Proof.
  intros Ha Hb Hc Hd Hk.
  assert (B : bounded (file_of (heap a b c d k))).
  { apply file_of_bounded. rewrite heap_length. change (2 ^ 63) with 9223372036854775808. lia. }
  apply (request_reads RequestGsub); [exact B|].
  pose proof (bytes_at_file (heap a b c d k)) as H. revert H. generalize (file_of (heap a b c d k)) as f.
  intros f. unfold heap. rewrite !bytes_at_app, !(flat_map_size be16 2), !repeat_length by reflexivity.
  intros H.
  repeat match type of H with _ /\ _ => let E := fresh "E" in destruct H as [E H] end.
  repeat change (N.of_nat (length (be16 _))) with 2 in *.
  repeat match goal with
  | E : bytes_at _ _ (be16 _) |- _ => apply bytes_at_be16 in E; [|lia]
  | E : bytes_at _ _ (flat_map be16 _) |- _ =>
      apply bytes_at_u16s in E; [|intros ? Hv; apply repeat_spec in Hv; lia];
        rewrite repeat_length, N2Nat.id in E
  end.
  assert (L : forall (A : Type) (elem : N -> A -> Prop) base offset default v, offset <> 0 ->
    elem (base + offset) v -> list_at o elem base offset default v).
  { intros. right. auto. }
  cbn [conforms]. unfold glyph_substitution_at, directory_at, heaped.
  repeat (split; [first [here|reflexivity|left; reflexivity|intros; discriminate]|]).
  split; [apply L; [discriminate|]; split; [here|split; [apply vec_none|constructor]]|].
  split; [apply L; [discriminate|]; split; [here|split; [apply vec_none|constructor]]|].
  split; [|reflexivity].
  apply L; [discriminate|]. split; [here|]. split; [here|]. apply linked_repeat.
  split; [here|]. split; [split; [here|reflexivity]|]. split; [here|]. split; [here|].
  split; [reflexivity|]. apply linked_repeat.
  split; [reflexivity|].
  split; [here|]. split; [reflexivity|]. split; [here|]. split; [here|]. split; [here|].
  split; [split; [reflexivity|split; [here|split; [here|apply vec_none]]]|].
  apply linked_repeat. split; [here|]. split; [here|]. apply linked_repeat.
  split; [here|]. split; [here|]. split; [lia|]. replace (k + 1 - 1) with k by lia. here.
Qed.

Lemma heap_grows a b c d k : a < 32763 -> b < 32763 -> c < 32763 -> d < 32763 -> k < 65535 ->
  exists l v, N.of_nat (length l) = 36 + 2 * (a + b + c + d + k) /\
    (forall o, reads o (reader RequestGsub) (file_of l) 0 v) /\
    weight RequestGsub v = a * (2 + b * (2 + c * (2 + d * (2 + k)))).
Proof.
  intros Ha Hb Hc Hd Hk. exists (heap a b c d k), (heaped a b c d k).
  split; [apply heap_length|]. split; [intros o; apply heap_reads; assumption|apply heaped_weight].
Qed.

(** [GPOS] 1.0 with [a] lookups, all of them the same one of [b] subtables, all of them the same
    one of [n] rows of [m] pairs that take no space. *)
Definition cloud (a b n m : N) : list byte :=
  be16 1 ++ be16 0 ++ be16 10 ++ be16 10 ++ be16 12 ++
  be16 0 ++
  be16 a ++ flat_map be16 (repeat (2 + 2 * a) (N.to_nat a)) ++
  be16 2 ++ be16 0 ++ be16 b ++ flat_map be16 (repeat (6 + 2 * b) (N.to_nat b)) ++
  be16 2 ++ be16 16 ++ be16 0 ++ be16 0 ++ be16 16 ++ be16 16 ++ be16 n ++ be16 m ++
  be16 2 ++ be16 0.

Definition clouded (a b n m : N) : GlyphPositioning :=
  mkDirectory 1 0 10 10 12 0 (mkScripts 0 [] []) (mkFeatures 0 [] [])
    (mkLookups a (repeat (2 + 2 * a) (N.to_nat a)) (repeat
      (mkLookupRecord 2 0 b (repeat (6 + 2 * b) (N.to_nat b)) None (repeat
        (GposPairAdjustment (PairAdjustmentFormat2 (mkPairAdjustment2 2 16 0 0 16 16 n m
          (repeat (mkPair2s (repeat (mkPair2 None None) (N.to_nat m))) (N.to_nat n))
          (CoverageFormat2 (mkCoverage2 2 0 [])) (ClassFormat2 (mkClass2 2 0 []))
          (ClassFormat2 (mkClass2 2 0 [])))))
        (N.to_nat b)))
      (N.to_nat a))) None.

Lemma cloud_length a b n m : N.of_nat (length (cloud a b n m)) = 40 + 2 * (a + b).
Proof.
  unfold cloud. rewrite !app_length, !(flat_map_size be16 2), !repeat_length; [|reflexivity..].
  repeat change (length (be16 _)) with 2%nat. lia.
Qed.

Lemma clouded_weight a b n m :
  weight RequestGpos (clouded a b n m) = a * (2 + b * (2 + n * (1 + m))).
Proof.
  cbn [weight]. unfold directory_weight, scripts_weight, features_weight, lookups_weight, clouded.
  cbn [directory_scripts directory_features directory_lookups scripts_headers scripts_records features_headers
    features_records lookups_offsets lookups_records].
  rewrite load_repeat, count_repeat. unfold lookup_record_weight.
  cbn [lookup_record_table_offsets lookup_record_tables]. rewrite load_repeat, count_repeat.
  cbn [gpos_type_weight pair_adjustment2_records pair_adjustment2_coverage pair_adjustment2_class1
    pair_adjustment2_class2 coverage_weight class_weight coverage2_records class2_records].
  rewrite load_repeat. unfold pair2s_weight. cbn [pair2s_records]. rewrite load_repeat.
  change (pair2_weight (mkPair2 None None)) with 0.
  change (count (@nil ScriptHeader) + load script_record_weight []) with 0.
  change (count (@nil FeatureHeader) + load feature_record_weight []) with 0.
  change (count (@nil CoverageRecord)) with 0. change (count (@nil ClassRecord)) with 0. lia.
Qed.

Lemma cloud_reads o a b n m : a < 32763 -> b < 32763 -> n < 65536 -> m < 65536 ->
  reads o read_glyph_positioning (file_of (cloud a b n m)) 0 (clouded a b n m).
Proof.
  intros Ha Hb Hn Hm.
  assert (B : bounded (file_of (cloud a b n m))).
  { apply file_of_bounded. rewrite cloud_length. change (2 ^ 63) with 9223372036854775808. lia. }
  apply (request_reads RequestGpos); [exact B|].
  pose proof (bytes_at_file (cloud a b n m)) as H. revert H. generalize (file_of (cloud a b n m)) as f.
  intros f. unfold cloud. rewrite !bytes_at_app, !(flat_map_size be16 2), !repeat_length by reflexivity.
  intros H.
  repeat match type of H with _ /\ _ => let E := fresh "E" in destruct H as [E H] end.
  repeat change (N.of_nat (length (be16 _))) with 2 in *.
  repeat match goal with
  | E : bytes_at _ _ (be16 _) |- _ => apply bytes_at_be16 in E; [|lia]
  | E : bytes_at _ _ (flat_map be16 _) |- _ =>
      apply bytes_at_u16s in E; [|intros ? Hv; apply repeat_spec in Hv; lia];
        rewrite repeat_length, N2Nat.id in E
  end.
  assert (L : forall (A : Type) (elem : N -> A -> Prop) base offset default v, offset <> 0 ->
    elem (base + offset) v -> list_at o elem base offset default v).
  { intros. right. auto. }
  assert (F : forall checked reserved p, u16_at f p 0 -> flags_at checked reserved f p 0).
  { intros checked reserved q K. split; [exact K|]. destruct checked; reflexivity. }
  cbn [conforms]. unfold glyph_positioning_at, directory_at, clouded.
  repeat (split; [first [here|reflexivity|left; reflexivity|intros; discriminate]|]).
  split; [apply L; [discriminate|]; split; [here|split; [apply vec_none|constructor]]|].
  split; [apply L; [discriminate|]; split; [here|split; [apply vec_none|constructor]]|].
  split; [|reflexivity].
  apply L; [discriminate|]. split; [here|]. split; [here|]. apply linked_repeat.
  split; [here|]. split; [split; [here|reflexivity]|]. split; [here|]. split; [here|].
  split; [reflexivity|]. apply linked_repeat.
  split; [reflexivity|]. split; [reflexivity|].
  split; [here|]. split; [here|].
  split; [apply F; here|]. split; [apply F; here|]. split; [here|]. split; [here|]. split; [here|].
  split; [here|].
  split.
  { change ((value_size 0 + value_size 0) * m) with 0. apply vec_same. cbn [pair2s_at].
    change (value_size 0 + value_size 0) with 0. apply vec_same. split; reflexivity. }
  split; [split; [reflexivity|split; [here|split; [here|apply vec_none]]]|].
  split; split; try reflexivity; (split; [here|split; [here|apply vec_none]]).
Qed.

Lemma cloud_grows a b n m : a < 32763 -> b < 32763 -> n < 65536 -> m < 65536 ->
  exists l v, N.of_nat (length l) = 40 + 2 * (a + b) /\
    (forall o, reads o (reader RequestGpos) (file_of l) 0 v) /\
    weight RequestGpos v = a * (2 + b * (2 + n * (1 + m))).
Proof.
  intros Ha Hb Hn Hm. exists (cloud a b n m), (clouded a b n m).
  split; [apply cloud_length|]. split; [intros o; apply cloud_reads; assumption|apply clouded_weight].
Qed.

(** [GDEF] 1.0 with [a] ligatures, all of them the same one of [b] carets, all of them the same one
    with [k + 1] words of corrections. *)
Definition pile (a b k : N) : list byte :=
  be16 1 ++ be16 0 ++ be16 0 ++ be16 0 ++ be16 12 ++ be16 0 ++
  be16 (4 + 2 * a) ++ be16 a ++ flat_map be16 (repeat (8 + 2 * a) (N.to_nat a)) ++
  be16 1 ++ be16 0 ++
  be16 b ++ flat_map be16 (repeat (2 + 2 * b) (N.to_nat b)) ++
  be16 0 ++ be16 3 ++ be16 6 ++
  be16 0 ++ be16 (8 * k) ++ be16 1 ++ flat_map be16 (repeat 0 (N.to_nat (k + 1))).

Definition piled (a b k : N) : GlyphDefinition :=
  mkGlyphDefinition (GdefVersion1 (mkGdefHeader1 1 0 0 0 12 0)) None None
    (Some (mkGdefLigatures (4 + 2 * a) a (repeat (8 + 2 * a) (N.to_nat a))
      (CoverageFormat1 (mkCoverage1 1 0 []))
      (repeat (mkGdefLigature b (repeat (2 + 2 * b) (N.to_nat b))
        (repeat (CaretFormat3 (mkCaret3 0 3 6 (CorrectionDevice (mkDevice 0 (8 * k) 1
          (repeat 0 (N.to_nat (k + 1))))))) (N.to_nat b))) (N.to_nat a))))
    None None None.

Lemma pile_length a b k : N.of_nat (length (pile a b k)) = 36 + 2 * (a + b + k).
Proof.
  unfold pile. rewrite !app_length, !(flat_map_size be16 2), !repeat_length; [|reflexivity..].
  repeat change (length (be16 _)) with 2%nat. lia.
Qed.

Lemma piled_weight a b k : weight RequestGdef (piled a b k) = a * (2 + b * (3 + k)).
Proof.
  cbn [weight]. unfold definition_weight, piled.
  cbn [glyph_definition_glyph_class glyph_definition_attachments glyph_definition_ligatures
    glyph_definition_mark_class glyph_definition_marks glyph_definition_variations maybe_weight].
  unfold gdef_ligatures_weight. cbn [gdef_ligatures_offsets gdef_ligatures_coverage gdef_ligatures_records].
  rewrite load_repeat, count_repeat. unfold gdef_ligature_weight.
  cbn [gdef_ligature_caret_offsets gdef_ligature_carets]. rewrite load_repeat, count_repeat.
  cbn [caret_weight caret3_correction correction_weight device_deltas coverage_weight coverage1_glyph_ids].
  rewrite count_repeat. change (count (@nil N)) with 0. lia.
Qed.

Lemma pile_reads o a b k : a < 32763 -> b < 32763 -> k < 8192 ->
  reads o read_glyph_definition (file_of (pile a b k)) 0 (piled a b k).
Proof.
  intros Ha Hb Hk.
  assert (B : bounded (file_of (pile a b k))).
  { apply file_of_bounded. rewrite pile_length. change (2 ^ 63) with 9223372036854775808. lia. }
  apply (request_reads RequestGdef); [exact B|].
  pose proof (bytes_at_file (pile a b k)) as H. revert H. generalize (file_of (pile a b k)) as f.
  intros f. unfold pile. rewrite !bytes_at_app, !(flat_map_size be16 2), !repeat_length by reflexivity.
  intros H.
  repeat match type of H with _ /\ _ => let E := fresh "E" in destruct H as [E H] end.
  repeat change (N.of_nat (length (be16 _))) with 2 in *.
  repeat match goal with
  | E : bytes_at _ _ (be16 _) |- _ => apply bytes_at_be16 in E; [|lia]
  | E : bytes_at _ _ (flat_map be16 _) |- _ =>
      apply bytes_at_u16s in E; [|intros ? Hv; apply repeat_spec in Hv; lia];
        rewrite repeat_length, N2Nat.id in E
  end.
  cbn [conforms]. unfold glyph_definition_at, glyph_definition_with, piled. cbn [gdef_offsets].
  split; [repeat (split; [first [here|reflexivity]|]); here|].
  split; [reflexivity|]. split; [reflexivity|].
  split; [|repeat split; reflexivity].
  split; [discriminate|]. split; [here|]. split; [here|]. split; [here|].
  split; [split; [reflexivity|split; [here|split; [here|apply vec_none]]]|].
  apply linked_repeat. split; [here|]. split; [here|]. apply linked_repeat.
  split; [exists 0, 3; split; [here|split; [here|reflexivity]]|].
  split; [here|]. split; [exists 3; split; [here|reflexivity]|]. split; [here|].
  split; [here|]. split; [here|]. split; [lia|]. split; [here|]. split; [lia|].
  replace (device_bits 0 (8 * k) 1 / 16 + 1) with (k + 1); [here|]. unfold device_bits.
  rewrite N.sub_0_r, N.pow_1_r. replace (2 * (8 * k + 1)) with (2 + k * 16) by lia.
  rewrite N.div_add by discriminate. reflexivity.
Qed.

Lemma pile_grows a b k : a < 32763 -> b < 32763 -> k < 8192 ->
  exists l v, N.of_nat (length l) = 36 + 2 * (a + b + k) /\
    (forall o, reads o (reader RequestGdef) (file_of l) 0 v) /\ weight RequestGdef v = a * (2 + b * (3 + k)).
Proof.
  intros Ha Hb Hk. exists (pile a b k), (piled a b k).
  split; [apply pile_length|]. split; [intros o; apply pile_reads; assumption|apply piled_weight].
Qed.

(** [fvar] with [a] axes, all of them the same one, and [n] instances, all of them the same one. *)
Definition stack (a n : N) : list byte :=
  flat_map be16 [1; 0; 16; 2; a; 0; n; 0] ++ repeat Byte.x00 (N.to_nat (20 + 4 * a)).

Definition stacked (a n : N) : FontVariations :=
  mkFontVariations (mkFvarHeader 1 0 16 2 a 0 n 0)
    (repeat (mkAxisRecord (Tag Byte.x00 Byte.x00 Byte.x00 Byte.x00) 0 0 0 0 0) (N.to_nat a))
    (repeat (mkInstanceRecord 0 0 (repeat 0%Z (N.to_nat a)) 0) (N.to_nat n)).

Lemma stack_length a n : N.of_nat (length (stack a n)) = 36 + 4 * a.
Proof. unfold stack. rewrite app_length, repeat_length, (flat_map_size be16 2) by reflexivity.
  cbn [length]. lia. Qed.

Lemma stacked_weight a n : weight RequestFvar (stacked a n) = a + n * (1 + a).
Proof.
  cbn [weight]. unfold variation_weight, stacked.
  cbn [font_variations_axis_records font_variations_instance_records].
  rewrite count_repeat, load_repeat. cbn [instance_record_coordinates]. rewrite count_repeat. reflexivity.
Qed.

Lemma stack_reads o a n : a < 65536 -> n < 65536 ->
  reads o read_font_variations (file_of (stack a n)) 0 (stacked a n).
Proof.
  intros Ha Hn.
  assert (B : bounded (file_of (stack a n))).
  { apply file_of_bounded. rewrite stack_length. change (2 ^ 63) with 9223372036854775808. lia. }
  apply (request_reads RequestFvar); [exact B|].
  assert (Z : forall q, 16 <= q < 36 + 4 * a -> file_of (stack a n) q = Some Byte.x00).
  { intros q Hq. unfold file_of, stack.
    rewrite nth_error_app2; rewrite (flat_map_size be16 2) by reflexivity; cbn [length]; [|lia].
    apply nth_error_repeat. lia. }
  pose proof (bytes_at_file (stack a n)) as H. revert H Z. generalize (file_of (stack a n)) as f.
  intros f. unfold stack. rewrite bytes_at_app. intros [H _] Z. cbn [flat_map] in H. rewrite !bytes_at_app in H.
  repeat match type of H with _ /\ _ => let E := fresh "E" in destruct H as [E H] end.
  repeat change (N.of_nat (length (be16 _))) with 2 in *.
  repeat match goal with E : bytes_at _ _ (be16 _) |- _ => apply bytes_at_be16 in E; [|lia] end.
  assert (W : forall q, 16 <= q -> q + 2 <= 36 + 4 * a -> u16_at f q 0).
  { intros q L U. exists Byte.x00, Byte.x00. rewrite !Z by lia. repeat split. }
  assert (I : forall q, 16 <= q -> q + 4 <= 36 + 4 * a -> i32_at f q 0).
  { intros q L U. exists 0. split; [|reflexivity]. exists 0, 0. split; [apply W; lia|].
  split; [apply W; lia|reflexivity]. }
  cbn [conforms]. unfold font_variations_at, stacked, fvar_header_at.
  split; [repeat (split; [first [here|reflexivity]|]); here|]. rewrite N.mul_0_r, N.add_0_r.
  split; apply vec_same.
  - split; [repeat split; apply Z; lia|].
    split; [apply I; lia|]. split; [apply I; lia|]. split; [apply I; lia|].
    split; [split; [apply W; lia|reflexivity]|apply W; lia].
  - split; [apply W; lia|]. split; [split; [apply W; lia|reflexivity]|]. split; [|apply W; lia].
    split; [rewrite repeat_length; lia|]. intros i v X. assert (L : (i < length (repeat 0%Z (N.to_nat a)))%nat)
      by (apply nth_error_Some; congruence).
    rewrite repeat_length in L. apply nth_error_In, repeat_spec in X. subst v. apply I; lia.
Qed.

Lemma stack_grows a n : a < 65536 -> n < 65536 ->
  exists l v, N.of_nat (length l) = 36 + 4 * a /\
    (forall o, reads o (reader RequestFvar) (file_of l) 0 v) /\ weight RequestFvar v = a + n * (1 + a).
Proof.
  intros Ha Hn. exists (stack a n), (stacked a n).
  split; [apply stack_length|]. split; [intros o; apply stack_reads; assumption|apply stacked_weight].
Qed.
