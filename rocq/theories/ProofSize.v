(** The size of what is read from [fvar] and [GSUB], for property C47. *)

From Verif Require Export SpecSize.
From Verif Require Import ProofRequests ProofFindings ProofWriter.

(** [fvar] with [n] axes and [m] instances, all of them at 16 and of size zero. *)
Definition stack (n m : N) : list byte :=
  be16 1 ++ be16 0 ++ be16 16 ++ be16 2 ++ be16 n ++ be16 0 ++ be16 m ++ be16 0 ++
  repeat x00 (N.to_nat (20 + 4 * n)).

Definition stacked (n m : N) : FontVariations :=
  mkFontVariations (mkFvarHeader 1 0 16 2 n 0 m 0)
    (repeat (mkAxisRecord (Tag x00 x00 x00 x00) 0 0 0 0 0) (N.to_nat n))
    (repeat (mkInstanceRecord 0 0 (repeat 0%Z (N.to_nat n)) 0) (N.to_nat m)).

Lemma stack_length n m : N.of_nat (length (stack n m)) = 36 + 4 * n.
Proof.
  unfold stack. rewrite !app_length, repeat_length. repeat change (length (be16 _)) with 2%nat. lia.
Qed.

Lemma stacked_coordinates n m : coordinates (stacked n m) = (N.to_nat m * N.to_nat n)%nat.
Proof.
  unfold coordinates, stacked. cbn [font_variations_instance_records].
  generalize (N.to_nat m). intros k. induction k as [|k IH]; [reflexivity|].
  cbn [repeat map list_sum fold_right Nat.mul instance_record_coordinates] in *. unfold list_sum in *.
  cbn [fold_right]. rewrite IH, repeat_length. reflexivity.
Qed.

(** Bytes that are all zero. *)
Lemma zero16 f p k : bytes_at f p (repeat x00 k) -> forall q, p <= q -> q + 2 <= p + N.of_nat k -> u16_at f q 0.
Proof.
  intros H q L U. exists x00, x00.
  assert (Z : forall i, (i < k)%nat -> f (p + N.of_nat i) = Some x00).
  { intros i Hi. apply H. rewrite (nth_error_nth' _ x00) by (rewrite repeat_length; exact Hi).
  f_equal. apply nth_repeat. }
  split; [|split; [|reflexivity]].
  - replace q with (p + N.of_nat (N.to_nat (q - p))) by lia. apply Z. lia.
  - replace (q + 1) with (p + N.of_nat (N.to_nat (q + 1 - p))) by lia. apply Z. lia.
Qed.

Lemma zero32 f q : u16_at f q 0 -> u16_at f (q + 2) 0 -> i32_at f q 0.
Proof. intros H L. exists 0. split; [exists 0, 0; auto|reflexivity]. Qed.

Lemma zero_tag f q : u16_at f q 0 -> u16_at f (q + 2) 0 -> tag_at f q (Tag x00 x00 x00 x00).
Proof.
  assert (Z : forall b c, 0 = 256 * Byte.to_N b + Byte.to_N c -> b = x00 /\ c = x00).
  { intros b c E. split.
    - assert (X : Byte.to_N b = 0) by lia. destruct b; try discriminate X. reflexivity.
    - assert (X : Byte.to_N c = 0) by lia. destruct c; try discriminate X. reflexivity. }
  intros (b & c & Hb & Hc & E) (b' & c' & Hb' & Hc' & E').
  apply Z in E, E'. destruct E as [-> ->], E' as [-> ->].
  replace (q + 2 + 1) with (q + 3) in Hc' by lia. repeat split; assumption.
Qed.

Lemma vec_same {A} (elem : N -> A -> Prop) p n v :
  elem p v -> vec_at elem 0 p n (repeat v (N.to_nat n)).
Proof.
  intros H. split; [rewrite repeat_length; lia|]. intros i w Hi.
  apply nth_error_In, repeat_spec in Hi. subst w. rewrite N.mul_0_l, N.add_0_r. exact H.
Qed.

Lemma stack_reads o n m :
  n < 65536 -> m < 65536 -> reads o read_font_variations (file_of (stack n m)) 0 (stacked n m).
Proof.
  intros Hn Hm.
  assert (Hb : bounded (file_of (stack n m))).
  { apply file_of_bounded. rewrite stack_length. change (2 ^ 63) with 9223372036854775808. lia. }
  apply (request_reads RequestFvar); [exact Hb|].
  pose proof (bytes_at_file (stack n m)) as H. revert H. generalize (file_of (stack n m)) as f.
  intros f. unfold stack. rewrite !bytes_at_app.
  intros (H0 & H1 & H2 & H3 & H4 & H5 & H6 & H7 & H8).
  repeat change (N.of_nat (length (be16 _))) with 2 in *.
  apply bytes_at_be16 in H0, H1, H2, H3, H4, H5, H6, H7; try lia.
  pose proof (zero16 _ _ _ H8) as Z. clear H8.
  cbn [N.add Pos.add Pos.succ Pos.of_succ_nat] in H0, H1, H2, H3, H4, H5, H6, H7, Z.
  rewrite N2Nat.id in Z.
  cbn [conforms]. unfold font_variations_at, stacked.
  split; [repeat apply conj; try assumption; reflexivity|].
  change (0 + 16) with 16. rewrite N.mul_0_r, N.add_0_r.
  assert (F : forall mask q, 16 <= q -> q + 2 <= 36 + 4 * n -> flags_at (checked_flags o) mask f q 0).
  { intros mask q L U. split; [apply Z; lia|reflexivity]. }
  assert (I : forall q, 16 <= q -> q + 4 <= 36 + 4 * n -> i32_at f q 0).
  { intros q L U. apply zero32; apply Z; lia. }
  split; apply vec_same; unfold axis_record_at, instance_record_at.
  - split; [apply zero_tag; apply Z; lia|]. repeat (split; [first [apply I; lia|apply F; lia]|]). apply Z; lia.
  - split; [apply Z; lia|]. split; [apply F; lia|]. split; [|apply Z; lia].
    split; [rewrite repeat_length; lia|]. intros i w Hi.
    assert (i < length (repeat 0%Z (N.to_nat n)))%nat as L by (apply nth_error_Some; congruence).
    rewrite repeat_length in L.
    apply nth_error_In, repeat_spec in Hi. subst w. apply I; lia.
Qed.

Lemma stack_grows n m : n < 65536 -> m < 65536 ->
  exists l v, N.of_nat (length l) = 36 + 4 * n /\
    (forall o, reads o read_font_variations (file_of l) 0 v) /\
    coordinates v = (N.to_nat m * N.to_nat n)%nat.
Proof.
  intros Hn Hm. exists (stack n m), (stacked n m).
  split; [apply stack_length|]. split; [intros o; apply stack_reads; assumption|apply stacked_coordinates].
Qed.

(** [GSUB] 1.0 with [n] lookups, all of them the same one of [m] subtables, all of them the
    same single substitution of [k] glyphs. *)
Definition tower (n m k : N) : list byte :=
  be16 1 ++ be16 0 ++ be16 10 ++ be16 10 ++ be16 12 ++
  be16 0 ++
  be16 n ++ flat_map be16 (repeat (2 + 2 * n) (N.to_nat n)) ++
  be16 1 ++ be16 0 ++ be16 m ++ flat_map be16 (repeat (6 + 2 * m) (N.to_nat m)) ++
  be16 2 ++ be16 (6 + 2 * k) ++ be16 k ++ flat_map be16 (repeat 0 (N.to_nat k)) ++
  be16 1 ++ be16 0.

Definition towering (n m k : N) : GlyphSubstitution :=
  mkDirectory 1 0 10 10 12 0 (mkScripts 0 [] []) (mkFeatures 0 [] [])
    (mkLookups n (repeat (2 + 2 * n) (N.to_nat n)) (repeat
      (mkLookupRecord 1 0 m (repeat (6 + 2 * m) (N.to_nat m)) None (repeat
        (GsubSingleSubstitution (SingleSubstitutionFormat2 (mkSingleSubstitution2 2 (6 + 2 * k) k
          (repeat 0 (N.to_nat k)) (CoverageFormat1 (mkCoverage1 1 0 [])))))
        (N.to_nat m)))
      (N.to_nat n))) None.

Lemma tower_length n m k : N.of_nat (length (tower n m k)) = 30 + 2 * n + 2 * m + 2 * k.
Proof.
  unfold tower. rewrite !app_length, !(flat_map_size be16 2), !repeat_length; [|reflexivity..].
  repeat change (length (be16 _)) with 2%nat. lia.
Qed.

Lemma sum_same {A} (g : A -> nat) v n : list_sum (map g (repeat v n)) = (n * g v)%nat.
Proof. induction n as [|n IH]; [reflexivity|]. unfold list_sum in *.
  cbn [repeat map fold_right Nat.mul]. rewrite IH. reflexivity. Qed.

Lemma towering_substitutes n m k :
  all_substitutes (towering n m k) = (N.to_nat n * (N.to_nat m * N.to_nat k))%nat.
Proof.
  unfold all_substitutes, towering. cbn [directory_lookups lookups_records]. rewrite sum_same.
  cbn [lookup_record_tables]. rewrite sum_same. cbn [substitutes single_substitution2_glyph_ids].
  rewrite repeat_length. reflexivity.
Qed.

Lemma u16s_eq f p q n vs : u16s_at f p n vs -> p = q -> u16s_at f q n vs.
Proof. intros H <-. exact H. Qed.

Ltac here :=
  match goal with
  | E : u16_at ?f _ ?v |- u16_at ?f _ ?v => apply (u16_eq _ _ _ _ E); lia
  | E : u16s_at ?f _ ?n ?v |- u16s_at ?f _ ?n ?v => apply (u16s_eq _ _ _ _ _ E); lia
  end.

Lemma tower_reads o n m k : n < 32765 -> m < 32765 -> k < 32765 ->
  reads o read_glyph_substitution (file_of (tower n m k)) 0 (towering n m k).
Proof.
  intros Hn Hm Hk.
  assert (Hb : bounded (file_of (tower n m k))).
  { apply file_of_bounded. rewrite tower_length. change (2 ^ 63) with 9223372036854775808. lia. }
  apply (request_reads RequestGsub); [exact Hb|].
  pose proof (bytes_at_file (tower n m k)) as H. revert H. generalize (file_of (tower n m k)) as f.
  intros f. unfold tower. rewrite !bytes_at_app, !(flat_map_size be16 2), !repeat_length by reflexivity.
  intros H.
  repeat match type of H with _ /\ _ => let E := fresh "E" in destruct H as [E H] end.
  repeat change (N.of_nat (length (be16 _))) with 2 in *.
  repeat match goal with
  | E : bytes_at _ _ (be16 _) |- _ => apply bytes_at_be16 in E; [|lia]
  | E : bytes_at _ _ (flat_map be16 _) |- _ =>
      apply bytes_at_u16s in E; [|intros ? Hv; apply repeat_spec in Hv; lia];
        rewrite repeat_length, N2Nat.id in E
  end.
  assert (L : forall (A : Type) (elem : N -> A -> Prop) base offset default v, offset <> 0 ->
    elem (base + offset) v -> list_at o elem base offset default v).
  { intros. right. auto. }
  cbn [conforms]. unfold glyph_substitution_at, directory_at, towering.
  repeat (split; [first [here|reflexivity|left; reflexivity|intros; discriminate]|]).
  split; [apply L; [discriminate|]; split; [here|split; [apply vec_none|constructor]]|].
  split; [apply L; [discriminate|]; split; [here|split; [apply vec_none|constructor]]|].
  split; [|reflexivity].
  apply L; [discriminate|]. split; [here|]. split; [here|]. apply linked_repeat.
  split; [here|]. split; [split; [here|reflexivity]|]. split; [here|]. split; [here|].
  split; [reflexivity|]. apply linked_repeat.
  split; [reflexivity|]. split; [reflexivity|].
  split; [here|]. split; [here|]. split; [here|]. split; [here|].
  split; [reflexivity|]. split; [here|]. split; [here|]. apply vec_none.
Qed.

Lemma tower_grows n m k : n < 32765 -> m < 32765 -> k < 32765 ->
  exists l v, N.of_nat (length l) = 30 + 2 * n + 2 * m + 2 * k /\
    (forall o, reads o read_glyph_substitution (file_of l) 0 v) /\
    all_substitutes v = (N.to_nat n * (N.to_nat m * N.to_nat k))%nat.
Proof.
  intros Hn Hm Hk. exists (tower n m k), (towering n m k).
  split; [apply tower_length|]. split; [intros o; apply tower_reads; assumption|apply towering_substitutes].
Qed.

(** The records of a table directory are all in the file. *)
Lemma font_linear d o l p v :
  N.of_nat (length l) <= 2 ^ 63 -> reads o (read_font d) (file_of l) p v ->
  16 * N.of_nat (length (offsets_records (font_offsets v))) <= N.of_nat (length l).
Proof.
  intros Hl H. apply (request_reads (RequestFont d)) in H; [|apply file_of_bounded, Hl].
  destruct v as [[header records]]. cbn [conforms font_offsets offsets_records] in *.
  destruct H as [_ [_ H]]. eapply vec_within; [| |exact H]; [lia|].
  intros q [t s a n] (_ & _ & _ & h & u & _ & (b & c & _ & Hc & _) & _).
  change (16 - 1) with 15. replace (q + 12 + 2 + 1) with (q + 15) in Hc by lia. congruence.
Qed.
