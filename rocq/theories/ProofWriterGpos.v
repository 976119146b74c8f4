(** What is written of [GPOS] is in the file. *)

From Verif Require Export ProofWriter SpecGpos.

(** ** Anchors *)

Lemma anchor_whole v : anchor_fits v -> anchor_wf v -> whole anchor_at anchor_erase v (anchor_bytes v).
Proof.
  destruct v as [[format x y]|[format x y index]|[format x y o1 o2 a b]]; cbn; intros F W L f p H.
  - scan. counted. eexists (AnchorFormat1 (mkAnchor1 _ _ _)). rebuilt.
  - scan. counted. eexists (AnchorFormat2 (mkAnchor2 _ _ _ _)). rebuilt.
  - unblock H L. written. eexists (AnchorFormat3 (mkAnchor3 _ _ _ _ _ _ _)). rebuilt.
Qed.

#[export] Hint Resolve anchor_whole : written.

Lemma anchors_laid f b p k n offsets anchors :
  anchors_fits anchors -> anchors_wf n offsets anchors ->
  laid f b p k (anchors_pieces anchors) ->
  exists os ws, u16s_at f p n os /\ maybes_at (anchor_at f) b os ws /\
    anchors_erase ws = anchors_erase anchors.
Proof.
  intros F (_ & N & _ & W) H. unfold anchors_fits, anchors_pieces in *.
  eapply maybes_laid in H; [|every]. unfold counts in N. rewrite N. exact H.
Qed.

Lemma width_anchors n offsets anchors :
  anchors_wf n offsets anchors -> width (anchors_pieces anchors) = 2 * n.
Proof.
  intros (_ & N & _). unfold anchors_pieces. rewrite width_maybes, <- N. reflexivity.
Qed.

Lemma bases_whole n v : bases_fits v -> bases_wf n v ->
  whole (fun f => bases_at f n) bases_erase v (bases_bytes v).
Proof.
  destruct v as [count records]. cbn. intros [F1 F2] [W1 W2] L f p H. unblock H L. scan.
  rewrite Forall_forall in F2, W2.
  match goal with K : laid _ _ _ _ (flat_map _ _) |- _ =>
    rename K into R; apply (each_laid (base_at f p n) base_erase _ (2 * n)) in R end.
  - destruct R as (ws & Q & V). counted. eexists (mkBases _ _). rebuilt.
  - intros [offsets anchors] I q k' B. specialize (F2 _ I). specialize (W2 _ I).
    destruct (anchors_laid _ _ _ _ n offsets _ F2 W2 B) as (os & ws & U & M & Q).
    exists (mkBase os ws). split; [cbn; f_equal; exact Q|split; assumption].
  - intros [offsets anchors] I. apply (width_anchors n offsets), (W2 _ I).
Qed.

Lemma gpos_ligature_whole n v : gpos_ligature_fits v -> gpos_ligature_wf n v ->
  whole (fun f => gpos_ligature_at f n) gpos_ligature_erase v (gpos_ligature_bytes v).
Proof.
  destruct v as [count records]. cbn. intros [F1 F2] [W1 W2] L f p H. unblock H L. scan.
  rewrite Forall_forall in F2, W2.
  match goal with K : laid _ _ _ _ (flat_map _ _) |- _ =>
    rename K into R; apply (each_laid (component_at f p n) component_erase _ (2 * n)) in R end.
  - destruct R as (ws & Q & V). counted. eexists (mkGposLigature _ _). rebuilt.
  - intros [offsets anchors] I q k' B. specialize (F2 _ I). specialize (W2 _ I).
    destruct (anchors_laid _ _ _ _ n offsets _ F2 W2 B) as (os & ws & U & M & Q).
    exists (mkComponent os ws). split; [cbn; f_equal; exact Q|split; assumption].
  - intros [offsets anchors] I. apply (width_anchors n offsets), (W2 _ I).
Qed.

#[export] Hint Resolve gpos_ligature_whole : written.

Lemma gpos_ligatures_whole n v : gpos_ligatures_fits v -> gpos_ligatures_wf n v ->
  whole (fun f => gpos_ligatures_at f n) gpos_ligatures_erase v (gpos_ligatures_bytes v).
Proof.
  destruct v as [count offsets records]. cbn. intros F W L f p H. unblock H L. written.
  eexists (mkGposLigatures _ _ _). rebuilt.
Qed.

Lemma mark2s_whole n v : mark2s_fits v -> mark2s_wf n v ->
  whole (fun f => mark2s_at f n) mark2s_erase v (mark2s_bytes v).
Proof.
  destruct v as [count records]. cbn. intros [F1 F2] [W1 W2] L f p H. unblock H L. scan.
  rewrite Forall_forall in F2, W2.
  match goal with K : laid _ _ _ _ (flat_map _ _) |- _ =>
    rename K into R; apply (each_laid (mark2_at f p n) mark2_erase _ (2 * n)) in R end.
  - destruct R as (ws & Q & V). counted. eexists (mkMark2s _ _). rebuilt.
  - intros [offsets anchors] I q k' B. specialize (F2 _ I). specialize (W2 _ I).
    destruct (anchors_laid _ _ _ _ n offsets _ F2 W2 B) as (os & ws & U & M & Q).
    exists (mkMark2 os ws). split; [cbn; f_equal; exact Q|split; assumption].
  - intros [offsets anchors] I. apply (width_anchors n offsets), (W2 _ I).
Qed.

Lemma mark1_laid o f b p k v : mark1_fits v -> mark1_wf o v -> laid f b p k (mark1_pieces v) ->
  exists w, mark1_erase w = mark1_erase v /\ mark1_at o f b p w.
Proof.
  destruct v as [class_id offset anchor]. cbn [mark1_fits mark1_wf mark1_pieces]. intros [F1 F2] W H.
  destruct W as [W|(O & -> & ->)].
  - replace (match anchor with
      | AnchorFormat1 (mkAnchor1 0 _ _) => w16 0
      | _ => Link (anchor_bytes anchor)
      end) with (Link (anchor_bytes anchor)) in H
      by (destruct anchor as [[format x y]|t|t]; [cbn in W; subst format|..]; reflexivity).
    written. eexists (mkMark1 _ _ _). split; cycle 1.
    + cbn. autorewrite with sizes in *. conj; [here|here|right; split; [left; lia|eassumption]].
    + cbn. congruence.
  - scan. exists (mkMark1 class_id 0 (AnchorFormat1 (mkAnchor1 0 0 0))). split; [reflexivity|].
    cbn. autorewrite with sizes in *. conj; [here|here|left]. auto.
Qed.

Lemma mark1s_whole o v : mark1s_fits v -> mark1s_wf o v ->
  whole (mark1s_at o) mark1s_erase v (mark1s_bytes v).
Proof.
  destruct v as [count records]. cbn. intros [F1 F2] [W1 W2] L f p H. unblock H L. scan.
  rewrite Forall_forall in F2, W2.
  match goal with K : laid _ _ _ _ (flat_map _ _) |- _ =>
    rename K into R; apply (each_laid (mark1_at o f p) mark1_erase _ 4) in R end.
  - destruct R as (ws & Q & V). counted. eexists (mkMark1s _ _). rebuilt.
  - intros v I q k' B. apply (mark1_laid o f p q k' v); auto.
  - intros [class_id offset [[[|format] x y]|t|t]] _; reflexivity.
Qed.

Lemma connection_laid f b p k v :
  connection_fits v -> connection_wf v -> laid f b p k (connection_pieces v) ->
  exists w, connection_erase w = connection_erase v /\ connection_at f b p w.
Proof.
  destruct v as [o1 o2 x y]. cbn. intros F W H. written. eexists (mkConnection _ _ _ _). rebuilt.
Qed.

(** ** Value records *)

Lemma bits_below_next flags k :
  bits_below flags (S k) = bits_below flags k + (if N.testbit flags (N.of_nat k) then 1 else 0).
Proof.
  unfold bits_below. rewrite seq_S, filter_app, app_length. cbn [filter Nat.add].
  destruct (N.testbit flags (N.of_nat k)); cbn [length]; lia.
Qed.

Lemma announced_some {A} flags k (x : A) : announced flags k (Some x) -> N.testbit flags k = true.
Proof.
  intros [_ H]. destruct (N.testbit flags k); [reflexivity|]. discriminate (H eq_refl).
Qed.

Lemma announced_none {A} flags k : announced flags k (@None A) -> N.testbit flags k = false.
Proof. intros [H _]. apply H. reflexivity. Qed.

Lemma field_laid f b p flags k n x ps :
  announced flags (N.of_nat k) x -> maybe_fits i16 x ->
  laid f b (p + 2 * bits_below flags k) n (field_pieces x ++ ps) ->
  field_at (i16_at f) flags k p x /\
  exists n, laid f b (p + 2 * bits_below flags (S k)) n ps.
Proof.
  intros A F H. rewrite bits_below_next. destruct x as [z|]; cbn [field_pieces app maybe_fits] in *.
  - apply announced_some in A. cbn. rewrite A. scan. autorewrite with sizes in *.
    split; [auto|]. exists n. replace (p + 2 * (bits_below flags k + 1))
      with (p + 2 * bits_below flags k + 2) by lia. assumption.
  - apply announced_none in A. cbn. rewrite A. split; [reflexivity|]. exists n.
    rewrite N.add_0_r. exact H.
Qed.

Lemma corrected_laid f b p flags k n x c ps :
  announced flags (N.of_nat k) x -> maybe_fits correction_fits c -> corrected_wf x c ->
  laid f b (p + 2 * bits_below flags k) n (corrected_pieces x c ++ ps) ->
  (exists x', field_at (u16_at f) flags k p x' /\ present x' = present x /\ corrected_at f b x' c) /\
  exists n, laid f b (p + 2 * bits_below flags (S k)) n ps.
Proof.
  intros A F W H. rewrite bits_below_next. destruct x as [z|]; cbn [corrected_pieces app] in *.
  - apply announced_some in A. rewrite A. destruct W as [_ W]. follow.
    split.
    + eexists (Some _). split; [split; [exact A|eassumption]|]. split; [reflexivity|]. assumption.
    + eexists. replace (p + 2 * (bits_below flags k + 1))
        with (p + 2 * bits_below flags k + 2) by lia. eassumption.
  - apply announced_none in A. rewrite A. cbn in W. subst c. split.
    + exists None. split; [exact A|split; reflexivity].
    + exists n. rewrite N.add_0_r. exact H.
Qed.

Lemma width_field flags k x :
  announced flags (N.of_nat k) x ->
  2 * bits_below flags k + width (field_pieces x) = 2 * bits_below flags (S k).
Proof.
  intros A. rewrite bits_below_next. destruct x as [z|].
  - rewrite (announced_some _ _ _ A). cbn [field_pieces width]. rewrite size_be_i16. lia.
  - rewrite (announced_none _ _ A). cbn [field_pieces width]. lia.
Qed.

Lemma width_corrected flags k x c :
  announced flags (N.of_nat k) x ->
  2 * bits_below flags k + width (corrected_pieces x c) = 2 * bits_below flags (S k).
Proof.
  intros A. rewrite bits_below_next. destruct x as [z|].
  - rewrite (announced_some _ _ _ A). cbn [corrected_pieces width].
    destruct c; unfold maybe_link, w16; cbn [width]; rewrite ?size_be16; lia.
  - rewrite (announced_none _ _ A). cbn [corrected_pieces width]. lia.
Qed.

Lemma width_single flags v : single_wf flags v -> width (single_pieces v) = value_size flags.
Proof.
  destruct v as [x0 x1 x2 x3 x4 x5 x6 x7 c4 c5 c6 c7]. cbn [single_wf single_pieces].
  intros (A0 & A1 & A2 & A3 & A4 & A5 & A6 & A7 & _). rewrite !width_app. unfold value_size.
  pose proof (width_field flags 0 x0 A0). pose proof (width_field flags 1 x1 A1).
  pose proof (width_field flags 2 x2 A2). pose proof (width_field flags 3 x3 A3).
  pose proof (width_corrected flags 4 x4 c4 A4). pose proof (width_corrected flags 5 x5 c5 A5).
  pose proof (width_corrected flags 6 x6 c6 A6). pose proof (width_corrected flags 7 x7 c7 A7).
  assert (bits_below flags 0 = 0) by reflexivity. lia.
Qed.

Lemma single_laid f b p k flags v :
  single_fits v -> single_wf flags v -> laid f b p k (single_pieces v) ->
  exists w, single_erase w = single_erase v /\ single_at f b flags p w.
Proof.
  destruct v as [x0 x1 x2 x3 x4 x5 x6 x7 c4 c5 c6 c7]. cbn [single_fits single_wf single_pieces].
  intros (F0 & F1 & F2 & F3 & F4 & F5 & F6 & F7)
    (A0 & A1 & A2 & A3 & A4 & A5 & A6 & A7 & W4 & W5 & W6 & W7) H.
  replace p with (p + 2 * bits_below flags 0) in H by (cbn; lia).
  rewrite <- (app_nil_r (corrected_pieces x7 c7)) in H.
  apply field_laid in H; [|assumption..]. destruct H as [B0 [k0 H]].
  apply field_laid in H; [|assumption..]. destruct H as [B1 [k1 H]].
  apply field_laid in H; [|assumption..]. destruct H as [B2 [k2 H]].
  apply field_laid in H; [|assumption..]. destruct H as [B3 [k3 H]].
  apply corrected_laid in H; [|assumption..]. destruct H as [(y4 & B4 & P4 & C4) [k4 H]].
  apply corrected_laid in H; [|assumption..]. destruct H as [(y5 & B5 & P5 & C5) [k5 H]].
  apply corrected_laid in H; [|assumption..]. destruct H as [(y6 & B6 & P6 & C6) [k6 H]].
  apply corrected_laid in H; [|assumption..]. destruct H as [(y7 & B7 & P7 & C7) [k7 H]].
  exists (mkSingle x0 x1 x2 x3 y4 y5 y6 y7 c4 c5 c6 c7). split; [cbn; congruence|].
  unfold single_at. conj; assumption.
Qed.

Lemma width_value flags v : value_wf flags v -> width (value_pieces v) = value_size flags.
Proof.
  intros [N W]. destruct v as [x|]; cbn [value_pieces maybe_wf] in *.
  - apply width_single, W.
  - rewrite (proj1 N eq_refl). reflexivity.
Qed.

Lemma value_laid f b p k flags v :
  maybe_fits single_fits v -> value_wf flags v -> laid f b p k (value_pieces v) ->
  exists w, option_map single_erase w = option_map single_erase v /\ value_at f b flags p w.
Proof.
  intros F [N W] H. destruct v as [x|]; cbn [value_pieces maybe_wf maybe_fits] in *.
  - destruct (single_laid _ _ _ _ _ _ F W H) as (w & Q & S). exists (Some w).
    split; [cbn; congruence|]. split; [|exact S]. intros Z. apply N in Z. discriminate Z.
  - exists None. split; [reflexivity|]. apply N. reflexivity.
Qed.

Lemma pair1_laid f b p k flags1 flags2 v :
  pair1_fits v -> pair1_wf flags1 flags2 v -> laid f b p k (pair1_pieces v) ->
  exists w, pair1_erase w = pair1_erase v /\ pair1_at f b flags1 flags2 p w.
Proof.
  destruct v as [glyph_id x y]. cbn [pair1_fits pair1_wf pair1_pieces].
  intros (F1 & F2 & F3) [W1 W2] H. scan. autorewrite with sizes in *.
  rewrite (width_value _ _ W1) in *.
  match goal with K : laid _ _ _ _ (value_pieces x) |- _ =>
    destruct (value_laid _ _ _ _ _ _ F2 W1 K) as (x' & Qx & Sx) end.
  match goal with K : laid _ _ _ _ (value_pieces y) |- _ =>
    destruct (value_laid _ _ _ _ _ _ F3 W2 K) as (y' & Qy & Sy) end.
  exists (mkPair1 glyph_id x' y'). split; [cbn; congruence|]. cbn. conj; assumption.
Qed.

Lemma width_pair1 flags1 flags2 v :
  pair1_wf flags1 flags2 v -> width (pair1_pieces v) = 2 + value_size flags1 + value_size flags2.
Proof.
  destruct v as [glyph_id x y]. intros [W1 W2]. cbn [pair1_pieces]. unfold w16. cbn [width].
  rewrite width_app, (width_value _ _ W1), (width_value _ _ W2), size_be16. lia.
Qed.

Lemma pair1s_whole flags1 flags2 v : pair1s_fits v -> pair1s_wf flags1 flags2 v ->
  whole (fun f => pair1s_at f flags1 flags2) pair1s_erase v (pair1s_bytes v).
Proof.
  destruct v as [count records]. cbn. intros [F1 F2] [W1 W2] L f p H. unblock H L. scan.
  rewrite Forall_forall in F2, W2.
  match goal with K : laid _ _ _ _ (flat_map _ _) |- _ =>
    rename K into R; apply (each_laid (pair1_at f p flags1 flags2) pair1_erase _
      (2 + value_size flags1 + value_size flags2)) in R end.
  - destruct R as (ws & Q & V). counted. eexists (mkPair1s _ _). rebuilt.
  - intros v I q k' B. apply (pair1_laid f p q k'); auto.
  - intros v I. apply width_pair1, W2, I.
Qed.

#[export] Hint Resolve pair1s_whole : written.

Lemma pair2_laid f b p k flags1 flags2 v :
  pair2_fits v -> pair2_wf flags1 flags2 v -> laid f b p k (pair2_pieces v) ->
  exists w, pair2_erase w = pair2_erase v /\ pair2_at f b flags1 flags2 p w.
Proof.
  destruct v as [x y]. cbn [pair2_fits pair2_wf pair2_pieces].
  intros (F2 & F3) [W1 W2] H. scan. rewrite (width_value _ _ W1) in *.
  match goal with K : laid _ _ _ _ (value_pieces x) |- _ =>
    destruct (value_laid _ _ _ _ _ _ F2 W1 K) as (x' & Qx & Sx) end.
  match goal with K : laid _ _ _ _ (value_pieces y) |- _ =>
    destruct (value_laid _ _ _ _ _ _ F3 W2 K) as (y' & Qy & Sy) end.
  exists (mkPair2 x' y'). split; [cbn; congruence|]. cbn. conj; assumption.
Qed.

Lemma width_pair2 flags1 flags2 v :
  pair2_wf flags1 flags2 v -> width (pair2_pieces v) = value_size flags1 + value_size flags2.
Proof.
  destruct v as [x y]. intros [W1 W2]. cbn [pair2_pieces].
  rewrite width_app, (width_value _ _ W1), (width_value _ _ W2). lia.
Qed.

Lemma pair2s_laid f b p k n flags1 flags2 v :
  pair2s_fits v -> pair2s_wf n flags1 flags2 v -> laid f b p k (pair2s_pieces v) ->
  exists w, pair2s_erase w = pair2s_erase v /\ pair2s_at f b n flags1 flags2 p w.
Proof.
  destruct v as [records]. cbn [pair2s_fits pair2s_wf pair2s_pieces].
  intros F2 [N W2] H. rewrite Forall_forall in F2, W2.
  apply (each_laid (pair2_at f b flags1 flags2) pair2_erase _
    (value_size flags1 + value_size flags2)) in H.
  - destruct H as (ws & Q & V). unfold counts in N. subst n. exists (mkPair2s ws).
    split; [cbn; congruence|exact V].
  - intros v I q k' B. apply (pair2_laid f b q k'); auto.
  - intros v I. apply width_pair2, W2, I.
Qed.

Lemma width_pair2s n flags1 flags2 v :
  pair2s_wf n flags1 flags2 v ->
  width (pair2s_pieces v) = (value_size flags1 + value_size flags2) * n.
Proof.
  destruct v as [records]. intros [N W]. cbn [pair2s_pieces]. rewrite Forall_forall in W.
  rewrite (width_each _ (value_size flags1 + value_size flags2)); [rewrite N; reflexivity|].
  intros v I. apply width_pair2, W, I.
Qed.

(** ** Subtables *)

Ltac flags :=
  unfold value_flags_fits, flags16 in *; unfold value_flags_at, flags_at.

Lemma single_adjustment_whole o v :
  gpos_type_fits o (GposSingleAdjustment v) -> gpos_type_wf o 1 (GposSingleAdjustment v) ->
  whole (gpos_type_at o 1) gpos_type_erase (GposSingleAdjustment v)
    (gpos_type_bytes (GposSingleAdjustment v)).
Proof.
  destruct v as [[format offset fl value coverage]|[format offset fl n values coverage]];
    cbn [gpos_type_fits gpos_type_wf gpos_type_bytes].
  - intros F W L f p H. unblock H L. flags. written.
    match goal with K : laid _ _ _ _ (single_pieces _) |- _ =>
      eapply single_laid in K; [|eassumption|eassumption]; destruct K as (value' & Q & V) end.
    eexists (GposSingleAdjustment (SingleAdjustmentFormat1 (mkSingleAdjustment1 _ _ fl value' _))).
    split; cycle 1.
    + cbn. flags. autorewrite with sizes in *. conj; try reflexivity; try here.
    + cbn. congruence.
  - intros F W L f p H. unblock H L. flags. destruct F as (F1 & F2 & F3 & F4).
    destruct W as (W1 & W2 & W3 & W4 & W5). rewrite Forall_forall in F3, W4. written.
    match goal with K : laid _ _ _ _ (flat_map _ _) |- _ =>
      rename K into R; apply (each_laid (single_at f p fl) single_erase _ (value_size fl)) in R end.
    + destruct R as (ws & Q & V).
      eexists (GposSingleAdjustment (SingleAdjustmentFormat2 (mkSingleAdjustment2 _ _ fl _ ws _))).
      split; cycle 1.
      * cbn. flags. autorewrite with sizes in *. conj; try reflexivity; try here.
      * cbn. congruence.
    + intros v I q k' B. apply (single_laid f p q k'); auto.
    + intros v I. apply width_single, W4, I.
Qed.

Lemma pair_adjustment_whole o v :
  gpos_type_fits o (GposPairAdjustment v) -> gpos_type_wf o 2 (GposPairAdjustment v) ->
  whole (gpos_type_at o 2) gpos_type_erase (GposPairAdjustment v)
    (gpos_type_bytes (GposPairAdjustment v)).
Proof.
  destruct v as [[format offset flags1 flags2 n offsets coverage records]
    |[format offset flags1 flags2 o1 o2 n m records coverage class1 class2]];
    cbn [gpos_type_fits gpos_type_wf gpos_type_bytes].
  - intros F W L f p H. unblock H L. flags. written.
    eexists (GposPairAdjustment (PairAdjustmentFormat1 (mkPairAdjustment1 _ _ flags1 flags2 _ _ _ _))).
    split; cycle 1.
    + cbn. flags. autorewrite with sizes in *. conj; try reflexivity; try here.
    + cbn. congruence.
  - intros F W L f p H. unblock H L. flags. destruct F as (F1 & F2 & F3 & F4 & F5 & F6 & F7 & F8).
    destruct W as (W1 & W2 & W3 & W4 & W5 & W6 & W7). rewrite Forall_forall in F5, W4. written.
    match goal with K : laid _ _ _ _ (flat_map _ _) |- _ =>
      rename K into R; apply (each_laid (pair2s_at f p m flags1 flags2) pair2s_erase _
        ((value_size flags1 + value_size flags2) * m)) in R end.
    + destruct R as (ws & Q & V).
      eexists (GposPairAdjustment (PairAdjustmentFormat2
        (mkPairAdjustment2 _ _ flags1 flags2 _ _ _ m ws _ _ _))).
      split; cycle 1.
      * cbn. flags. autorewrite with sizes in *. conj; try reflexivity; try here.
      * cbn. congruence.
    + intros v I q k' B. apply (pair2s_laid f p q k'); auto.
    + intros v I. apply width_pair2s, W4, I.
Qed.

Lemma cursive_attachment_whole o v :
  gpos_type_fits o (GposCursiveAttachment v) -> gpos_type_wf o 3 (GposCursiveAttachment v) ->
  whole (gpos_type_at o 3) gpos_type_erase (GposCursiveAttachment v)
    (gpos_type_bytes (GposCursiveAttachment v)).
Proof.
  destruct v as [format offset n connections coverage].
  cbn [gpos_type_fits gpos_type_wf gpos_type_bytes].
  intros (F1 & F2 & F3) (W1 & W2 & W3 & W4 & W5) L f p H. unblock H L.
  rewrite Forall_forall in F2, W4. written.
  match goal with K : laid _ _ _ _ (flat_map _ _) |- _ =>
    rename K into R; apply (each_laid (connection_at f p) connection_erase _ 4) in R end.
  - destruct R as (ws & Q & V).
    eexists (GposCursiveAttachment (mkCursiveAttachment _ _ _ ws _)). split; cycle 1.
    + cbn. autorewrite with sizes in *. conj; try reflexivity; try here.
    + cbn. congruence.
  - intros v I q k' B. apply (connection_laid f p q k'); auto.
  - intros [o1 o2 [x|] [y|]] _; reflexivity.
Qed.

#[export] Hint Resolve mark1s_whole bases_whole gpos_ligatures_whole mark2s_whole : written.

Lemma gpos_type_whole o type_ v : gpos_type_fits o v -> gpos_type_wf o type_ v ->
  whole (gpos_type_at o type_) gpos_type_erase v (gpos_type_bytes v).
Proof.
  destruct v as [t|t|t|[format o1 o2 n o3 o4 coverage1 coverage2 marks bases]
    |[format o1 o2 n o3 o4 coverage1 coverage2 marks ligatures]
    |[format o1 o2 n o3 o4 coverage1 coverage2 mark1s mark2s]|t|t|[format t offset]].
  - intros F W. assert (type_ = 1) as -> by (destruct t as [[]|[]]; apply W).
    apply single_adjustment_whole; assumption.
  - intros F W. assert (type_ = 2) as -> by (destruct t as [[]|[]]; apply W).
    apply pair_adjustment_whole; assumption.
  - intros F W. assert (type_ = 3) as -> by (destruct t; apply W).
    apply cursive_attachment_whole; assumption.
  - cbn. intros F W L f p H. unblock H L. written.
    eexists (GposMarkToBaseAttachment (mkMarkToBaseAttachment _ _ _ n _ _ _ _ _ _)). rebuilt.
  - cbn. intros F W L f p H. unblock H L. written.
    eexists (GposMarkToLigatureAttachment (mkMarkToLigatureAttachment _ _ _ n _ _ _ _ _ _)). rebuilt.
  - cbn. intros F W L f p H. unblock H L. written.
    eexists (GposMarkToMarkAttachment (mkMarkToMarkAttachment _ _ _ n _ _ _ _ _ _)). rebuilt.
  - cbn. intros F [-> W] L f p H. destruct (context_whole t F W L f p H) as (w & Q & S).
    exists (GposContextualPositioning w). split; [cbn; congruence|split; [reflexivity|exact S]].
  - cbn. intros F [-> W] L f p H. destruct (chained_context_whole t F W L f p H) as (w & Q & S).
    exists (GposChainedContextualPositioning w). split; [cbn; congruence|split; [reflexivity|exact S]].
  - cbn. intros F [-> ->] L f p H. scan.
    eexists (GposExtensionPositioning (mkExtensionPositioning _ _ _)). rebuilt.
Qed.

Lemma glyph_positioning_whole o v : glyph_positioning_fits o v -> glyph_positioning_wf o v ->
  whole (glyph_positioning_at o) glyph_positioning_erase v (glyph_positioning_bytes v).
Proof.
  apply directory_whole. apply gpos_type_whole.
Qed.
