(** Optional parts. *)

From Verif Require Import ProofShape ProofRequests ProofReads.
From Verif Require Export SpecPresence SpecShape Requests Samples.

Lemma directory_wf_optional {T} (P : N -> T -> Prop) v : directory_wf P v -> directory_optional v.
Proof.
  destruct v as [? ? ? ? ? ? [n headers records] [m headers' records'] lookups variations]. cbn.
  intros (_ & _ & (_ & _ & Hs) & (_ & _ & Hf) & _ & Hv & _). split; [exact Hv|]. cbn. split; intros r Hr.
  - rewrite Forall_forall in Hs. specialize (Hs r Hr). destruct r. apply Hs.
  - rewrite Forall_forall in Hf. specialize (Hf r Hr). destruct r. apply Hf.
Qed.

Lemma directories_optional o f p :
  bounded f ->
  (forall v, reads o read_glyph_substitution f p v -> directory_optional v) /\
  (forall v, reads o read_glyph_positioning f p v -> directory_optional v).
Proof.
  intros B. split; intros v R.
  - exact (directory_wf_optional _ v (request_shape RequestGsub o f p v B R)).
  - exact (directory_wf_optional _ v (request_shape RequestGpos o f p v B R)).
Qed.

Lemma definitions_optional o f p v :
  bounded f -> reads o read_glyph_definition f p v -> definition_optional v.
Proof.
  intros B R. assert (W := request_shape RequestGdef o f p v B R).
  destruct v as [[[]|[]|[]] glyph_class attachments ligatures mark_class marks variations]; cbn in W;
    unfold definition_optional, optional; cbn; unfold presence_wf in W; tauto.
Qed.

Lemma subtable_wf o f p v t :
  bounded f -> reads o read_glyph_positioning f p v -> has_subtable v t -> exists ty, gpos_type_wf o ty t.
Proof.
  intros B R (l & Hl & Ht). assert (W := request_shape RequestGpos o f p v B R).
  destruct v as [? ? ? ? ? ? scripts features [n offsets records] variations]. cbn in W, Hl.
  destruct W as (_ & _ & _ & _ & (_ & _ & W) & _). rewrite Forall_forall in W. specialize (W l Hl).
  destruct l as [ty flags k xs set tables]. cbn in Ht, W. destruct W as (_ & _ & _ & W).
  rewrite Forall_forall in W. exists ty. exact (W _ Ht).
Qed.

Lemma presences {A} offsets (v : list (option A)) : Forall2 presence_wf offsets v -> Forall2 optional v offsets.
Proof. induction 1; constructor; assumption. Qed.

(** A row of anchors. *)
Definition row_wf (row : list (option Anchor) * list N) : Prop :=
  Forall2 presence_wf (snd row) (fst row) /\ Forall (maybe_wf anchor_wf) (fst row).

Lemma rows_wf o ty t : gpos_type_wf o ty t -> Forall row_wf (anchor_rows t).
Proof.
  intros W. destruct t as [?|?|[? ? ? cs ?]|[? ? ? n ? ? ? ? ? [? bs]]|[? ? ? n ? ? ? ? ? [? ? ls]]|
    [? ? ? n ? ? ? ? ? [? ms]]|?|?|?]; cbn in W |- *; try constructor.
  - destruct W as (_ & _ & _ & W & _). induction W as [|[a b x y] l (? & ? & ? & ?) _ IH]; cbn; constructor;
      [|exact IH]. split; cbn; (constructor; [assumption|constructor; [assumption|constructor]]).
  - destruct W as (_ & _ & _ & _ & _ & _ & W). induction W as [|[a x] l (_ & _ & ? & ?) _ IH]; cbn; constructor;
      [|exact IH]. split; assumption.
  - destruct W as (_ & _ & _ & _ & _ & _ & _ & W). induction W as [|[k cs] l (_ & H) _ IH]; cbn; [constructor|].
    apply Forall_app. split; [|exact IH]. clear IH.
    induction H as [|[a x] m (_ & _ & ? & ?) _ IH]; cbn; constructor; [|exact IH]. split; assumption.
  - destruct W as (_ & _ & _ & _ & _ & _ & W). induction W as [|[a x] l (_ & _ & ? & ?) _ IH]; cbn; constructor;
      [|exact IH]. split; assumption.
Qed.

Lemma first_marks_wf o ty t : gpos_type_wf o ty t -> Forall (mark1_wf o) (first_marks t).
Proof.
  intros W. destruct t as [?|?|?|[? ? ? n ? ? ? ? [? ms] ?]|[? ? ? n ? ? ? ? [? ms] ?]|[? ? ? n ? ? ? ? [? ms] ?]|?|?|?];
    cbn in W |- *; try constructor; destruct W as (_ & _ & _ & _ & (_ & W) & _); exact W.
Qed.

Lemma rows_optional o f p v t :
  bounded f -> reads o read_glyph_positioning f p v -> has_subtable v t -> anchors_optional t.
Proof.
  intros B R H row Hr. destruct (subtable_wf o f p v t B R H) as (ty & W). apply rows_wf in W.
  rewrite Forall_forall in W. exact (presences _ _ (proj1 (W row Hr))).
Qed.

Lemma anchor_wf_optional a : anchor_wf a -> anchor_optional a.
Proof. destruct a as [?|?|[]]; cbn; auto. intros (_ & ? & ? & _). split; assumption. Qed.

Lemma anchors_corrected o f p v t a :
  bounded f -> reads o read_glyph_positioning f p v -> has_subtable v t -> anchor_of t a -> anchor_optional a.
Proof.
  intros B R H Ha. destruct (subtable_wf o f p v t B R H) as (ty & W). destruct Ha as [(row & Hr & Ha)|(m & Hm & <-)].
  - apply rows_wf in W. rewrite Forall_forall in W. destruct (W row Hr) as (_ & W'). rewrite Forall_forall in W'.
    exact (anchor_wf_optional a (W' _ Ha)).
  - apply first_marks_wf in W. rewrite Forall_forall in W. specialize (W m Hm). destruct m as [c x b]. cbn in W |- *.
    destruct W as [W|(_ & _ & ->)]; [exact (anchor_wf_optional b W)|exact I].
Qed.

Lemma corrected_optional offset v : corrected_wf offset v -> correction_optional v offset.
Proof.
  unfold corrected_wf, correction_optional. destruct offset as [k|].
  - intros ((H & H') & _). split; [intros E; right; rewrite (H E); reflexivity|].
    intros [E|E]; [discriminate|]. injection E as ->. exact (H' eq_refl).
  - intros ->. split; [left|]; reflexivity.
Qed.

Lemma single_wf_optional flags s : single_wf flags s -> single_optional s.
Proof.
  destruct s. cbn. intros (_ & _ & _ & _ & _ & _ & _ & _ & ? & ? & ? & ?).
  unfold single_optional. cbn. auto using corrected_optional.
Qed.

Lemma values_wf o ty t flags s : gpos_type_wf o ty t -> In (flags, Some s) (values_of t) -> single_wf flags s.
Proof.
  intros W H. destruct t as [[[]|[]]|[[]|[]]|?|?|?|?|?|?|?]; cbn in W, H; try contradiction.
  - destruct H as [E|[]]. injection E as <- <-. apply W.
  - apply in_map_iff in H. destruct H as (s' & E & H). injection E as <- <-.
    destruct W as (_ & _ & _ & W & _). rewrite Forall_forall in W. exact (W s' H).
  - apply in_flat_map in H. destruct H as ([k set] & Hs & H). apply in_flat_map in H. destruct H as ([g a b] & Hr & H).
    destruct W as (_ & _ & _ & _ & W & _). rewrite Forall_forall in W. destruct (W _ Hs) as (_ & W').
    rewrite Forall_forall in W'. destruct (W' _ Hr) as ((_ & Wa) & (_ & Wb)). cbn in H.
    destruct H as [E|[E|[]]]; injection E as <- ->; assumption.
  - apply in_flat_map in H. destruct H as ([set] & Hs & H). apply in_flat_map in H. destruct H as ([a b] & Hr & H).
    destruct W as (_ & _ & _ & W & _). rewrite Forall_forall in W. destruct (W _ Hs) as (_ & W').
    rewrite Forall_forall in W'. destruct (W' _ Hr) as ((_ & Wa) & (_ & Wb)). cbn in H.
    destruct H as [E|[E|[]]]; injection E as <- ->; assumption.
Qed.

Lemma values_corrected o f p v t flags s :
  bounded f -> reads o read_glyph_positioning f p v -> has_subtable v t -> In (flags, Some s) (values_of t) ->
  single_optional s.
Proof.
  intros B R H Hs. destruct (subtable_wf o f p v t B R H) as (ty & W).
  exact (single_wf_optional flags s (values_wf o ty t flags s W Hs)).
Qed.
