(** Iterating over palettes, whether they were read or not. *)

From Verif Require Export SpecGetters SpecCpal ModelCpal Api.
From Verif Require Import ProofCpal ProofReads ProofRequests.

Lemma iter_laid debug v :
  color_palettes_iter debug v =
  let '(entry_count, color_count, _, color_indices) := cpal_layout (color_palettes_header v) in
  map (fun first => map (fun j => iter_color debug color_count (color_palettes_colors v)
    (first + N.of_nat j)) (seq 0 (N.to_nat entry_count))) color_indices.
Proof. destruct v as [[h|h] ?]; destruct h; reflexivity. Qed.

Lemma palettes_step debug v : steps_of debug v (color_palettes_iter debug v).
Proof.
  rewrite iter_laid. destruct v as [h colors]. cbn [color_palettes_header color_palettes_colors].
  unfold steps_of. destruct (cpal_layout h) as [[[entry_count n] offset] indices].
  split; [apply map_length|]. intros i palette first Hp Hf.
  rewrite nth_error_map, Hf in Hp. injection Hp as <-. split; [rewrite map_length, seq_length; lia|].
  intros j entry Hj c. rewrite nth_error_map in Hj.
  destruct (nth_error (seq 0 (N.to_nat entry_count)) j) as [k|] eqn:Hk; [|discriminate].
  apply nth_error_seq in Hk. cbn in Hk. subst k. injection Hj as <-. unfold iter_color.
  replace (N.to_nat (first + N.of_nat j)) with (N.to_nat first + j)%nat by lia.
  destruct debug; cbn [andb].
  - destruct (N.ltb_spec (first + N.of_nat j) n); cbn [negb]; split.
    + intros E. split; [intros _; assumption|exact E].
    + intros [_ E]. exact E.
    + discriminate.
    + intros [L _]. specialize (L eq_refl). lia.
  - split; [intros E; split; [discriminate|exact E]|intros [_ E]; exact E].
Qed.

Lemma palettes_safe o f p v debug : bounded f -> reads o read_color_palettes f p v ->
  (forall palette, In palette (color_palettes_iter debug v) -> ~ In None palette) <->
  let '(entry_count, color_count, _, color_indices) := cpal_layout (color_palettes_header v) in
  forall first, In first color_indices -> entry_count = 0 \/ first + entry_count <= color_count.
Proof.
  intros Hb H. assert (P := cpal_iter o f p v debug Hb H). destruct v as [h colors]. unfold palettes_of in P.
  cbn [color_palettes_header].
  set (palettes := color_palettes_iter debug (mkColorPalettes h colors)) in *. clearbody palettes.
  destruct (cpal_layout h) as [[[entry_count n] offset] indices]. destruct P as [L P]. split.
  - intros S first I. apply In_nth_error in I. destruct I as [i I].
    destruct (nth_error palettes i) as [palette|] eqn:E.
    2:{ apply nth_error_None in E. assert (i < length indices)%nat by (apply nth_error_Some; congruence). lia. }
    destruct (P i palette first E I) as [C Q].
    destruct (N.eq_dec entry_count 0) as [|Z]; [left; assumption|right].
    destruct (nth_error palette (N.to_nat (entry_count - 1))) as [entry|] eqn:F.
    2:{ apply nth_error_None in F. lia. }
    destruct (Q _ _ F) as [_ D]. destruct entry as [c|].
    + destruct (N.le_gt_cases n (first + (entry_count - 1))) as [G|G]; [|lia].
      assert (X : Some c = None); [|discriminate]. apply D. lia.
    + exfalso. apply (S palette (nth_error_In _ _ E)). exact (nth_error_In _ _ F).
  - intros S palette I J. apply In_nth_error in I. destruct I as [i I]. apply In_nth_error in J.
    destruct J as [j J].
    destruct (nth_error indices i) as [first|] eqn:E.
    2:{ apply nth_error_None in E. assert (i < length palettes)%nat by (apply nth_error_Some;
      congruence). lia. }
    destruct (P i palette first I E) as [C Q]. destruct (Q j None J) as [_ [D _]]. specialize (D eq_refl).
    assert (j < length palette)%nat by (apply nth_error_Some; congruence).
    destruct (S first (nth_error_In _ _ E)); lia.
Qed.
