(** The readers of src/tables/color_palettes.rs read exactly the formats of
    SpecCpal.v. *)

From Verif Require Export ReadsTactics ModelCpal SpecCpal.

Section Cpal.
Context (S : Prop) (e : env) (Hb : bounded (content e)).
Notation f := (content e).

Lemma read_cpal_header0_finds p : finds S read_cpal_header0 e p (cpal_header0_at f p).
Proof. linked. Qed.
Hint Resolve read_cpal_header0_finds : reads.

Lemma read_cpal_header1_finds p : finds S read_cpal_header1 e p (cpal_header1_at f p).
Proof. linked. Qed.
Hint Resolve read_cpal_header1_finds : reads.

Lemma read_cpal_header_finds p : finds S read_cpal_header e p (cpal_header_at f p).
Proof.
  enter. eapply finds_bind_peek; [found| |].
  - intros [t|t] H; unpack t; eauto.
  - intros x Hx. cases; first
    [ eapply finds_conv; [apply finds_raise|]; intros v; cbv beta; split; [intros []|];
      case v; intros t H; exfalso; unpack t
    | eapply finds_conv; [steps|]; intros v; cbv beta; split;
      [ intros (t & Ht & ->); assumption
      | case v; intros t H; first [exists t; split; [exact H|reflexivity] | exfalso; unpack t] ] ].
Qed.
Hint Resolve read_cpal_header_finds : reads.

Lemma read_color_takes p : takes S read_color e p (color_at f p) 4.
Proof. sequential. Qed.
Hint Resolve read_color_takes : reads.

Lemma cpal_header_small p h :
  cpal_header_at f p h -> p < 2 ^ 63 /\ (let '(_, _, offset, _) := cpal_layout h in offset) < 2 ^ 32.
Proof.
  destruct h as [[]|[]]; cbn; intros; break; split; first [base_small|offset_small].
Qed.

Lemma read_color_palettes_finds p : finds S read_color_palettes e p (color_palettes_at f p).
Proof.
  enter. eapply finds_conv with (P := fun v => exists h, cpal_header_at f p h /\
    exists colors, (let '(_, count, offset, _) := cpal_layout h in
      vec_at (color_at f) 4 (p + offset) count colors) /\ v = mkColorPalettes h colors).
  - step. eapply finds_bind with (Q := fun h v => exists colors,
      (let '(_, count, offset, _) := cpal_layout h in
      vec_at (color_at f) 4 (p + offset) count colors) /\ v = mkColorPalettes h colors); [found|].
    intros h Hh q. destruct (cpal_header_small _ _ Hh) as [Hp Ho].
    destruct h as [[]|[]]; cbn in Ho |- *; steps.
  - intros v; split.
    + intros (h & Hh & colors & Hc & ->). unfold color_palettes_at.
      destruct (cpal_layout h) as [[[? ?] ?] ?]. auto.
    + destruct v as [h colors]. unfold color_palettes_at. intros H. exists h.
      destruct (cpal_layout h) as [[[? ?] ?] ?]. destruct H. eauto.
Qed.
Hint Resolve read_color_palettes_finds : reads.
End Cpal.

(** ** Iteration *)

Lemma nth_error_seq start n i j : nth_error (seq start n) i = Some j -> j = (start + i)%nat.
Proof.
  revert start i. induction n as [|n IH]; intros start [|i]; cbn; try discriminate.
  - intros [= <-]. lia.
  - intros H. apply IH in H. lia.
Qed.

Lemma iter_color_nth debug_assertions colors first :
  iter_color debug_assertions (N.of_nat (length colors)) colors first = nth_error colors (N.to_nat first).
Proof.
  unfold iter_color. destruct debug_assertions; [|reflexivity].
  destruct (N.ltb_spec first (N.of_nat (length colors))) as [H|H]; [reflexivity|].
  symmetry. apply nth_error_None. lia.
Qed.

Lemma iter_palettes debug_assertions f p v :
  color_palettes_at f p v -> palettes_of v (color_palettes_iter debug_assertions v).
Proof.
  intros H. assert (Hc : let '(_, n, _, _) := cpal_layout (color_palettes_header v) in
    n = N.of_nat (length (color_palettes_colors v))).
  { destruct v as [h colors]. unfold color_palettes_at in H. cbn.
    destruct (cpal_layout h) as [[[? n] ?] ?]. destruct H as [_ [H _]]. auto. }
  clear H.
  assert (E : color_palettes_iter debug_assertions v =
    let '(entry_count, color_count, _, color_indices) := cpal_layout (color_palettes_header v) in
    map (fun first => map (fun j => iter_color debug_assertions color_count (color_palettes_colors v)
      (first + N.of_nat j)) (seq 0 (N.to_nat entry_count))) color_indices).
  { destruct v as [[h|h] ?]; destruct h; reflexivity. }
  rewrite E. clear E. destruct v as [h colors]. cbn [color_palettes_header color_palettes_colors] in *.
  unfold palettes_of. destruct (cpal_layout h) as [[[entry_count n] offset] indices]. subst n.
  split; [apply map_length|]. intros i palette first Hp Hf.
  rewrite nth_error_map, Hf in Hp. injection Hp as <-. split.
  - rewrite map_length, seq_length. lia.
  - intros j entry Hj. rewrite nth_error_map in Hj.
    destruct (nth_error (seq 0 (N.to_nat entry_count)) j) as [k|] eqn:Hk; [|discriminate].
    apply nth_error_seq in Hk. cbn in Hk. subst k. injection Hj as <-.
    rewrite iter_color_nth.
    replace (N.to_nat (first + N.of_nat j)) with (N.to_nat first + j)%nat by lia.
    split; [reflexivity|]. rewrite nth_error_None. split; intros; lia.
Qed.
