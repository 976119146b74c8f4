(** The readers of src/tables/font_variations read exactly the formats of
    SpecFvar.v. *)

From Verif Require Export ReadsTactics ModelFvar SpecFvar.

Section Fvar.
Context (S : Prop) (e : env) (Hb : bounded (content e)).
Notation f := (content e).

Lemma take_axis_flags_takes p :
  takes S take_axis_flags e p (flags_at (checked_flags (opts e)) 0xFFFE f p) 2.
Proof. apply take_flags_takes. Qed.
Hint Resolve take_axis_flags_takes : reads.

Lemma take_instance_flags_takes p :
  takes S take_instance_flags e p (flags_at (checked_flags (opts e)) 0xFFFF f p) 2.
Proof. apply take_flags_takes. Qed.
Hint Resolve take_instance_flags_takes : reads.

Lemma read_fvar_header_finds p : finds S read_fvar_header e p (fvar_header_at f p).
Proof. linked. Qed.
Hint Resolve read_fvar_header_finds : reads.

Lemma read_axis_record_finds p : finds S read_axis_record e p (axis_record_at (opts e) f p).
Proof. linked. Qed.
Hint Resolve read_axis_record_finds : reads.

Lemma read_instance_record_finds axis_count p :
  finds S (read_instance_record axis_count) e p (instance_record_at (opts e) f axis_count p).
Proof. linked. Qed.
Hint Resolve read_instance_record_finds : reads.

Lemma finds_bind_add {A} (k : N -> M A) a b p Q :
  a + b < 2 ^ 64 -> finds S (k (a + b)) e p Q -> finds S (bind (add_u64 a b) k) e p Q.
Proof.
  intros H Hk. unfold bind at 1, add_u64, add_wrapping. unfold bind, ask.
  apply N.ltb_lt in H. rewrite H. exact Hk.
Qed.

(** Records spaced by a size given elsewhere. *)
Lemma spaced_finds {A} (m : M A) P base size count p :
  base + size * count < 2 ^ 64 ->
  (forall q, finds S m e q (P q)) ->
  finds S (for_n count (fun i => jump_take base (N.of_nat i * size) m)) e p
    (vec_at P size base count).
Proof.
  intros Hn Hm. eapply finds_conv.
  - apply (for_n_finds S e _ (fun i => P (base + N.of_nat i * size))). intros i q Hi.
    apply jump_take_finds; [|apply Hm].
    assert (N.of_nat i * size <= size * count) by nia. unfold near. lia.
  - intros vs; split; intros [Hl Hv]; (split; [exact Hl|]); intros i v Hi; apply Hv in Hi.
    + rewrite (N.mul_comm size). exact Hi.
    + rewrite (N.mul_comm _ size). exact Hi.
Qed.

Lemma read_font_variations_finds p :
  finds S read_font_variations e p (font_variations_at (opts e) f p).
Proof.
  enter. eapply finds_conv with (P := fun v => exists h, fvar_header_at f p h /\
    exists axes, vec_at (axis_record_at (opts e) f) (fvar_header_axis_size h)
      (p + fvar_header_axis_offset h) (fvar_header_axis_count h) axes /\
    exists instances,
      vec_at (instance_record_at (opts e) f (fvar_header_axis_count h)) (fvar_header_instance_size h)
      (p + fvar_header_axis_offset h + fvar_header_axis_count h * fvar_header_axis_size h)
      (fvar_header_instance_count h) instances /\
    v = mkFontVariations h axes instances).
  - step. eapply finds_bind; [found|]. intros h Hh q.
    assert (Hs : p < 2 ^ 63 /\ fvar_header_axis_offset h < 65536 /\
      fvar_header_axis_count h < 65536 /\ fvar_header_axis_size h < 65536 /\
      fvar_header_instance_count h < 65536 /\ fvar_header_instance_size h < 65536).
    { destruct h; cbn in Hh |- *. break. split; [base_small|].
      repeat split; eapply u16_bound; eassumption. }
    destruct Hs as (Hp & Ho & Hac & Has & Hic & His).
    assert (fvar_header_axis_count h * fvar_header_axis_size h < 65536 * 65536) by nia.
    assert (fvar_header_instance_count h * fvar_header_instance_size h < 65536 * 65536) by nia.
    assert (Hpow : 2 ^ 63 + 2 ^ 40 < 2 ^ 64) by reflexivity.
    apply finds_bind_add; [lia|].
    eapply finds_bind; [apply spaced_finds; [lia|apply read_axis_record_finds]|]. intros axes Haxes q1.
    apply finds_bind_add; [lia|].
    eapply finds_bind; [apply spaced_finds; [lia|apply read_instance_record_finds]|].
    intros instances Hinstances q2. apply finds_ret.
  - intros v; split.
    + intros (h & Hh & axes & Ha & instances & Hi & ->). destruct h; cbn in *. auto.
    + destruct v as [h axes instances]. intros H. exists h. destruct h. unfold font_variations_at in H.
      destruct H as (Hh & Ha & Hi). split; [exact Hh|]. exists axes. split; [exact Ha|].
      exists instances. auto.
Qed.
Hint Resolve read_font_variations_finds : reads.
End Fvar.

#[export] Hint Resolve read_fvar_header_finds read_axis_record_finds read_instance_record_finds
  read_font_variations_finds : reads.
