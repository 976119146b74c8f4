(** The readers of the table directory read exactly the formats of SpecFont.v. *)

From Verif Require Export ReadsTactics ModelFont SpecFont.

Section Font.
Context (S : Prop) (d : deps) (e : env) (Hb : bounded (content e)).
Notation f := (content e).

Lemma read_offset_record_takes p : takes S read_offset_record e p (offset_record_at f p) 16.
Proof. sequential. Qed.
Hint Resolve read_offset_record_takes : reads.

Lemma read_offsets_header_takes p : takes S read_offsets_header e p (offsets_header_at f p) 12.
Proof. sequential. Qed.
Hint Resolve read_offsets_header_takes : reads.

Lemma tag_fun p s t : tag_at f p s -> tag_at f p t -> s = t.
Proof. destruct s, t. cbn. intros; break. congruence. Qed.

Lemma read_offsets_finds p :
  finds S (read_offsets d) e p
    (fun v => truetype_accept d (offsets_header_tag (offsets_header v)) = true /\ offsets_at f p v).
Proof.
  enter. eapply finds_bind_peek; [found| |].
  - intros [[]] [_ Hv]. unpack Hv. eauto.
  - intros t Ht. eapply finds_conv; [apply finds_if; intros Ha; steps|].
    intros v; cbv beta; split.
    + intros [[Ha (h & Hh & rs & Hrs & ->)]|[_ []]]. cbn. split.
      * destruct h. destruct Hh as [Hh _]. cbn in *. rewrite (tag_fun p _ _ Hh Ht). exact Ha.
      * auto.
    + destruct v as [h rs]. intros [Ha [Hh Hrs]]. cbn in Ha. left. split.
      * destruct h. destruct Hh as [Hh _]. cbn in *. rewrite (tag_fun p _ _ Ht Hh). exact Ha.
      * eauto.
Qed.
Hint Resolve read_offsets_finds : reads.

Lemma tag_eqb_eq s t : tag_eqb s t = true <-> s = t.
Proof.
  destruct s as [a b c g], t as [a' b' c' g']. cbn. unfold byte_eqb.
  rewrite !andb_true_iff. split.
  - intros [[[H1 H2] H3] H4]. apply Byte.byte_dec_bl in H1, H2, H3, H4. congruence.
  - intros [= -> -> -> ->]. repeat split; apply Byte.byte_dec_lb; reflexivity.
Qed.

Lemma read_font_finds p :
  finds S (read_font d) e p
    (fun v => truetype_accept d (offsets_header_tag (offsets_header (font_offsets v))) = true /\
      offsets_at f p (font_offsets v)).
Proof.
  enter. eapply finds_conv; [steps|]. intros v; cbv beta; split.
  - intros (x & Hx & ->). exact Hx.
  - destruct v as [x]. intros Hx. exists x. auto.
Qed.
Hint Resolve read_font_finds : reads.

Lemma read_file_finds p :
  finds S (read_file d) e p
    (fun v => exists offsets, v = mkFile [mkFont offsets] /\
      offsets_header_tag (offsets_header offsets) <> ttcf /\
      truetype_accept d (offsets_header_tag (offsets_header offsets)) = true /\
      offsets_at f p offsets).
Proof.
  enter. eapply finds_bind_peek; [found| |].
  - intros v ([[] rs] & _ & _ & _ & [Ht _] & _). eexists. exact Ht.
  - intros t Ht. eapply finds_conv; [apply finds_if; intros Ha; steps|].
    assert (Htag : forall o, offsets_at f p o -> offsets_header_tag (offsets_header o) = t).
    { intros [[] rs] [[H _] _]. exact (tag_fun p _ _ H Ht). }
    intros v; cbv beta; split.
    + intros [[_ []]|[Hn ([o] & [Ha Ho] & ->)]]. exists o. cbn in *.
      rewrite (Htag o Ho) in Ha |- *. repeat split; try assumption.
      intros E. apply tag_eqb_eq in E. congruence.
    + intros (o & -> & Hn & Ha & Ho). right. split.
      * destruct (tag_eqb t ttcf) eqn:E; [|reflexivity]. apply tag_eqb_eq in E.
        rewrite (Htag o Ho) in Hn. contradiction.
      * exists (mkFont o). auto.
Qed.
End Font.
