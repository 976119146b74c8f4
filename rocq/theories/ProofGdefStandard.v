(** What becomes of a [GDEF] table that is laid out as the OpenType specification prescribes (C77). *)

From Verif Require Import Reads ReadsTactics ProofLayout ProofGdef ProofErrors ProofParts ProofRefused
  ProofRequests.
From Verif Require Export ProofConform.

Section Standard.
Context (o : options) (f : file) (Hb : bounded f).

(** ** Carets are refused *)

Lemma std_caret_refused p v : std_caret_at f p v -> refuses o read_caret f p UnknownFormat.
Proof.
  intros H.
  assert (exists h l, u16_at f p h /\ 1 <= h <= 3 /\ u16_at f (p + 2) l) as (h & l & Hh & Hn & Hl).
  { destruct v as [[? ?]|[? ?]|[? ? ? ?]]; cbn in H; break; subst;
      try match goal with H : i16_at _ _ _ |- _ => destruct H as (? & ? & ?) end;
      eexists; eexists; (split; [eassumption|]); (split; [lia|eassumption]). }
  apply (fault_refused o f p _ read_caret), FaultCaret with (n := 65536 * h + l).
  - exists h, l. auto.
  - cbn. lia.
Qed.

(** Of parts at offsets the first that has no value is refused. *)
Lemma links_first_bad {A} (m : M A) (std : N -> A -> Prop) (good : A -> Prop) x p offsets vs :
  (forall q v, std q v -> good v -> exists w, reads o m f q w) ->
  (forall q v, std q v -> good v \/ refuses o m f q x) ->
  links_at std p offsets vs -> Forall good vs \/ first_bad o f (refused o f x) (each p m offsets).
Proof.
  intros Hg Hx H. induction H as [|offset v offsets vs [_ H] _ IH]; [left; constructor|].
  destruct (Hx _ _ H) as [G|R].
  - destruct IH as [IH|(before & y & after & E & Hr & Hy)]; [left; constructor; assumption|].
    right. exists (Part m (p + offset) :: before), y, after. cbn [each map]. unfold each in E. rewrite E.
    split; [reflexivity|]. split; [constructor; [exact (Hg _ _ H G)|exact Hr]|exact Hy].
  - right. exists [], (Part m (p + offset)), (each p m offsets). repeat split; [constructor|exact R].
Qed.

Lemma std_gdef_ligature_refused p v :
  std_gdef_ligature_at f p v -> supported_gdef_ligature v \/ refuses o read_gdef_ligature f p UnknownFormat.
Proof.
  destruct v as [count offsets carets]. intros (Hn & Hl & Hc).
  destruct (links_first_bad read_caret (std_caret_at f) (fun _ => False) UnknownFormat p offsets carets)
    as [H|H].
  - intros ? ? ? [].
  - intros q v Hv. right. exact (std_caret_refused _ _ Hv).
  - exact Hc.
  - left. destruct H as [|? ? []]. reflexivity.
  - right. apply (parts_refused o f p _ read_gdef_ligature _ Hb (PartsGdefLigature o f p count offsets Hn Hl)).
    exact H.
Qed.

Lemma std_gdef_ligatures_refused p v :
  std_gdef_ligatures_at f p v -> supported_gdef_ligatures v \/ refuses o read_gdef_ligatures f p UnknownFormat.
Proof.
  destruct v as [c count offsets coverage records]. intros (Hc & Hn & Hl & [_ Hv] & Hr).
  destruct (links_first_bad read_gdef_ligature (std_gdef_ligature_at f) supported_gdef_ligature
    UnknownFormat p offsets records) as [H|(before & y & after & E & Hf & Hy)].
  - intros q v Hq G. exists v. apply (proj2 (read_gdef_ligature_finds False (mkEnv f o) Hb q)).
    destruct (gdef_ligature_agrees f q v) as (_ & _ & Hs). apply Hs; [exact G|exact I|exact Hq].
  - intros q v. apply std_gdef_ligature_refused.
  - exact Hr.
  - left. exact H.
  - right. apply (parts_refused o f p _ read_gdef_ligatures _ Hb
      (PartsGdefLigatures o f p c count offsets Hc Hn Hl)).
    exists (Part read_coverage (p + c) :: before), y, after. rewrite E. split; [reflexivity|].
    split; [|exact Hy]. constructor; [|exact Hf]. exists coverage.
    apply (proj2 (read_coverage_finds False (mkEnv f o) (p + c))). exact Hv.
Qed.

(** ** Mark glyph sets that are taken for item variations *)

Lemma store_error p x : u16_at f p 1 -> refuses o read_store f p x -> x = UnexpectedEnd.
Proof.
  intros Hp H. unfold refuses, read_store in H. unfold bind at 1, get_position at 1 in H.
  apply (only_const [UnexpectedEnd]) in H; [cbn in H; intuition congruence| |cbn; auto|exact Hp].
  intros v. only_errors.
Qed.

(** ** The whole table *)

Lemma maybe_readable {A} (m : M A) (std : N -> A -> Prop) p offset v :
  (forall q w, v = Some w -> std q w -> exists w, reads o m f q w) -> maybe_at std p offset v ->
  Forall (readable o f) (SpecParts.nonzero p m [offset]).
Proof.
  intros H Hv. unfold SpecParts.nonzero. cbn [filter]. destruct (N.eqb_spec offset 0) as [E|E]; cbn; [constructor|].
  constructor; [|constructor]. destruct v as [v|]; cbn in Hv; [|contradiction].
  exact (H _ _ eq_refl (proj2 Hv)).
Qed.

Lemma nonzero_one {A} p (m : M A) offset : offset <> 0 -> SpecParts.nonzero p m [offset] = [Part m (p + offset)].
Proof. intros H. unfold SpecParts.nonzero. cbn [filter]. rewrite (proj2 (N.eqb_neq _ _) H). reflexivity. Qed.

Context (p : N) (v : GlyphDefinition) (Hv : std_glyph_definition_at f p v).

Lemma class_readable q w : class_at f q w -> exists w, reads o read_class f q w.
Proof. intros H. exists w. apply (proj2 (read_class_finds False (mkEnv f o) q)). exact H. Qed.

Lemma attachments_readable q w : std_attachments_at f q w -> exists w, reads o read_attachments f q w.
Proof.
  intros H. exists w. apply (proj2 (read_attachments_finds False (mkEnv f o) Hb q)).
  destruct (attachments_agrees f q w) as (Hs & _ & Ha). apply Ha; auto.
Qed.

Lemma gdef_standard_carets : ~ given supported_gdef_ligatures (glyph_definition_ligatures v) ->
  refuses o read_glyph_definition f p UnknownFormat.
Proof.
  destruct v as [header glyph_class attachments ligatures mark_class marks variations].
  cbn [glyph_definition_ligatures]. revert Hv. cbn [std_glyph_definition_at].
  destruct (gdef_offsets header) as [[[[[a b] c] d] m] i] eqn:E.
  intros (Hh & Ha & Hx & Hl & _) Hn. destruct ligatures as [ligatures|]; [|destruct (Hn I)].
  destruct Hl as [Hc Hl]. destruct (std_gdef_ligatures_refused _ _ Hl) as [H|H]; [destruct (Hn H)|].
  apply (parts_refused o f p _ read_glyph_definition _ Hb (PartsGdef o f p header a b c d m i Hh E)).
  rewrite (nonzero_one _ _ _ Hc).
  eexists (_ ++ _), (Part read_gdef_ligatures (p + c)), _.
  split; [rewrite <- app_assoc; reflexivity|]. split; [|exact H].
  apply Forall_app. split; eapply maybe_readable; try eassumption.
  - intros q w _. apply class_readable.
  - intros q w _. apply attachments_readable.
Qed.

Context (Hs : given supported_gdef_ligatures (glyph_definition_ligatures v)).

(** All but the item variations. *)
Lemma gdef_standard_rest variations :
  maybe_at (store_at o f) p (gdef_variation_offset (glyph_definition_header v)) variations ->
  exists w, reads o read_glyph_definition f p w /\ without_variations w = without_variations v /\
    glyph_definition_variations w = variations.
Proof.
  intros Hw. destruct v as [header glyph_class attachments ligatures mark_class marks old].
  exists (mkGlyphDefinition header glyph_class attachments ligatures mark_class marks variations).
  split; [|split; reflexivity]. apply (request_reads RequestGdef o f p _ Hb).
  revert Hv Hs Hw. cbn [std_glyph_definition_at glyph_definition_header glyph_definition_ligatures].
  cbv beta iota delta [conforms glyph_definition_at glyph_definition_with].
  destruct (gdef_offsets header) as [[[[[a b] c] d] m] i] eqn:E.
  intros (Hh & Ha & Hx & Hl & Hd & Hm & _) Hk Hw. split; [exact Hh|]. split; [exact Ha|].
  split; [|split; [|split; [exact Hd|split; [|exact Hw]]]].
  - destruct attachments as [w|]; [|exact Hx]. destruct Hx as [Hb0 Hx]. split; [exact Hb0|].
    destruct (attachments_agrees f (p + b) w) as (Ht & _ & He). apply He; auto.
  - destruct ligatures as [w|]; [|exact Hl]. destruct Hl as [Hc Hl]. split; [exact Hc|].
    destruct (gdef_ligatures_agrees f (p + c) w) as (Ht & _ & He). apply He; auto.
  - destruct marks as [w|]; [|exact Hm]. destruct Hm as [Hm0 Hm]. split; [exact Hm0|].
    destruct (marks_agrees f (p + m) w) as (Ht & _ & He). apply He; auto.
Qed.

Lemma gdef_standard_skipped :
  variations_skipped v -> reads o read_glyph_definition f p (without_variations v).
Proof.
  intros H. destruct (gdef_standard_rest None) as (w & Hw & E & Hn).
  - revert Hv H. destruct v as [header ? ? ? ? marks ?].
    cbn [variations_skipped std_glyph_definition_at glyph_definition_header glyph_definition_marks].
    destruct header as [| |[? ? a b c d m i]]; cbn -[N.add]; try reflexivity.
    intros (_ & _ & _ & _ & _ & Hm & _) ->. exact Hm.
  - rewrite <- E. destruct w. cbn in Hn. subst. exact Hw.
Qed.

Lemma gdef_standard_before : gdef_variation_offset (glyph_definition_header v) <> 0 ->
  u16_at f (p + gdef_variation_offset (glyph_definition_header v)) 1 /\
  exists l, Forall (readable o f) l /\ parts o f p read_glyph_definition
    (l ++ [Part read_store (p + gdef_variation_offset (glyph_definition_header v))]).
Proof.
  intros H0. destruct v as [header glyph_class attachments ligatures mark_class marks old].
  revert Hv Hs H0. cbn [std_glyph_definition_at glyph_definition_header glyph_definition_ligatures].
  destruct (gdef_offsets header) as [[[[[a b] c] d] m] i] eqn:E.
  intros (Hh & Ha & Hx & Hl & Hd & Hm & _) Hk H0.
  assert (gdef_variation_offset header = m) as Em.
  { destruct header as [[]|[]|[]]; cbn in E, H0 |- *; congruence. }
  pose proof (PartsGdef o f p header a b c d m i Hh E) as P. rewrite (nonzero_one _ _ _ H0), !app_assoc in P.
  split.
  - rewrite Em in *. destruct marks as [[format ? ? ?]|]; [|destruct (H0 Hm)].
    destruct Hm as (_ & Hm & -> & _). exact Hm.
  - eexists. split; [|exact P]. rewrite !Forall_app. repeat split; eapply maybe_readable; try eassumption.
    + intros q w _. apply class_readable.
    + intros q w _. apply attachments_readable.
    + intros q w -> Hw. exists w. apply (proj2 (read_gdef_ligatures_finds False (mkEnv f o) Hb q)).
      destruct (gdef_ligatures_agrees f q w) as (Ht & _ & He). apply He; auto.
    + intros q w _. apply class_readable.
    + intros q w _ Hw. exists w. apply (proj2 (read_marks_finds False (mkEnv f o) Hb q)).
      destruct (marks_agrees f q w) as (Ht & _ & He). apply He; auto.
Qed.

Lemma gdef_standard_read :
  (exists w, reads o read_glyph_definition f p w /\ without_variations w = without_variations v) \/
  refuses o read_glyph_definition f p UnexpectedEnd \/
  overflow_checks o = true /\ panics o read_glyph_definition f p.
Proof.
  destruct (N.eq_dec (gdef_variation_offset (glyph_definition_header v)) 0) as [E|E].
  { left. destruct (gdef_standard_rest None E) as (w & Hw & Hr & _). eauto. }
  set (q := p + gdef_variation_offset (glyph_definition_header v)) in *.
  destruct (read_store (mkEnv f o) q) as [[store r]|x|] eqn:R.
  - left. destruct (gdef_standard_rest (Some store)) as (w & Hw & Hr & _); [|eauto].
    split; [exact E|]. apply (proj2 (read_store_finds False (mkEnv f o) Hb q ltac:(tauto))).
    exists r. exact R.
  - right. left. destruct (gdef_standard_before E) as (H1 & l & Hl & Hp).
    apply (parts_refused o f p _ read_glyph_definition _ Hb Hp).
    exists l, (Part read_store q), []. split; [reflexivity|]. split; [exact Hl|].
    unfold refused. rewrite <- (store_error _ _ H1 R). exact R.
  - right. right. split.
    + destruct (overflow_checks o) eqn:O; [reflexivity|].
      destruct (proj1 (read_store_finds True (mkEnv f o) Hb q (fun _ => O)) I R).
    + destruct (gdef_standard_before E) as (H1 & l & Hl & Hp).
      apply (parts_panicking o f p _ read_glyph_definition _ Hb Hp).
      exists l, (Part read_store q), []. split; [reflexivity|]. split; [exact Hl|]. exact R.
Qed.

End Standard.
