(** Every [GPOS] table that is laid out as the specification prescribes is read, but for
    the parameters of its features and one word more for some devices. *)

From Verif Require Export SpecTrim Requests SpecErrors.
From Verif Require Import ProofConform ProofRequests ProofExtend ProofLayout ProofGpos Api.

(** Something is there that comes down to [v]. *)
Definition becomes {A} (code : A -> Prop) (trim : A -> A) (v : A) : Prop :=
  exists w, code w /\ trim w = v.

Section Structures.
Context {A : Type} (std code : N -> A -> Prop) (trim : A -> A).
Hypothesis each : forall p v, std p v -> becomes (code p) trim v.

Lemma vec_becomes stride p n vs :
  vec_at std stride p n vs -> becomes (vec_at code stride p n) (map trim) vs.
Proof.
  intros [Hn H]. subst n. revert p H. induction vs as [|v vs IH]; intros p H.
  - exists []. split; [|reflexivity]. split; [reflexivity|]. intros [] w Hw; discriminate Hw.
  - destruct (each p v) as (w & Hw & <-).
    { specialize (H 0%nat v eq_refl). rewrite N.mul_0_r, N.add_0_r in H. exact H. }
    destruct (IH (p + stride)) as (ws & [Hl Hws] & <-).
    { intros i x Hx. specialize (H (S i) x Hx).
      replace (p + stride * N.of_nat (S i)) with (p + stride + stride * N.of_nat i) in H by lia.
      exact H. }
    exists (w :: ws). split; [|reflexivity]. split.
    + cbn [length]. rewrite map_length in Hl |- *. reflexivity.
    + intros [|i] x Hx.
      * injection Hx as <-. rewrite N.mul_0_r, N.add_0_r. exact Hw.
      * specialize (Hws i x Hx).
        replace (p + stride * N.of_nat (S i)) with (p + stride + stride * N.of_nat i) by lia.
        exact Hws.
Qed.

Lemma links_becomes base offsets vs :
  links_at std base offsets vs -> becomes (linked_at code base offsets) (map trim) vs.
Proof.
  induction 1 as [|offset v offsets vs [_ H] _ (ws & IH & <-)].
  - exists []. split; [constructor|reflexivity].
  - destruct (each _ v H) as (w & Hw & <-). exists (w :: ws).
    split; [constructor; assumption|reflexivity].
Qed.

Lemma maybe_becomes base offset v :
  maybe_at std base offset v -> becomes (maybe_at code base offset) (option_map trim) v.
Proof.
  destruct v as [v|]; intros H.
  - destruct H as [Hn H]. destruct (each _ v H) as (w & Hw & <-). exists (Some w).
    split; [split; assumption|reflexivity].
  - exists None. split; [exact H|reflexivity].
Qed.

Lemma maybes_becomes base offsets vs :
  maybes_at std base offsets vs -> becomes (maybes_at code base offsets) (map (option_map trim)) vs.
Proof.
  induction 1 as [|offset v offsets vs H%maybe_becomes _ (ws & IH & <-)].
  - exists []. split; [constructor|reflexivity].
  - destruct H as (w & Hw & <-). exists (w :: ws).
    split; [constructor; assumption|reflexivity].
Qed.

Lemma link_becomes base offset v :
  link_at std base offset v -> becomes (code (base + offset)) trim v.
Proof. intros [_ H]. apply each, H. Qed.

End Structures.

(** What a reader finds is found in an extension. *)
Lemma finds_extended {A} (m : M A) (at_ : file -> A -> Prop) o f g p v :
  mono m -> extends f g ->
  finds False m (mkEnv f o) p (at_ f) -> finds False m (mkEnv g o) p (at_ g) ->
  at_ f v -> at_ g v.
Proof.
  intros Hm He Hf Hg H. apply (proj2 Hf) in H. apply (proj2 Hg).
  exact (mono_reads m o f g p v Hm He H).
Qed.

Section Trim.
Context (o : options) (f g : file) (Hf : bounded f) (Hg : bounded g) (Hx : followed f g).

Let He : extends f g := proj1 Hx.

(** ** What is the same *)

Lemma u16_grows p v : u16_at f p v -> u16_at g p v.
Proof. intros (a & b & Ha & Hb & E). exists a, b. auto. Qed.

Lemma i16_grows p v : i16_at f p v -> i16_at g p v.
Proof. intros (u & Hu & E). exists u. auto using u16_grows. Qed.

Lemma u32_grows p v : u32_at f p v -> u32_at g p v.
Proof. intros (h & l & Hh & Hl & E). exists h, l. auto using u16_grows. Qed.

Lemma u16s_grows p n vs : u16s_at f p n vs -> u16s_at g p n vs.
Proof. intros [H K]. split; [exact H|]. intros i v Hi. apply u16_grows, K, Hi. Qed.

Lemma reserved_grows checked mask p v : reserved_at mask f p v -> flags_at checked mask g p v.
Proof. intros [H K]. split; [apply u16_grows, H|auto]. Qed.

Lemma coverage_grows p v : coverage_at f p v -> coverage_at g p v.
Proof.
  apply (finds_extended read_coverage (fun f => coverage_at f p) o f g p v); auto with mono.
  - apply (read_coverage_finds False (mkEnv f o)).
  - apply (read_coverage_finds False (mkEnv g o)).
Qed.

Lemma class_grows p v : class_at f p v -> class_at g p v.
Proof.
  apply (finds_extended read_class (fun f => class_at f p) o f g p v); auto with mono.
  - apply (read_class_finds False (mkEnv f o)).
  - apply (read_class_finds False (mkEnv g o)).
Qed.

Lemma context_grows p v : std_context_at f p v -> context_at g p v.
Proof.
  intros H%(agrees_code _ _ _ (context_agrees f p v)). revert H.
  apply (finds_extended read_context (fun f => context_at f p) o f g p v); auto with mono.
  - apply (read_context_finds False (mkEnv f o) Hf).
  - apply (read_context_finds False (mkEnv g o) Hg).
Qed.

Lemma chained_context_grows p v : std_chained_context_at f p v -> chained_context_at g p v.
Proof.
  intros H%(agrees_code _ _ _ (chained_context_agrees f p v)). revert H.
  apply (finds_extended read_chained_context (fun f => chained_context_at f p) o f g p v);
    auto with mono.
  - apply (read_chained_context_finds False (mkEnv f o) Hf).
  - apply (read_chained_context_finds False (mkEnv g o) Hg).
Qed.

Lemma extension_grows p v : extension_positioning_at f p v -> extension_positioning_at g p v.
Proof.
  destruct v; cbv beta iota delta [extension_positioning_at]. intuition auto using u16_grows, u32_grows.
Qed.

Lemma variation_grows p v : variation_at f p v -> variation_at g p v.
Proof. destruct v; cbv beta iota delta [variation_at]. intuition auto using u16_grows. Qed.

Lemma scripts_grows p v : std_scripts_at f p v -> scripts_at g p v.
Proof.
  intros H%(agrees_code _ _ _ (scripts_agrees f p v)). revert H.
  apply (finds_extended read_scripts (fun f => scripts_at f p) o f g p v); auto with mono.
  - apply (read_scripts_finds False (mkEnv f o) Hf).
  - apply (read_scripts_finds False (mkEnv g o) Hg).
Qed.

Lemma features_grows p v : features_at f p v -> features_at g p v.
Proof.
  apply (finds_extended read_features (fun f => features_at f p) o f g p v); auto with mono.
  - apply (read_features_finds False (mkEnv f o) Hf).
  - apply (read_features_finds False (mkEnv g o) Hg).
Qed.

Lemma feature_variations_grows p v : feature_variations_at f p v -> feature_variations_at g p v.
Proof.
  apply (finds_extended read_feature_variations (fun f => feature_variations_at f p) o f g p v);
    auto with mono.
  - apply (read_feature_variations_finds False (mkEnv f o)).
  - apply (read_feature_variations_finds False (mkEnv g o)).
Qed.

(** ** Devices *)

(** After the bytes of a word there is another one. *)
Lemma next_word p v : u16_at f p v -> exists w, u16_at g (p + 2) w.
Proof.
  intros (_ & b & _ & Hb & _). destruct (proj2 Hx (p + 1)) as [H K]; [congruence|].
  replace (p + 1 + 1) with (p + 2) in H by lia.
  destruct (g (p + 2)) as [x|] eqn:Ex; [|contradiction].
  destruct (g (p + 1 + 2)) as [y|] eqn:Ey; [|contradiction].
  eexists. exists x, y. split; [exact Ex|]. split; [|reflexivity].
  rewrite <- Ey. f_equal. lia.
Qed.

Lemma u16s_snoc p n vs w :
  u16s_at g p n vs -> u16_at g (p + 2 * n) w -> u16s_at g p (n + 1) (vs ++ [w]).
Proof.
  intros [Hn H] Hw. split.
  - rewrite app_length. cbn [length]. lia.
  - intros i v Hi. destruct (Nat.lt_ge_cases i (length vs)) as [L|L].
    + rewrite nth_error_app1 in Hi by exact L. apply H, Hi.
    + rewrite nth_error_app2 in Hi by exact L.
      destruct (i - length vs)%nat as [|k] eqn:Ek; [|destruct k; discriminate Hi].
      injection Hi as <-. replace (N.of_nat i) with n by lia. exact Hw.
Qed.

Lemma firstn_exact {A} (vs : list A) n : N.of_nat (length vs) = n -> firstn (N.to_nat n) vs = vs.
Proof. intros H. apply firstn_all2. lia. Qed.

Lemma device_becomes p v : standard_device_at f p v -> becomes (device_at g p) trim_device v.
Proof.
  destruct v as [start_size end_size format deltas].
  intros (H1 & H2 & H3 & H4 & H5 & H6). set (bits := device_bits start_size end_size format) in *.
  pose proof (u16s_grows _ _ _ H6) as G6. pose proof (proj1 H6) as Hn.
  destruct (N.eq_dec (bits mod 16) 0) as [E|E].
  - assert (words_for bits = bits / 16) as Ew.
    { unfold words_for. pose proof (N.div_mod bits 16 ltac:(lia)) as D. rewrite E in D.
      set (q := bits / 16) in *. clearbody q. rewrite D.
      symmetry. apply (N.div_unique _ 16 q 15); lia. }
    assert (exists w, u16_at g (p + 6 + 2 * words_for bits) w) as [w Hw].
    { destruct H6 as [L H6]. destruct (N.eq_dec (words_for bits) 0) as [Z|Z].
      - destruct (next_word _ _ H4) as [w Hw]. exists w. rewrite Z.
        replace (p + 6 + 2 * 0) with (p + 4 + 2) by lia. exact Hw.
      - destruct (nth_error deltas (length deltas - 1)) as [d|] eqn:Ed.
        2:{ apply nth_error_None in Ed. lia. }
        destruct (next_word _ _ (H6 _ _ Ed)) as [w Hw]. exists w.
        replace (p + 6 + 2 * words_for bits)
          with (p + 6 + 2 * N.of_nat (length deltas - 1) + 2) by lia. exact Hw. }
    exists (mkDevice start_size end_size format (deltas ++ [w])). split.
    + do 5 (split; [auto using u16_grows|]). fold bits. rewrite <- Ew.
      apply u16s_snoc; assumption.
    + cbv beta iota delta [trim_device]. fold bits. f_equal.
      rewrite firstn_app. rewrite firstn_exact by exact Hn.
      replace (N.to_nat (words_for bits) - length deltas)%nat with 0%nat by lia.
      apply app_nil_r.
  - apply words_for_iff in E. exists (mkDevice start_size end_size format deltas). split.
    + do 5 (split; [auto using u16_grows|]). fold bits. rewrite <- E. exact G6.
    + cbv beta iota delta [trim_device]. fold bits. f_equal. apply firstn_exact, Hn.
Qed.

Lemma correction_becomes p v :
  std_correction_at f p v -> becomes (correction_at g p) trim_correction v.
Proof.
  destruct v as [t|t]; cbn [std_correction_at].
  - intros (w & Hw & <-)%device_becomes. exists (CorrectionDevice w). auto.
  - intros [E H]. exists (CorrectionVariation t). split; [|reflexivity].
    split; [exact E|apply variation_grows, H].
Qed.

Lemma corrected_becomes base offset v :
  std_corrected_at f base offset v ->
  becomes (corrected_at g base offset) (option_map trim_correction) v.
Proof.
  destruct offset as [offset|]; cbn [std_corrected_at].
  - apply maybe_becomes, correction_becomes.
  - intros ->. exists None. split; reflexivity.
Qed.

Lemma field_grows {A} (std code : N -> A -> Prop) flags k p v :
  (forall q x, std q x -> code q x) -> field_at std flags k p v -> field_at code flags k p v.
Proof. intros H. destruct v; cbn [field_at]; [|auto]. intros [E K]. auto. Qed.

(** ** The structures *)

Hint Resolve u16_grows i16_grows u32_grows u16s_grows : grows.

Hint Resolve correction_becomes corrected_becomes : trim.

Ltac known := solve [eauto 3 with trim nocore].

(** The parts of a structure that are in [f], as they are in [g]. *)
Ltac simple_part :=
  match goal with
  | H : _ /\ _ |- _ => destruct H
  | H : becomes _ _ _ |- _ => destruct H as (? & ? & <-)
  | H : link_at (coverage_at f) _ _ _ |- _ => apply proj2, coverage_grows in H
  | H : link_at (class_at f) _ _ _ |- _ => apply proj2, class_grows in H
  | H : reserved_at _ f _ _ |- _ =>
      generalize (fun checked => reserved_grows checked _ _ _ H); clear H; intros H
  | H : u16_at f _ _ |- _ => apply u16_grows in H
  | H : i16_at f _ _ |- _ => apply i16_grows in H
  | H : u16s_at f _ _ _ |- _ => apply u16s_grows in H
  | H : field_at (u16_at f) _ _ _ _ |- _ => apply (field_grows _ _ _ _ _ _ u16_grows) in H
  | H : field_at (i16_at f) _ _ _ _ |- _ => apply (field_grows _ _ _ _ _ _ i16_grows) in H
  | H : vec_at _ _ _ _ _ |- _ => eapply vec_becomes in H; cycle 1; [known|]
  | H : links_at _ _ _ _ |- _ => eapply links_becomes in H; cycle 1; [known|]
  | H : maybes_at _ _ _ _ |- _ => eapply maybes_becomes in H; cycle 1; [known|]
  | H : maybe_at _ _ _ _ |- _ => eapply maybe_becomes in H; cycle 1; [known|]
  | H : link_at _ _ _ _ |- _ => eapply link_becomes in H; cycle 1; [known|]
  | H : std_corrected_at f _ _ _ |- _ => apply corrected_becomes in H
  end.

Ltac part := simple_part.

Ltac parts := repeat part.

Ltac rest :=
  unfold value_flags_at; repeat (split; [solve [eauto 2]|]); solve [eauto 2].

Lemma anchor3_becomes p v :
  std_anchor3_at f p v -> becomes (anchor3_at g p) trim_anchor3 v.
Proof.
  destruct v as [format x y x_correction_offset y_correction_offset x_correction y_correction].
  cbv beta iota delta [std_anchor3_at anchor3_at]. intros H. parts.
  eexists (mkAnchor3 format x y x_correction_offset y_correction_offset _ _).
  split; [rest|reflexivity].
Qed.
Hint Resolve anchor3_becomes : trim.

Lemma anchor_becomes p v :
  std_anchor_at f p v -> becomes (anchor_at g p) trim_anchor v.
Proof.
  destruct v as [t|t|t]; cbn [std_anchor_at]; intros [E H].
  - exists (AnchorFormat1 t). split; [|reflexivity]. split; [exact E|].
    destruct t; cbv beta iota delta [anchor1_at] in *. parts. rest.
  - exists (AnchorFormat2 t). split; [|reflexivity]. split; [exact E|].
    destruct t; cbv beta iota delta [anchor2_at] in *. parts. rest.
  - apply anchor3_becomes in H. destruct H as (w & Hw & <-). exists (AnchorFormat3 w).
    split; [|reflexivity]. split; [|exact Hw]. destruct w; exact E.
Qed.
Hint Resolve anchor_becomes : trim.

Lemma base_becomes base mark_class_count p v :
  std_base_at f base mark_class_count p v ->
  becomes (base_at g base mark_class_count p) trim_base v.
Proof.
  destruct v as [offsets anchors].
  cbv beta iota delta [std_base_at base_at]. intros H. parts.
  eexists (mkBase offsets _). split; [rest|reflexivity].
Qed.
Hint Resolve base_becomes : trim.

Lemma bases_becomes mark_class_count p v :
  std_bases_at f mark_class_count p v -> becomes (bases_at g mark_class_count p) trim_bases v.
Proof.
  destruct v as [count records].
  cbv beta iota delta [std_bases_at bases_at]. intros H. parts.
  eexists (mkBases count _). split; [rest|reflexivity].
Qed.
Hint Resolve bases_becomes : trim.

Lemma component_becomes base mark_class_count p v :
  std_component_at f base mark_class_count p v ->
  becomes (component_at g base mark_class_count p) trim_component v.
Proof.
  destruct v as [offsets anchors].
  cbv beta iota delta [std_component_at component_at]. intros H. parts.
  eexists (mkComponent offsets _). split; [rest|reflexivity].
Qed.
Hint Resolve component_becomes : trim.

Lemma gpos_ligature_becomes mark_class_count p v :
  std_gpos_ligature_at f mark_class_count p v ->
  becomes (gpos_ligature_at g mark_class_count p) trim_gpos_ligature v.
Proof.
  destruct v as [count components].
  cbv beta iota delta [std_gpos_ligature_at gpos_ligature_at]. intros H. parts.
  eexists (mkGposLigature count _). split; [rest|reflexivity].
Qed.
Hint Resolve gpos_ligature_becomes : trim.

Lemma gpos_ligatures_becomes mark_class_count p v :
  std_gpos_ligatures_at f mark_class_count p v ->
  becomes (gpos_ligatures_at g mark_class_count p) trim_gpos_ligatures v.
Proof.
  destruct v as [count offsets records].
  cbv beta iota delta [std_gpos_ligatures_at gpos_ligatures_at]. intros H. parts.
  eexists (mkGposLigatures count offsets _). split; [rest|reflexivity].
Qed.
Hint Resolve gpos_ligatures_becomes : trim.

Lemma mark2_becomes base mark_class_count p v :
  std_mark2_at f base mark_class_count p v ->
  becomes (mark2_at g base mark_class_count p) trim_mark2 v.
Proof.
  destruct v as [offsets anchors].
  cbv beta iota delta [std_mark2_at mark2_at]. intros H. parts.
  eexists (mkMark2 offsets _). split; [rest|reflexivity].
Qed.
Hint Resolve mark2_becomes : trim.

Lemma mark2s_becomes mark_class_count p v :
  std_mark2s_at f mark_class_count p v -> becomes (mark2s_at g mark_class_count p) trim_mark2s v.
Proof.
  destruct v as [count records].
  cbv beta iota delta [std_mark2s_at mark2s_at]. intros H. parts.
  eexists (mkMark2s count _). split; [rest|reflexivity].
Qed.
Hint Resolve mark2s_becomes : trim.

Lemma mark1_becomes base p v :
  std_mark1_at f base p v -> becomes (mark1_at o g base p) trim_mark1 v.
Proof.
  destruct v as [class_id anchor_offset anchor].
  cbv beta iota delta [std_mark1_at mark1_at]. intros (H1 & H2 & Hn & H).
  apply anchor_becomes in H. destruct H as (w & Hw & <-). exists (mkMark1 class_id anchor_offset w).
  split; [|reflexivity]. split; [auto with grows|]. split; [auto with grows|]. right. auto.
Qed.
Hint Resolve mark1_becomes : trim.

Lemma mark1s_becomes p v :
  std_mark1s_at f p v -> becomes (mark1s_at o g p) trim_mark1s v.
Proof.
  destruct v as [count records].
  cbv beta iota delta [std_mark1s_at mark1s_at]. intros H. parts.
  eexists (mkMark1s count _). split; [rest|reflexivity].
Qed.
Hint Resolve mark1s_becomes : trim.

Lemma connection_becomes base p v :
  std_connection_at f base p v -> becomes (connection_at g base p) trim_connection v.
Proof.
  destruct v as [start_anchor_offset end_anchor_offset start_anchor end_anchor].
  cbv beta iota delta [std_connection_at connection_at]. intros H. parts.
  eexists (mkConnection start_anchor_offset end_anchor_offset _ _). split; [rest|reflexivity].
Qed.
Hint Resolve connection_becomes : trim.

Lemma single_becomes base flags p v :
  std_single_at f base flags p v -> becomes (single_at g base flags p) trim_single v.
Proof.
    destruct v as [x_placement y_placement x_advance y_advance x_placement_correction_offset
    y_placement_correction_offset x_advance_correction_offset y_advance_correction_offset
    x_placement_correction y_placement_correction x_advance_correction y_advance_correction].
  cbv beta iota delta [std_single_at single_at]. intros H. parts.
  eexists (mkSingle x_placement y_placement x_advance y_advance x_placement_correction_offset
    y_placement_correction_offset x_advance_correction_offset y_advance_correction_offset _ _
    _ _).
  split; [rest|reflexivity].
Qed.
Hint Resolve single_becomes : trim.

Lemma value_becomes base flags p v :
  std_value_at f base flags p v -> becomes (value_at g base flags p) (option_map trim_single) v.
Proof.
  destruct v as [v|]; cbn [std_value_at].
  - intros [Hn H]. apply single_becomes in H. destruct H as (w & Hw & <-). exists (Some w).
    split; [split; assumption|reflexivity].
  - intros E. exists None. split; [exact E|reflexivity].
Qed.
Hint Resolve value_becomes : trim.

Ltac part ::=
  match goal with
  | H : std_single_at f _ _ _ _ |- _ => apply single_becomes in H
  | H : std_value_at f _ _ _ _ |- _ => apply value_becomes in H
  | _ => simple_part
  end.

Lemma pair1_becomes base flags1 flags2 p v :
  std_pair1_at f base flags1 flags2 p v -> becomes (pair1_at g base flags1 flags2 p) trim_pair1 v.
Proof.
  destruct v as [glyph2_id value1 value2].
  cbv beta iota delta [std_pair1_at pair1_at]. intros H. parts.
  eexists (mkPair1 glyph2_id _ _). split; [rest|reflexivity].
Qed.
Hint Resolve pair1_becomes : trim.

Lemma pair1s_becomes flags1 flags2 p v :
  std_pair1s_at f flags1 flags2 p v -> becomes (pair1s_at g flags1 flags2 p) trim_pair1s v.
Proof.
  destruct v as [count records].
  cbv beta iota delta [std_pair1s_at pair1s_at]. intros H. parts.
  eexists (mkPair1s count _). split; [rest|reflexivity].
Qed.
Hint Resolve pair1s_becomes : trim.

Lemma pair2_becomes base flags1 flags2 p v :
  std_pair2_at f base flags1 flags2 p v -> becomes (pair2_at g base flags1 flags2 p) trim_pair2 v.
Proof.
  destruct v as [value1 value2].
  cbv beta iota delta [std_pair2_at pair2_at]. intros H. parts.
  eexists (mkPair2 _ _). split; [rest|reflexivity].
Qed.
Hint Resolve pair2_becomes : trim.

Lemma pair2s_becomes base count2 flags1 flags2 p v :
  std_pair2s_at f base count2 flags1 flags2 p v ->
  becomes (pair2s_at g base count2 flags1 flags2 p) trim_pair2s v.
Proof.
  destruct v as [records].
  cbv beta iota delta [std_pair2s_at pair2s_at]. intros H. parts.
  eexists (mkPair2s _). split; [rest|reflexivity].
Qed.
Hint Resolve pair2s_becomes : trim.

Lemma single_adjustment1_becomes p v :
  std_single_adjustment1_at f p v ->
  becomes (single_adjustment1_at o g p) trim_single_adjustment1 v.
Proof.
  destruct v as [format coverage_offset value_flags value coverage].
  cbv beta iota delta [std_single_adjustment1_at single_adjustment1_at]. intros H. parts.
  eexists (mkSingleAdjustment1 format coverage_offset value_flags _ coverage).
  split; [rest|reflexivity].
Qed.
Hint Resolve single_adjustment1_becomes : trim.

Lemma single_adjustment2_becomes p v :
  std_single_adjustment2_at f p v ->
  becomes (single_adjustment2_at o g p) trim_single_adjustment2 v.
Proof.
  destruct v as [format coverage_offset value_flags value_count values coverage].
  cbv beta iota delta [std_single_adjustment2_at single_adjustment2_at]. intros H. parts.
  eexists (mkSingleAdjustment2 format coverage_offset value_flags value_count _ coverage).
  split; [rest|reflexivity].
Qed.
Hint Resolve single_adjustment2_becomes : trim.

Lemma single_adjustment_becomes p v :
  std_single_adjustment_at f p v -> becomes (single_adjustment_at o g p) trim_single_adjustment v.
Proof.
  destruct v as [t|t]; cbn [std_single_adjustment_at]; intros [E H].
  - apply single_adjustment1_becomes in H. destruct H as (w & Hw & <-). exists (SingleAdjustmentFormat1 w).
    split; [|reflexivity]. split; [|exact Hw]. destruct w; exact E.
  - apply single_adjustment2_becomes in H. destruct H as (w & Hw & <-). exists (SingleAdjustmentFormat2 w).
    split; [|reflexivity]. split; [|exact Hw]. destruct w; exact E.
Qed.
Hint Resolve single_adjustment_becomes : trim.

Lemma pair_adjustment1_becomes p v :
  std_pair_adjustment1_at f p v -> becomes (pair_adjustment1_at o g p) trim_pair_adjustment1 v.
Proof.
    destruct v as [format coverage_offset value1_flags value2_flags record_count
    record_offsets coverage records].
  cbv beta iota delta [std_pair_adjustment1_at pair_adjustment1_at]. intros H. parts.
  eexists (mkPairAdjustment1 format coverage_offset value1_flags value2_flags record_count
    record_offsets coverage _).
  split; [rest|reflexivity].
Qed.
Hint Resolve pair_adjustment1_becomes : trim.

Lemma pair_adjustment2_becomes p v :
  std_pair_adjustment2_at f p v -> becomes (pair_adjustment2_at o g p) trim_pair_adjustment2 v.
Proof.
    destruct v as [format coverage_offset value1_flags value2_flags class1_offset
    class2_offset class1_count class2_count records coverage class1 class2].
  cbv beta iota delta [std_pair_adjustment2_at pair_adjustment2_at]. intros H. parts.
  eexists (mkPairAdjustment2 format coverage_offset value1_flags value2_flags class1_offset
    class2_offset class1_count class2_count _ coverage class1 class2).
  split; [rest|reflexivity].
Qed.
Hint Resolve pair_adjustment2_becomes : trim.

Lemma pair_adjustment_becomes p v :
  std_pair_adjustment_at f p v -> becomes (pair_adjustment_at o g p) trim_pair_adjustment v.
Proof.
  destruct v as [t|t]; cbn [std_pair_adjustment_at]; intros [E H].
  - apply pair_adjustment1_becomes in H. destruct H as (w & Hw & <-). exists (PairAdjustmentFormat1 w).
    split; [|reflexivity]. split; [|exact Hw]. destruct w; exact E.
  - apply pair_adjustment2_becomes in H. destruct H as (w & Hw & <-). exists (PairAdjustmentFormat2 w).
    split; [|reflexivity]. split; [|exact Hw]. destruct w; exact E.
Qed.
Hint Resolve pair_adjustment_becomes : trim.

Lemma cursive_attachment_becomes p v :
  std_cursive_attachment_at f p v -> becomes (cursive_attachment_at g p) trim_cursive_attachment v.
Proof.
  destruct v as [format coverage_offset connection_count connections coverage].
  cbv beta iota delta [std_cursive_attachment_at cursive_attachment_at]. intros H. parts.
  eexists (mkCursiveAttachment format coverage_offset connection_count _ coverage).
  split; [rest|reflexivity].
Qed.
Hint Resolve cursive_attachment_becomes : trim.

Lemma mark_to_base_attachment_becomes p v :
  std_mark_to_base_attachment_at f p v ->
  becomes (mark_to_base_attachment_at o g p) trim_mark_to_base_attachment v.
Proof.
    destruct v as [format mark_coverage_offset base_coverage_offset mark_class_count
    marks_offset bases_offset mark_coverage base_coverage marks bases].
  cbv beta iota delta [std_mark_to_base_attachment_at mark_to_base_attachment_at]. intros H. parts.
  eexists (mkMarkToBaseAttachment format mark_coverage_offset base_coverage_offset
    mark_class_count marks_offset bases_offset mark_coverage base_coverage _ _).
  split; [rest|reflexivity].
Qed.
Hint Resolve mark_to_base_attachment_becomes : trim.

Lemma mark_to_ligature_attachment_becomes p v :
  std_mark_to_ligature_attachment_at f p v ->
  becomes (mark_to_ligature_attachment_at o g p) trim_mark_to_ligature_attachment v.
Proof.
    destruct v as [format mark_coverage_offset ligature_coverage_offset mark_class_count
    marks_offset ligatures_offset mark_coverage ligature_coverage marks ligatures].
  cbv beta iota delta [std_mark_to_ligature_attachment_at mark_to_ligature_attachment_at]. intros H. parts.
  eexists (mkMarkToLigatureAttachment format mark_coverage_offset ligature_coverage_offset
    mark_class_count marks_offset ligatures_offset mark_coverage ligature_coverage _ _).
  split; [rest|reflexivity].
Qed.
Hint Resolve mark_to_ligature_attachment_becomes : trim.

Lemma mark_to_mark_attachment_becomes p v :
  std_mark_to_mark_attachment_at f p v ->
  becomes (mark_to_mark_attachment_at o g p) trim_mark_to_mark_attachment v.
Proof.
    destruct v as [format mark1_coverage_offset mark2_coverage_offset mark_class_count
    mark1s_offset mark2s_offset mark1_coverage mark2_coverage mark1s mark2s].
  cbv beta iota delta [std_mark_to_mark_attachment_at mark_to_mark_attachment_at]. intros H. parts.
  eexists (mkMarkToMarkAttachment format mark1_coverage_offset mark2_coverage_offset
    mark_class_count mark1s_offset mark2s_offset mark1_coverage mark2_coverage _ _).
  split; [rest|reflexivity].
Qed.
Hint Resolve mark_to_mark_attachment_becomes : trim.


Lemma gpos_type_becomes type_ p v :
  std_gpos_type_at type_ f p v -> becomes (gpos_type_at o type_ g p) trim_gpos_type v.
Proof.
  destruct v as [t|t|t|t|t|t|t|t|t]; cbn [std_gpos_type_at]; intros [E H].
  - apply single_adjustment_becomes in H. destruct H as (w & Hw & <-).
    exists (GposSingleAdjustment w). split; [split; assumption|reflexivity].
  - apply pair_adjustment_becomes in H. destruct H as (w & Hw & <-).
    exists (GposPairAdjustment w). split; [split; assumption|reflexivity].
  - apply cursive_attachment_becomes in H. destruct H as (w & Hw & <-).
    exists (GposCursiveAttachment w). split; [split; assumption|reflexivity].
  - apply mark_to_base_attachment_becomes in H. destruct H as (w & Hw & <-).
    exists (GposMarkToBaseAttachment w). split; [split; assumption|reflexivity].
  - apply mark_to_ligature_attachment_becomes in H. destruct H as (w & Hw & <-).
    exists (GposMarkToLigatureAttachment w). split; [split; assumption|reflexivity].
  - apply mark_to_mark_attachment_becomes in H. destruct H as (w & Hw & <-).
    exists (GposMarkToMarkAttachment w). split; [split; assumption|reflexivity].
  - exists (GposContextualPositioning t). split; [|reflexivity].
    split; [exact E|apply context_grows, H].
  - exists (GposChainedContextualPositioning t). split; [|reflexivity].
    split; [exact E|apply chained_context_grows, H].
  - exists (GposExtensionPositioning t). split; [|reflexivity].
    split; [exact E|apply extension_grows, H].
Qed.

Lemma lookup_record_becomes p v :
  std_lookup_record_at std_gpos_type_at f p v ->
  becomes (lookup_record_at o (gpos_type_at o) g p) (trim_lookup_record trim_gpos_type) v.
Proof.
  destruct v as [type_ flags table_count table_offsets mark_filtering_set tables].
  cbv beta iota delta [std_lookup_record_at lookup_record_at].
  intros (H1 & H2 & H3 & H4 & H5 & H6).
  apply (links_becomes _ _ _ (gpos_type_becomes type_)) in H6. destruct H6 as (ws & Hw & <-).
  exists (mkLookupRecord type_ flags table_count table_offsets mark_filtering_set ws).
  split; [|reflexivity].
  split; [apply u16_grows, H1|]. split; [apply reserved_grows, H2|].
  split; [apply u16_grows, H3|]. split; [apply u16s_grows, H4|]. split; [|exact Hw].
  destruct mark_filtering_set; [|exact H5]. destruct H5 as [E H5]. auto using u16_grows.
Qed.

Lemma lookups_becomes p v :
  std_lookups_at std_gpos_type_at f p v ->
  becomes (lookups_at o (gpos_type_at o) g p) (trim_lookups trim_gpos_type) v.
Proof.
  destruct v as [count offsets records].
  cbv beta iota delta [std_lookups_at lookups_at]. intros (H1 & H2 & H3).
  apply (links_becomes _ _ _ lookup_record_becomes) in H3. destruct H3 as (ws & Hw & <-).
  exists (mkLookups count offsets ws). split; [|reflexivity].
  split; [apply u16_grows, H1|]. split; [apply u16s_grows, H2|exact Hw].
Qed.

Lemma gpos_becomes p v :
  std_glyph_positioning_at f p v ->
  exists w, glyph_positioning_at o g p w /\ trim_directory trim_gpos_type w = blank_directory v.
Proof.
  destruct v as [major minor so fo lo vo scripts [count headers records] lookups variations].
  intros (H1 & H2 & H3 & H4 & H5 & H6 & H7 & H8 & H9 & [Ns Hs] & [Nf (F1 & F2 & F3)] & [Nl Hl] & Hv).
  apply lookups_becomes in Hl. destruct Hl as (w & Hw & <-).
  exists (mkDirectory major minor so fo lo vo scripts
    (mkFeatures count headers (map blank_record records)) w variations).
  split; [|reflexivity].
  cbv beta iota delta [glyph_positioning_at directory_at].
  split; [apply u16_grows, H1|]. split; [exact H2|]. split; [apply u16_grows, H3|].
  split; [exact H4|]. do 3 (split; [apply u16_grows; assumption|]). split; [exact H8|].
  split; [intros E; apply u32_grows, H9, E|].
  split; [right; split; [left; exact Ns|apply scripts_grows, Hs]|].
  split.
  { right. split; [left; exact Nf|]. apply features_grows. split; [exact F1|]. split; [exact F2|].
    clear - F3. induction F3 as [|? ? ? ? [_ K] _ IH]; constructor; auto using blank_record_at. }
  split; [right; split; [left; exact Nl|exact Hw]|].
  destruct variations as [x|]; [|exact Hv]. destruct Hv as [Nv Hv].
  split; [exact Nv|apply feature_variations_grows, Hv].
Qed.

End Trim.

(** ** The table *)

Lemma gpos_standard_read o f g p v :
  bounded g -> followed f g -> std_glyph_positioning_at f p v ->
  exists w, reads o read_glyph_positioning g p w /\
    trim_directory trim_gpos_type w = blank_directory v.
Proof.
  intros Hg Hx H.
  assert (bounded f) as Hf.
  { intros q L. destruct (f q) as [b|] eqn:E; [|reflexivity].
    apply (proj1 Hx) in E. rewrite (Hg q L) in E. discriminate. }
  destruct (gpos_becomes o f g Hf Hg Hx p v H) as (w & Hw & E). exists w. split; [|exact E].
  apply (request_reads RequestGpos o g p w Hg), Hw.
Qed.

Lemma followed_append l rest :
  (2 <= length rest)%nat -> followed (file_of l) (file_of (l ++ rest)).
Proof.
  intros L. split; [apply extends_append|]. unfold file_of. intros p H.
  apply nth_error_Some in H. rewrite !nth_error_Some, app_length. lia.
Qed.

(** At the end of a file, some devices cannot be read. *)
Lemma gpos_standard_end o l p v :
  N.of_nat (length l) + 2 <= 2 ^ 63 -> std_glyph_positioning_at (file_of l) p v ->
  (exists w, reads o read_glyph_positioning (file_of l) p w /\
    trim_directory trim_gpos_type w = blank_directory v) \/
  refuses o read_glyph_positioning (file_of l) p UnexpectedEnd.
Proof.
  intros L H.
  pose proof (followed_append l ["000"; "000"]%byte ltac:(cbn; lia)) as Hx.
  destruct (gpos_standard_read o _ _ p v
    (file_of_bounded (l ++ ["000"; "000"]%byte) ltac:(rewrite app_length; cbn [length]; lia)) Hx H)
    as (w & Hr & E).
  destruct (request_truncate RequestGpos o _ _ p w (proj1 Hx) Hr) as [K|K].
  - left. exists w. split; [exact K|exact E].
  - right. exact K.
Qed.
