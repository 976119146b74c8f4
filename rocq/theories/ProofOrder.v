(** Lemmas about the derived comparisons, for property C68. *)

From Verif Require Export ModelOrder SpecOrder.
From Verif Require Import ProofTags.

Lemma tag_order_ordering : ordering tag_order.
Proof.
  unfold tag_order. split; [|split].
  - intros [a b c d] [a' b' c' d']. rewrite N.compare_eq_iff. unfold tag_number.
    split; [|intros [= -> -> -> ->]; reflexivity].
    pose proof (Byte.to_N_bounded a). pose proof (Byte.to_N_bounded b). pose proof (Byte.to_N_bounded c).
    pose proof (Byte.to_N_bounded d). pose proof (Byte.to_N_bounded a'). pose proof (Byte.to_N_bounded b').
    pose proof (Byte.to_N_bounded c'). pose proof (Byte.to_N_bounded d'). intros E.
    assert (I : forall x y, Byte.to_N x = Byte.to_N y -> x = y).
    { intros x y X. apply (f_equal Byte.of_N) in X. rewrite !Byte.of_to_N in X. congruence. }
    f_equal; apply I; lia.
  - intros v w. rewrite N.compare_lt_iff, N.compare_gt_iff. reflexivity.
  - intros u v w. rewrite !N.compare_lt_iff. apply N.lt_trans.
Qed.

(** The derived comparison, when the rank tells all variants apart. *)
Lemma derived_ordering {A} (rank : A -> N) other tags :
  (forall v w, rank v = rank w -> v = w \/ exists t u, other v = Some t /\ other w = Some u) ->
  (forall v w t, other v = Some t -> other w = Some t -> v = w) ->
  ordering tags -> ordering (derived_cmp rank other tags).
Proof.
  intros R O (T1 & T2 & T3). unfold derived_cmp.
  assert (Same : forall v w, rank v = rank w -> forall t, other v = Some t -> exists u, other w = Some u).
  { intros v w E t Ht. destruct (R v w E) as [<- |(t' & u & _ & H)]; eauto. }
  split; [|split].
  - intros v w. split.
    + destruct (N.compare_spec (rank v) (rank w)) as [E|E|E]; try discriminate.
      destruct (R v w E) as [X|(t & u & Ht & Hu)]; [intros _; exact X|].
      rewrite Ht, Hu. intros X. apply T1 in X. subst u. exact (O v w t Ht Hu).
    + intros <-. rewrite N.compare_refl. destruct (other v); [apply T1; reflexivity|reflexivity].
  - intros v w. rewrite (N.compare_antisym (rank v) (rank w)).
    destruct (rank v ?= rank w); cbn [CompOpp]; [|split; reflexivity|split; discriminate].
    destruct (other v), (other w); try (split; discriminate). apply T2.
  - intros u v w.
    destruct (N.compare_spec (rank u) (rank v)) as [E|E|E], (N.compare_spec (rank v) (rank w)) as [F|F|F];
      try discriminate.
    + rewrite E, F, N.compare_refl. destruct (other u) as [a|], (other v) as [b|], (other w) as [c|];
        try discriminate. apply T3.
    + intros _ _. rewrite E. apply N.compare_lt_iff in F. rewrite F. reflexivity.
    + intros _ _. rewrite <- F. apply N.compare_lt_iff in E. rewrite E. reflexivity.
    + intros _ _. assert (X : rank u < rank w) by lia. apply N.compare_lt_iff in X. rewrite X. reflexivity.
Qed.

(** The ranks are the positions in the tables. *)
Lemma feature_ranked v : feature_named v ->
  nth_error (map snd feature_rows) (N.to_nat (feature_rank v)) = Some v.
Proof. destruct v; try reflexivity. intros H. destruct (H _ eq_refl). Qed.

Lemma script_ranked v : script_named v -> nth_error (map snd script_rows) (N.to_nat (script_rank v)) = Some v.
Proof. destruct v; try reflexivity. intros H. destruct (H _ eq_refl). Qed.

Lemma language_ranked v : (forall t, v <> LanguageOther t) ->
  nth_error (map snd language_rows) (N.to_nat (language_rank v)) = Some v.
Proof. destruct v; try reflexivity. intros H. destruct (H _ eq_refl). Qed.

Lemma feature_either v : feature_named v \/ exists t, v = FeatureOther t.
Proof. destruct v; try (left; intros ?; discriminate). right. eauto. Qed.

Lemma script_either v : script_named v \/ exists t, v = ScriptOther t.
Proof. destruct v; try (left; intros ?; discriminate). right. eauto. Qed.

Lemma language_either v : (forall t, v <> LanguageOther t) \/ exists t, v = LanguageOther t.
Proof. destruct v; try (left; intros ?; discriminate). right. eauto. Qed.

(** Values of the same rank. *)
Lemma ranked_same {A} (l : list A) rank (P : A -> Prop) (make : tag -> A) (other : A -> option tag) :
  (forall v, P v \/ exists t, v = make t) ->
  (forall v, P v -> nth_error l (N.to_nat (rank v)) = Some v) ->
  (forall t, rank (make t) = N.of_nat (length l)) ->
  (forall t, other (make t) = Some t) ->
  forall v w, rank v = rank w -> v = w \/ exists t u, other v = Some t /\ other w = Some u.
Proof.
  intros E R L O v w H.
  assert (X : forall v t, P v -> rank v <> rank (make t)).
  { intros x t Hx Y. apply R in Hx. rewrite Y, L, Nat2N.id in Hx.
    assert (nth_error l (length l) = None) by (apply nth_error_None; lia). congruence. }
  destruct (E v) as [Hv|[t ->]], (E w) as [Hw|[u ->]].
  - left. apply R in Hv, Hw. rewrite H in Hv. congruence.
  - destruct (X v u Hv H).
  - destruct (X w t Hw). symmetry. exact H.
  - right. exists t, u. auto.
Qed.

Lemma feature_ordering tags : ordering tags -> ordering (feature_cmp tags).
Proof.
  intros T. apply derived_ordering; [| |exact T].
  - exact (ranked_same _ _ feature_named FeatureOther _ feature_either feature_ranked
      (fun _ => eq_refl) (fun _ => eq_refl)).
  - intros v w t Hv Hw. destruct v; try discriminate Hv. destruct w; try discriminate Hw. congruence.
Qed.

Lemma script_ordering tags : ordering tags -> ordering (script_cmp tags).
Proof.
  intros T. apply derived_ordering; [| |exact T].
  - exact (ranked_same _ _ script_named ScriptOther _ script_either script_ranked
      (fun _ => eq_refl) (fun _ => eq_refl)).
  - intros v w t Hv Hw. destruct v; try discriminate Hv. destruct w; try discriminate Hw. congruence.
Qed.

Lemma language_ordering tags : ordering tags -> ordering (language_cmp tags).
Proof.
  intros T. apply derived_ordering; [| |exact T].
  - exact (ranked_same _ _ (fun v => forall t, v <> LanguageOther t) LanguageOther _ language_either
      language_ranked (fun _ => eq_refl) (fun _ => eq_refl)).
  - intros v w t Hv Hw. destruct v; try discriminate Hv. destruct w; try discriminate Hw. congruence.
Qed.

(** The variants with a name come first. *)
Lemma feature_others tags t u :
  (forall v, feature_named v -> feature_cmp tags v (FeatureOther t) = Lt) /\
  feature_cmp tags (FeatureOther t) (FeatureOther u) = tags t u.
Proof. split; [|reflexivity]. intros v H. destruct v; try reflexivity. destruct (H _ eq_refl). Qed.

Lemma script_others tags t u :
  (forall v, script_named v -> script_cmp tags v (ScriptOther t) = Lt) /\
  script_cmp tags (ScriptOther t) (ScriptOther u) = tags t u.
Proof. split; [|reflexivity]. intros v H. destruct v; try reflexivity. destruct (H _ eq_refl). Qed.

Lemma language_others tags t u d :
  (forall v, language_named d v -> language_cmp tags v (LanguageOther t) = Lt) /\
  language_cmp tags (LanguageOther t) (LanguageOther u) = tags t u.
Proof. split; [|reflexivity]. intros v [H _]. destruct v; try reflexivity. destruct (H _ eq_refl). Qed.

(** ** The order of the tags *)

Definition same (c d : comparison) : bool :=
  match c, d with Eq, Eq | Lt, Lt | Gt, Gt => true | _, _ => false end.

Lemma same_eq c d : same c d = true -> c = d.
Proof. destruct c, d; try discriminate; reflexivity. Qed.

(** Whether the order of all pairs of [l] but those with a rank in [late] is that of the tags. *)
Definition sweep {A} (rank : A -> N) (tag_of : A -> tag) (late : list A) (l : list A) : bool :=
  let ok v := negb (existsb (fun w => rank v =? rank w) late) in
  let l := map (fun v => (rank v, tag_number (tag_of v))) (filter ok l) in
  forallb (fun x => forallb (fun y => same (fst x ?= fst y) (snd x ?= snd y)) l) l.

Lemma sweep_sound {A} (rank : A -> N) tag_of late l :
  sweep rank tag_of late l = true ->
  (forall v w, In v l -> In w late -> rank v = rank w -> v = w) ->
  forall v w, In v l -> In w l -> ~ In v late -> ~ In w late ->
  (rank v ?= rank w) = tag_order (tag_of v) (tag_of w).
Proof.
  intros S R v w Iv Iw Lv Lw. unfold sweep in S.
  assert (K : forall v, In v l -> ~ In v late ->
    In (rank v, tag_number (tag_of v)) (map (fun v => (rank v, tag_number (tag_of v)))
      (filter (fun v => negb (existsb (fun w => rank v =? rank w) late)) l))).
  { intros x Ix Lx. apply (in_map (fun v => (rank v, tag_number (tag_of v)))). apply filter_In.
  split; [exact Ix|].
    destruct (existsb _ late) eqn:E; [|reflexivity]. apply existsb_exists in E. destruct E as (y & Hy & E).
    apply N.eqb_eq in E. destruct Lx. rewrite (R x y Ix Hy E). exact Hy. }
  rewrite forallb_forall in S. specialize (S _ (K v Iv Lv)). rewrite forallb_forall in S.
  exact (same_eq _ _ (S _ (K w Iw Lw))).
Qed.

Lemma feature_tags_ordered tags v w :
  feature_named v -> feature_named w -> ~ In v late_features -> ~ In w late_features ->
  feature_cmp tags v w = tag_order (feature_tag v) (feature_tag w).
Proof.
  intros Hv Hw Lv Lw.
  assert (C : feature_cmp tags v w = (feature_rank v ?= feature_rank w)).
  { unfold feature_cmp, derived_cmp. destruct (feature_rank v ?= feature_rank w); try reflexivity.
    destruct v; try reflexivity. destruct (Hv _ eq_refl). }
  rewrite C.
  apply (sweep_sound feature_rank feature_tag late_features (map snd feature_rows));
    [vm_compute; reflexivity| | | |exact Lv|exact Lw].
  - intros x y Hx Hy E. cbn [late_features In] in Hy.
    assert (Y : feature_named y) by (intros t X; subst y; repeat destruct Hy as [Hy|Hy];
      discriminate + contradiction).
    destruct (feature_either x) as [X|[t ->]].
    + apply feature_ranked in X, Y. rewrite E in X. congruence.
    + repeat destruct Hy as [Hy|Hy]; try subst y; discriminate + contradiction.
  - eapply nth_error_In, feature_ranked, Hv.
  - eapply nth_error_In, feature_ranked, Hw.
Qed.

(** The languages of a build. *)
Lemma language_in_build d v : language_named d v -> In v (map snd (language_rows_of d)).
Proof.
  intros [Hv Hd]. destruct d.
  - assert (X : map snd (language_rows_of true) = map snd language_rows) by (vm_compute; reflexivity).
    rewrite X. eapply nth_error_In, language_ranked, Hv.
  - apply (nth_error_In _ (N.to_nat (if language_rank v <? language_rank LanguageDefault
      then language_rank v else language_rank v - 1))).
    remember (map snd (language_rows_of false)) as l eqn:E. vm_compute in E.
    destruct v; first [subst l; reflexivity|discriminate (Hd eq_refl)|destruct (Hv _ eq_refl)].
Qed.

Lemma language_tags_ordered tags d v w :
  language_named d v -> language_named d w ->
  ~ In v (late_languages d) -> ~ In w (late_languages d) ->
  language_cmp tags v w = tag_order (language_tag v) (language_tag w).
Proof.
  intros Hv Hw Lv Lw.
  assert (C : language_cmp tags v w = (language_rank v ?= language_rank w)).
  { unfold language_cmp, derived_cmp. destruct (language_rank v ?= language_rank w); try reflexivity.
    destruct v; try reflexivity. destruct (proj1 Hv _ eq_refl). }
  rewrite C.
  apply (sweep_sound language_rank language_tag (late_languages d) (map snd (language_rows_of d)));
    [destruct d; vm_compute; reflexivity| |apply language_in_build, Hv|apply language_in_build,
      Hw|exact Lv|exact Lw].
  intros x y Hx Hy E.
  assert (Y : (forall t, y <> LanguageOther t) /\
    language_rank y <> language_rank (LanguageOther (Tag x00 x00 x00 x00))).
  { destruct d; cbn [late_languages app In] in Hy; repeat destruct Hy as [Hy|Hy]; try contradiction; subst y;
      (split; [intros t|]; discriminate). }
  destruct Y as [Y Z]. destruct (language_either x) as [X|[t ->]].
  - apply language_ranked in X, Y. rewrite E in X. congruence.
  - destruct Z. symmetry. exact E.
Qed.

(** The late ones are late. *)
Lemma features_late tags v : In v late_features ->
  exists w, feature_named w /\ feature_cmp tags w v = Lt /\ tag_order (feature_tag v) (feature_tag w) = Lt.
Proof.
  intros H. cbn [late_features In] in H.
  destruct H as [<-|[<-|[<-|[]]]];
    [exists FeatureCharacterVariants99|exists FeatureCharacterVariants99|exists FeatureJIS90Forms];
    (split; [intros t; discriminate|split; reflexivity]).
Qed.

Lemma languages_late tags d v : In v (late_languages d) ->
  exists w, language_named d w /\ language_cmp tags w v = Lt /\
    tag_order (language_tag v) (language_tag w) = Lt.
Proof.
  intros H. unfold late_languages in H. apply in_app_or in H. cbn [In] in H.
  destruct H as [H|H]; [destruct d; [|destruct H]; destruct H as [<-|[]]; exists LanguageDefault|
    destruct H as [<-|[<-|[<-|[<-|[<-|[<-|[<-|[]]]]]]]];
    [exists LanguageCherokee|exists LanguageCheyenne|exists LanguageIjolanguages|
     exists LanguageKikongo|exists LanguageSlovak|exists LanguageTulu|exists LanguageWalloon]];
    (split; [split; [intros t; discriminate|discriminate + reflexivity]|split; reflexivity]).
Qed.
