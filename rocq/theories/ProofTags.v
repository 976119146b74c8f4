(** Lemmas about the conversions between tags and the enumerations. *)

From Verif Require Export ModelTags SpecTags.
From Verif Require Import ProofFont.
From Coq Require Import Ascii String.

Lemma first_row_tag {A} (tag_of : A -> tag) rows t v :
  forallb (fun row => tag_eqb (tag_of (snd row)) (fst row)) rows = true ->
  first_row rows t = Some v -> tag_of v = t.
Proof.
  intros Hrows. induction rows as [|[t' w] rows IH]; cbn; [discriminate|].
  cbn in Hrows. apply andb_true_iff in Hrows. destruct Hrows as [Hrow Hrows].
  destruct (tag_eqb t' t) eqn:Heq.
  - intros H. injection H as <-. apply tag_eqb_eq in Heq, Hrow. congruence.
  - apply IH, Hrows.
Qed.

Lemma feature_of_tag_tag t : feature_tag (feature_from_tag t) = t.
Proof.
  unfold feature_from_tag. destruct (first_row feature_rows t) eqn:H; [|reflexivity].
  revert H. apply first_row_tag. vm_compute. reflexivity.
Qed.

Lemma script_of_tag_tag t : script_tag (script_from_tag t) = t.
Proof.
  unfold script_from_tag. destruct (first_row script_rows t) eqn:H; [|reflexivity].
  revert H. apply first_row_tag. vm_compute. reflexivity.
Qed.

Lemma language_of_tag_tag default_language t :
  language_tag (language_from_tag default_language t) = t.
Proof.
  unfold language_from_tag.
  destruct (first_row (language_rows_of default_language) t) eqn:H; [|reflexivity].
  revert H. apply first_row_tag. destruct default_language; vm_compute; reflexivity.
Qed.

(** One goal per variant. *)
Lemma feature_tag_of_tag v : feature_named v -> feature_from_tag (feature_tag v) = v.
Proof.
  assert (H : match v with FeatureOther _ => True | _ => feature_from_tag (feature_tag v) = v end)
    by (destruct v; vm_compute; constructor).
  intros Hv. destruct v; first [exact H | destruct (Hv _ eq_refl)].
Qed.

Lemma script_tag_of_tag v : script_named v -> v <> ScriptKatakana -> script_from_tag (script_tag v) = v.
Proof.
  assert (H : match v with
    | ScriptOther _ | ScriptKatakana => True
    | _ => script_from_tag (script_tag v) = v end) by (destruct v; vm_compute; constructor).
  intros Hv Hk. destruct v; first [exact H | congruence | destruct (Hv _ eq_refl)].
Qed.

Lemma language_tag_of_tag default_language v :
  language_named default_language v ->
  language_from_tag default_language (language_tag v) = v.
Proof.
  assert (H : match v with
    | LanguageOther _ => True
    | LanguageDefault => language_from_tag true (language_tag v) = v
    | _ => language_from_tag default_language (language_tag v) = v end)
    by (destruct default_language, v; vm_compute; constructor).
  intros [Hv Hd]. destruct v; first [exact H | destruct (Hv _ eq_refl) | rewrite (Hd eq_refl); exact H].
Qed.

(** A value converted from a tag is [Other] exactly when no named variant has the tag. *)
Lemma feature_other_iff t :
  feature_from_tag t = FeatureOther t <-> forall v, feature_named v -> feature_tag v <> t.
Proof.
  split.
  - intros H v Hv <-. rewrite feature_tag_of_tag in H by assumption. exact (Hv _ H).
  - intros H. destruct (feature_from_tag t) eqn:E.
    all: try (exfalso; refine (H _ _ (eq_trans (f_equal feature_tag (eq_sym E)) (feature_of_tag_tag t)));
      intros ?; discriminate).
    f_equal. rewrite <- (feature_of_tag_tag t), E. reflexivity.
Qed.

Lemma script_other_iff t :
  script_from_tag t = ScriptOther t <-> forall v, script_named v -> script_tag v <> t.
Proof.
  split.
  - intros H v Hv <-.
    assert (Hk : v = ScriptKatakana \/ v <> ScriptKatakana)
      by (destruct v; first [left; reflexivity | right; discriminate]).
    destruct Hk as [-> | Hk]; [vm_compute in H; discriminate H|].
    rewrite script_tag_of_tag in H by assumption. exact (Hv _ H).
  - intros H. destruct (script_from_tag t) eqn:E.
    all: try (exfalso; refine (H _ _ (eq_trans (f_equal script_tag (eq_sym E)) (script_of_tag_tag t)));
      intros ?; discriminate).
    f_equal. rewrite <- (script_of_tag_tag t), E. reflexivity.
Qed.

Lemma language_rows_named default_language t v :
  first_row (language_rows_of default_language) t = Some v ->
  match v with LanguageOther _ => false | LanguageDefault => default_language | _ => true end = true.
Proof.
  assert (H : forallb (fun row =>
    match snd row with LanguageOther _ => false | LanguageDefault => default_language | _ => true end)
    (language_rows_of default_language) = true) by (destruct default_language; vm_compute; reflexivity).
  induction (language_rows_of default_language) as [|[t' w] rows IH]; cbn; [discriminate|].
  cbn in H. apply andb_true_iff in H. destruct H as [Hw H].
  destruct (tag_eqb t' t); [intros Hv; injection Hv as <-; exact Hw|auto].
Qed.

Lemma language_from_tag_named default_language t :
  language_from_tag default_language t = LanguageOther t \/
  language_named default_language (language_from_tag default_language t).
Proof.
  unfold language_from_tag.
  destruct (first_row (language_rows_of default_language) t) eqn:H; [|left; reflexivity].
  right. apply language_rows_named in H. split.
  - intros t' ->. discriminate H.
  - intros ->. exact H.
Qed.

Lemma language_other_iff default_language t :
  language_from_tag default_language t = LanguageOther t <->
  forall v, language_named default_language v -> language_tag v <> t.
Proof.
  split.
  - intros H v Hv <-. rewrite language_tag_of_tag in H by assumption. exact (proj1 Hv _ H).
  - intros H. destruct (language_from_tag_named default_language t) as [E|Hn]; [exact E|].
    destruct (H _ Hn (language_of_tag_tag _ _)).
Qed.

(** ** Names and codes *)

Definition lower_caseb (c : ascii) : bool := (97 <=? N_of_ascii c) && (N_of_ascii c <=? 122).

Definition iso_codeb (s : string) : bool :=
  match s with
  | String a (String b (String c EmptyString)) => lower_caseb a && lower_caseb b && lower_caseb c
  | _ => false
  end.

Lemma lower_caseb_sound c : lower_caseb c = true -> lower_case c.
Proof.
  unfold lower_caseb, lower_case. intros H. apply andb_true_iff in H. destruct H as [H1 H2].
  apply N.leb_le in H1, H2. auto.
Qed.

Lemma iso_codeb_sound s : iso_codeb s = true -> iso_code s.
Proof.
  destruct s as [|a [|b [|c [|d s]]]]; cbn; try discriminate. intros H.
  apply andb_true_iff in H. destruct H as [H Hc]. apply andb_true_iff in H. destruct H as [Ha Hb].
  exists a, b, c. repeat split; now apply lower_caseb_sound.
Qed.

Fixpoint distinctb (l : list string) : bool :=
  match l with
  | [] => true
  | s :: l => negb (existsb (String.eqb s) l) && distinctb l
  end.

Lemma distinctb_sound l : distinctb l = true -> NoDup l.
Proof.
  induction l as [|s l IH]; cbn; [constructor|]. intros H.
  apply andb_true_iff in H. destruct H as [Hs H]. constructor; [|auto].
  intros Hin. apply negb_true_iff in Hs. rewrite <- not_true_iff_false in Hs. apply Hs.
  apply existsb_exists. exists s. split; [assumption|apply String.eqb_refl].
Qed.

Lemma language_codes_checked v :
  forallb iso_codeb (language_codes v) && distinctb (language_codes v) = true.
Proof. destruct v; vm_compute; reflexivity. Qed.

Lemma language_code_iso v code : In code (language_codes v) -> iso_code code.
Proof.
  intros H. apply iso_codeb_sound.
  pose proof (language_codes_checked v) as Hv. apply andb_true_iff in Hv.
  destruct Hv as [Hv _]. rewrite forallb_forall in Hv. auto.
Qed.

Lemma language_codes_distinct v : NoDup (language_codes v).
Proof.
  apply distinctb_sound.
  pose proof (language_codes_checked v) as Hv. apply andb_true_iff in Hv. tauto.
Qed.

Lemma feature_name_named v :
  match v with
  | FeatureOther _ => feature_name v = None
  | _ => exists c s, feature_name v = Some (String c s)
  end.
Proof. destruct v; first [reflexivity | eexists _, _; reflexivity]. Qed.

Lemma script_name_named v :
  match v with
  | ScriptOther _ => script_name v = None
  | _ => exists c s, script_name v = Some (String c s)
  end.
Proof. destruct v; first [reflexivity | eexists _, _; reflexivity]. Qed.

Lemma language_name_named v :
  match v with
  | LanguageOther _ => language_name v = None
  | _ => exists c s, language_name v = Some (String c s)
  end.
Proof. destruct v; first [reflexivity | eexists _, _; reflexivity]. Qed.

(** ** Summaries *)

Lemma tags_round_trip default_language t :
  feature_tag (feature_from_tag t) = t /\ script_tag (script_from_tag t) = t /\
  language_tag (language_from_tag default_language t) = t.
Proof.
  split; [apply feature_of_tag_tag|]. split; [apply script_of_tag_tag|apply language_of_tag_tag].
Qed.

Lemma feature_tag_injective v w :
  feature_named v -> feature_named w -> feature_tag v = feature_tag w -> v = w.
Proof.
  intros Hv Hw H. rewrite <- (feature_tag_of_tag v Hv), H. apply feature_tag_of_tag, Hw.
Qed.

Lemma language_tag_injective default_language v w :
  language_named default_language v -> language_named default_language w ->
  language_tag v = language_tag w -> v = w.
Proof.
  intros Hv Hw H. rewrite <- (language_tag_of_tag _ v Hv), H. apply language_tag_of_tag, Hw.
Qed.

Lemma katakana_or v : v = ScriptKatakana \/ v <> ScriptKatakana.
Proof. destruct v; first [left; reflexivity | right; discriminate]. Qed.

Lemma script_lost v : script_named v -> (script_from_tag (script_tag v) <> v <-> v = ScriptKatakana).
Proof.
  intros Hv. split.
  - intros H. destruct (katakana_or v) as [E|E]; [exact E|].
    destruct (H (script_tag_of_tag v Hv E)).
  - intros ->. vm_compute. discriminate.
Qed.

(** The property fails. *)
Lemma script_round_trip_fails :
  script_named ScriptKatakana /\ script_named ScriptHiragana /\
  script_tag ScriptKatakana = script_tag ScriptHiragana /\
  script_from_tag (script_tag ScriptKatakana) = ScriptHiragana /\
  ScriptHiragana <> ScriptKatakana.
Proof. repeat split; try (intros t; discriminate); discriminate. Qed.

Lemma names_present v : (feature_name v = None <-> exists t, v = FeatureOther t) /\
  feature_name v <> Some EmptyString.
Proof.
  pose proof (feature_name_named v) as H. split.
  - split; [|intros [t ->]; exact H]. intros E. destruct v; try (destruct H as (c & s & H); congruence). eauto.
  - intros E. destruct v; try (destruct H as (c & s & H); congruence). congruence.
Qed.

Lemma script_names_present v : (script_name v = None <-> exists t, v = ScriptOther t) /\
  script_name v <> Some EmptyString.
Proof.
  pose proof (script_name_named v) as H. split.
  - split; [|intros [t ->]; exact H]. intros E. destruct v; try (destruct H as (c & s & H); congruence). eauto.
  - intros E. destruct v; try (destruct H as (c & s & H); congruence). congruence.
Qed.

Lemma language_names_present v : (language_name v = None <-> exists t, v = LanguageOther t) /\
  language_name v <> Some EmptyString.
Proof.
  pose proof (language_name_named v) as H. split.
  - split; [|intros [t ->]; exact H]. intros E. destruct v; try (destruct H as (c & s & H); congruence). eauto.
  - intros E. destruct v; try (destruct H as (c & s & H); congruence). congruence.
Qed.

Lemma codes_well_formed v :
  (forall code, In code (language_codes v) -> iso_code code) /\ NoDup (language_codes v) /\
  forall t, language_codes (LanguageOther t) = [].
Proof.
  split; [apply language_code_iso|]. split; [apply language_codes_distinct|reflexivity].
Qed.
