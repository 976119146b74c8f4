(** Where the cursor is after each read. *)

From Verif Require Import Reads ReadsTactics ProofWriter ProofWriterGsub ProofWriterTables
  ProofLayout ProofGsub ProofGpos
  ProofGdef ProofCpal ProofFvar ProofFont.
From Verif Require Export SpecCursor.
From Verif Require Import ProofPositions.

Section Cursor.
Variable e : env.
Hypothesis Hb : bounded (content e).

Definition ends {A} (m : M A) (en : A -> N) : Prop := forall p v q, m e p = Ok (v, q) -> q = p + en v.

Lemma consumes_ends {A} (m : M A) enc : consumes e m enc -> ends m (fun v => size (enc v)).
Proof. exact (fun H => H). Qed.

Definition small (o : N) : Prop := o < 2 ^ 32.

Lemma u16_took p v q : take_u16 e p = Ok (v, q) -> p < 2 ^ 63 /\ small v /\ q = p + 2.
Proof.
  intros H. apply (takes_holds _ _ _ _ _ _ _ (take_u16_takes False e p)) in H as [H ->].
  split; [exact (u16_position _ _ _ Hb H)|]. split; [|reflexivity].
  apply u16_bound in H. unfold small. lia.
Qed.

Lemma u32_took p v q : take_u32 e p = Ok (v, q) -> p < 2 ^ 63 /\ small v /\ q = p + 4.
Proof.
  intros H. apply (takes_holds _ _ _ _ _ _ _ (take_u32_takes False e p)) in H as [H ->].
  split; [exact (u32_position _ _ _ Hb H)|]. split; [|reflexivity].
  apply u32_bound in H. unfold small. lia.
Qed.

Lemma const_took c p v q : take_const take_u16 c e p = Ok (v, q) -> p < 2 ^ 63 /\ q = p + 2.
Proof.
  intros H. unfold take_const in H. step H. apply u16_took in E as (? & ? & ->).
  destruct (x =? c); [|discriminate H]. apply ret_ok in H as [_ ->]. auto.
Qed.

Lemma i16_took p v q : take_i16 e p = Ok (v, q) -> q = p + 2.
Proof. apply i16_ends. Qed.

Lemma flags_took mask p v q : take_flags mask e p = Ok (v, q) -> q = p + 2.
Proof. apply (takes_ends _ _ _ _ _ _ _ (take_flags_takes False e p mask)). Qed.

Lemma vec_took {A} (m : M A) (P : N -> A -> Prop) n (Q : A -> Prop) count p v q :
  (forall p, takes False m e p (P p) n) -> (forall p v, P p v -> Q v) ->
  take_vec count m e p = Ok (v, q) -> Forall Q v /\ q = p + n * count.
Proof.
  intros Hm HQ H. apply (takes_holds _ _ _ _ _ _ _ (take_vec_takes False e m P n count p Hm)) in
    H as [[_ H] ->].
  split; [|reflexivity]. apply Forall_forall. intros x Hx. apply In_nth_error in Hx as [i Hi].
  eapply HQ, H, Hi.
Qed.

Lemma u16s_took count p v q : take_vec count take_u16 e p = Ok (v, q) -> Forall small v /\ q = p + 2 * count.
Proof.
  apply (vec_took _ _ _ _ _ _ _ _ (take_u16_takes False e)). intros r x H. apply u16_bound in H.
  unfold small. lia.
Qed.

Lemma u32s_took count p v q : take_vec count take_u32 e p = Ok (v, q) -> Forall small v /\ q = p + 4 * count.
Proof.
  apply (vec_took _ _ _ _ _ _ _ _ (take_u32_takes False e)). intros r x H. apply u32_bound in H.
  unfold small. lia.
Qed.

Lemma actions_took count p v q : take_vec count read_action e p = Ok (v, q) -> q = p + 4 * count.
Proof.
  intros H. apply (vec_took _ _ _ (fun _ => True) _ _ _ _ (read_action_takes False e)) in H; tauto.
Qed.

Lemma header_took {A} (m : tag -> N -> A) (offset : A -> N) count p v q :
  (forall t o, offset (m t o) = o) ->
  take_vec count (t <- take_tag;; o <- take_u16;; ret (m t o)) e p = Ok (v, q) ->
  Forall small (map offset v) /\ q = p + 6 * count.
Proof.
  intros Hm. unfold take_vec, for_n. rewrite <- (N2Nat.id count) at 2.
  generalize (N.to_nat count) as n. intros n. generalize 0%nat as i. revert p v.
  induction n as [|n IH]; intros p v i H.
  - cbn [for_range] in H. apply ret_ok in H as [-> ->]. split; [constructor|]. cbn. lia.
  - cbn [for_range] in H. step H. step H. apply ret_ok in H as [-> ->].
    step E. step E. apply ret_ok in E as [-> ->]. apply tag_ends in E1 as ->.
    apply u16_took in E2 as (_ & S & ->).
    apply IH in E0 as [F ->]. split.
    + cbn. rewrite Hm. constructor; assumption.
    + lia.
Qed.

(** ** Jumps *)

Lemma near_sum base o : base < 2 ^ 63 -> small o -> base + o < 2 ^ 64.
Proof. unfold small. intros. assert (2 ^ 63 + 2 ^ 32 < 2 ^ 64) by reflexivity. lia. Qed.

Lemma jump_ends {A} (m : M A) en base o p v q : ends m en -> base < 2 ^ 63 -> small o ->
  jump_take base o m e p = Ok (v, q) -> q = base + (o + en v).
Proof.
  intros Hm B S H. apply jump_take_ok in H; [|apply near_sum; assumption]. apply Hm in H. lia.
Qed.

Lemma maybe_ends {A} (m : M A) en base o p v q : ends m en -> base < 2 ^ 63 -> small o -> base <= p ->
  jump_take_maybe base o m e p = Ok (v, q) -> q = base + maybe_end (p - base) o (option_map en v).
Proof.
  intros Hm B S L H. unfold jump_take_maybe in H. destruct (0 <? o).
  - step H. apply ret_ok in H as [-> ->]. exact (jump_ends _ _ _ _ _ _ _ Hm B S E).
  - apply ret_ok in H as [-> ->]. cbn [option_map maybe_end]. lia.
Qed.

Lemma skipn_nth {A} (l : list A) i x : nth_error l i = Some x -> skipn i l = x :: skipn (S i) l.
Proof.
  revert i. induction l as [|y l IH]; intros [|i] H; try discriminate H.
  - injection H as <-. reflexivity.
  - exact (IH i H).
Qed.

Lemma each_ends {A} (m : M A) en base offsets (off : nat -> M N) n i p v q :
  ends m en -> base < 2 ^ 63 -> Forall small offsets -> base <= p ->
  (forall i p o q, off i e p = Ok (o, q) -> nth_error offsets i = Some o /\ q = p) ->
  for_range i n (fun i => o <- off i;; jump_take base o m) e p = Ok (v, q) ->
  q = base + last_end (p - base) (skipn i offsets) (map en v).
Proof.
  intros Hm B F L Ho. revert i p v L. induction n as [|n IH]; intros i p v L H; cbn [for_range] in H.
  - apply ret_ok in H as [-> ->]. cbn [map]. destruct (skipn i offsets); cbn [last_end last_some_end]; lia.
  - step H. step H. apply ret_ok in H as [-> ->]. step E. apply Ho in E1 as [N ->].
    assert (S : small x1) by (eapply Forall_forall; [exact F|eapply nth_error_In, N]).
    apply (jump_ends _ _ _ _ _ _ _ Hm B S) in E. subst r.
    apply IH in E0; [|lia]. rewrite E0, (skipn_nth _ _ _ N). cbn [last_end map].
    do 2 f_equal. lia.
Qed.

Lemma index_ok {A B} (f : A -> B) (l : list A) i p o q :
  (h <- index l i;; ret (f h)) e p = Ok (o, q) -> nth_error (map f l) i = Some o /\ q = p.
Proof.
  intros H. step H. apply ret_ok in H as [-> ->]. unfold index in E.
  destruct (nth_error l i) eqn:N; [|discriminate E].
  apply ret_ok in E as [-> ->]. rewrite nth_error_map, N. auto.
Qed.

Lemma n_ends {A} (m : M A) en base offsets count p v q :
  ends m en -> base < 2 ^ 63 -> Forall small offsets -> base <= p ->
  jump_take_n base count offsets m e p = Ok (v, q) -> q = base + last_end (p - base) offsets (map en v).
Proof.
  intros Hm B F L H. refine (each_ends m en base offsets _ _ 0 p v q Hm B F L _ H).
  intros i r o s E. unfold index in E. destruct (nth_error offsets i); [|discriminate E].
  apply ret_ok in E as [-> ->]. auto.
Qed.

Lemma mapped_ends {A H} (m : M A) en base (f : H -> N) headers count p v q :
  ends m en -> base < 2 ^ 63 -> Forall small (map f headers) -> base <= p ->
  jump_take_each base count (fun i => h <- index headers i;; ret (f h)) m e p = Ok (v, q) ->
  q = base + last_end (p - base) (map f headers) (map en v).
Proof.
  intros Hm B F L E. refine (each_ends m en base _ _ _ 0 p v q Hm B F L _ E).
  intros i r o s. apply index_ok.
Qed.

Lemma maybe_n_ends {A} (m : M A) en base offsets count p v q :
  ends m en -> base < 2 ^ 63 -> Forall small offsets -> base <= p ->
  jump_take_maybe_n base count offsets m e p = Ok (v, q) ->
  q = base + last_some_end (p - base) offsets (map (option_map en) v).
Proof.
  intros Hm B F. unfold jump_take_maybe_n, for_n. change offsets with (skipn 0 offsets) at 2.
  generalize (N.to_nat count) as n. intros n. generalize 0%nat as i. revert p v.
  induction n as [|n IH]; intros p v i L H; cbn [for_range] in H.
  - apply ret_ok in H as [-> ->]. cbn [map]. destruct (skipn i offsets); cbn [last_end last_some_end]; lia.
  - step H. step H. apply ret_ok in H as [-> ->]. step E. unfold index in E1.
    destruct (nth_error offsets i) as [o|] eqn:N; [|discriminate E1]. apply ret_ok in E1 as [-> ->].
    assert (S : small o) by (eapply Forall_forall; [exact F|eapply nth_error_In, N]).
    apply (maybe_ends _ _ _ _ _ _ _ Hm B S L) in E. subst r.
    apply IH in E0; [|lia]. rewrite E0, (skipn_nth _ _ _ N). cbn [last_some_end map].
    do 2 f_equal. lia.
Qed.

Lemma for_ends {A} (f : nat -> M A) en count p v q :
  (forall i, ends (f i) en) -> for_n count f e p = Ok (v, q) -> q = p + sum (map en v).
Proof.
  intros Hf. unfold for_n. generalize (N.to_nat count) as n. intros n. generalize 0%nat as i. revert p v.
  induction n as [|n IH]; intros p v i H; cbn [for_range] in H.
  - apply ret_ok in H as [-> ->]. cbn. lia.
  - step H. step H. apply ret_ok in H as [-> ->]. apply Hf in E. apply IH in E0. cbn.
    fold (sum (map en x0)). lia.
Qed.

Lemma stay_ok {A} (m : M A) p v q : stay m e p = Ok (v, q) -> q = p.
Proof. unfold stay. destruct (m e p) as [[]| |]; try discriminate. intros H. injection H. auto. Qed.

Lemma list_ends {A} (m : M A) en base o default p v q : ends m en -> base < 2 ^ 63 -> small o -> base <= p ->
  jump_take_list base o m default e p = Ok (v, q) -> q = base + list_end (opts e) (p - base) o (en v).
Proof.
  intros Hm B S L H. unfold jump_take_list, list_end in *. step H. injection E as <- <-.
  destruct (ignore_incomplete_directories (opts e)); cbn [andb].
  - step H. apply ret_ok in H as [-> ->]. unfold jump_take_maybe in E.
    destruct (N.ltb_spec 0 o) as [G|G].
    + step E. apply ret_ok in E as [-> ->]. apply (jump_ends _ _ _ _ _ _ _ Hm B S) in E0.
      destruct (N.eqb_spec o 0); [lia|exact E0].
    + apply ret_ok in E as [-> ->]. destruct (N.eqb_spec o 0); lia.
  - exact (jump_ends _ _ _ _ _ _ _ Hm B S H).
Qed.
End Cursor.

(** ** Walking through a reader *)

Create HintDb cursor.

Ltac apart := first [eassumption | lia].

(** What a step did. *)
Ltac took Hb E :=
  lazymatch type of E with
  | get_position _ _ = _ => injection E as <- <-
  | take_u16 _ _ = _ => apply (u16_took _ Hb) in E as (? & ? & ->)
  | take_u32 _ _ = _ => apply (u32_took _ Hb) in E as (? & ? & ->)
  | take_i16 _ _ = _ => apply i16_took in E as ->
  | take_flags _ _ _ = _ => apply flags_took in E as ->
  | take_lookup_flags _ _ = _ => apply flags_took in E as ->
  | take_value_flags _ _ = _ => apply flags_took in E as ->
  | take_const take_u16 _ _ _ = _ => apply (const_took _ Hb) in E as (? & ->)
  | take_vec _ take_u16 _ _ = _ => apply u16s_took in E as (? & ->)
  | take_vec _ take_u32 _ _ = _ => apply u32s_took in E as (? & ->)
  | take_vec _ read_action _ _ = _ => apply actions_took in E as ->
  | take_vec _ read_language_header _ _ = _ =>
      apply (header_took _ Hb mkLanguageHeader language_header_offset _ _ _ _ (fun _ _ => eq_refl))
        in E as (? & ->)
  | take_vec _ read_script_header _ _ = _ =>
      apply (header_took _ Hb mkScriptHeader script_header_offset _ _ _ _ (fun _ _ => eq_refl)) in E as (? & ->)
  | take_vec _ read_feature_header _ _ = _ =>
      apply (header_took _ Hb mkFeatureHeader feature_header_offset _ _ _ _ (fun _ _ => eq_refl)) in
        E as (? & ->)
  | jump_take _ _ _ _ _ = _ => eapply jump_ends in E; [|solve [eauto with cursor]|apart|apart]; subst
  | jump_take_maybe _ _ _ _ _ = _ => eapply maybe_ends in E;
    [|solve [eauto with cursor]|apart|apart|apart]; subst
  | jump_take_n _ _ _ _ _ _ = _ => eapply n_ends in E; [|solve [eauto with cursor]|apart|apart|apart]; subst
  | jump_take_each _ _ _ _ _ _ = _ => eapply mapped_ends in E;
    [|solve [eauto with cursor]|apart|apart|apart]; subst
  | jump_take_maybe_n _ _ _ _ _ _ = _ => eapply maybe_n_ends in E;
    [|solve [eauto with cursor]|apart|apart|apart]; subst
  | jump_take_list _ _ _ _ _ _ = _ => eapply list_ends in E;
    [|solve [eauto with cursor]|apart|apart|apart]; subst
  | stay _ _ _ = _ => apply stay_ok in E; subst
  | for_n _ _ _ _ = _ => eapply for_ends in E; [|solve [intros; eauto with cursor]]; subst
  | _ => idtac
  end.

Ltac walk Hb H :=
  repeat (let x := fresh "x" in let r := fresh "r" in let E := fresh "E" in
    apply bind_ok in H as (x & r & E & H); took Hb E);
  try (lazymatch type of Hb with bounded (content ?e) => apply (ret_ok e) in H as [-> ->] end).

(** Both sides have the same parts. *)
Ltac plainly := cbn -[N.add N.mul N.sub N.of_nat N.eqb size sum last_end maybe_end last_some_end list_end].

Ltac level :=
  plainly;
  lazymatch goal with
  | |- ?a = ?a => reflexivity
  | |- ?b + ?x = ?b + ?y => apply (f_equal (N.add b)); level
  | |- last_end _ ?b ?c = last_end _ ?b ?c => apply (f_equal (fun s => last_end s b c)); level
  | |- last_some_end _ ?b ?c = last_some_end _ ?b ?c => apply (f_equal (fun s => last_some_end s b c)); level
  | |- _ = maybe_end ?s _ None => change (maybe_end s _ None) with s; level
  | |- maybe_end _ ?b ?c = maybe_end _ ?b ?c => apply (f_equal (fun s => maybe_end s b c)); level
  | |- list_end ?o _ ?b ?c = list_end ?o _ ?b ?c => apply (f_equal (fun s => list_end o s b c)); level
  | |- ?b + ?x - ?b = ?y => transitivity x; [lia|level]
  | |- _ => lia
  end.

Ltac variants H :=
  repeat match type of H with context [match ?x with _ => _ end _ _] => is_var x; destruct x;
    try discriminate H end.

Section Layout.
Variable e : env.
Hypothesis Hb : bounded (content e).
Notation ends := (ends e).

Lemma coverage_ends : ends read_coverage coverage_end.
Proof. exact (coverage_consumed e). Qed.
Lemma class_ends : ends read_class class_end.
Proof. exact (class_consumed e). Qed.
Lemma correction_ends : ends read_correction correction_end.
Proof. exact (correction_consumed e). Qed.
Lemma context_record_ends : ends read_context_record (fun r => size (context_record_bytes r)).
Proof. exact (context_record_consumed e). Qed.
Lemma context_class_record_ends : ends read_context_class_record (fun r => size (context_class_record_bytes r)).
Proof. exact (context_class_record_consumed e). Qed.
Lemma chained_record_ends : ends read_chained_record (fun r => size (chained_record_bytes r)).
Proof. exact (chained_record_consumed e). Qed.
Lemma chained_class_record_ends : ends read_chained_class_record (fun r => size (chained_class_record_bytes r)).
Proof. exact (chained_class_record_consumed e). Qed.
Lemma language_record_ends : ends read_language_record language_record_end.
Proof. exact (language_record_consumed e). Qed.
Hint Resolve coverage_ends class_ends correction_ends context_record_ends context_class_record_ends
  chained_record_ends chained_class_record_ends language_record_ends : cursor.

Lemma context_records_ends : ends read_context_records context_records_end.
Proof. intros p v q H. unfold read_context_records in H. walk Hb H. unfold context_records_end. level. Qed.

Lemma context_class_records_ends : ends read_context_class_records context_class_records_end.
Proof. intros p v q H. unfold read_context_class_records in H. walk Hb H.
  unfold context_class_records_end. level. Qed.

Lemma chained_records_ends : ends read_chained_records chained_records_end.
Proof. intros p v q H. unfold read_chained_records in H. walk Hb H. unfold chained_records_end. level. Qed.

Lemma chained_class_records_ends : ends read_chained_class_records chained_class_records_end.
Proof. intros p v q H. unfold read_chained_class_records in H. walk Hb H.
  unfold chained_class_records_end. level. Qed.
Hint Resolve context_records_ends context_class_records_ends chained_records_ends
  chained_class_records_ends : cursor.

Lemma context_ends : ends read_context context_end.
Proof.
  intros p v q H. apply peek_ok in H as [x H].
  variants H; step H; apply ret_ok in H as [-> ->]; rename E into H.
  - unfold read_context3 in H. walk Hb H. unfold context_end. level.
  - unfold read_context2 in H. walk Hb H. unfold context_end. level.
  - unfold read_context1 in H. walk Hb H. unfold context_end. level.
Qed.

Lemma chained_context_ends : ends read_chained_context chained_context_end.
Proof.
  intros p v q H. apply peek_ok in H as [x H].
  variants H; step H; apply ret_ok in H as [-> ->]; rename E into H.
  - unfold read_chained_context3 in H. walk Hb H. unfold chained_context_end. level.
  - unfold read_chained_context2 in H. walk Hb H. unfold chained_context_end. level.
  - unfold read_chained_context1 in H. walk Hb H. unfold chained_context_end. level.
Qed.

Lemma script_record_ends : ends read_script_record script_record_end.
Proof. intros p v q H. unfold read_script_record in H. walk Hb H. unfold script_record_end. level. Qed.
Hint Resolve script_record_ends : cursor.

Lemma scripts_ends : ends read_scripts scripts_end.
Proof. intros p v q H. unfold read_scripts in H. walk Hb H. unfold scripts_end. level. Qed.

Lemma feature_record_ends : ends read_feature_record feature_record_end.
Proof.
  intros p v q H. unfold read_feature_record in H. walk Hb H. unfold feature_record_end. plainly.
  match type of E with (if 0 <? ?o then _ else _) _ _ = _ => destruct (0 <? o) end.
  - step E. step E. step E. apply ret_ok in E as [-> ->].
    match goal with K : add_u64 _ _ _ _ = _ |- _ => apply add_ok in K as [-> _];
      [|apply near_sum; assumption] end.
    match goal with K : jump _ _ _ = _ |- _ => injection K as <- <- end.
    match goal with K : take_vec 0 _ _ _ = _ |- _ => injection K as <- <- end. cbn [option_map maybe_end]. lia.
  - apply ret_ok in E as [-> ->]. cbn [option_map maybe_end]. lia.
Qed.
Hint Resolve feature_record_ends : cursor.

Lemma features_ends : ends read_features features_end.
Proof. intros p v q H. unfold read_features in H. walk Hb H. unfold features_end. level. Qed.

Lemma lookup_record_ends {T} (read_table : N -> M T) en :
  (forall t, ends (read_table t) en) -> ends (read_lookup_record read_table) (lookup_record_end en).
Proof.
  intros Ht p v q H. unfold read_lookup_record in H.
  do 5 (let x := fresh "x" in let r := fresh "r" in let E := fresh "E" in
    apply bind_ok in H as (x & r & E & H); took Hb E).
  apply bind_ok in H as (set & r & E & H).
  match type of E with _ _ ?s = _ =>
    assert (Es : r = s + match set with Some _ => 2 | None => 0 end) end.
  { match type of E with (if ?b then _ else _) _ _ = _ => destruct b end.
    - step E. apply ret_ok in E as [-> ->]. apply (u16_took _ Hb) in E0 as (_ & _ & ->). reflexivity.
    - apply ret_ok in E as [-> ->]. lia. }
  subst r. clear E. walk Hb H. unfold lookup_record_end. level.
Qed.

Lemma lookups_ends {T} (read_table : N -> M T) en :
  (forall t, ends (read_table t) en) -> ends (read_lookups read_table) (lookups_end en).
Proof.
  intros Ht p v q H. pose proof (lookup_record_ends read_table en Ht) as Hr.
  unfold read_lookups in H. walk Hb H. unfold lookups_end. level.
Qed.
Hint Resolve scripts_ends features_ends : cursor.

Lemma variations_ends : ends read_feature_variations (fun _ => 8).
Proof. intros p v q H. apply feature_variations_consumed in H. destruct v. exact H. Qed.
Hint Resolve variations_ends : cursor.

Lemma directory_ends {T} (read_table : N -> M T) en :
  (forall t, ends (read_table t) en) -> ends (read_directory read_table) (directory_end (opts e) en).
Proof.
  intros Ht p v q H. pose proof (lookups_ends read_table en Ht) as Hl.
  unfold read_directory in H.
  apply bind_ok in H as (position & r & E & H). took Hb E.
  apply bind_ok in H as (major & r & E & H). took Hb E.
  apply bind_ok in H as (minor & r & E & H). took Hb E.
  apply bind_ok in H as (u & r & E & H).
  destruct ((major =? 1) && ((minor =? 0) || (minor =? 1))) eqn:V; [|discriminate E].
  apply ret_ok in E as [-> ->].
  apply bind_ok in H as (a & r & E & H). took Hb E.
  apply bind_ok in H as (b & r & E & H). took Hb E.
  apply bind_ok in H as (c & r & E & H). took Hb E.
  apply bind_ok in H as (d & r & E & H).
  assert (Es : small d /\ r = p + (if minor =? 1 then 14 else 10)).
  { apply andb_true_iff in V as [V1 V]. rewrite V1 in E. cbn [andb] in E. destruct (minor =? 1).
    - apply (u32_took _ Hb) in E as (_ & ? & ->). split; [assumption|lia].
    - apply ret_ok in E as [-> ->]. split; [reflexivity|lia]. }
  clear E. destruct Es as [S ->]. walk Hb H. unfold directory_end. level.
Qed.

Lemma store_record_ends : ends read_store_record store_record_end.
Proof.
  intros p v q H. unfold read_store_record in H. walk Hb H. step E.
  apply (vec_ends _ _ _ _ _ _ _ _ (take_u8_takes False e)) in E. subst.
  unfold add_u16, add_wrapping in E0. step E0. injection E as <- <-. unfold store_record_end. plainly.
  match type of E0 with (if ?b then _ else _) _ _ = _ => destruct b end; [apply ret_ok in E0 as [_ ->]; lia|].
  destruct (overflow_checks (opts e)); [discriminate E0|apply ret_ok in E0 as [_ ->]; lia].
Qed.
Hint Resolve store_record_ends : cursor.

Lemma store_ends : ends read_store store_end.
Proof. intros p v q H. unfold read_store in H. walk Hb H. unfold store_end. level. Qed.
End Layout.

#[export] Hint Resolve coverage_ends class_ends correction_ends context_ends chained_context_ends
  store_ends : cursor.

Section Tables.
Variable e : env.
Hypothesis Hb : bounded (content e).
Notation ends := (ends e).

(** ** GDEF *)

Lemma attachment_ends : ends read_attachment attachment_end.
Proof. exact (attachment_consumed e). Qed.
Hint Resolve attachment_ends : cursor.

Lemma attachments_ends : ends read_attachments attachments_end.
Proof. intros p v q H. unfold read_attachments in H. walk Hb H. unfold attachments_end. level. Qed.

Lemma caret_ends : ends read_caret caret_end.
Proof.
  intros p v q H. apply peek_ok in H as [x H].
  variants H; step H; apply ret_ok in H as [-> ->]; rename E into H.
  - unfold read_caret3 in H. walk Hb H. unfold caret_end. level.
  - unfold read_caret2 in H. walk Hb H. unfold caret_end. level.
  - unfold read_caret1 in H. walk Hb H. unfold caret_end. level.
Qed.
Hint Resolve caret_ends : cursor.

Lemma gdef_ligature_ends : ends read_gdef_ligature gdef_ligature_end.
Proof. intros p v q H. unfold read_gdef_ligature in H. walk Hb H. unfold gdef_ligature_end. level. Qed.
Hint Resolve gdef_ligature_ends : cursor.

Lemma gdef_ligatures_ends : ends read_gdef_ligatures gdef_ligatures_end.
Proof. intros p v q H. unfold read_gdef_ligatures in H. walk Hb H. unfold gdef_ligatures_end. level. Qed.

Lemma marks_ends : ends read_marks marks_end.
Proof. intros p v q H. unfold read_marks in H. walk Hb H. unfold marks_end. level. Qed.
Hint Resolve attachments_ends gdef_ligatures_ends marks_ends : cursor.

Lemma small_0 : small 0.
Proof. reflexivity. Qed.
Hint Resolve small_0 : core.

Lemma definition_ends : ends read_glyph_definition definition_end.
Proof.
  intros p v q H. unfold read_glyph_definition in H. step H. took Hb E. step H.
  apply peek_ok in E as [k E]. unfold definition_end.
  variants E; step E; apply ret_ok in E as [-> ->].
  - unfold read_gdef_header13 in E0. walk Hb E0.
    cbn [gdef_glyph_class_offset gdef_attachment_offset gdef_ligature_offset gdef_mark_class_offset
      gdef_mark_offset gdef_mark_offset_of_version13 gdef_header13_glyph_class_offset
        gdef_header13_attachment_offset
      gdef_header13_ligature_offset gdef_header13_mark_class_offset gdef_header13_mark_offset] in H.
    walk Hb H. level.
  - unfold read_gdef_header12 in E0. walk Hb E0.
    cbn [gdef_glyph_class_offset gdef_attachment_offset gdef_ligature_offset gdef_mark_class_offset
      gdef_mark_offset gdef_mark_offset_of_version13 gdef_header12_glyph_class_offset
        gdef_header12_attachment_offset
      gdef_header12_ligature_offset gdef_header12_mark_class_offset gdef_header12_mark_offset] in H.
    walk Hb H. level.
  - unfold read_gdef_header1 in E0. walk Hb E0.
    cbn [gdef_glyph_class_offset gdef_attachment_offset gdef_ligature_offset gdef_mark_class_offset
      gdef_mark_offset gdef_mark_offset_of_version13 gdef_header1_glyph_class_offset
        gdef_header1_attachment_offset
      gdef_header1_ligature_offset gdef_header1_mark_class_offset] in H.
    walk Hb H. level.
Qed.

(** ** GSUB *)

Lemma sequence_ends : ends read_sequence (fun r => size (sequence_bytes r)).
Proof. exact (sequence_consumed e). Qed.
Lemma alternates_ends : ends read_alternates (fun r => size (alternates_bytes r)).
Proof. exact (alternates_consumed e). Qed.
Lemma ligature_ends : ends read_ligature (fun r => size (ligature_bytes r)).
Proof. exact (ligature_consumed e). Qed.
Hint Resolve sequence_ends alternates_ends ligature_ends : cursor.

Lemma ligatures_ends : ends read_ligatures ligatures_end.
Proof. intros p v q H. unfold read_ligatures in H. walk Hb H. unfold ligatures_end. level. Qed.
Hint Resolve ligatures_ends : cursor.

Lemma single_substitution_ends : ends read_single_substitution
  (fun v => gsub_type_end (GsubSingleSubstitution v)).
Proof.
  intros p v q H. apply peek_ok in H as [x H].
  variants H; step H; apply ret_ok in H as [-> ->]; rename E into H.
  - unfold read_single_substitution2 in H. walk Hb H. unfold gsub_type_end. level.
  - unfold read_single_substitution1 in H. walk Hb H. unfold gsub_type_end. level.
Qed.

Lemma multiple_substitution_ends : ends read_multiple_substitution
  (fun v => gsub_type_end (GsubMultipleSubstitution v)).
Proof. intros p v q H. unfold read_multiple_substitution in H. walk Hb H. unfold gsub_type_end. level. Qed.

Lemma alternate_substitution_ends : ends read_alternate_substitution
  (fun v => gsub_type_end (GsubAlternateSubstitution v)).
Proof. intros p v q H. unfold read_alternate_substitution in H. walk Hb H. unfold gsub_type_end. level. Qed.

Lemma ligature_substitution_ends : ends read_ligature_substitution
  (fun v => gsub_type_end (GsubLigatureSubstitution v)).
Proof. intros p v q H. unfold read_ligature_substitution in H. walk Hb H. unfold gsub_type_end. level. Qed.

Lemma extension_substitution_ends : ends read_extension_substitution
  (fun v => gsub_type_end (GsubExtensionSubstitution v)).
Proof. intros p v q H. unfold read_extension_substitution in H. walk Hb H. unfold gsub_type_end. level. Qed.

Lemma reverse_chained_contextual_substibution_ends :
  ends read_reverse_chained_contextual_substibution
    (fun v => gsub_type_end (GsubReverseChainedContextualSubstibution v)).
Proof. intros p v q H. unfold read_reverse_chained_contextual_substibution in H. walk Hb H.
  unfold gsub_type_end. level. Qed.

Lemma gsub_type_ends type_ : ends (read_gsub_type type_) gsub_type_end.
Proof.
  intros p v q H. unfold read_gsub_type in H.
  variants H; step H; apply ret_ok in H as [-> ->];
  first [exact (single_substitution_ends _ _ _ E) | exact (multiple_substitution_ends _ _ _ E)
    | exact (alternate_substitution_ends _ _ _ E) | exact (ligature_substitution_ends _ _ _ E) |
      exact (extension_substitution_ends _ _ _ E) | exact
        (reverse_chained_contextual_substibution_ends _ _ _ E) | exact (context_ends e Hb _ _ _ E) |
          exact (chained_context_ends e Hb _ _ _ E)].
Qed.

(** ** GPOS *)

Lemma anchor_ends : ends read_anchor anchor_end.
Proof.
  intros p v q H. apply peek_ok in H as [x H].
  variants H; step H; apply ret_ok in H as [-> ->]; rename E into H.
  - unfold read_anchor3 in H. walk Hb H. unfold anchor_end. level.
  - unfold read_anchor2 in H. walk Hb H. unfold anchor_end. level.
  - unfold read_anchor1 in H. walk Hb H. unfold anchor_end. level.
Qed.
Hint Resolve anchor_ends : cursor.

Lemma words_ends count p v q :
  take_vec count take_u16 e p = Ok (v, q) -> q = p + 2 * N.of_nat (length v).
Proof. apply u16s_ends. Qed.

Lemma base_ends position n : ends (read_base position n)
  (fun r => 2 * N.of_nat (length (base_anchor_offsets r))).
Proof.
  intros p v q H. unfold read_base in H. step H. apply words_ends in E. step H. apply stay_ok in E0.
  apply ret_ok in H as [-> ->]. subst. reflexivity.
Qed.

Lemma mark2_ends position n : ends (read_mark2 position n)
  (fun r => 2 * N.of_nat (length (mark2_anchor_offsets r))).
Proof.
  intros p v q H. unfold read_mark2 in H. step H. apply words_ends in E. step H. apply stay_ok in E0.
  apply ret_ok in H as [-> ->]. subst. reflexivity.
Qed.
Hint Resolve base_ends mark2_ends : cursor.

Lemma bases_ends n : ends (read_bases n) bases_end.
Proof. intros p v q H. unfold read_bases in H. walk Hb H. unfold bases_end. plainly. lia. Qed.

Lemma mark2s_ends n : ends (read_mark2s n) mark2s_end.
Proof. intros p v q H. unfold read_mark2s in H. walk Hb H. unfold mark2s_end. plainly. lia. Qed.

Lemma gpos_ligatures_ends n : ends (read_gpos_ligatures n) gpos_ligatures_end.
Proof. intros p v q H. unfold read_gpos_ligatures in H. walk Hb H. unfold gpos_ligatures_end. level. Qed.
Hint Resolve bases_ends mark2s_ends gpos_ligatures_ends : cursor.

Lemma take_if_ends {A} b (m : M A) p v q :
  (forall p v q, m e p = Ok (v, q) -> q = p + 2) -> take_if b m e p = Ok (v, q) -> q = p + field v.
Proof.
  intros Hm H. unfold take_if in H. destruct b.
  - step H. apply ret_ok in H as [-> ->]. exact (Hm _ _ _ E).
  - apply ret_ok in H as [-> ->]. cbn [field]. lia.
Qed.

Lemma single_ends position flags : ends (read_single position flags) single_end.
Proof.
  intros p v q H. unfold read_single in H.
  do 4 (let x := fresh "x" in let r := fresh "r" in let E := fresh "E" in
    apply bind_ok in H as (x & r & E & H); apply take_if_ends in E; [|apply i16_ends]).
  do 4 (let x := fresh "x" in let r := fresh "r" in let E := fresh "E" in
    apply bind_ok in H as (x & r & E & H); apply take_if_ends in E; [|apply u16_ends]).
  step H. apply stay_ok in E7. destruct x7 as [[[? ?] ?] ?]. apply ret_ok in H as [-> ->].
  unfold single_end. plainly. lia.
Qed.

Lemma value_ends position flags p v q :
  (if 0 <? flags then v <- read_single position flags;; ret (Some v) else ret None) e p = Ok (v, q) ->
  q = p + value_end v.
Proof.
  destruct (0 <? flags); intros H.
  - step H. apply ret_ok in H as [-> ->]. exact (single_ends _ _ _ _ _ E).
  - apply ret_ok in H as [-> ->]. cbn [value_end]. lia.
Qed.

Lemma pair1_ends position a b : ends (read_pair1 position a b)
  (fun r => 2 + value_end (pair1_value1 r) + value_end (pair1_value2 r)).
Proof.
  intros p v q H. unfold read_pair1 in H. step H. took Hb E. step H. step H. apply value_ends in E, E0.
  apply ret_ok in H as [-> ->]. plainly. lia.
Qed.
Hint Resolve pair1_ends : cursor.

Lemma pair1s_ends a b : ends (read_pair1s a b) pair1s_end.
Proof. intros p v q H. unfold read_pair1s in H. walk Hb H. unfold pair1s_end. plainly. lia. Qed.
Hint Resolve pair1s_ends : cursor.

(** Parts are left for an offset from the beginning of the table, wherever they end. *)
Ltac pass Hb H :=
  repeat (let x := fresh "x" in let r := fresh "r" in let E := fresh "E" in
    apply bind_ok in H as (x & r & E & H); try took Hb E);
  lazymatch type of Hb with bounded (content ?e) => apply (ret_ok e) in H as [-> ->] end.

Lemma single_adjustment_ends : ends read_single_adjustment (fun v => gpos_type_end (GposSingleAdjustment v)).
Proof.
  intros p v q H. apply peek_ok in H as [x H].
  variants H; step H; apply ret_ok in H as [-> ->]; rename E into H.
  - unfold read_single_adjustment2 in H. pass Hb H. unfold gpos_type_end. level.
  - unfold read_single_adjustment1 in H. pass Hb H. unfold gpos_type_end. level.
Qed.

Lemma pair_adjustment_ends : ends read_pair_adjustment (fun v => gpos_type_end (GposPairAdjustment v)).
Proof.
  intros p v q H. apply peek_ok in H as [x H].
  variants H; step H; apply ret_ok in H as [-> ->]; rename E into H.
  - unfold read_pair_adjustment2 in H. pass Hb H. unfold gpos_type_end. level.
  - unfold read_pair_adjustment1 in H. pass Hb H. unfold gpos_type_end. level.
Qed.

Lemma cursive_attachment_ends : ends read_cursive_attachment (fun v => gpos_type_end (GposCursiveAttachment v)).
Proof. intros p v q H. unfold read_cursive_attachment in H. pass Hb H. unfold gpos_type_end. level. Qed.

Lemma mark_to_base_attachment_ends :
  ends read_mark_to_base_attachment (fun v => gpos_type_end (GposMarkToBaseAttachment v)).
Proof. intros p v q H. unfold read_mark_to_base_attachment in H. pass Hb H. unfold gpos_type_end. level. Qed.

Lemma mark_to_ligature_attachment_ends :
  ends read_mark_to_ligature_attachment (fun v => gpos_type_end (GposMarkToLigatureAttachment v)).
Proof. intros p v q H. unfold read_mark_to_ligature_attachment in H. pass Hb H.
  unfold gpos_type_end. level. Qed.

Lemma mark_to_mark_attachment_ends :
  ends read_mark_to_mark_attachment (fun v => gpos_type_end (GposMarkToMarkAttachment v)).
Proof. intros p v q H. unfold read_mark_to_mark_attachment in H. pass Hb H. unfold gpos_type_end. level. Qed.

Lemma extension_positioning_ends : ends read_extension_positioning
  (fun v => gpos_type_end (GposExtensionPositioning v)).
Proof. intros p v q H. unfold read_extension_positioning in H. pass Hb H. unfold gpos_type_end. level. Qed.

Lemma gpos_type_ends type_ : ends (read_gpos_type type_) gpos_type_end.
Proof.
  intros p v q H. unfold read_gpos_type in H.
  variants H; step H; apply ret_ok in H as [-> ->];
  first [exact (single_adjustment_ends _ _ _ E) | exact (pair_adjustment_ends _ _ _ E)
    | exact (cursive_attachment_ends _ _ _ E) | exact (mark_to_base_attachment_ends _ _ _ E) | exact
      (mark_to_ligature_attachment_ends _ _ _ E) | exact (mark_to_mark_attachment_ends _ _ _ E) |
        exact (extension_positioning_ends _ _ _ E) | exact (context_ends e Hb _ _ _ E) | exact
          (chained_context_ends e Hb _ _ _ E)].
Qed.

End Tables.

Theorem cursor_ends {A} (r : request A) o f p v q :
  bounded f -> reader r (mkEnv f o) p = Ok (v, q) -> q = p + cursor_end o r v.
Proof.
  intros Hb H. destruct r; cbn [reader cursor_end] in *.
  - exact (file_consumed _ _ _ _ _ H).
  - exact (font_consumed _ _ _ _ _ H).
  - exact (definition_ends (mkEnv f o) Hb _ _ _ H).
  - exact (directory_ends (mkEnv f o) Hb _ _ (gpos_type_ends (mkEnv f o) Hb) _ _ _ H).
  - exact (directory_ends (mkEnv f o) Hb _ _ (gsub_type_ends (mkEnv f o) Hb) _ _ _ H).
  - exact (color_palettes_ends (mkEnv f o) Hb _ _ _ H).
  - exact (font_variations_ends (mkEnv f o) Hb _ _ _ H).
Qed.
