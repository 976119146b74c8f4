(** Which glyphs the rules of contexts apply to. *)

From Verif Require Import ReadsTactics ProofFindings ProofRequests ProofPieces ProofReads.
From Verif Require Export SpecRules ProofMeaning.

#[local] Arguments N.mul : simpl never.
#[local] Arguments N.add : simpl never.
#[local] Arguments N.sub : simpl never.

(** ** Runs and actions *)

Lemma Forall2_iff {A B} (V W : A -> B -> Prop) l xs :
  (forall a b, V a b <-> W a b) -> (Forall2 V l xs <-> Forall2 W l xs).
Proof. intros E. split; intros H; (induction H; constructor; [apply E|]; assumption). Qed.

Lemma run_iff f q n ws (V W : N -> N -> Prop) xs :
  u16s_at f q n ws -> (forall w g, V w g <-> W w g) -> (Forall2 V ws xs <-> run_at f q n W xs).
Proof.
  intros H E. rewrite (Forall2_iff V W ws xs E). split.
  - intros F. exists ws. auto.
  - intros (ws' & H' & F). rewrite (vec_fun _ _ _ _ _ H H'). exact F.
Qed.

Lemma run_glyphs f q n ws xs : u16s_at f q n ws -> (xs = ws <-> run_at f q n eq xs).
Proof.
  intros H. rewrite <- (run_iff f q n ws eq eq xs H ltac:(tauto)). split.
  - intros ->. induction ws in |- *; constructor; auto.
  - intros F. clear H. induction F; congruence.
Qed.

Lemma run_classes f q n ws p v xs :
  u16s_at f q n ws -> class_at f p v -> (Forall2 (by_class v) ws xs <-> run_at f q n (by_class_at f p) xs).
Proof. intros H C. apply (run_iff _ _ _ _ _ _ _ H). intros w g. exact (or_zero_iff _ _ _ _ _ C). Qed.

Lemma by_coverage_iff f p x v g : coverage_at f (p + x) v -> (by_coverage v g <-> by_coverage_at f p x g).
Proof. intros C. split; intros (i & H); exists i; apply (covers_iff _ _ _ _ _ C), H. Qed.

Lemma run_coverages f q n ws p vs xs :
  u16s_at f q n ws -> linked_at (coverage_at f) p ws vs ->
  (Forall2 by_coverage vs xs <-> run_at f q n (by_coverage_at f p) xs).
Proof.
  intros H L. rewrite <- (run_iff f q n ws _ (by_coverage_at f p) xs H (fun w g => iff_refl _)). clear H.
  revert xs. induction L as [|w v ws vs C L IH]; intros xs; split; intros F; inversion F; subst; constructor.
  - apply (by_coverage_iff _ _ _ _ _ C). assumption.
  - apply IH. assumption.
  - apply (by_coverage_iff _ _ _ _ _ C). assumption.
  - apply IH. assumption.
Qed.

Lemma actions_iff f q n actions actions' : actions_at f q n actions -> (actions' = actions <-> actions_at f q n actions').
Proof.
  intros H. split; [intros ->; exact H|]. intros H'. apply nth_error_same. destruct H as [L V], H' as [L' V']. intros i.
  destruct (nth_error actions i) as [a|] eqn:E, (nth_error actions' i) as [b|] eqn:E'; try reflexivity.
  - f_equal. specialize (V _ _ E). specialize (V' _ _ E'). destruct a, b. cbn in *. destruct V as (A & B), V' as (C & D).
    rewrite (u16_fun _ _ _ _ A C), (u16_fun _ _ _ _ B D). reflexivity.
  - apply nth_error_None in E'. assert (i < length actions)%nat by (apply nth_error_Some; rewrite E; discriminate). lia.
  - apply nth_error_None in E. assert (i < length actions')%nat by (apply nth_error_Some; rewrite E'; discriminate). lia.
Qed.

(** ** Rules *)

Lemma rule_iff f q n m (V : list N -> Prop) admits actions rest actions' :
  u16_at f q n -> u16_at f (q + 2) m -> (V rest <-> run_at f (q + 4) (n - 1) admits rest) ->
  actions_at f (q + 4 + 2 * (n - 1)) m actions ->
  (V rest /\ actions' = actions <-> rule_at f q admits rest actions').
Proof.
  intros Hn Hm R A. split.
  - intros (H & E). exists n, m. apply R in H. apply (actions_iff _ _ _ _ _ A) in E. auto.
  - intros (n' & m' & Hn' & Hm' & H & E). rewrite (u16_fun _ _ _ _ Hn' Hn), (u16_fun _ _ _ _ Hm' Hm) in *.
    split; [apply R, H|apply (actions_iff _ _ _ _ _ A), E].
Qed.

Lemma chained_rule_iff f q a b c d (U V W : list N -> Prop) A1 A2 A3 actions before rest after actions' :
  u16_at f q a -> u16_at f (q + 2 + 2 * a) b -> u16_at f (q + 4 + 2 * a + 2 * (b - 1)) c ->
  u16_at f (q + 6 + 2 * a + 2 * (b - 1) + 2 * c) d ->
  (U before <-> run_at f (q + 2) a A1 before) -> (V rest <-> run_at f (q + 4 + 2 * a) (b - 1) A2 rest) ->
  (W after <-> run_at f (q + 6 + 2 * a + 2 * (b - 1)) c A3 after) ->
  actions_at f (q + 8 + 2 * a + 2 * (b - 1) + 2 * c) d actions ->
  (U before /\ V rest /\ W after /\ actions' = actions <-> chained_rule_at f q A1 A2 A3 before rest after actions').
Proof.
  intros Ha Hb Hc Hd RU RV RW A. split.
  - intros (HU & HV & HW & E). exists a, b, c, d. apply RU in HU. apply RV in HV. apply RW in HW.
    apply (actions_iff _ _ _ _ _ A) in E. auto 10.
  - intros (a' & b' & c' & d' & Ha' & HU & Hb' & HV & Hc' & HW & Hd' & E).
    rewrite (u16_fun _ _ _ _ Ha' Ha) in *. rewrite (u16_fun _ _ _ _ Hb' Hb) in *. rewrite (u16_fun _ _ _ _ Hc' Hc) in *.
    rewrite (u16_fun _ _ _ _ Hd' Hd) in *. apply RU in HU. apply RV in HV. apply RW in HW.
    apply (actions_iff _ _ _ _ _ A) in E. auto.
Qed.

Lemma one_rule_iff {A} f s m offsets (elem : N -> A -> Prop) records (P : A -> Prop) rule :
  u16_at f s m -> u16s_at f (s + 2) m offsets -> linked_at elem s offsets records ->
  (forall q r, elem q r -> (P r <-> rule q)) -> ((exists r, In r records /\ P r) <-> one_rule_at f s rule).
Proof.
  intros Hm Ho L R. split.
  - intros (r & I & H). apply in_entry in I. destruct I as (j & E).
    destruct (link_down _ _ _ _ _ _ _ _ _ Ho L E) as (x & Hj & Hx & Hr). exists m, j, x. apply (R _ _ Hr) in H. auto.
  - intros (m' & j & x & Hm' & Hj & Hx & H). rewrite (u16_fun _ _ _ _ Hm' Hm) in Hj.
    destruct (link_up _ _ _ _ _ _ _ _ _ Ho L Hj Hx) as (r & E & Hr). exists r. apply (R _ _ Hr) in H. split; [|exact H].
    apply in_entry. eauto.
Qed.

(** ** Contexts *)

Lemma applies_iff f p v xs actions : context_at f p v -> (applies v xs actions <-> applies_at f p xs actions).
Proof.
  destruct v as [[format c n offsets coverage records]|[format c d n offsets coverage class records]|
    [format n m offsets acts coverages]]; cbn [context_at applies].
  - cbn. intros (-> & Hf & Hc & Hn & Ho & C & L).
    assert (R : forall rest q v, context_records_at f q v ->
      ((exists r, In r (context_records_records v) /\ rest = context_record_glyph_ids r /\ actions = context_record_actions r) <->
       one_rule_at f q (fun q => rule_at f q eq rest actions))).
    { intros rest q [m os rs]. cbn. intros (Hm & Hos & Hrs). apply (one_rule_iff _ _ _ _ _ _ _ _ Hm Hos Hrs).
      intros q' [a b ids acts]. cbn. intros (Ha & Hb & _ & Hids & Hacts).
      exact (rule_iff _ _ _ _ (fun rest => rest = ids) _ _ _ _ Ha Hb (run_glyphs _ _ _ _ _ Hids) Hacts). }
    split.
    + intros (g & i & set & r & Hg & Es & Hr & -> & ->). apply (covers_iff _ _ _ _ _ C) in Hg.
      destruct (link_down _ _ _ _ _ _ _ _ _ Ho L Es) as (x & Hi & Hx & Hs).
      left. split; [exact Hf|]. eexists g, _, c, i, n, x. split; [reflexivity|]. do 5 (split; [assumption|]).
      apply (R _ _ _ Hs). eauto.
    + intros [(_ & g & rest & c' & i & n' & x & -> & Hc' & Hg & Hn' & Hi & Hx & H)|[(Hf' & _)|(Hf' & _)]];
        [|discriminate (u16_fun _ _ _ _ Hf Hf')|discriminate (u16_fun _ _ _ _ Hf Hf')].
      rewrite (u16_fun _ _ _ _ Hc' Hc) in Hg. rewrite (u16_fun _ _ _ _ Hn' Hn) in Hi. apply (covers_iff _ _ _ _ _ C) in Hg.
      destruct (link_up _ _ _ _ _ _ _ _ _ Ho L Hi Hx) as (set & Es & Hs). apply (R _ _ _ Hs) in H.
      destruct H as (r & Hr & -> & ->). exists g, i, set, r. auto.
  - cbn. intros (-> & Hf & Hc & Hd & Hn & Ho & C & K & L).
    assert (R : forall rest q v, context_class_records_at f q v ->
      ((exists r, In r (context_class_records_records v) /\ Forall2 (by_class class) (context_class_record_indices r) rest /\
         actions = context_class_record_actions r) <->
       one_rule_at f q (fun q => rule_at f q (by_class_at f (p + d)) rest actions))).
    { intros rest q [m os rs]. cbn. intros (Hm & Hos & Hrs). apply (one_rule_iff _ _ _ _ _ _ _ _ Hm Hos Hrs).
      intros q' [a b ids acts]. cbn. intros (Ha & Hb & _ & Hids & Hacts).
      exact (rule_iff _ _ _ _ (Forall2 (by_class class) ids) _ _ _ _ Ha Hb (run_classes _ _ _ _ _ _ _ Hids K) Hacts). }
    split.
    + intros (g & rest & i & k & set & r & Hg & Hk & Es & Hr & -> & Hrest & Ha). apply (covers_iff _ _ _ _ _ C) in Hg.
      apply (or_zero_iff _ _ _ _ _ K) in Hk. destruct (maybe_down _ _ _ _ _ _ _ _ _ Ho L Es) as (x & Hi & Hx & Hz & Hs).
      right. left. split; [exact Hf|]. exists g, rest, c, i, d, k, n, x. split; [reflexivity|]. do 8 (split; [assumption|]).
      apply (R _ _ _ Hs). eauto.
    + intros [(Hf' & _)|[(_ & g & rest & c' & i & d' & k & n' & x & -> & Hc' & Hg & Hd' & Hk & Hn' & Hi & Hx & Hz & H)|(Hf' & _)]];
        [discriminate (u16_fun _ _ _ _ Hf Hf')| |discriminate (u16_fun _ _ _ _ Hf Hf')].
      rewrite (u16_fun _ _ _ _ Hc' Hc) in Hg. rewrite (u16_fun _ _ _ _ Hd' Hd) in *. rewrite (u16_fun _ _ _ _ Hn' Hn) in Hi.
      apply (covers_iff _ _ _ _ _ C) in Hg. apply (or_zero_iff _ _ _ _ _ K) in Hk.
      destruct (maybe_up _ _ _ _ _ _ _ _ Ho L Hi) as (x' & set & Es & Hx' & Hs).
      rewrite (u16_fun _ _ _ _ Hx' Hx) in Hs. destruct set as [set|]; [|contradiction]. destruct Hs as (_ & Hs).
      apply (R _ _ _ Hs) in H. destruct H as (r & Hr & Hrest & Ha). exists g, rest, i, k, set, r. auto 10.
  - cbn. intros (-> & Hf & Hn & Hm & Ho & Ha & L). split.
    + intros (H & E). right. right. split; [exact Hf|]. exists n, m. apply (run_coverages _ _ _ _ _ _ _ Ho L) in H.
      apply (actions_iff _ _ _ _ _ Ha) in E. auto.
    + intros [(Hf' & _)|[(Hf' & _)|(_ & n' & m' & Hn' & Hm' & H & E)]];
        [discriminate (u16_fun _ _ _ _ Hf Hf')|discriminate (u16_fun _ _ _ _ Hf Hf')|].
      rewrite (u16_fun _ _ _ _ Hn' Hn), (u16_fun _ _ _ _ Hm' Hm) in *. apply (run_coverages _ _ _ _ _ _ _ Ho L) in H.
      apply (actions_iff _ _ _ _ _ Ha) in E. auto.
Qed.

Lemma applies_between_iff f p v before xs after actions :
  chained_context_at f p v -> (applies_between v before xs after actions <-> applies_between_at f p before xs after actions).
Proof.
  destruct v as [[format c n offsets coverage records]|[format c d1 d2 d3 n offsets coverage class1 class2 class3 records]|
    [format n1 offsets1 n2 offsets2 n3 offsets3 m acts coverages1 coverages2 coverages3]]; cbn [chained_context_at applies_between].
  - cbn. intros (-> & Hf & Hc & Hn & Ho & C & L).
    assert (R : forall rest q v, chained_records_at f q v ->
      ((exists r, In r (chained_records_records v) /\ before = chained_record_backward_glyph_ids r /\
         rest = chained_record_glyph_ids r /\ after = chained_record_forward_glyph_ids r /\ actions = chained_record_actions r) <->
       one_rule_at f q (fun q => chained_rule_at f q eq eq eq before rest after actions))).
    { intros rest q [m os rs]. cbn. intros (Hm & Hos & Hrs). apply (one_rule_iff _ _ _ _ _ _ _ _ Hm Hos Hrs).
      intros q' [a1 ids1 a2 ids2 a3 ids3 b acts]. cbn. intros (Ha1 & Hids1 & Ha2 & _ & Hids2 & Ha3 & Hids3 & Hb & Hacts).
      exact (chained_rule_iff _ _ _ _ _ _ (fun l => l = ids1) (fun l => l = ids2) (fun l => l = ids3) _ _ _ _ _ _ _ _ Ha1 Ha2 Ha3 Hb
        (run_glyphs _ _ _ _ _ Hids1) (run_glyphs _ _ _ _ _ Hids2) (run_glyphs _ _ _ _ _ Hids3) Hacts). }
    split.
    + intros (g & i & set & r & Hg & Es & Hr & E1 & -> & E3 & E4). apply (covers_iff _ _ _ _ _ C) in Hg.
      destruct (link_down _ _ _ _ _ _ _ _ _ Ho L Es) as (x & Hi & Hx & Hs).
      left. split; [exact Hf|]. eexists g, _, c, i, n, x. split; [reflexivity|]. do 5 (split; [assumption|]).
      apply (R _ _ _ Hs). exists r. auto.
    + intros [(_ & g & rest & c' & i & n' & x & -> & Hc' & Hg & Hn' & Hi & Hx & H)|[(Hf' & _)|(Hf' & _)]];
        [|discriminate (u16_fun _ _ _ _ Hf Hf')|discriminate (u16_fun _ _ _ _ Hf Hf')].
      rewrite (u16_fun _ _ _ _ Hc' Hc) in Hg. rewrite (u16_fun _ _ _ _ Hn' Hn) in Hi. apply (covers_iff _ _ _ _ _ C) in Hg.
      destruct (link_up _ _ _ _ _ _ _ _ _ Ho L Hi Hx) as (set & Es & Hs). apply (R _ _ _ Hs) in H.
      destruct H as (r & Hr & E1 & -> & E3 & E4). exists g, i, set, r. auto 10.
  - cbn. intros (-> & Hf & Hc & Hd1 & Hd2 & Hd3 & Hn & Ho & C & K1 & K2 & K3 & L).
    assert (R : forall rest q v, chained_class_records_at f q v ->
      ((exists r, In r (chained_class_records_records v) /\
         Forall2 (by_class class1) (chained_class_record_backward_indices r) before /\
         Forall2 (by_class class2) (chained_class_record_indices r) rest /\
         Forall2 (by_class class3) (chained_class_record_forward_indices r) after /\
         actions = chained_class_record_actions r) <->
       one_rule_at f q (fun q => chained_rule_at f q (by_class_at f (p + d1)) (by_class_at f (p + d2)) (by_class_at f (p + d3))
         before rest after actions))).
    { intros rest q [m os rs]. cbn. intros (Hm & Hos & Hrs). apply (one_rule_iff _ _ _ _ _ _ _ _ Hm Hos Hrs).
      intros q' [a1 ids1 a2 ids2 a3 ids3 b acts]. cbn. intros (Ha1 & Hids1 & Ha2 & _ & Hids2 & Ha3 & Hids3 & Hb & Hacts).
      exact (chained_rule_iff _ _ _ _ _ _ (Forall2 (by_class class1) ids1) (Forall2 (by_class class2) ids2)
        (Forall2 (by_class class3) ids3) _ _ _ _ _ _ _ _ Ha1 Ha2 Ha3 Hb
        (run_classes _ _ _ _ _ _ _ Hids1 K1) (run_classes _ _ _ _ _ _ _ Hids2 K2) (run_classes _ _ _ _ _ _ _ Hids3 K3) Hacts). }
    split.
    + intros (g & rest & i & k & set & r & Hg & Hk & Es & Hr & -> & E1 & E2 & E3 & E4). apply (covers_iff _ _ _ _ _ C) in Hg.
      apply (or_zero_iff _ _ _ _ _ K2) in Hk. destruct (maybe_down _ _ _ _ _ _ _ _ _ Ho L Es) as (x & Hi & Hx & Hz & Hs).
      right. left. split; [exact Hf|]. exists g, rest, c, i, d1, d2, d3, k, n, x. split; [reflexivity|].
      do 10 (split; [assumption|]). apply (R _ _ _ Hs). exists r. auto.
    + intros [(Hf' & _)|[(_ & g & rest & c' & i & d1' & d2' & d3' & k & n' & x & -> & Hc' & Hg & Hd1' & Hd2' & Hd3' & Hk & Hn' & Hi & Hx & Hz & H)|(Hf' & _)]];
        [discriminate (u16_fun _ _ _ _ Hf Hf')| |discriminate (u16_fun _ _ _ _ Hf Hf')].
      rewrite (u16_fun _ _ _ _ Hc' Hc) in Hg. rewrite (u16_fun _ _ _ _ Hd1' Hd1) in *. rewrite (u16_fun _ _ _ _ Hd2' Hd2) in *.
      rewrite (u16_fun _ _ _ _ Hd3' Hd3) in *. rewrite (u16_fun _ _ _ _ Hn' Hn) in Hi.
      apply (covers_iff _ _ _ _ _ C) in Hg. apply (or_zero_iff _ _ _ _ _ K2) in Hk.
      destruct (maybe_up _ _ _ _ _ _ _ _ Ho L Hi) as (x' & set & Es & Hx' & Hs).
      rewrite (u16_fun _ _ _ _ Hx' Hx) in Hs. destruct set as [set|]; [|contradiction]. destruct Hs as (_ & Hs).
      apply (R _ _ _ Hs) in H. destruct H as (r & Hr & E1 & E2 & E3 & E4). exists g, rest, i, k, set, r. auto 15.
  - cbn. intros (-> & Hf & Hn1 & Ho1 & Hn2 & Ho2 & Hn3 & Ho3 & Hm & Ha & L1 & L2 & L3). split.
    + intros (H1 & H2 & H3 & E). right. right. split; [exact Hf|]. exists n1, n2, n3, m.
      apply (run_coverages _ _ _ _ _ _ _ Ho1 L1) in H1. apply (run_coverages _ _ _ _ _ _ _ Ho2 L2) in H2.
      apply (run_coverages _ _ _ _ _ _ _ Ho3 L3) in H3. apply (actions_iff _ _ _ _ _ Ha) in E. auto 10.
    + intros [(Hf' & _)|[(Hf' & _)|(_ & n1' & n2' & n3' & m' & Hn1' & H1 & Hn2' & H2 & Hn3' & H3 & Hm' & E)]];
        [discriminate (u16_fun _ _ _ _ Hf Hf')|discriminate (u16_fun _ _ _ _ Hf Hf')|].
      rewrite (u16_fun _ _ _ _ Hn1' Hn1) in *. rewrite (u16_fun _ _ _ _ Hn2' Hn2) in *. rewrite (u16_fun _ _ _ _ Hn3' Hn3) in *.
      rewrite (u16_fun _ _ _ _ Hm' Hm) in *.
      apply (run_coverages _ _ _ _ _ _ _ Ho1 L1) in H1. apply (run_coverages _ _ _ _ _ _ _ Ho2 L2) in H2.
      apply (run_coverages _ _ _ _ _ _ _ Ho3 L3) in H3. apply (actions_iff _ _ _ _ _ Ha) in E. auto.
Qed.

Lemma replaces_between_iff f p v before x after y :
  reverse_chained_contextual_substibution_at f p v ->
  (replaces_between v before x after y <-> replaces_between_at f p before x after y).
Proof.
  destruct v as [format c a offsets1 b offsets2 n ids coverage coverages1 coverages2]. cbn.
  intros (Hf & Hc & Ha & Ho1 & Hb & Ho2 & Hn & Hids & C & L1 & L2). split.
  - intros (i & Hi & H1 & H2 & E). cbn in *. apply (covers_iff _ _ _ _ _ C) in Hi.
    apply (run_coverages _ _ _ _ _ _ _ Ho1 L1) in H1. apply (run_coverages _ _ _ _ _ _ _ Ho2 L2) in H2.
    destruct (vec_entry _ _ _ _ _ _ _ Hids E) as (Ii & Hy). exists c, i, a, b, n. auto 10.
  - intros (c' & i & a' & b' & n' & Hc' & Hi & Ha' & H1 & Hb' & H2 & Hn' & Ii & Hy).
    rewrite (u16_fun _ _ _ _ Hc' Hc) in *. rewrite (u16_fun _ _ _ _ Ha' Ha) in *. rewrite (u16_fun _ _ _ _ Hb' Hb) in *.
    rewrite (u16_fun _ _ _ _ Hn' Hn) in *. destruct (vec_nth _ _ _ _ _ _ Hids Ii) as (y' & E & Hy').
    rewrite (u16_fun _ _ _ _ Hy Hy'). apply (covers_iff _ _ _ _ _ C) in Hi.
    apply (run_coverages _ _ _ _ _ _ _ Ho1 L1) in H1. apply (run_coverages _ _ _ _ _ _ _ Ho2 L2) in H2.
    exists i. cbn. auto.
Qed.

(** ** Subtables *)

Lemma gsub_rule_iff ty f q t before xs after actions :
  gsub_type_at ty f q t -> (gsub_rule t before xs after actions <-> rule_of_at f q 5 ty before xs after actions).
Proof.
  unfold rule_of_at. destruct t as [t|t|t|t|t|t|t|t]; cbn [gsub_type_at gsub_rule]; intros (-> & H).
  5: { rewrite (applies_iff _ _ _ _ _ H). split; [auto|]. intros [(_ & K)|(E & _)]; [exact K|discriminate E]. }
  5: { rewrite (applies_between_iff _ _ _ _ _ _ _ H). split; [auto|]. intros [(E & _)|(_ & K)]; [discriminate E|exact K]. }
  all: split; [contradiction|]; intros [(E & _)|(E & _)]; discriminate E.
Qed.

Lemma gpos_rule_iff o ty f q t before xs after actions :
  gpos_type_at o ty f q t -> (gpos_rule t before xs after actions <-> rule_of_at f q 7 ty before xs after actions).
Proof.
  unfold rule_of_at. destruct t as [t|t|t|t|t|t|t|t|t]; cbn [gpos_type_at gpos_rule]; intros (-> & H).
  7: { rewrite (applies_iff _ _ _ _ _ H). split; [auto|]. intros [(_ & K)|(E & _)]; [exact K|discriminate E]. }
  7: { rewrite (applies_between_iff _ _ _ _ _ _ _ H). split; [auto|]. intros [(E & _)|(_ & K)]; [discriminate E|exact K]. }
  all: split; [contradiction|]; intros [(E & _)|(E & _)]; discriminate E.
Qed.

Lemma gsub_reverse_iff ty f q t before x after y :
  gsub_type_at ty f q t -> (gsub_reverse t before x after y <-> ty = 8 /\ replaces_between_at f q before x after y).
Proof.
  destruct t as [t|t|t|t|t|t|t|t]; cbn [gsub_type_at gsub_reverse]; intros (-> & H).
  8: { rewrite (replaces_between_iff _ _ _ _ _ _ _ H). tauto. }
  all: split; [contradiction|]; intros (E & _); discriminate E.
Qed.

(** ** What is read *)

Lemma context_means o f p v xs actions :
  bounded f -> reads o read_context f p v -> (applies v xs actions <-> applies_at f p xs actions).
Proof. intros B H. apply applies_iff. exact (proj1 (piece_reads PieceContext o f p v B eq_refl) H). Qed.

Lemma chained_context_means o f p v before xs after actions :
  bounded f -> reads o read_chained_context f p v ->
  (applies_between v before xs after actions <-> applies_between_at f p before xs after actions).
Proof. intros B H. apply applies_between_iff. exact (proj1 (piece_reads PieceChainedContext o f p v B eq_refl) H). Qed.

Lemma reverse_means o f p v before x after y :
  bounded f -> reads o read_reverse_chained_contextual_substibution f p v ->
  (replaces_between v before x after y <-> replaces_between_at f p before x after y).
Proof.
  intros B H. apply replaces_between_iff.
  exact (proj1 (piece_reads PieceReverseChainedContextualSubstibution o f p v B eq_refl) H).
Qed.

Lemma gsub_rules_mean o f p v k j :
  bounded f -> reads o read_glyph_substitution f p v ->
  (forall before xs after actions, (exists t, in_lookup v k j t /\ gsub_rule t before xs after actions) <->
    (exists q ty, in_lookup_at o f p k j q ty /\ rule_of_at f q 5 ty before xs after actions)) /\
  (forall before x after y, (exists t, in_lookup v k j t /\ gsub_reverse t before x after y) <->
    (exists q, in_lookup_at o f p k j q 8 /\ replaces_between_at f q before x after y)).
Proof.
  intros B H. apply (request_reads RequestGsub o f p v B) in H. cbn in H. split.
  - intros before xs after actions. split.
    + intros (t & I & R). destruct (lookup_down _ _ _ _ _ _ _ _ H I) as (q & ty & I' & Ht).
      exists q, ty. split; [exact I'|]. apply (gsub_rule_iff _ _ _ _ _ _ _ _ Ht), R.
    + intros (q & ty & I & R). destruct (lookup_up _ _ _ _ _ _ _ _ _ H I) as (t & I' & Ht).
      exists t. split; [exact I'|]. apply (gsub_rule_iff _ _ _ _ _ _ _ _ Ht), R.
  - intros before x after y. split.
    + intros (t & I & R). destruct (lookup_down _ _ _ _ _ _ _ _ H I) as (q & ty & I' & Ht).
      apply (gsub_reverse_iff _ _ _ _ _ _ _ _ Ht) in R. destruct R as (-> & R). exists q. auto.
    + intros (q & I & R). destruct (lookup_up _ _ _ _ _ _ _ _ _ H I) as (t & I' & Ht).
      exists t. split; [exact I'|]. apply (gsub_reverse_iff _ _ _ _ _ _ _ _ Ht). auto.
Qed.

Lemma gpos_rules_mean o f p v k j before xs after actions :
  bounded f -> reads o read_glyph_positioning f p v ->
  ((exists t, in_lookup v k j t /\ gpos_rule t before xs after actions) <->
   (exists q ty, in_lookup_at o f p k j q ty /\ rule_of_at f q 7 ty before xs after actions)).
Proof.
  intros B H. apply (request_reads RequestGpos o f p v B) in H. cbn in H. split.
  - intros (t & I & R). destruct (lookup_down _ _ _ _ _ _ _ _ H I) as (q & ty & I' & Ht).
    exists q, ty. split; [exact I'|]. apply (gpos_rule_iff _ _ _ _ _ _ _ _ _ Ht), R.
  - intros (q & ty & I & R). destruct (lookup_up _ _ _ _ _ _ _ _ _ H I) as (t & I' & Ht).
    exists t. split; [exact I'|]. apply (gpos_rule_iff _ _ _ _ _ _ _ _ _ Ht), R.
Qed.
