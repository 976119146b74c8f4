(** Which ligatures and rules are preferred. *)

From Verif Require Import ReadsTactics ProofFindings ProofRequests ProofPieces ProofReads.
From Verif Require Export SpecRanks ProofRules.

#[local] Arguments N.mul : simpl never.
#[local] Arguments N.add : simpl never.
#[local] Arguments N.sub : simpl never.

(** ** Ligatures *)

Lemma replaces_as_iff f p ty t rank xs ys :
  gsub_type_at ty f p t -> (replaces_as t rank xs ys <-> replaces_as_at f p ty rank xs ys).
Proof.
  intros T. pose proof (replaces_iff _ _ _ _ xs ys T) as I. revert T. unfold replaces_as_at.
  destruct t as [t|t|t|[format c n offsets coverage records]|t|t|t|t]; cbn [gsub_type_at replaces_as]; intros (-> & H).
  4: { cbn in H |- *. destruct H as (Hf & _ & Hc & Hn & Ho & Hv & L). split.
    - intros (g & i & r & l & Hg & Er & El & -> & ->). right. split; [reflexivity|]. apply (covers_iff _ _ _ _ _ Hv) in Hg.
      destruct (link_down _ _ _ _ _ _ _ _ _ Ho L Er) as (x & Hi & Hx & Hr). destruct r as [m os ls]. cbn in Hr, El.
      destruct Hr as (Hm & Hos & Hls). destruct (link_down _ _ _ _ _ _ _ _ _ Hos Hls El) as (z & Hj & Hz & Hl).
      destruct l as [y k rest]. cbn in Hl |- *. destruct Hl as (Hy & Hk & _ & Hrest).
      exists g, rest, c, i, n, x, m, z, y, k. auto 15.
    - intros [(E & _)|(_ & g & rest & c' & i & n' & x & m & z & y & k & -> & Hc' & Hg & Hn' & Hi & Hx & Hm & Hj & Hz & Hy & Hk & Hrest & ->)];
        [destruct (E eq_refl)|].
      rewrite (u16_fun _ _ _ _ Hc' Hc) in Hg. apply (covers_iff _ _ _ _ _ Hv) in Hg.
      rewrite (u16_fun _ _ _ _ Hn' Hn) in Hi.
      destruct (link_up _ _ _ _ _ _ _ _ _ Ho L Hi Hx) as ([m' os ls] & E & Hm' & Hos & Hls).
      rewrite (u16_fun _ _ _ _ Hm Hm') in Hj.
      destruct (link_up _ _ _ _ _ _ _ _ _ Hos Hls Hj Hz) as ([y' k' rest'] & Ej & Hy' & Hk' & _ & Hrest').
      exists g, i, (mkLigatures m' os ls), (mkLigature y' k' rest'). cbn. rewrite (u16_fun _ _ _ _ Hk Hk') in Hrest.
      rewrite (u16_fun _ _ _ _ Hy Hy'), (vec_fun _ _ _ _ _ Hrest Hrest'). auto 10. }
  all: rewrite I; split; [intros (-> & R); left; split; [discriminate|auto]|];
    intros [(_ & R)|(E & _)]; [exact R|discriminate E].
Qed.

(** ** Rules *)

Lemma ranked_rule_iff {A} f s rank m offsets (elem : N -> A -> Prop) records (P : A -> Prop) rule :
  u16_at f s m -> u16s_at f (s + 2) m offsets -> linked_at elem s offsets records ->
  (forall q r, elem q r -> (P r <-> rule q)) ->
  ((exists r, entry records rank = Some r /\ P r) <-> ranked_rule_at f s rank rule).
Proof.
  intros Hm Ho L R. split.
  - intros (r & E & H).
    destruct (link_down _ _ _ _ _ _ _ _ _ Ho L E) as (x & Hj & Hx & Hr). exists m, x. apply (R _ _ Hr) in H. auto.
  - intros (m' & x & Hm' & Hj & Hx & H). rewrite (u16_fun _ _ _ _ Hm' Hm) in Hj.
    destruct (link_up _ _ _ _ _ _ _ _ _ Ho L Hj Hx) as (r & E & Hr). exists r. apply (R _ _ Hr) in H. auto.
Qed.

Lemma applies_as_iff f p v rank xs actions : context_at f p v -> (applies_as v rank xs actions <-> applies_as_at f p rank xs actions).
Proof.
  destruct v as [[format c n offsets coverage records]|[format c d n offsets coverage class records]|
    [format n m offsets acts coverages]]; cbn [context_at applies_as].
  - cbn. intros (-> & Hf & Hc & Hn & Ho & C & L).
    assert (R : forall rest q v, context_records_at f q v ->
      ((exists r, entry (context_records_records v) rank = Some r /\ rest = context_record_glyph_ids r /\ actions = context_record_actions r) <->
       ranked_rule_at f q rank (fun q => rule_at f q eq rest actions))).
    { intros rest q [m os rs]. cbn. intros (Hm & Hos & Hrs). apply (ranked_rule_iff _ _ _ _ _ _ _ _ _ Hm Hos Hrs).
      intros q' [a b ids acts]. cbn. intros (Ha & Hb & _ & Hids & Hacts).
      exact (rule_iff _ _ _ _ (fun rest => rest = ids) _ _ _ _ Ha Hb (run_glyphs _ _ _ _ _ Hids) Hacts). }
    split.
    + intros (g & i & set & r & Hg & Es & Hr & -> & ->). apply (covers_iff _ _ _ _ _ C) in Hg.
      destruct (link_down _ _ _ _ _ _ _ _ _ Ho L Es) as (x & Hi & Hx & Hs).
      left. split; [exact Hf|]. eexists g, _, c, i, n, x. split; [reflexivity|]. do 5 (split; [assumption|]).
      apply (R _ _ _ Hs). eauto.
    + intros [(_ & g & rest & c' & i & n' & x & -> & Hc' & Hg & Hn' & Hi & Hx & H)|[(Hf' & _)|(Hf' & _)]];
        [|discriminate (u16_fun _ _ _ _ Hf Hf')|discriminate (u16_fun _ _ _ _ Hf Hf')].
      rewrite (u16_fun _ _ _ _ Hc' Hc) in Hg. rewrite (u16_fun _ _ _ _ Hn' Hn) in Hi. apply (covers_iff _ _ _ _ _ C) in Hg.
      destruct (link_up _ _ _ _ _ _ _ _ _ Ho L Hi Hx) as (set & Es & Hs). apply (R _ _ _ Hs) in H.
      destruct H as (r & Hr & -> & ->). exists g, i, set, r. auto.
  - cbn. intros (-> & Hf & Hc & Hd & Hn & Ho & C & K & L).
    assert (R : forall rest q v, context_class_records_at f q v ->
      ((exists r, entry (context_class_records_records v) rank = Some r /\ Forall2 (by_class class) (context_class_record_indices r) rest /\
         actions = context_class_record_actions r) <->
       ranked_rule_at f q rank (fun q => rule_at f q (by_class_at f (p + d)) rest actions))).
    { intros rest q [m os rs]. cbn. intros (Hm & Hos & Hrs). apply (ranked_rule_iff _ _ _ _ _ _ _ _ _ Hm Hos Hrs).
      intros q' [a b ids acts]. cbn. intros (Ha & Hb & _ & Hids & Hacts).
      exact (rule_iff _ _ _ _ (Forall2 (by_class class) ids) _ _ _ _ Ha Hb (run_classes _ _ _ _ _ _ _ Hids K) Hacts). }
    split.
    + intros (g & rest & i & k & set & r & Hg & Hk & Es & Hr & -> & Hrest & Ha). apply (covers_iff _ _ _ _ _ C) in Hg.
      apply (or_zero_iff _ _ _ _ _ K) in Hk. destruct (maybe_down _ _ _ _ _ _ _ _ _ Ho L Es) as (x & Hi & Hx & Hz & Hs).
      right. left. split; [exact Hf|]. exists g, rest, c, i, d, k, n, x. split; [reflexivity|]. do 8 (split; [assumption|]).
      apply (R _ _ _ Hs). eauto.
    + intros [(Hf' & _)|[(_ & g & rest & c' & i & d' & k & n' & x & -> & Hc' & Hg & Hd' & Hk & Hn' & Hi & Hx & Hz & H)|(Hf' & _)]];
        [discriminate (u16_fun _ _ _ _ Hf Hf')| |discriminate (u16_fun _ _ _ _ Hf Hf')].
      rewrite (u16_fun _ _ _ _ Hc' Hc) in Hg. rewrite (u16_fun _ _ _ _ Hd' Hd) in *. rewrite (u16_fun _ _ _ _ Hn' Hn) in Hi.
      apply (covers_iff _ _ _ _ _ C) in Hg. apply (or_zero_iff _ _ _ _ _ K) in Hk.
      destruct (maybe_up _ _ _ _ _ _ _ _ Ho L Hi) as (x' & set & Es & Hx' & Hs).
      rewrite (u16_fun _ _ _ _ Hx' Hx) in Hs. destruct set as [set|]; [|contradiction]. destruct Hs as (_ & Hs).
      apply (R _ _ _ Hs) in H. destruct H as (r & Hr & Hrest & Ha). exists g, rest, i, k, set, r. auto 10.
  - cbn. intros (-> & Hf & Hn & Hm & Ho & Ha & L). split.
    + intros (-> & H & E). right. right. do 2 (split; [assumption || reflexivity|]). exists n, m. apply (run_coverages _ _ _ _ _ _ _ Ho L) in H.
      apply (actions_iff _ _ _ _ _ Ha) in E. auto.
    + intros [(Hf' & _)|[(Hf' & _)|(_ & -> & n' & m' & Hn' & Hm' & H & E)]];
        [discriminate (u16_fun _ _ _ _ Hf Hf')|discriminate (u16_fun _ _ _ _ Hf Hf')|].
      rewrite (u16_fun _ _ _ _ Hn' Hn), (u16_fun _ _ _ _ Hm' Hm) in *. apply (run_coverages _ _ _ _ _ _ _ Ho L) in H.
      apply (actions_iff _ _ _ _ _ Ha) in E. auto.
Qed.

Lemma applies_between_as_iff f p v rank before xs after actions :
  chained_context_at f p v -> (applies_between_as v rank before xs after actions <-> applies_between_as_at f p rank before xs after actions).
Proof.
  destruct v as [[format c n offsets coverage records]|[format c d1 d2 d3 n offsets coverage class1 class2 class3 records]|
    [format n1 offsets1 n2 offsets2 n3 offsets3 m acts coverages1 coverages2 coverages3]]; cbn [chained_context_at applies_between_as].
  - cbn. intros (-> & Hf & Hc & Hn & Ho & C & L).
    assert (R : forall rest q v, chained_records_at f q v ->
      ((exists r, entry (chained_records_records v) rank = Some r /\ before = chained_record_backward_glyph_ids r /\
         rest = chained_record_glyph_ids r /\ after = chained_record_forward_glyph_ids r /\ actions = chained_record_actions r) <->
       ranked_rule_at f q rank (fun q => chained_rule_at f q eq eq eq before rest after actions))).
    { intros rest q [m os rs]. cbn. intros (Hm & Hos & Hrs). apply (ranked_rule_iff _ _ _ _ _ _ _ _ _ Hm Hos Hrs).
      intros q' [a1 ids1 a2 ids2 a3 ids3 b acts]. cbn. intros (Ha1 & Hids1 & Ha2 & _ & Hids2 & Ha3 & Hids3 & Hb & Hacts).
      exact (chained_rule_iff _ _ _ _ _ _ (fun l => l = ids1) (fun l => l = ids2) (fun l => l = ids3) _ _ _ _ _ _ _ _ Ha1 Ha2 Ha3 Hb
        (run_glyphs _ _ _ _ _ Hids1) (run_glyphs _ _ _ _ _ Hids2) (run_glyphs _ _ _ _ _ Hids3) Hacts). }
    split.
    + intros (g & i & set & r & Hg & Es & Hr & E1 & -> & E3 & E4). apply (covers_iff _ _ _ _ _ C) in Hg.
      destruct (link_down _ _ _ _ _ _ _ _ _ Ho L Es) as (x & Hi & Hx & Hs).
      left. split; [exact Hf|]. eexists g, _, c, i, n, x. split; [reflexivity|]. do 5 (split; [assumption|]).
      apply (R _ _ _ Hs). exists r. auto.
    + intros [(_ & g & rest & c' & i & n' & x & -> & Hc' & Hg & Hn' & Hi & Hx & H)|[(Hf' & _)|(Hf' & _)]];
        [|discriminate (u16_fun _ _ _ _ Hf Hf')|discriminate (u16_fun _ _ _ _ Hf Hf')].
      rewrite (u16_fun _ _ _ _ Hc' Hc) in Hg. rewrite (u16_fun _ _ _ _ Hn' Hn) in Hi. apply (covers_iff _ _ _ _ _ C) in Hg.
      destruct (link_up _ _ _ _ _ _ _ _ _ Ho L Hi Hx) as (set & Es & Hs). apply (R _ _ _ Hs) in H.
      destruct H as (r & Hr & E1 & -> & E3 & E4). exists g, i, set, r. auto 10.
  - cbn. intros (-> & Hf & Hc & Hd1 & Hd2 & Hd3 & Hn & Ho & C & K1 & K2 & K3 & L).
    assert (R : forall rest q v, chained_class_records_at f q v ->
      ((exists r, entry (chained_class_records_records v) rank = Some r /\
         Forall2 (by_class class1) (chained_class_record_backward_indices r) before /\
         Forall2 (by_class class2) (chained_class_record_indices r) rest /\
         Forall2 (by_class class3) (chained_class_record_forward_indices r) after /\
         actions = chained_class_record_actions r) <->
       ranked_rule_at f q rank (fun q => chained_rule_at f q (by_class_at f (p + d1)) (by_class_at f (p + d2)) (by_class_at f (p + d3))
         before rest after actions))).
    { intros rest q [m os rs]. cbn. intros (Hm & Hos & Hrs). apply (ranked_rule_iff _ _ _ _ _ _ _ _ _ Hm Hos Hrs).
      intros q' [a1 ids1 a2 ids2 a3 ids3 b acts]. cbn. intros (Ha1 & Hids1 & Ha2 & _ & Hids2 & Ha3 & Hids3 & Hb & Hacts).
      exact (chained_rule_iff _ _ _ _ _ _ (Forall2 (by_class class1) ids1) (Forall2 (by_class class2) ids2)
        (Forall2 (by_class class3) ids3) _ _ _ _ _ _ _ _ Ha1 Ha2 Ha3 Hb
        (run_classes _ _ _ _ _ _ _ Hids1 K1) (run_classes _ _ _ _ _ _ _ Hids2 K2) (run_classes _ _ _ _ _ _ _ Hids3 K3) Hacts). }
    split.
    + intros (g & rest & i & k & set & r & Hg & Hk & Es & Hr & -> & E1 & E2 & E3 & E4). apply (covers_iff _ _ _ _ _ C) in Hg.
      apply (or_zero_iff _ _ _ _ _ K2) in Hk. destruct (maybe_down _ _ _ _ _ _ _ _ _ Ho L Es) as (x & Hi & Hx & Hz & Hs).
      right. left. split; [exact Hf|]. exists g, rest, c, i, d1, d2, d3, k, n, x. split; [reflexivity|].
      do 10 (split; [assumption|]). apply (R _ _ _ Hs). exists r. auto.
    + intros [(Hf' & _)|[(_ & g & rest & c' & i & d1' & d2' & d3' & k & n' & x & -> & Hc' & Hg & Hd1' & Hd2' & Hd3' & Hk & Hn' & Hi & Hx & Hz & H)|(Hf' & _)]];
        [discriminate (u16_fun _ _ _ _ Hf Hf')| |discriminate (u16_fun _ _ _ _ Hf Hf')].
      rewrite (u16_fun _ _ _ _ Hc' Hc) in Hg. rewrite (u16_fun _ _ _ _ Hd1' Hd1) in *. rewrite (u16_fun _ _ _ _ Hd2' Hd2) in *.
      rewrite (u16_fun _ _ _ _ Hd3' Hd3) in *. rewrite (u16_fun _ _ _ _ Hn' Hn) in Hi.
      apply (covers_iff _ _ _ _ _ C) in Hg. apply (or_zero_iff _ _ _ _ _ K2) in Hk.
      destruct (maybe_up _ _ _ _ _ _ _ _ Ho L Hi) as (x' & set & Es & Hx' & Hs).
      rewrite (u16_fun _ _ _ _ Hx' Hx) in Hs. destruct set as [set|]; [|contradiction]. destruct Hs as (_ & Hs).
      apply (R _ _ _ Hs) in H. destruct H as (r & Hr & E1 & E2 & E3 & E4). exists g, rest, i, k, set, r. auto 15.
  - cbn. intros (-> & Hf & Hn1 & Ho1 & Hn2 & Ho2 & Hn3 & Ho3 & Hm & Ha & L1 & L2 & L3). split.
    + intros (-> & H1 & H2 & H3 & E). right. right. do 2 (split; [assumption || reflexivity|]). exists n1, n2, n3, m.
      apply (run_coverages _ _ _ _ _ _ _ Ho1 L1) in H1. apply (run_coverages _ _ _ _ _ _ _ Ho2 L2) in H2.
      apply (run_coverages _ _ _ _ _ _ _ Ho3 L3) in H3. apply (actions_iff _ _ _ _ _ Ha) in E. auto 10.
    + intros [(Hf' & _)|[(Hf' & _)|(_ & -> & n1' & n2' & n3' & m' & Hn1' & H1 & Hn2' & H2 & Hn3' & H3 & Hm' & E)]];
        [discriminate (u16_fun _ _ _ _ Hf Hf')|discriminate (u16_fun _ _ _ _ Hf Hf')|].
      rewrite (u16_fun _ _ _ _ Hn1' Hn1) in *. rewrite (u16_fun _ _ _ _ Hn2' Hn2) in *. rewrite (u16_fun _ _ _ _ Hn3' Hn3) in *.
      rewrite (u16_fun _ _ _ _ Hm' Hm) in *.
      apply (run_coverages _ _ _ _ _ _ _ Ho1 L1) in H1. apply (run_coverages _ _ _ _ _ _ _ Ho2 L2) in H2.
      apply (run_coverages _ _ _ _ _ _ _ Ho3 L3) in H3. apply (actions_iff _ _ _ _ _ Ha) in E. auto.
Qed.

Lemma gsub_rule_as_iff ty f q t rank before xs after actions :
  gsub_type_at ty f q t -> (gsub_rule_as t rank before xs after actions <-> rule_as_at f q 5 ty rank before xs after actions).
Proof.
  unfold rule_as_at. destruct t as [t|t|t|t|t|t|t|t]; cbn [gsub_type_at gsub_rule_as]; intros (-> & H).
  5: { rewrite (applies_as_iff _ _ _ _ _ _ H). split; [auto|]. intros [(_ & K)|(E & _)]; [exact K|discriminate E]. }
  5: { rewrite (applies_between_as_iff _ _ _ _ _ _ _ _ H). split; [auto|]. intros [(E & _)|(_ & K)]; [discriminate E|exact K]. }
  all: split; [contradiction|]; intros [(E & _)|(E & _)]; discriminate E.
Qed.

Lemma gpos_rule_as_iff o ty f q t rank before xs after actions :
  gpos_type_at o ty f q t -> (gpos_rule_as t rank before xs after actions <-> rule_as_at f q 7 ty rank before xs after actions).
Proof.
  unfold rule_as_at. destruct t as [t|t|t|t|t|t|t|t|t]; cbn [gpos_type_at gpos_rule_as]; intros (-> & H).
  7: { rewrite (applies_as_iff _ _ _ _ _ _ H). split; [auto|]. intros [(_ & K)|(E & _)]; [exact K|discriminate E]. }
  7: { rewrite (applies_between_as_iff _ _ _ _ _ _ _ _ H). split; [auto|]. intros [(E & _)|(_ & K)]; [discriminate E|exact K]. }
  all: split; [contradiction|]; intros [(E & _)|(E & _)]; discriminate E.
Qed.

(** ** Without ranks *)

Lemma replaces_ranked v xs ys : (exists rank, replaces_as v rank xs ys) <-> replaces v xs ys.
Proof.
  destruct v as [t|t|t|t|t|t|t|t]; cbn [replaces_as]; try (split; [intros (rank & _ & H); exact H|intros H; exists 0; auto]).
  cbn [replaces]. split.
  - intros (rank & g & i & r & l & Hg & Er & El & E). exists g, i, r, l. do 2 (split; [assumption|]). split; [|exact E].
    apply in_entry. eauto.
  - intros (g & i & r & l & Hg & Er & Hl & E). apply in_entry in Hl. destruct Hl as (rank & El). exists rank, g, i, r, l. auto.
Qed.

Lemma applies_ranked v xs actions : (exists rank, applies_as v rank xs actions) <-> applies v xs actions.
Proof.
  destruct v as [t|t|t]; cbn [applies_as applies].
  - split.
    + intros (rank & g & i & set & r & Hg & Es & Er & E). exists g, i, set, r. do 2 (split; [assumption|]). split; [|exact E].
      apply in_entry. eauto.
    + intros (g & i & set & r & Hg & Es & Hr & E). apply in_entry in Hr. destruct Hr as (rank & Er).
      exists rank, g, i, set, r. auto.
  - split.
    + intros (rank & g & rest & i & class & set & r & Hg & Hk & Es & Er & E). exists g, rest, i, class, set, r.
      do 3 (split; [assumption|]). split; [|exact E]. apply in_entry. eauto.
    + intros (g & rest & i & class & set & r & Hg & Hk & Es & Hr & E). apply in_entry in Hr. destruct Hr as (rank & Er).
      exists rank, g, rest, i, class, set, r. auto 10.
  - split; [intros (rank & _ & H); exact H|intros H; exists 0; auto].
Qed.

Lemma applies_between_ranked v before xs after actions :
  (exists rank, applies_between_as v rank before xs after actions) <-> applies_between v before xs after actions.
Proof.
  destruct v as [t|t|t]; cbn [applies_between_as applies_between].
  - split.
    + intros (rank & g & i & set & r & Hg & Es & Er & E). exists g, i, set, r. do 2 (split; [assumption|]). split; [|exact E].
      apply in_entry. eauto.
    + intros (g & i & set & r & Hg & Es & Hr & E). apply in_entry in Hr. destruct Hr as (rank & Er).
      exists rank, g, i, set, r. auto.
  - split.
    + intros (rank & g & rest & i & class & set & r & Hg & Hk & Es & Er & E). exists g, rest, i, class, set, r.
      do 3 (split; [assumption|]). split; [|exact E]. apply in_entry. eauto.
    + intros (g & rest & i & class & set & r & Hg & Hk & Es & Hr & E). apply in_entry in Hr. destruct Hr as (rank & Er).
      exists rank, g, rest, i, class, set, r. auto 10.
  - split; [intros (rank & _ & H); exact H|intros H; exists 0; auto].
Qed.

Lemma gsub_rule_ranked v before xs after actions :
  (exists rank, gsub_rule_as v rank before xs after actions) <-> gsub_rule v before xs after actions.
Proof.
  destruct v as [t|t|t|t|t|t|t|t]; cbn [gsub_rule_as gsub_rule]; try (split; [intros (_ & [])|intros []]).
  - rewrite <- applies_ranked. split; [intros (rank & B & A & H); eauto|intros (B & A & rank & H); eauto].
  - apply applies_between_ranked.
Qed.

Lemma gpos_rule_ranked v before xs after actions :
  (exists rank, gpos_rule_as v rank before xs after actions) <-> gpos_rule v before xs after actions.
Proof.
  destruct v as [t|t|t|t|t|t|t|t|t]; cbn [gpos_rule_as gpos_rule]; try (split; [intros (_ & [])|intros []]).
  - rewrite <- applies_ranked. split; [intros (rank & B & A & H); eauto|intros (B & A & rank & H); eauto].
  - apply applies_between_ranked.
Qed.

(** ** What is read *)

Lemma substitution_ranks o ty f p t rank xs ys :
  bounded f -> reads o (read_gsub_type ty) f p t -> (replaces_as t rank xs ys <-> replaces_as_at f p ty rank xs ys).
Proof. intros B H. apply replaces_as_iff. exact (proj1 (piece_reads (PieceGsubType ty) o f p t B eq_refl) H). Qed.

Lemma gsub_rule_ranks o ty f p t rank before xs after actions :
  bounded f -> reads o (read_gsub_type ty) f p t ->
  (gsub_rule_as t rank before xs after actions <-> rule_as_at f p 5 ty rank before xs after actions).
Proof. intros B H. apply gsub_rule_as_iff. exact (proj1 (piece_reads (PieceGsubType ty) o f p t B eq_refl) H). Qed.

Lemma gpos_rule_ranks o ty f p t rank before xs after actions :
  bounded f -> reads o (read_gpos_type ty) f p t ->
  (gpos_rule_as t rank before xs after actions <-> rule_as_at f p 7 ty rank before xs after actions).
Proof. intros B H. apply (gpos_rule_as_iff o). exact (proj1 (piece_reads (PieceGposType ty) o f p t B eq_refl) H). Qed.

Lemma gsub_ranks o f p v k j :
  bounded f -> reads o read_glyph_substitution f p v ->
  (forall rank xs ys, (exists t, in_lookup v k j t /\ replaces_as t rank xs ys) <->
    (exists q ty, in_lookup_at o f p k j q ty /\ replaces_as_at f q ty rank xs ys)) /\
  (forall rank before xs after actions, (exists t, in_lookup v k j t /\ gsub_rule_as t rank before xs after actions) <->
    (exists q ty, in_lookup_at o f p k j q ty /\ rule_as_at f q 5 ty rank before xs after actions)).
Proof.
  intros B H. apply (request_reads RequestGsub o f p v B) in H. cbn in H. split.
  - intros rank xs ys. split.
    + intros (t & I & R). destruct (lookup_down _ _ _ _ _ _ _ _ H I) as (q & ty & I' & Ht).
      exists q, ty. split; [exact I'|]. apply (replaces_as_iff _ _ _ _ _ _ _ Ht), R.
    + intros (q & ty & I & R). destruct (lookup_up _ _ _ _ _ _ _ _ _ H I) as (t & I' & Ht).
      exists t. split; [exact I'|]. apply (replaces_as_iff _ _ _ _ _ _ _ Ht), R.
  - intros rank before xs after actions. split.
    + intros (t & I & R). destruct (lookup_down _ _ _ _ _ _ _ _ H I) as (q & ty & I' & Ht).
      exists q, ty. split; [exact I'|]. apply (gsub_rule_as_iff _ _ _ _ _ _ _ _ _ Ht), R.
    + intros (q & ty & I & R). destruct (lookup_up _ _ _ _ _ _ _ _ _ H I) as (t & I' & Ht).
      exists t. split; [exact I'|]. apply (gsub_rule_as_iff _ _ _ _ _ _ _ _ _ Ht), R.
Qed.

Lemma gpos_ranks o f p v k j rank before xs after actions :
  bounded f -> reads o read_glyph_positioning f p v ->
  ((exists t, in_lookup v k j t /\ gpos_rule_as t rank before xs after actions) <->
   (exists q ty, in_lookup_at o f p k j q ty /\ rule_as_at f q 7 ty rank before xs after actions)).
Proof.
  intros B H. apply (request_reads RequestGpos o f p v B) in H. cbn in H. split.
  - intros (t & I & R). destruct (lookup_down _ _ _ _ _ _ _ _ H I) as (q & ty & I' & Ht).
    exists q, ty. split; [exact I'|]. apply (gpos_rule_as_iff _ _ _ _ _ _ _ _ _ _ Ht), R.
  - intros (q & ty & I & R). destruct (lookup_up _ _ _ _ _ _ _ _ _ H I) as (t & I' & Ht).
    exists t. split; [exact I'|]. apply (gpos_rule_as_iff _ _ _ _ _ _ _ _ _ _ Ht), R.
Qed.
