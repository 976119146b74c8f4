(** What tables say about glyphs. *)

From Verif Require ProofOpen.
From Verif Require Import ReadsTactics ProofFindings ProofRequests ProofPieces ProofReads.
From Verif Require Export SpecMeaning Requests Pieces Samples.

#[local] Arguments N.mul : simpl never.
#[local] Arguments N.add : simpl never.
#[local] Arguments N.sub : simpl never.

Lemma vec_entry {A} (elem : N -> A -> Prop) s p n l i v :
  vec_at elem s p n l -> entry l i = Some v -> i < n /\ elem (p + s * i) v.
Proof.
  intros [Hn H] E. unfold entry in E. split.
  - assert (N.to_nat i < length l)%nat by (apply nth_error_Some; rewrite E; discriminate). lia.
  - apply H in E. rewrite N2Nat.id in E. exact E.
Qed.

Lemma entry_short {A} (l : list A) i v : entry l i = Some v -> i < N.of_nat (length l).
Proof.
  intros E. assert (N.to_nat i < length l)%nat by (apply nth_error_Some; unfold entry in E; rewrite E; discriminate). lia.
Qed.

Lemma in_entry {A} (l : list A) v : In v l <-> exists i, entry l i = Some v.
Proof.
  unfold entry. split.
  - intros H. apply In_nth_error in H. destruct H as (i & H). exists (N.of_nat i). rewrite Nat2N.id. exact H.
  - intros (i & H). exact (nth_error_In _ _ H).
Qed.

Lemma linked_entry {A} (elem : N -> A -> Prop) base offsets l i v :
  linked_at elem base offsets l -> nth_error l i = Some v ->
  exists o, nth_error offsets i = Some o /\ elem (base + o) v.
Proof.
  intros H. revert i. induction H as [|x w xs vs Hx _ IH]; intros [|i]; cbn; try discriminate.
  - intros [= <-]. eauto.
  - apply IH.
Qed.

(** Arrays of offsets and what they lead to. *)
Lemma link_down {A} f (elem : N -> A -> Prop) q n base offsets l i v :
  u16s_at f q n offsets -> linked_at elem base offsets l -> entry l i = Some v ->
  exists o, i < n /\ u16_at f (q + 2 * i) o /\ elem (base + o) v.
Proof.
  intros V L E. destruct (linked_entry _ _ _ _ _ _ L E) as (o & Ho & H).
  destruct (vec_entry _ _ _ _ _ i o V Ho). exists o. auto.
Qed.

Lemma link_up {A} f (elem : N -> A -> Prop) q n base offsets l i o :
  u16s_at f q n offsets -> linked_at elem base offsets l -> i < n -> u16_at f (q + 2 * i) o ->
  exists v, entry l i = Some v /\ elem (base + o) v.
Proof.
  intros V L Hi Ho. destruct (vec_nth _ _ _ _ _ i V Hi) as (o' & E & Ho').
  rewrite (u16_fun _ _ _ _ Ho Ho'). exact (linked_nth _ _ _ _ _ _ L E).
Qed.

(** Words at the same position are the same. *)
Ltac same :=
  repeat match goal with
  | H : u16_at ?f ?p ?a, K : u16_at ?f ?p ?b |- _ =>
      first [constr_eq a b; clear K | let E := fresh in assert (E := u16_fun _ _ _ _ K H); clear K; try subst b; try subst a; try discriminate E]
  end.

Ltac reach := match goal with
  | H : u16_at ?f ?p ?a |- u16_at ?f ?q ?a => replace q with p by lia; exact H
  end.

Lemma covers_iff f p v g i : coverage_at f p v -> (covers v g i <-> covered_at f p g i).
Proof.
  destruct v as [[format n ids]|[format n records]]; cbn; intros (-> & Hf & Hn & H); split.
  - intros E. destruct (vec_entry _ _ _ _ _ _ _ H E) as (Hi & Hg). left. split; [exact Hf|]. exists n. auto.
  - intros [(_ & m & Hm & Hi & Hg)|(Hf' & _)]; [|discriminate (u16_fun _ _ _ _ Hf Hf')].
    rewrite (u16_fun _ _ _ _ Hm Hn) in Hi. destruct (vec_nth _ _ _ _ _ _ H Hi) as (g' & E & Hg').
    rewrite (u16_fun _ _ _ _ Hg Hg'). exact E.
  - intros (r & Hr & Hg & ->). apply in_entry in Hr. destruct Hr as (k & E).
    destruct (vec_entry _ _ _ _ _ _ _ H E) as (Hk & Hr). destruct r as [a b s]. cbn in Hr, Hg |- *.
    destruct Hr as (Ha & Hb & Hs). right. split; [exact Hf|]. exists n, k, a, b, s.
    repeat match goal with |- _ /\ _ => split end; try assumption; try apply Hg; try reflexivity; reach.
  - intros [(Hf' & _)|(_ & m & k & a & b & s & Hm & Hk & Ha & Hb & Hs & Hg & ->)];
      [discriminate (u16_fun _ _ _ _ Hf Hf')|].
    rewrite (u16_fun _ _ _ _ Hm Hn) in Hk. destruct (vec_nth _ _ _ _ _ _ H Hk) as ([a' b' s'] & E & Ha' & Hb' & Hs').
    exists (mkCoverageRecord a' b' s'). split; [apply in_entry; exists k; exact E|]. cbn.
    replace (p + 4 + 6 * k + 2) with (p + 6 + 6 * k) in Hb' by lia.
    replace (p + 4 + 6 * k + 4) with (p + 8 + 6 * k) in Hs' by lia.
    rewrite (u16_fun _ _ _ _ Ha' Ha), (u16_fun _ _ _ _ Hb' Hb), (u16_fun _ _ _ _ Hs' Hs). auto.
Qed.

Lemma classifies_iff f p v g c : class_at f p v -> (classifies v g c <-> classified_at f p g c).
Proof.
  destruct v as [[format first n indices]|[format n records]]; cbn.
  - intros (-> & Hf & Hs & Hn & H). split.
    + intros (Hg & E). destruct (vec_entry _ _ _ _ _ _ _ H E) as (Hi & Hc). left. split; [exact Hf|].
      exists first, n. repeat split; try assumption; lia.
    + intros [(_ & a & m & Ha & Hm & Hg & Hc)|(Hf' & _)]; [|discriminate (u16_fun _ _ _ _ Hf Hf')].
      rewrite (u16_fun _ _ _ _ Ha Hs), (u16_fun _ _ _ _ Hm Hn) in *. split; [lia|].
      destruct (vec_nth _ _ _ _ _ (g - first) H ltac:(lia)) as (c' & E & Hc').
      rewrite (u16_fun _ _ _ _ Hc Hc'). exact E.
  - intros (-> & Hf & Hn & H). split.
    + intros (r & Hr & Hg & ->). apply in_entry in Hr. destruct Hr as (k & E).
      destruct (vec_entry _ _ _ _ _ _ _ H E) as (Hk & Hr). destruct r as [a b s]. cbn in Hr, Hg |- *.
      destruct Hr as (Ha & Hb & Hs). right. split; [exact Hf|]. exists n, k, a, b.
      repeat match goal with |- _ /\ _ => split end; try assumption; try apply Hg; try reflexivity; reach.
    + intros [(Hf' & _)|(_ & m & k & a & b & Hm & Hk & Ha & Hb & Hs & Hg)];
        [discriminate (u16_fun _ _ _ _ Hf Hf')|].
      rewrite (u16_fun _ _ _ _ Hm Hn) in Hk.
      destruct (vec_nth _ _ _ _ _ _ H Hk) as ([a' b' s'] & E & Ha' & Hb' & Hs').
      exists (mkClassRecord a' b' s'). split; [apply in_entry; exists k; exact E|]. cbn.
      replace (p + 4 + 6 * k + 2) with (p + 6 + 6 * k) in Hb' by lia.
      replace (p + 4 + 6 * k + 4) with (p + 8 + 6 * k) in Hs' by lia.
      rewrite (u16_fun _ _ _ _ Ha' Ha), (u16_fun _ _ _ _ Hb' Hb), (u16_fun _ _ _ _ Hs' Hs). auto.
Qed.

Lemma i16_fun f p a b : i16_at f p a -> i16_at f p b -> a = b.
Proof. intros (u & Hu & ->) (w & Hw & ->). rewrite (u16_fun _ _ _ _ Hu Hw). reflexivity. Qed.

Lemma nth_error_same {A} (l l' : list A) : (forall i, nth_error l i = nth_error l' i) -> l = l'.
Proof.
  revert l'. induction l as [|a l IH]; intros [|b l'] H; try reflexivity; try (specialize (H O); discriminate).
  pose proof (H O) as E. injection E as ->. f_equal. apply IH. intros i. exact (H (S i)).
Qed.

Lemma vec_fun f p n xs ys : u16s_at f p n xs -> u16s_at f p n ys -> xs = ys.
Proof.
  intros [L H] [L' H']. apply nth_error_same. intros i.
  destruct (nth_error xs i) as [x|] eqn:E, (nth_error ys i) as [y|] eqn:E'; try reflexivity.
  - f_equal. exact (u16_fun _ _ _ _ (H _ _ E) (H' _ _ E')).
  - apply nth_error_None in E'. assert (i < length xs)%nat by (apply nth_error_Some; rewrite E; discriminate). lia.
  - apply nth_error_None in E. assert (i < length ys)%nat by (apply nth_error_Some; rewrite E'; discriminate). lia.
Qed.

Lemma replaces_iff f p ty t xs ys : gsub_type_at ty f p t -> (replaces t xs ys <-> replaces_at f p ty xs ys).
Proof.
  destruct t as [[[format c d coverage]|[format c n ids coverage]]|[format c n offsets coverage records]|
    [format c n offsets coverage records]|[format c n offsets coverage records]|t|t|t|t]; cbn.
  - (* A number is added. *)
    intros (-> & -> & Hf & Hc & Hd & Hv). split.
    + intros (g & i & Hg & -> & ->). exists g, [], c, i. apply (covers_iff _ _ _ _ _ Hv) in Hg. eauto 10.
    + intros (g & rest & c' & i & -> & Hc' & Hg & [(_ & _ & -> & d' & Hd' & ->)|[(_ & Hf' & _)|(Ht & _)]]);
        [|discriminate (u16_fun _ _ _ _ Hf Hf')|lia].
      rewrite (u16_fun _ _ _ _ Hc' Hc) in Hg. apply (covers_iff _ _ _ _ _ Hv) in Hg.
      exists g, i. rewrite (i16_fun _ _ _ _ Hd' Hd). auto.
  - (* Glyphs are listed. *)
    intros (-> & -> & Hf & Hc & Hn & Hs & Hv). split.
    + intros (g & i & y & Hg & E & -> & ->). apply (covers_iff _ _ _ _ _ Hv) in Hg.
      destruct (vec_entry _ _ _ _ _ _ _ Hs E) as (Hi & Hy). exists g, [], c, i.
      split; [reflexivity|]. split; [exact Hc|]. split; [exact Hg|]. right. left. eauto 10.
    + intros (g & rest & c' & i & -> & Hc' & Hg & [(_ & Hf' & _)|[(_ & _ & -> & n' & y & Hn' & Hi & Hy & ->)|(Ht & _)]]);
        [discriminate (u16_fun _ _ _ _ Hf Hf')| |lia].
      rewrite (u16_fun _ _ _ _ Hc' Hc) in Hg. apply (covers_iff _ _ _ _ _ Hv) in Hg.
      rewrite (u16_fun _ _ _ _ Hn' Hn) in Hi. destruct (vec_nth _ _ _ _ _ _ Hs Hi) as (y' & E & Hy').
      exists g, i, y'. rewrite (u16_fun _ _ _ _ Hy Hy'). auto.
  - (* Sequences. *)
    intros (-> & Hf & _ & Hc & Hn & Ho & Hv & H). split.
    + intros (g & i & r & Hg & E & -> & ->). apply (covers_iff _ _ _ _ _ Hv) in Hg.
      destruct (link_down _ _ _ _ _ _ _ _ _ Ho H E) as (x & Hi & Hx & Hr). destruct r as [m l]. cbn in Hr |- *.
      exists g, [], c, i. do 3 (split; [assumption || reflexivity|]). right. right. split; [lia|].
      exists n, x, m. do 4 (split; [assumption || apply Hr|]). left. repeat split; apply Hr.
    + intros (g & rest & c' & i & -> & Hc' & Hg & [(Ht & _)|[(Ht & _)|(_ & n' & x & m & Hn' & Hi & Hx & Hm & Hr)]]);
        [lia|lia|].
      rewrite (u16_fun _ _ _ _ Hc' Hc) in Hg. apply (covers_iff _ _ _ _ _ Hv) in Hg.
      rewrite (u16_fun _ _ _ _ Hn' Hn) in Hi. destruct (link_up _ _ _ _ _ _ _ _ _ Ho H Hi Hx) as ([m' l] & E & Hm' & Hl).
      destruct Hr as [(_ & -> & Hr)|[(Ht & _)|(Ht & _)]]; [|lia|lia].
      exists g, i, (mkSequence m' l). cbn. rewrite (u16_fun _ _ _ _ Hm Hm') in Hr. rewrite (vec_fun _ _ _ _ _ Hr Hl). auto.
  - (* Alternates. *)
    intros (-> & Hf & _ & Hc & Hn & Ho & Hv & H). split.
    + intros (g & i & r & y & Hg & E & Hy & -> & ->). apply (covers_iff _ _ _ _ _ Hv) in Hg.
      destruct (link_down _ _ _ _ _ _ _ _ _ Ho H E) as (x & Hi & Hx & Hr). destruct r as [m l]. cbn in Hr, Hy |- *.
      apply in_entry in Hy. destruct Hy as (j & Ej). destruct Hr as (Hm & Hl).
      destruct (vec_entry _ _ _ _ _ _ _ Hl Ej) as (Hj & Hy).
      exists g, [], c, i. do 3 (split; [assumption || reflexivity|]). right. right. split; [lia|].
      exists n, x, m. do 4 (split; [assumption|]). right. left. split; [reflexivity|]. split; [reflexivity|].
      exists j, y. auto.
    + intros (g & rest & c' & i & -> & Hc' & Hg & [(Ht & _)|[(Ht & _)|(_ & n' & x & m & Hn' & Hi & Hx & Hm & Hr)]]);
        [lia|lia|].
      rewrite (u16_fun _ _ _ _ Hc' Hc) in Hg. apply (covers_iff _ _ _ _ _ Hv) in Hg.
      rewrite (u16_fun _ _ _ _ Hn' Hn) in Hi. destruct (link_up _ _ _ _ _ _ _ _ _ Ho H Hi Hx) as ([m' l] & E & Hm' & Hl).
      destruct Hr as [(Ht & _)|[(_ & -> & j & y & Hj & Hy & ->)|(Ht & _)]]; [lia| |lia].
      rewrite (u16_fun _ _ _ _ Hm Hm') in Hj. destruct (vec_nth _ _ _ _ _ _ Hl Hj) as (y' & Ey & Hy').
      exists g, i, (mkAlternates m' l), y. cbn. rewrite (u16_fun _ _ _ _ Hy Hy') in *.
      repeat split; try assumption. apply in_entry. exists j. exact Ey.
  - (* Ligatures. *)
    intros (-> & Hf & _ & Hc & Hn & Ho & Hv & H). split.
    + intros (g & i & r & l & Hg & E & Hl & -> & ->). apply (covers_iff _ _ _ _ _ Hv) in Hg.
      destruct (link_down _ _ _ _ _ _ _ _ _ Ho H E) as (x & Hi & Hx & Hr). destruct r as [m os ls]. cbn in Hr, Hl |- *.
      apply in_entry in Hl. destruct Hl as (j & Ej). destruct Hr as (Hm & Hos & Hls).
      destruct (link_down _ _ _ _ _ _ _ _ _ Hos Hls Ej) as (z & Hj & Hz & Hl). destruct l as [y k rest]. cbn in Hl |- *.
      destruct Hl as (Hy & Hk & _ & Hrest).
      exists g, rest, c, i. do 3 (split; [assumption || reflexivity|]). right. right. split; [lia|].
      exists n, x, m. do 4 (split; [assumption|]). right. right. split; [reflexivity|].
      exists j, z, y, k. auto 10.
    + intros (g & rest & c' & i & -> & Hc' & Hg & [(Ht & _)|[(Ht & _)|(_ & n' & x & m & Hn' & Hi & Hx & Hm & Hr)]]);
        [lia|lia|].
      rewrite (u16_fun _ _ _ _ Hc' Hc) in Hg. apply (covers_iff _ _ _ _ _ Hv) in Hg.
      rewrite (u16_fun _ _ _ _ Hn' Hn) in Hi.
      destruct (link_up _ _ _ _ _ _ _ _ _ Ho H Hi Hx) as ([m' os ls] & E & Hm' & Hos & Hls).
      destruct Hr as [(Ht & _)|[(Ht & _)|(_ & j & z & y & k & Hj & Hz & Hy & Hk & Hrest & ->)]]; [lia|lia|].
      rewrite (u16_fun _ _ _ _ Hm Hm') in Hj.
      destruct (link_up _ _ _ _ _ _ _ _ _ Hos Hls Hj Hz) as ([y' k' rest'] & Ej & Hy' & Hk' & _ & Hrest').
      exists g, i, (mkLigatures m' os ls), (mkLigature y' k' rest'). cbn. rewrite (u16_fun _ _ _ _ Hk Hk') in Hrest.
      rewrite (u16_fun _ _ _ _ Hy Hy'), (vec_fun _ _ _ _ _ Hrest Hrest').
      repeat split; try assumption. apply in_entry. exists j. exact Ej.
  - intros (-> & _). split; [contradiction|].
    intros (g & rest & c' & i & _ & _ & _ & [(Ht & _)|[(Ht & _)|(Ht & _)]]); lia.
  - intros (-> & _). split; [contradiction|].
    intros (g & rest & c' & i & _ & _ & _ & [(Ht & _)|[(Ht & _)|(Ht & _)]]); lia.
  - intros (-> & _). split; [contradiction|].
    intros (g & rest & c' & i & _ & _ & _ & [(Ht & _)|[(Ht & _)|(Ht & _)]]); lia.
  - intros (-> & _). split; [contradiction|].
    intros (g & rest & c' & i & _ & _ & _ & [(Ht & _)|[(Ht & _)|(Ht & _)]]); lia.
Qed.

(** ** Adjustments *)

Lemma or_zero_iff f p v g c : class_at f p v -> (or_zero (classifies v) g c <-> or_zero (classified_at f p) g c).
Proof.
  intros H. unfold or_zero. rewrite (classifies_iff _ _ _ _ _ H). split; (intros [E|(E & N)]; [left; exact E|right]);
    (split; [exact E|]); intros d D; apply (N d), (classifies_iff _ _ _ _ _ H), D.
Qed.

Lemma field_iff f flags c q (x : option Z) z :
  field_at (i16_at f) flags c q x ->
  (x = Some z <-> N.testbit flags (N.of_nat c) = true /\ i16_at f (q + 2 * bits_below flags c) z).
Proof.
  destruct x as [x|]; cbn [field_at]; intros H; split.
  - intros [= <-]. exact H.
  - intros (_ & Hz). f_equal. exact (i16_fun _ _ _ _ (proj2 H) Hz).
  - discriminate.
  - intros (E & _). congruence.
Qed.

Lemma component_iff f base flags q s c z : single_at f base flags q s -> (component s c = Some z <-> moves_at f q flags c z).
Proof.
  destruct s as [x0 x1 x2 x3 y0 y1 y2 y3 w0 w1 w2 w3]. cbn [single_at]. intros (H0 & H1 & H2 & H3 & _). unfold moves_at.
  destruct c as [|[|[|[|c]]]]; cbn [component Types.single_x_placement Types.single_y_placement Types.single_x_advance Types.single_y_advance].
  - rewrite (field_iff _ _ _ _ _ z H0). intuition lia.
  - rewrite (field_iff _ _ _ _ _ z H1). intuition lia.
  - rewrite (field_iff _ _ _ _ _ z H2). intuition lia.
  - rewrite (field_iff _ _ _ _ _ z H3). intuition lia.
  - split; [discriminate|lia].
Qed.

Lemma moves_iff f base flags q v c z : value_at f base flags q v -> (moves v c z <-> moves_at f q flags c z).
Proof.
  destruct v as [s|]; cbn [value_at].
  - intros (_ & H). rewrite <- (component_iff _ _ _ _ _ c z H). unfold moves. split.
    + intros (s' & [= <-] & E). exact E.
    + intros E. eauto.
  - intros ->. split.
    + intros (s & E & _). discriminate E.
    + intros (_ & E & _). rewrite N.bits_0 in E. discriminate E.
Qed.

Lemma pair_moves_iff f base flags1 flags2 q v1 v2 (second : bool) c z :
  value_at f base flags1 q v1 -> value_at f base flags2 (q + value_size flags1) v2 ->
  (moves (if second then v2 else v1) c z <-> pair_moves_at f q flags1 flags2 second c z).
Proof.
  intros H1 H2. unfold pair_moves_at. destruct second; [exact (moves_iff _ _ _ _ _ _ _ H2)|exact (moves_iff _ _ _ _ _ _ _ H1)].
Qed.

Lemma adjusts_iff o f p ty t xs second c z :
  gpos_type_at o ty f p t -> (adjusts t xs second c z <-> adjusts_at f p ty xs second c z).
Proof.
  destruct t as [[[format a flags value coverage]|[format a flags n values coverage]]|
    [[format a flags1 flags2 n offsets coverage records]|[format a flags1 flags2 a1 a2 n1 n2 records coverage class1 class2]]|
    t|t|t|t|t|t|t]; cbn [gpos_type_at adjusts].
  - cbn. intros (-> & -> & Hf & Ha & (Hs & _) & Hv & Hcov). split.
    + intros (g & i & Hg & -> & -> & E). apply (covers_iff _ _ _ _ _ Hcov) in Hg.
      apply (component_iff _ _ _ _ _ _ _ Hv) in E. exists g, a, i, flags. auto 10.
    + intros (g & a' & i & flags' & Ha' & Hg & Hs' & [(_ & -> & -> & [(_ & E)|(Hf' & _)])|(Ht & _)]);
        [|discriminate (u16_fun _ _ _ _ Hf Hf')|lia].
      rewrite (u16_fun _ _ _ _ Ha' Ha) in Hg. rewrite (u16_fun _ _ _ _ Hs' Hs) in E.
      apply (covers_iff _ _ _ _ _ Hcov) in Hg. apply (component_iff _ _ _ _ _ _ _ Hv) in E. eauto 10.
  - cbn. intros (-> & -> & Hf & Ha & (Hs & _) & Hn & Hv & Hcov). split.
    + intros (g & i & Hg & -> & -> & s & Es & E). apply (covers_iff _ _ _ _ _ Hcov) in Hg.
      destruct (vec_entry _ _ _ _ _ _ _ Hv Es) as (Hi & Hr).
      apply (component_iff _ _ _ _ _ _ _ Hr) in E. exists g, a, i, flags. eauto 15.
    + intros (g & a' & i & flags' & Ha' & Hg & Hs' & [(_ & -> & -> & [(Hf' & _)|(_ & n' & Hn' & Hi & E)])|(Ht & _)]);
        [discriminate (u16_fun _ _ _ _ Hf Hf')| |lia].
      rewrite (u16_fun _ _ _ _ Ha' Ha) in Hg. rewrite (u16_fun _ _ _ _ Hs' Hs) in E.
      rewrite (u16_fun _ _ _ _ Hn' Hn) in Hi. destruct (vec_nth _ _ _ _ _ _ Hv Hi) as (s & Es & Hr).
      apply (covers_iff _ _ _ _ _ Hcov) in Hg. apply (component_iff _ _ _ _ _ _ _ Hr) in E.
      exists g, i. repeat match goal with |- _ /\ _ => split end; try assumption; try reflexivity. exists s. auto.
  - cbn. intros (-> & -> & Hf & Ha & (Hs1 & _) & (Hs2 & _) & Hn & Ho & Hcov & H). split.
    + intros (g & i & r & s & Hg & Er & Hin & -> & E). apply (covers_iff _ _ _ _ _ Hcov) in Hg.
      destruct (link_down _ _ _ _ _ _ _ _ _ Ho H Er) as (x & Hi & Hx & Hr). destruct r as [m l]. cbn in Hr, Hin.
      destruct Hr as (Hm & Hl). apply in_entry in Hin. destruct Hin as (j & Ej).
      destruct (vec_entry _ _ _ _ _ _ _ Hl Ej) as (Hj & Hp). destruct s as [h v1 v2]. cbn in Hp, E |- *.
      destruct Hp as (Hh & H1 & H2). apply (pair_moves_iff _ _ _ _ _ _ _ _ _ _ H1 H2) in E.
      exists g, a, i, flags1. do 3 (split; [assumption|]). right. split; [reflexivity|]. exists h, flags2.
      do 2 (split; [assumption || reflexivity|]). left. split; [exact Hf|]. eexists n, x, m, j, _.
      do 5 (split; [eassumption|]). split; [reflexivity|]. auto.
    + intros (g & a' & i & flags1' & Ha' & Hg & Hs1' & [(Ht & _)|(_ & h & flags2' & -> & Hs2' & [(_ & n' & x & m & j & q & Hn' & Hi & Hx & Hm & Hj & -> & Hh & E)|(Hf' & _)])]);
        [lia| |discriminate (u16_fun _ _ _ _ Hf Hf')].
      rewrite (u16_fun _ _ _ _ Ha' Ha) in Hg. rewrite (u16_fun _ _ _ _ Hs1' Hs1), (u16_fun _ _ _ _ Hs2' Hs2) in E, Hh.
      rewrite (u16_fun _ _ _ _ Hn' Hn) in Hi. destruct (link_up _ _ _ _ _ _ _ _ _ Ho H Hi Hx) as ([m' l] & Er & Hm' & Hl).
      rewrite (u16_fun _ _ _ _ Hm Hm') in Hj. destruct (vec_nth _ _ _ _ _ _ Hl Hj) as ([h' v1 v2] & Ej & Hh' & H1 & H2).
      rewrite (u16_fun _ _ _ _ Hh Hh'). apply (covers_iff _ _ _ _ _ Hcov) in Hg.
      apply (pair_moves_iff _ _ _ _ _ _ _ _ _ _ H1 H2) in E.
      exists g, i, (mkPair1s m' l), (mkPair1 h' v1 v2). cbn. split; [exact Hg|]. split; [exact Er|].
      split; [apply in_entry; exists j; exact Ej|]. auto.
  - cbn. intros (-> & -> & Hf & Ha & (Hs1 & _) & (Hs2 & _) & Ha1 & Ha2 & Hn1 & Hn2 & H & Hcov & Hc1 & Hc2). split.
    + intros (g & i & h & c1 & c2 & r & s & Hg & Hg1 & Hg2 & Er & Es & -> & E). apply (covers_iff _ _ _ _ _ Hcov) in Hg.
      apply (or_zero_iff _ _ _ _ _ Hc1) in Hg1. apply (or_zero_iff _ _ _ _ _ Hc2) in Hg2.
      destruct (vec_entry _ _ _ _ _ _ _ H Er) as (Hi1 & Hr). destruct r as [l]. cbn in Hr, Es.
      destruct (vec_entry _ _ _ _ _ _ _ Hr Es) as (Hi2 & Hp). destruct s as [v1 v2]. cbn in Hp, E.
      destruct Hp as (H1 & H2). apply (pair_moves_iff _ _ _ _ _ _ _ _ _ _ H1 H2) in E.
      exists g, a, i, flags1. do 3 (split; [assumption|]). right. split; [reflexivity|]. exists h, flags2.
      do 2 (split; [assumption || reflexivity|]). right. split; [exact Hf|]. exists a1, a2, n1, n2, c1, c2.
      do 8 (split; [assumption|]).
      replace (p + 16 + (value_size flags1 + value_size flags2) * (n2 * c1 + c2)) with
        (p + 16 + (value_size flags1 + value_size flags2) * n2 * c1 + (value_size flags1 + value_size flags2) * c2) by lia.
      exact E.
    + intros (g & a' & i & flags1' & Ha' & Hg & Hs1' & [(Ht & _)|(_ & h & flags2' & -> & Hs2' & [(Hf' & _)|(_ & a1' & a2' & n1' & n2' & c1 & c2 & Ha1' & Ha2' & Hn1' & Hn2' & Hg1 & Hi1 & Hg2 & Hi2 & E)])]);
        [lia|discriminate (u16_fun _ _ _ _ Hf Hf')|].
      rewrite (u16_fun _ _ _ _ Ha' Ha) in Hg. rewrite (u16_fun _ _ _ _ Hs1' Hs1), (u16_fun _ _ _ _ Hs2' Hs2) in E.
      rewrite (u16_fun _ _ _ _ Ha1' Ha1) in Hg1. rewrite (u16_fun _ _ _ _ Ha2' Ha2) in Hg2.
      rewrite (u16_fun _ _ _ _ Hn1' Hn1) in Hi1. rewrite (u16_fun _ _ _ _ Hn2' Hn2) in Hi2, E.
      destruct (vec_nth _ _ _ _ _ _ H Hi1) as ([l] & Er & Hr).
      destruct (vec_nth _ _ _ _ _ _ Hr Hi2) as ([v1 v2] & Es & H1 & H2).
      apply (covers_iff _ _ _ _ _ Hcov) in Hg. apply (or_zero_iff _ _ _ _ _ Hc1) in Hg1.
      apply (or_zero_iff _ _ _ _ _ Hc2) in Hg2.
      replace (p + 16 + (value_size flags1 + value_size flags2) * (n2 * c1 + c2)) with
        (p + 16 + (value_size flags1 + value_size flags2) * n2 * c1 + (value_size flags1 + value_size flags2) * c2) in E by lia.
      apply (pair_moves_iff _ _ _ _ _ _ _ _ _ _ H1 H2) in E.
      exists g, i, h, c1, c2, (mkPair2s l), (mkPair2 v1 v2). cbn. auto 10.
  - intros (-> & _). split; [contradiction|].
    intros (g & a' & i & flags' & _ & _ & _ & [(Ht & _)|(Ht & _)]); lia.
  - intros (-> & _). split; [contradiction|].
    intros (g & a' & i & flags' & _ & _ & _ & [(Ht & _)|(Ht & _)]); lia.
  - intros (-> & _). split; [contradiction|].
    intros (g & a' & i & flags' & _ & _ & _ & [(Ht & _)|(Ht & _)]); lia.
  - intros (-> & _). split; [contradiction|].
    intros (g & a' & i & flags' & _ & _ & _ & [(Ht & _)|(Ht & _)]); lia.
  - intros (-> & _). split; [contradiction|].
    intros (g & a' & i & flags' & _ & _ & _ & [(Ht & _)|(Ht & _)]); lia.
  - intros (-> & _). split; [contradiction|].
    intros (g & a' & i & flags' & _ & _ & _ & [(Ht & _)|(Ht & _)]); lia.
  - intros (-> & _). split; [contradiction|].
    intros (g & a' & i & flags' & _ & _ & _ & [(Ht & _)|(Ht & _)]); lia.
Qed.

(** ** Attachments *)

Lemma spot_iff f p v a : anchor_at f p v -> (spot v = a <-> spot_at f p a).
Proof.
  assert (G : forall x y, i16_at f (p + 2) x -> i16_at f (p + 4) y -> ((x, y) = a <-> spot_at f p a)).
  { intros x y Hx Hy. unfold spot_at. destruct a as [x' y']. cbn. split.
    - intros [= -> ->]. auto.
    - intros (Hx' & Hy'). rewrite (i16_fun _ _ _ _ Hx Hx'), (i16_fun _ _ _ _ Hy Hy'). reflexivity. }
  destruct v as [[format x y]|[format x y index]|[format x y a1 a2 b1 b2]]; cbn.
  - intros (_ & _ & Hx & Hy). auto.
  - intros (_ & _ & Hx & Hy & _). auto.
  - intros (_ & _ & Hx & Hy & _). auto.
Qed.

Lemma spotted_iff f base q link v a :
  u16_at f q link -> maybe_at (anchor_at f) base link v -> (spotted v a <-> spotted_at f base q a).
Proof.
  intros Hq. unfold spotted, spotted_at. destruct v as [v|]; cbn.
  - intros (Hz & H). split.
    + intros (v' & [= <-] & E). exists link. apply (spot_iff _ _ _ _ H) in E. auto.
    + intros (link' & Hq' & _ & E). rewrite (u16_fun _ _ _ _ Hq' Hq) in E. apply (spot_iff _ _ _ _ H) in E. eauto.
  - intros ->. split.
    + intros (v & E & _). discriminate E.
    + intros (link & Hq' & Hz & _). destruct Hz. exact (u16_fun _ _ _ _ Hq' Hq).
Qed.

Lemma maybe_down {A} f (elem : N -> A -> Prop) q n base offsets l i v :
  u16s_at f q n offsets -> maybes_at elem base offsets l -> entry l i = Some v ->
  exists o, i < n /\ u16_at f (q + 2 * i) o /\ maybe_at elem base o v.
Proof.
  intros V L E. unfold entry in E. assert (H : exists o, nth_error offsets (N.to_nat i) = Some o /\ maybe_at elem base o v).
  { clear V. revert E. generalize (N.to_nat i). clear i. induction L as [|x w xs vs Hx _ IH]; intros [|i]; cbn; try discriminate.
    - intros [= <-]. eauto.
    - apply IH. }
  destruct H as (o & Ho & H). destruct (vec_entry _ _ _ _ _ i o V Ho). exists o. auto.
Qed.

Lemma maybe_up {A} f (elem : N -> A -> Prop) q n base offsets l i :
  u16s_at f q n offsets -> maybes_at elem base offsets l -> i < n ->
  exists o v, entry l i = Some v /\ u16_at f (q + 2 * i) o /\ maybe_at elem base o v.
Proof.
  intros V L Hi. destruct (vec_nth _ _ _ _ _ i V Hi) as (o & E & Ho). exists o.
  assert (H : exists v, nth_error l (N.to_nat i) = Some v /\ maybe_at elem base o v).
  { clear V Ho Hi. revert E. generalize (N.to_nat i). clear i. induction L as [|x w xs vs Hx _ IH]; intros [|i]; cbn; try discriminate.
    - intros [= <-]. eauto.
    - apply IH. }
  destruct H as (v & Ev & H). exists v. auto.
Qed.

(** A row of anchors, one per class. *)
Lemma row_iff f q n base offsets anchors class b :
  u16s_at f q n offsets -> maybes_at (anchor_at f) base offsets anchors ->
  ((exists anchor, entry anchors class = Some anchor /\ spotted anchor b) <->
   class < n /\ spotted_at f base (q + 2 * class) b).
Proof.
  intros V L. split.
  - intros (anchor & E & H). destruct (maybe_down _ _ _ _ _ _ _ _ _ V L E) as (x & Hi & Hx & Ha).
    split; [exact Hi|]. apply (spotted_iff _ _ _ _ _ _ Hx Ha), H.
  - intros (Hi & H). destruct (maybe_up _ _ _ _ _ _ _ _ V L Hi) as (x & anchor & E & Hx & Ha).
    exists anchor. split; [exact E|]. apply (spotted_iff _ _ _ _ _ _ Hx Ha), H.
Qed.

Lemma marked_iff o f p v i class a : mark1s_at o f p v -> (marked v i class a <-> marked_at o f p i class a).
Proof.
  destruct v as [n l]. cbn. intros (Hn & H).
  assert (G : forall base link (x : Anchor),
    (link = 0 /\ ignore_incomplete_marks o = true /\ x = AnchorFormat1 (mkAnchor1 0 0 0)) \/
    ((link <> 0 \/ ignore_incomplete_marks o = false) /\ anchor_at f (base + link) x) ->
    (spot x = a <-> if (link =? 0) && ignore_incomplete_marks o then a = (0, 0)%Z else spot_at f (base + link) a)).
  { intros base link x [(-> & I & ->)|(Hz & Ha)].
    - rewrite I. cbn. split; intros; symmetry; assumption.
    - replace ((link =? 0) && ignore_incomplete_marks o) with false; [exact (spot_iff _ _ _ _ Ha)|].
      destruct (N.eqb_spec link 0), (ignore_incomplete_marks o); cbn; try reflexivity. destruct Hz; congruence. }
  split.
  - intros (r & E & <- & <-). destruct (vec_entry _ _ _ _ _ _ _ H E) as (Hi & Hr). destruct r as [c link x]. cbn in *.
    destruct Hr as (Hc & Hl & Hx). exists n, link. do 3 (split; [assumption|]).
    replace (p + 4 + 4 * i) with (p + 2 + 4 * i + 2) by lia. split; [exact Hl|]. apply (G _ _ _ Hx). reflexivity.
  - intros (n' & link & Hn' & Hi & Hc & Hl & Hx). rewrite (u16_fun _ _ _ _ Hn' Hn) in Hi.
    destruct (vec_nth _ _ _ _ _ _ H Hi) as ([c link' x] & E & Hc' & Hl' & Hx'). cbn in *.
    replace (p + 4 + 4 * i) with (p + 2 + 4 * i + 2) in Hl by lia. rewrite (u16_fun _ _ _ _ Hl Hl') in Hx.
    exists (mkMark1 c link' x). cbn. split; [exact E|]. split; [exact (u16_fun _ _ _ _ Hc' Hc)|]. apply (G _ _ _ Hx'), Hx.
Qed.

(** An array of rows. *)
Lemma rows_iff {A} (offsets_of : A -> list N) (anchors_of : A -> list (option Anchor)) f base n m (records : list A) j class b :
  u16_at f base m ->
  vec_at (fun q r => u16s_at f q n (offsets_of r) /\ maybes_at (anchor_at f) base (offsets_of r) (anchors_of r))
    (2 * n) (base + 2) m records ->
  ((exists r anchor, entry records j = Some r /\ entry (anchors_of r) class = Some anchor /\ spotted anchor b) <->
   (exists m, u16_at f base m /\ j < m) /\ class < n /\ spotted_at f base (base + 2 + 2 * (n * j + class)) b).
Proof.
  intros Hm H.
  replace (base + 2 + 2 * (n * j + class)) with (base + 2 + 2 * n * j + 2 * class) by lia. split.
  - intros (r & anchor & E & Ea & Hb). destruct (vec_entry _ _ _ _ _ _ _ H E) as (Hj & Ho & Hx).
    split; [eauto|]. apply (row_iff _ _ _ _ _ _ _ _ Ho Hx). eauto.
  - intros ((m' & Hm' & Hj) & Hc & Hb). rewrite (u16_fun _ _ _ _ Hm' Hm) in Hj.
    destruct (vec_nth _ _ _ _ _ _ H Hj) as (r & E & Ho & Hx).
    destruct (proj2 (row_iff _ _ _ _ _ _ _ _ Ho Hx) (conj Hc Hb)) as (anchor & Ea & Hs). eauto.
Qed.

Lemma vec_as {A} (elem elem' : N -> A -> Prop) s p n l :
  (forall q v, elem q v -> elem' q v) -> vec_at elem s p n l -> vec_at elem' s p n l.
Proof. intros H [L V]. split; [exact L|]. intros i v E. apply H, V, E. Qed.

Lemma attaches_iff o f p ty t x y k a b :
  gpos_type_at o ty f p t -> (attaches t x y k a b <-> attaches_at o f p ty x y k a b).
Proof.
  destruct t as [t|t|[format c n connections coverage]|[format c d n r s coverage1 coverage2 marks [m records]]|
    [format c d n r s coverage1 coverage2 marks [m offsets records]]|
    [format c d n r s coverage1 coverage2 marks [m records]]|t|t|t]; cbn [gpos_type_at attaches].
  - intros (-> & _). split; [intros []|]. intros [(Ht & _)|(Ht & _)]; lia.
  - intros (-> & _). split; [contradiction|]. intros [(Ht & _)|(Ht & _)]; lia.
  - cbn. intros (-> & Hf & _ & Hc & Hn & H & Hv). split.
    + intros (-> & i & j & u & v & Hi & Hj & Eu & Ev & Ha & Hb).
      apply (covers_iff _ _ _ _ _ Hv) in Hi, Hj.
      destruct (vec_entry _ _ _ _ _ _ _ H Eu) as (Ii & Hu), (vec_entry _ _ _ _ _ _ _ H Ev) as (Ij & Hw).
      destruct u as [o1 o2 x1 x2], v as [o3 o4 x3 x4]. cbn in *. destruct Hu as (Hu & _ & Hx & _), Hw as (_ & Hw & _ & Hy).
      left. split; [reflexivity|]. split; [reflexivity|]. exists c, n, i, j. do 6 (split; [assumption|]).
      replace (p + 8 + 4 * j) with (p + 6 + 4 * j + 2) by lia.
      split; [exact (proj1 (spotted_iff _ _ _ _ _ _ Hu Hx) Ha)|exact (proj1 (spotted_iff _ _ _ _ _ _ Hw Hy) Hb)].
    + intros [(_ & -> & c' & n' & i & j & Hc' & Hn' & Hi & Hj & Ii & Ij & Ha & Hb)|(Ht & _)]; [|lia].
      rewrite (u16_fun _ _ _ _ Hc' Hc) in Hi, Hj. rewrite (u16_fun _ _ _ _ Hn' Hn) in Ii, Ij.
      apply (covers_iff _ _ _ _ _ Hv) in Hi, Hj.
      destruct (vec_nth _ _ _ _ _ _ H Ii) as (u & Eu & Hu), (vec_nth _ _ _ _ _ _ H Ij) as (v & Ev & Hw).
      split; [reflexivity|]. exists i, j, u, v. do 4 (split; [assumption|]).
      destruct u as [o1 o2 x1 x2], v as [o3 o4 x3 x4]. cbn in *. destruct Hu as (Hu & _ & Hx & _), Hw as (_ & Hw & _ & Hy).
      replace (p + 8 + 4 * j) with (p + 6 + 4 * j + 2) in Hb by lia.
      split; [exact (proj2 (spotted_iff _ _ _ _ _ _ Hu Hx) Ha)|exact (proj2 (spotted_iff _ _ _ _ _ _ Hw Hy) Hb)].
  - cbn. intros (-> & Hf & _ & Hc & Hd & Hn & Hr & Hs & H1 & H2 & HM & Hm & HR).
    apply (vec_as _ (fun q r => u16s_at f q n (base_anchor_offsets r) /\
      maybes_at (anchor_at f) (p + s) (base_anchor_offsets r) (base_anchors r))) in HR; [|intros q [u v] Q; exact Q].
    assert (R := fun j class => rows_iff base_anchor_offsets base_anchors f (p + s) n m records j class b Hm HR).
    split.
    + intros (-> & i & j & class & u & anchor & Hi & Hj & Hk & Eu & Ev & Hb).
      apply (covers_iff _ _ _ _ _ H1) in Hi. apply (covers_iff _ _ _ _ _ H2) in Hj. apply (marked_iff _ _ _ _ _ _ _ HM) in Hk.
      destruct (proj1 (R j class) ltac:(eauto)) as ((m' & Hm' & Ij) & Ic & Hb').
      right. split; [lia|]. exists c, d, n, r, s, i, j, class, m'. do 11 (split; [assumption|]). left. split; [discriminate|]. auto.
    + intros [(Ht & _)|(_ & c' & d' & n' & r' & s' & i & j & class & m' & Hc' & Hd' & Hn' & Hr' & Hs' & Hi & Hj & Hk & Ic & Hm' & Ij & [(_ & -> & Hb)|(Ht & _)])];
        [lia| |lia].
      rewrite (u16_fun _ _ _ _ Hc' Hc), (u16_fun _ _ _ _ Hd' Hd), (u16_fun _ _ _ _ Hn' Hn), (u16_fun _ _ _ _ Hr' Hr), (u16_fun _ _ _ _ Hs' Hs) in *.
      apply (covers_iff _ _ _ _ _ H1) in Hi. apply (covers_iff _ _ _ _ _ H2) in Hj. apply (marked_iff _ _ _ _ _ _ _ HM) in Hk.
      destruct (proj2 (R j class)) as (u & anchor & Eu & Ev & Hb'); [eauto|].
      split; [reflexivity|]. exists i, j, class, u, anchor. auto 10.
  - cbn. intros (-> & Hf & _ & Hc & Hd & Hn & Hr & Hs & H1 & H2 & HM & Hm & HO & HL).
    assert (R : forall base parts l j class, u16_at f base parts ->
      vec_at (component_at f base n) (2 * n) (base + 2) parts l ->
      ((exists r anchor, entry l j = Some r /\ entry (component_anchors r) class = Some anchor /\ spotted anchor b) <->
       (exists m, u16_at f base m /\ j < m) /\ class < n /\ spotted_at f base (base + 2 + 2 * (n * j + class)) b)).
    { intros base parts l j class Hp HR.
      apply (vec_as _ (fun q r => u16s_at f q n (component_anchor_offsets r) /\
        maybes_at (anchor_at f) base (component_anchor_offsets r) (component_anchors r))) in HR; [|intros q [u v] Q; exact Q].
      exact (rows_iff component_anchor_offsets component_anchors f base n parts l j class b Hp HR). }
    split.
    + intros (i & j & class & l & u & anchor & Hi & Hj & Hk & El & Eu & Ev & Hb).
      apply (covers_iff _ _ _ _ _ H1) in Hi. apply (covers_iff _ _ _ _ _ H2) in Hj. apply (marked_iff _ _ _ _ _ _ _ HM) in Hk.
      destruct (link_down _ _ _ _ _ _ _ _ _ HO HL El) as (link & Ij & Hlink & Hl). destruct l as [parts l]. cbn in Hl, Eu.
      destruct Hl as (Hp & Hl). destruct (proj1 (R _ _ _ k class Hp Hl) ltac:(eauto)) as ((m' & Hm' & Ik) & Ic & Hb').
      right. split; [lia|]. exists c, d, n, r, s, i, j, class, m. do 11 (split; [assumption|]). right. split; [reflexivity|].
      exists link, m'. auto.
    + intros [(Ht & _)|(_ & c' & d' & n' & r' & s' & i & j & class & m' & Hc' & Hd' & Hn' & Hr' & Hs' & Hi & Hj & Hk & Ic & Hm' & Ij & [(Ht & _)|(_ & link & parts & Hlink & Hp & Ik & Hb)])];
        [lia|lia|].
      rewrite (u16_fun _ _ _ _ Hc' Hc), (u16_fun _ _ _ _ Hd' Hd), (u16_fun _ _ _ _ Hn' Hn), (u16_fun _ _ _ _ Hr' Hr), (u16_fun _ _ _ _ Hs' Hs) in *.
      apply (covers_iff _ _ _ _ _ H1) in Hi. apply (covers_iff _ _ _ _ _ H2) in Hj. apply (marked_iff _ _ _ _ _ _ _ HM) in Hk.
      rewrite (u16_fun _ _ _ _ Hm' Hm) in Ij.
      destruct (link_up _ _ _ _ _ _ _ _ _ HO HL Ij Hlink) as ([parts' l] & El & Hp' & Hl).
      destruct (proj2 (R _ _ _ k class Hp' Hl)) as (u & anchor & Eu & Ev & Hb'); [eauto|].
      exists i, j, class, (mkGposLigature parts' l), u, anchor. cbn. auto 10.
  - cbn. intros (-> & Hf & _ & Hc & Hd & Hn & Hr & Hs & H1 & H2 & HM & Hm & HR).
    apply (vec_as _ (fun q r => u16s_at f q n (mark2_anchor_offsets r) /\
      maybes_at (anchor_at f) (p + s) (mark2_anchor_offsets r) (mark2_anchors r))) in HR; [|intros q [u v] Q; exact Q].
    assert (R := fun j class => rows_iff mark2_anchor_offsets mark2_anchors f (p + s) n m records j class b Hm HR).
    split.
    + intros (-> & i & j & class & u & anchor & Hi & Hj & Hk & Eu & Ev & Hb).
      apply (covers_iff _ _ _ _ _ H1) in Hi. apply (covers_iff _ _ _ _ _ H2) in Hj. apply (marked_iff _ _ _ _ _ _ _ HM) in Hk.
      destruct (proj1 (R j class) ltac:(eauto)) as ((m' & Hm' & Ij) & Ic & Hb').
      right. split; [lia|]. exists c, d, n, r, s, i, j, class, m'. do 11 (split; [assumption|]). left. split; [discriminate|]. auto.
    + intros [(Ht & _)|(_ & c' & d' & n' & r' & s' & i & j & class & m' & Hc' & Hd' & Hn' & Hr' & Hs' & Hi & Hj & Hk & Ic & Hm' & Ij & [(_ & -> & Hb)|(Ht & _)])];
        [lia| |lia].
      rewrite (u16_fun _ _ _ _ Hc' Hc), (u16_fun _ _ _ _ Hd' Hd), (u16_fun _ _ _ _ Hn' Hn), (u16_fun _ _ _ _ Hr' Hr), (u16_fun _ _ _ _ Hs' Hs) in *.
      apply (covers_iff _ _ _ _ _ H1) in Hi. apply (covers_iff _ _ _ _ _ H2) in Hj. apply (marked_iff _ _ _ _ _ _ _ HM) in Hk.
      destruct (proj2 (R j class)) as (u & anchor & Eu & Ev & Hb'); [eauto|].
      split; [reflexivity|]. exists i, j, class, u, anchor. auto 10.
  - intros (-> & _). split; [contradiction|]. intros [(Ht & _)|(Ht & _)]; lia.
  - intros (-> & _). split; [contradiction|]. intros [(Ht & _)|(Ht & _)]; lia.
  - intros (-> & _). split; [contradiction|]. intros [(Ht & _)|(Ht & _)]; lia.
Qed.

(** ** Whole tables *)

Lemma lookup_down {T} o (table_at : N -> file -> N -> T -> Prop) f p v k j t :
  directory_at o table_at f p v -> in_lookup v k j t ->
  exists q ty, in_lookup_at o f p k j q ty /\ table_at ty f q t.
Proof.
  destruct v as [major minor so fo lo vo scripts features lookups variations]. cbn [directory_at].
  intros (_ & _ & _ & _ & _ & _ & Hl & _ & _ & _ & _ & L & _) (r & Er & Et). cbn in Er.
  destruct L as [(_ & _ & ->)|(Hz & L)]; [unfold entry in Er; cbn in Er; destruct (N.to_nat k); discriminate Er|].
  destruct lookups as [n offsets records]. cbn in L, Er. destruct L as (Hn & Ho & H).
  destruct (link_down _ _ _ _ _ _ _ _ _ Ho H Er) as (x & Hk & Hx & Hr). destruct r. cbn in Hr, Et.
  destruct Hr as (Hty & _ & Hm & Hos & _ & Hts).
  destruct (link_down _ _ _ _ _ _ _ _ _ Hos Hts Et) as (y & Hj & Hy & Ht).
  eexists _, _. split; [|exact Ht]. eexists lo, n, x, _, y. do 9 (split; [eassumption|]). reflexivity.
Qed.

Lemma lookup_up {T} o (table_at : N -> file -> N -> T -> Prop) f p v k j q ty :
  directory_at o table_at f p v -> in_lookup_at o f p k j q ty ->
  exists t, in_lookup v k j t /\ table_at ty f q t.
Proof.
  destruct v as [major minor so fo lo vo scripts features lookups variations]. cbn [directory_at].
  intros (_ & _ & _ & _ & _ & _ & Hl & _ & _ & _ & _ & L & _)
    (lo' & n' & x & m' & y & Hl' & Hz & Hn' & Hk & Hx & Hty' & Hm' & Hj & Hy & ->).
  rewrite (u16_fun _ _ _ _ Hl' Hl) in *.
  destruct L as [(-> & I & _)|(_ & L)]; [destruct Hz; congruence|].
  destruct lookups as [n offsets records]. cbn in L. destruct L as (Hn & Ho & H).
  rewrite (u16_fun _ _ _ _ Hn' Hn) in Hk. destruct (link_up _ _ _ _ _ _ _ _ _ Ho H Hk Hx) as (r & Er & Hr).
  destruct r as [ty'' flags m os set tables]. cbn in Hr. destruct Hr as (Hty & _ & Hm & Hos & _ & Hts).
  rewrite (u16_fun _ _ _ _ Hm' Hm) in Hj. destruct (link_up _ _ _ _ _ _ _ _ _ Hos Hts Hj Hy) as (t & Et & Ht).
  rewrite <- (u16_fun _ _ _ _ Hty' Hty) in Ht. exists t. split; [|exact Ht]. eexists. split; [exact Er|exact Et].
Qed.

(** ** What is read *)

Lemma coverage_means o f p v g i :
  bounded f -> reads o read_coverage f p v -> (covers v g i <-> covered_at f p g i).
Proof. intros B H. apply covers_iff. exact (proj1 (piece_reads PieceCoverage o f p v B eq_refl) H). Qed.

Lemma class_means o f p v g c : bounded f -> reads o read_class f p v -> (classifies v g c <-> classified_at f p g c).
Proof. intros B H. apply classifies_iff. exact (proj1 (piece_reads PieceClass o f p v B eq_refl) H). Qed.

Lemma substitution_means o ty f p t xs ys :
  bounded f -> reads o (read_gsub_type ty) f p t -> (replaces t xs ys <-> replaces_at f p ty xs ys).
Proof. intros B H. apply replaces_iff. exact (proj1 (piece_reads (PieceGsubType ty) o f p t B eq_refl) H). Qed.

Lemma adjustment_means o ty f p t xs second c z :
  bounded f -> reads o (read_gpos_type ty) f p t -> (adjusts t xs second c z <-> adjusts_at f p ty xs second c z).
Proof. intros B H. apply (adjusts_iff o). exact (proj1 (piece_reads (PieceGposType ty) o f p t B eq_refl) H). Qed.

Lemma attachment_means o ty f p t x y k a b :
  bounded f -> reads o (read_gpos_type ty) f p t -> (attaches t x y k a b <-> attaches_at o f p ty x y k a b).
Proof. intros B H. apply attaches_iff. exact (proj1 (piece_reads (PieceGposType ty) o f p t B eq_refl) H). Qed.

Lemma gsub_means o f p v k j xs ys :
  bounded f -> reads o read_glyph_substitution f p v ->
  ((exists t, in_lookup v k j t /\ replaces t xs ys) <->
   (exists q ty, in_lookup_at o f p k j q ty /\ replaces_at f q ty xs ys)).
Proof.
  intros B H. apply (request_reads RequestGsub o f p v B) in H. cbn in H. split.
  - intros (t & I & R). destruct (lookup_down _ _ _ _ _ _ _ _ H I) as (q & ty & I' & Ht).
    exists q, ty. split; [exact I'|]. apply (replaces_iff _ _ _ _ _ _ Ht), R.
  - intros (q & ty & I & R). destruct (lookup_up _ _ _ _ _ _ _ _ _ H I) as (t & I' & Ht).
    exists t. split; [exact I'|]. apply (replaces_iff _ _ _ _ _ _ Ht), R.
Qed.

Lemma gpos_means o f p v k j :
  bounded f -> reads o read_glyph_positioning f p v ->
  (forall xs second c z, (exists t, in_lookup v k j t /\ adjusts t xs second c z) <->
    (exists q ty, in_lookup_at o f p k j q ty /\ adjusts_at f q ty xs second c z)) /\
  (forall x y n a b, (exists t, in_lookup v k j t /\ attaches t x y n a b) <->
    (exists q ty, in_lookup_at o f p k j q ty /\ attaches_at o f q ty x y n a b)).
Proof.
  intros B H. apply (request_reads RequestGpos o f p v B) in H. cbn in H. split.
  - intros xs second c z. split.
    + intros (t & I & R). destruct (lookup_down _ _ _ _ _ _ _ _ H I) as (q & ty & I' & Ht).
      exists q, ty. split; [exact I'|]. apply (adjusts_iff _ _ _ _ _ _ _ _ _ Ht), R.
    + intros (q & ty & I & R). destruct (lookup_up _ _ _ _ _ _ _ _ _ H I) as (t & I' & Ht).
      exists t. split; [exact I'|]. apply (adjusts_iff _ _ _ _ _ _ _ _ _ Ht), R.
  - intros x y n a b. split.
    + intros (t & I & R). destruct (lookup_down _ _ _ _ _ _ _ _ H I) as (q & ty & I' & Ht).
      exists q, ty. split; [exact I'|]. apply (attaches_iff _ _ _ _ _ _ _ _ _ _ Ht), R.
    + intros (q & ty & I & R). destruct (lookup_up _ _ _ _ _ _ _ _ _ H I) as (t & I' & Ht).
      exists t. split; [exact I'|]. apply (attaches_iff _ _ _ _ _ _ _ _ _ _ Ht), R.
Qed.

(** ** Features *)

Section tagged.
Context {H R : Type} (tag_of : H -> tag) (offset_of : H -> N) (f : file) (header_at : N -> H -> Prop)
  (record_at : N -> R -> Prop) (headers_look : forall q h, header_at q h <-> tag_at f q (tag_of h) /\ u16_at f (q + 4) (offset_of h)).

Lemma tagged_down p n q headers records t i h r :
  vec_at header_at 6 q n headers -> linked_at record_at p (map offset_of headers) records ->
  entry headers i = Some h -> tag_of h = t -> entry records i = Some r ->
  exists s, tagged_at f p n q t i s /\ record_at s r.
Proof.
  intros V L Eh <- Er. destruct (vec_entry _ _ _ _ _ _ _ V Eh) as (Hi & Hh). apply headers_look in Hh. destruct Hh as (Ht & Ho).
  destruct (linked_entry _ _ _ _ _ _ L Er) as (x & Ex & Hr).
  assert (x = offset_of h) as ->. { unfold entry in Eh. rewrite (map_nth_error _ _ _ Eh) in Ex. congruence. }
  exists (p + offset_of h). split; [exists (offset_of h); auto|exact Hr].
Qed.

Lemma tagged_up p n n' q headers records t i s :
  vec_at header_at 6 q n headers -> linked_at record_at p (map offset_of headers) records ->
  tagged_at f p n' q t i s -> n' = n ->
  exists h r, entry headers i = Some h /\ tag_of h = t /\ entry records i = Some r /\ record_at s r.
Proof.
  intros V L (link & Hi & Ht & Ho & ->) ->. destruct (vec_nth _ _ _ _ _ _ V Hi) as (h & Eh & Hh).
  apply headers_look in Hh. destruct Hh as (Ht' & Ho').
  destruct (linked_nth _ _ _ _ (N.to_nat i) (offset_of h) L (map_nth_error _ _ _ Eh)) as (r & Er & Hr).
  exists h, r. rewrite (u16_fun _ _ _ _ Ho Ho'). rewrite (ProofOpen.tag_at_unique _ _ _ _ Ht' Ht). auto.
Qed.
End tagged.

Lemma list_down {A} o f (elem : N -> A -> Prop) p q offset default v :
  u16_at f q offset -> list_at o elem p offset default v -> v <> default ->
  exists r, list_found_at o f p q r /\ elem r v.
Proof.
  intros Hq [(_ & _ & E)|(Hz & H)] N; [contradiction|]. exists (p + offset). split; [exists offset; auto|exact H].
Qed.

Lemma list_up {A} o f (elem : N -> A -> Prop) p q offset default v r :
  u16_at f q offset -> list_at o elem p offset default v -> list_found_at o f p q r -> elem r v.
Proof.
  intros Hq H (list & Hq' & Hz & ->). rewrite (u16_fun _ _ _ _ Hq' Hq) in *.
  destruct H as [(-> & I & _)|(_ & H)]; [destruct Hz; congruence|exact H].
Qed.

Lemma script_look f q h : script_header_at f q h <-> tag_at f q (script_header_tag h) /\ u16_at f (q + 4) (script_header_offset h).
Proof. destruct h. reflexivity. Qed.

Lemma language_look f q h : language_header_at f q h <-> tag_at f q (language_header_tag h) /\ u16_at f (q + 4) (language_header_offset h).
Proof. destruct h. reflexivity. Qed.

Lemma feature_look f q h : feature_header_at f q h <-> tag_at f q (feature_header_tag h) /\ u16_at f (q + 4) (feature_header_offset h).
Proof. destruct h. reflexivity. Qed.

Lemma entry_nil {A} i (v : A) : entry [] i = Some v -> False.
Proof. unfold entry. destruct (N.to_nat i); discriminate. Qed.

Lemma listed_iff f q n l x : u16s_at f q n l -> (In x l <-> exists i, i < n /\ u16_at f (q + 2 * i) x).
Proof.
  intros V. rewrite in_entry. split.
  - intros (i & E). exists i. exact (vec_entry _ _ _ _ _ _ _ V E).
  - intros (i & Hi & Hx). destruct (vec_nth _ _ _ _ _ _ V Hi) as (y & E & Hy). exists i. rewrite (u16_fun _ _ _ _ Hx Hy). exact E.
Qed.

Lemma enables_iff {T} o (table_at : N -> file -> N -> T -> Prop) f p v script language required feature k :
  directory_at o table_at f p v ->
  (enables v script language required feature k <-> enables_at o f p script language required feature k).
Proof.
  destruct v as [major minor so fo lo vo scripts features lookups variations]. unfold enables. cbn [directory_at directory_scripts directory_features].
  intros (_ & _ & _ & _ & Hso & Hfo & _ & _ & _ & S & F & _). split.
  - intros (i & h & s & l & x & g & r & Eh & Th & Es & Hl & Hx & Eg & Tg & Er & Hk).
    destruct (list_down _ _ _ _ _ _ _ _ Hso S) as (ss & Hss & S').
    { intros ->. exact (entry_nil _ _ Eh). }
    destruct (list_down _ _ _ _ _ _ _ _ Hfo F) as (fs & Hfs & F').
    { intros ->. exact (entry_nil _ _ Eg). }
    destruct scripts as [n sh sr], features as [m fh fr]. cbn in *. destruct S' as (Hn & Vh & Lr), F' as (Hm & Wh & Mr).
    destruct (tagged_down _ _ _ _ _ (script_look f) _ _ _ _ _ _ _ _ _ Vh Lr Eh Th Es) as (q & Hq & Hs).
    destruct (tagged_down _ _ _ _ _ (feature_look f) _ _ _ _ _ _ _ _ _ Wh Mr Eg Tg Er) as (u & Hu & Hr).
    destruct r as [po c ks ps]. cbn in *. destruct Hr as (_ & Hc & Vk & _).
    apply (listed_iff _ _ _ _ _ Vk) in Hk. destruct Hk as (j & Hj & Hk).
    assert (Hl' : exists lp, match language with
      | None => exists link, u16_at f q link /\ link <> 0 /\ lp = q + link
      | Some t => exists n i, u16_at f (q + 2) n /\ tagged_at f q n (q + 4) t i lp
      end /\ language_record_at f lp l).
    { destruct s as [dl ln lh d lr]. cbn in *. destruct Hs as (Hdl & Hln & Vl & Hd & Ll). destruct language as [t|].
      - destruct Hl as (i' & h' & Eh' & Th' & El).
        destruct (tagged_down _ _ _ _ _ (language_look f) _ _ _ _ _ _ _ _ _ Vl Ll Eh' Th' El) as (lp & Ht & Hlr). eauto 10.
      - subst d. destruct Hd as (Hz & Hd). eauto 10. }
    destruct Hl' as (lp & Hl' & Hlr). destruct l as [lo' rq cnt is]. cbn in *. destruct Hlr as (_ & _ & Hrq & Hcnt & Vi).
    exists ss, n, i, q, lp, fs, x, m, u, j. do 3 (split; [assumption|]). split; [exact Hl'|]. split.
    + destruct required; [congruence|]. apply (listed_iff _ _ _ _ _ Vi) in Hx. destruct Hx as (i' & Hi & Hx). eauto.
    + do 3 (split; [assumption|]). split; [eauto|exact Hk].
  - intros (ss & n & i & s & l & fs & x & m & u & j & Hss & Hn & Hs & Hl & Hx & Hfs & Hm & Hu & (c & Hc & Hj) & Hk).
    assert (S' := list_up _ _ _ _ _ _ _ _ _ Hso S Hss). assert (F' := list_up _ _ _ _ _ _ _ _ _ Hfo F Hfs).
    destruct scripts as [n' sh sr], features as [m' fh fr]. cbn in *. destruct S' as (Hn' & Vh & Lr), F' as (Hm' & Wh & Mr).
    destruct (tagged_up _ _ _ _ _ (script_look f) _ _ _ _ _ _ _ _ _ Vh Lr Hs (u16_fun _ _ _ _ Hn Hn')) as (h & sv & Eh & Th & Es & Hsv).
    destruct (tagged_up _ _ _ _ _ (feature_look f) _ _ _ _ _ _ _ _ _ Wh Mr Hu (u16_fun _ _ _ _ Hm Hm')) as (g & r & Eg & Tg & Er & Hr).
    assert (Hl' : exists lv, match language with
      | None => script_record_default_language sv = Some lv
      | Some t => exists i h, entry (script_record_language_headers sv) i = Some h /\ language_header_tag h = t /\
          entry (script_record_language_records sv) i = Some lv
      end /\ language_record_at f l lv).
    { destruct sv as [dl ln lh d lr]. cbn in *. destruct Hsv as (Hdl & Hln & Vl & Hd & Ll). destruct language as [t|].
      - destruct Hl as (n'' & i' & Hn'' & Ht).
        destruct (tagged_up _ _ _ _ _ (language_look f) _ _ _ _ _ _ _ _ _ Vl Ll Ht (u16_fun _ _ _ _ Hn'' Hln)) as (h' & lv & Eh' & Th' & El & Hlv).
        eauto 10.
      - destruct Hl as (link & Hlink & Hz & ->). rewrite (u16_fun _ _ _ _ Hlink Hdl) in *. destruct d as [d|]; [|contradiction].
        exists d. split; [reflexivity|exact (proj2 Hd)]. }
    destruct Hl' as (lv & Hl' & Hlv). exists i, h, sv, lv, x, g, r. do 3 (split; [assumption|]). split; [exact Hl'|]. split.
    + destruct lv as [lo' rq cnt is]. cbn in *. destruct Hlv as (_ & _ & Hrq & Hcnt & Vi). destruct required.
      * exact (u16_fun _ _ _ _ Hrq Hx).
      * destruct Hx as (n'' & i' & Hn'' & Hi & Hx). rewrite (u16_fun _ _ _ _ Hn'' Hcnt) in Hi. apply (listed_iff _ _ _ _ _ Vi). eauto.
    + do 3 (split; [assumption|]). destruct r as [po c' ks ps]. cbn in *. destruct Hr as (_ & Hc' & Vk & _).
      rewrite (u16_fun _ _ _ _ Hc Hc') in Hj. apply (listed_iff _ _ _ _ _ Vk). eauto.
Qed.

Lemma enabled_means o f p script language required feature k :
  bounded f ->
  (forall v, reads o read_glyph_substitution f p v ->
    (enables v script language required feature k <-> enables_at o f p script language required feature k)) /\
  (forall v, reads o read_glyph_positioning f p v ->
    (enables v script language required feature k <-> enables_at o f p script language required feature k)).
Proof.
  intros B. split; intros v H.
  - apply (request_reads RequestGsub o f p v B) in H. exact (enables_iff _ _ _ _ _ _ _ _ _ _ H).
  - apply (request_reads RequestGpos o f p v B) in H. exact (enables_iff _ _ _ _ _ _ _ _ _ _ H).
Qed.
