(** What corrections and palettes say. *)

From Verif Require Import ReadsTactics ProofFindings ProofRequests ProofPieces ProofReads.
From Verif Require ProofOpen.
From Verif Require Export SpecCorrections ProofDetails.

#[local] Arguments N.mul : simpl never.
#[local] Arguments N.add : simpl never.
#[local] Arguments N.sub : simpl never.

(** ** Corrections *)

Lemma remedied_iff f p v r : correction_at f p v -> (remedied v r <-> remedied_at f p r).
Proof.
  destruct v as [t|[outer inner format]]; cbn; intros H.
  - assert (F : exists format, u16_at f (p + 4) format /\ format <> 0x8000).
    { destruct t. cbn in H. destruct H as (_ & _ & _ & Hf & I & _). eexists. split; [exact Hf|]. lia. }
    destruct r as [size z|outer inner]; cbn.
    + rewrite (tunes_iff _ _ _ _ _ H). tauto.
    + split; [contradiction|]. intros (Hf & _). destruct F as (format & Hf' & Z). apply Z, (u16_fun _ _ _ _ Hf' Hf).
  - destruct H as (-> & Ho & Hi & Hf). destruct r as [size z|outer' inner']; cbn.
    + split; [contradiction|]. intros ((format & Hf' & Z) & _). apply Z, (u16_fun _ _ _ _ Hf' Hf).
    + split.
      * intros (<- & <-). auto.
      * intros (_ & Ho' & Hi'). split; [exact (u16_fun _ _ _ _ Ho Ho')|exact (u16_fun _ _ _ _ Hi Hi')].
Qed.

Lemma maybe_remedied f base q link v r :
  u16_at f q link -> maybe_at (correction_at f) base link v ->
  ((exists d, v = Some d /\ remedied d r) <-> (exists link, u16_at f q link /\ link <> 0 /\ remedied_at f (base + link) r)).
Proof.
  intros Hq M. split.
  - intros (d & -> & R). destruct M as (Z & M). exists link. split; [exact Hq|]. split; [exact Z|]. apply (remedied_iff _ _ _ _ M), R.
  - intros (link' & Hq' & Z & R). rewrite (u16_fun _ _ _ _ Hq' Hq) in *. destruct v as [d|]; [|contradiction].
    exists d. split; [reflexivity|]. apply (remedied_iff _ _ _ _ (proj2 M)), R.
Qed.

Lemma anchor_remedied_iff f p v vertical r : anchor_at f p v -> (anchor_remedied v vertical r <-> anchor_remedied_at f p vertical r).
Proof.
  unfold anchor_remedied, anchor_remedied_at. intros H. destruct v as [[format x y]|[format x y index]|[format x y a1 a2 b1 b2]]; cbn in H.
  - destruct H as (-> & Hf & _). split; [intros (t & c & E & _); discriminate E|].
    intros (link & Hf' & _). discriminate (u16_fun _ _ _ _ Hf Hf').
  - destruct H as (-> & Hf & _). split; [intros (t & c & E & _); discriminate E|].
    intros (link & Hf' & _). discriminate (u16_fun _ _ _ _ Hf Hf').
  - destruct H as (-> & Hf & _ & _ & H1 & H2 & M1 & M2).
    assert (G : (exists d, (if vertical then b2 else b1) = Some d /\ remedied d r) <->
      (exists link, u16_at f (p + (if vertical then 8 else 6)) link /\ link <> 0 /\ remedied_at f (p + link) r)).
    { destruct vertical; [exact (maybe_remedied _ _ _ _ _ _ H2 M2)|exact (maybe_remedied _ _ _ _ _ _ H1 M1)]. }
    split.
    + intros (t & c & [= <-] & E & R). cbn in E. destruct (proj1 G) as (link & L); [eauto|]. exists link. auto.
    + intros (link & _ & L). destruct (proj2 G) as (c & E & R); [eauto|]. eexists _, c. split; [reflexivity|]. split; [exact E|exact R].
Qed.

Lemma field_remedied f base flags q c offset v r :
  field_at (u16_at f) flags c q offset -> corrected_at f base offset v ->
  ((exists d, remedied d r /\ v = Some d) <->
   N.testbit flags (N.of_nat c) = true /\
   exists link, u16_at f (q + 2 * bits_below flags c) link /\ link <> 0 /\ remedied_at f (base + link) r).
Proof.
  destruct offset as [link|]; cbn [field_at corrected_at].
  - intros (T & Hl) M. rewrite <- (maybe_remedied _ _ _ _ _ r Hl M). split.
    + intros (d & R & E). split; [exact T|]. eauto.
    + intros (_ & d & E & R). eauto.
  - intros T ->. split; [intros (d & _ & E); discriminate E|]. intros (T' & _). congruence.
Qed.

Lemma value_remedied_iff f base flags q s c r :
  single_at f base flags q s -> (value_remedied s c r <-> value_remedied_at f base q flags c r).
Proof.
  destruct s as [x0 x1 x2 x3 y0 y1 y2 y3 w0 w1 w2 w3]. cbn [single_at].
  intros (_ & _ & _ & _ & H0 & H1 & H2 & H3 & C0 & C1 & C2 & C3). unfold value_remedied, value_remedied_at.
  destruct c as [|[|[|[|c]]]]; cbn [Nat.add Types.single_x_placement_correction Types.single_y_placement_correction
    Types.single_x_advance_correction Types.single_y_advance_correction].
  - rewrite (field_remedied _ _ _ _ _ _ _ r H0 C0). intuition lia.
  - rewrite (field_remedied _ _ _ _ _ _ _ r H1 C1). intuition lia.
  - rewrite (field_remedied _ _ _ _ _ _ _ r H2 C2). intuition lia.
  - rewrite (field_remedied _ _ _ _ _ _ _ r H3 C3). intuition lia.
  - split; [intros (d & _ & E); discriminate E|lia].
Qed.

(** ** Values *)

Lemma valued_down o f p ty t xs second s :
  gpos_type_at o ty f p t -> valued t xs second s ->
  exists base q flags, valued_at f p ty xs second base q flags /\ single_at f base flags q s.
Proof.
  destruct t as [[[format a flags value coverage]|[format a flags n values coverage]]|
    [[format a flags1 flags2 n offsets coverage records]|[format a flags1 flags2 a1 a2 n1 n2 records coverage class1 class2]]|
    t|t|t|t|t|t|t]; cbn [gpos_type_at valued]; try contradiction.
  - cbn. intros (-> & -> & Hf & Ha & (Hs & _) & Hv & Hcov) (g & i & Hg & -> & -> & <-). apply (covers_iff _ _ _ _ _ Hcov) in Hg.
    exists p, (p + 6), flags. split; [|exact Hv]. exists g, a, i, flags. do 3 (split; [assumption|]). left. auto 10.
  - cbn. intros (-> & -> & Hf & Ha & (Hs & _) & Hn & Hv & Hcov) (g & i & Hg & -> & -> & E). apply (covers_iff _ _ _ _ _ Hcov) in Hg.
    destruct (vec_entry _ _ _ _ _ _ _ Hv E) as (Hi & Hr). eexists p, _, flags. split; [|exact Hr].
    exists g, a, i, flags. do 3 (split; [assumption|]). left. do 5 (split; [reflexivity|]). right. split; [exact Hf|]. eauto.
  - cbn. intros (-> & -> & Hf & Ha & (Hs1 & _) & (Hs2 & _) & Hn & Ho & Hcov & H) (g & i & r & u & Hg & Er & Hin & -> & E).
    apply (covers_iff _ _ _ _ _ Hcov) in Hg. destruct (link_down _ _ _ _ _ _ _ _ _ Ho H Er) as (x & Hi & Hx & Hr).
    destruct r as [m l]. cbn in Hr, Hin. destruct Hr as (Hm & Hl). apply in_entry in Hin. destruct Hin as (j & Ej).
    destruct (vec_entry _ _ _ _ _ _ _ Hl Ej) as (Hj & Hp). destruct u as [h v1 v2]. cbn in Hp, E |- *.
    destruct Hp as (Hh & H1 & H2). set (r := p + x + 2 + (2 + value_size flags1 + value_size flags2) * j) in *.
    exists (p + x), (if second then r + 2 + value_size flags1 else r + 2), (if second then flags2 else flags1). split.
    + exists g, a, i, flags1. do 3 (split; [assumption|]). right. split; [reflexivity|]. exists h, flags2, (r + 2).
      split; [reflexivity|]. split; [exact Hs2|]. split; [destruct second; auto|]. left. split; [exact Hf|]. exists n, x, m, j. auto 10.
    + destruct second; rewrite E in *; [apply H2|apply H1].
  - cbn. intros (-> & -> & Hf & Ha & (Hs1 & _) & (Hs2 & _) & Ha1 & Ha2 & Hn1 & Hn2 & H & Hcov & Hc1 & Hc2)
      (g & i & h & c1 & c2 & r & u & Hg & Hg1 & Hg2 & Er & Es & -> & E). apply (covers_iff _ _ _ _ _ Hcov) in Hg.
    apply (or_zero_iff _ _ _ _ _ Hc1) in Hg1. apply (or_zero_iff _ _ _ _ _ Hc2) in Hg2.
    destruct (vec_entry _ _ _ _ _ _ _ H Er) as (Hi1 & Hr). destruct r as [l]. cbn in Hr, Es.
    destruct (vec_entry _ _ _ _ _ _ _ Hr Es) as (Hi2 & Hp). destruct u as [v1 v2]. cbn in Hp, E.
    replace (p + 16 + (value_size flags1 + value_size flags2) * n2 * c1 + (value_size flags1 + value_size flags2) * c2) with
      (p + 16 + (value_size flags1 + value_size flags2) * (n2 * c1 + c2)) in Hp by lia.
    set (r := p + 16 + (value_size flags1 + value_size flags2) * (n2 * c1 + c2)) in *.
    destruct Hp as (H1 & H2). exists p, (if second then r + value_size flags1 else r), (if second then flags2 else flags1). split.
    + exists g, a, i, flags1. do 3 (split; [assumption|]). right. split; [reflexivity|]. exists h, flags2, r.
      split; [reflexivity|]. split; [exact Hs2|]. split; [destruct second; auto|]. right. split; [exact Hf|]. split; [reflexivity|].
      exists a1, a2, n1, n2, c1, c2. do 8 (split; [assumption|]). reflexivity.
    + destruct second; rewrite E in *; [apply H2|apply H1].
Qed.

Lemma value_some f base flags q v : value_at f base flags q v -> flags <> 0 -> exists s, v = Some s /\ single_at f base flags q s.
Proof. destruct v as [s|]; cbn; [|contradiction]. intros (_ & H) _. eauto. Qed.

Lemma valued_up o f p ty t xs second base q flags :
  gpos_type_at o ty f p t -> valued_at f p ty xs second base q flags -> flags <> 0 ->
  exists s, valued t xs second s /\ single_at f base flags q s.
Proof.
  destruct t as [[[format a flags' value coverage]|[format a flags' n values coverage]]|
    [[format a flags1 flags2 n offsets coverage records]|[format a flags1 flags2 a1 a2 n1 n2 records coverage class1 class2]]|
    t|t|t|t|t|t|t]; cbn [gpos_type_at valued].
  - cbn. intros (-> & -> & Hf & Ha & (Hs & _) & Hv & Hcov)
      (g & a' & i & flags1 & Ha' & Hg & Hs' & [(_ & -> & -> & -> & -> & [(_ & ->)|(Hf' & _)])|(Ht & _)]) _;
      [|discriminate (u16_fun _ _ _ _ Hf Hf')|lia].
    rewrite (u16_fun _ _ _ _ Ha' Ha) in Hg. rewrite (u16_fun _ _ _ _ Hs' Hs). apply (covers_iff _ _ _ _ _ Hcov) in Hg.
    exists value. eauto 10.
  - cbn. intros (-> & -> & Hf & Ha & (Hs & _) & Hn & Hv & Hcov)
      (g & a' & i & flags1 & Ha' & Hg & Hs' & [(_ & -> & -> & -> & -> & [(Hf' & _)|(_ & n' & Hn' & Hi & ->)])|(Ht & _)]) _;
      [discriminate (u16_fun _ _ _ _ Hf Hf')| |lia].
    rewrite (u16_fun _ _ _ _ Ha' Ha) in Hg. rewrite (u16_fun _ _ _ _ Hs' Hs).
    rewrite (u16_fun _ _ _ _ Hn' Hn) in Hi. destruct (vec_nth _ _ _ _ _ _ Hv Hi) as (s & Es & Hr).
    apply (covers_iff _ _ _ _ _ Hcov) in Hg. exists s. split; [|exact Hr]. exists g, i. auto.
  - cbn. intros (-> & -> & Hf & Ha & (Hs1 & _) & (Hs2 & _) & Hn & Ho & Hcov & H)
      (g & a' & i & flags1' & Ha' & Hg & Hs1' & [(Ht & _)|(_ & h & flags2' & r & -> & Hs2' & Q & [(_ & n' & x & m & j & Hn' & Hi & Hx & -> & Hm & Hj & Hh & ->)|(Hf' & _)])]) Z;
      [lia| |discriminate (u16_fun _ _ _ _ Hf Hf')].
    rewrite (u16_fun _ _ _ _ Ha' Ha) in Hg. rewrite (u16_fun _ _ _ _ Hs1' Hs1), (u16_fun _ _ _ _ Hs2' Hs2) in Q, Hh.
    rewrite (u16_fun _ _ _ _ Hn' Hn) in Hi. destruct (link_up _ _ _ _ _ _ _ _ _ Ho H Hi Hx) as ([m' l] & Er & Hm' & Hl).
    rewrite (u16_fun _ _ _ _ Hm Hm') in Hj. destruct (vec_nth _ _ _ _ _ _ Hl Hj) as ([h' v1 v2] & Ej & Hh' & H1 & H2).
    rewrite (u16_fun _ _ _ _ Hh Hh'). apply (covers_iff _ _ _ _ _ Hcov) in Hg.
    assert (S : exists s, (if second then v2 else v1) = Some s /\ single_at f (p + x) flags q s).
    { destruct second; destruct Q as (-> & ->); [exact (value_some _ _ _ _ _ H2 Z)|exact (value_some _ _ _ _ _ H1 Z)]. }
    destruct S as (s & Es & Hv). exists s. split; [|exact Hv]. exists g, i, (mkPair1s m' l), (mkPair1 h' v1 v2). cbn.
    split; [exact Hg|]. split; [exact Er|]. split; [apply in_entry; exists j; exact Ej|]. auto.
  - cbn. intros (-> & -> & Hf & Ha & (Hs1 & _) & (Hs2 & _) & Ha1 & Ha2 & Hn1 & Hn2 & H & Hcov & Hc1 & Hc2)
      (g & a' & i & flags1' & Ha' & Hg & Hs1' & [(Ht & _)|(_ & h & flags2' & r & -> & Hs2' & Q & [(Hf' & _)|(_ & -> & a1' & a2' & n1' & n2' & c1 & c2 & Ha1' & Ha2' & Hn1' & Hn2' & Hg1 & Hi1 & Hg2 & Hi2 & ->)])]) Z;
      [lia|discriminate (u16_fun _ _ _ _ Hf Hf')|].
    rewrite (u16_fun _ _ _ _ Ha' Ha) in Hg. rewrite (u16_fun _ _ _ _ Hs1' Hs1), (u16_fun _ _ _ _ Hs2' Hs2) in Q.
    rewrite (u16_fun _ _ _ _ Ha1' Ha1) in Hg1. rewrite (u16_fun _ _ _ _ Ha2' Ha2) in Hg2.
    rewrite (u16_fun _ _ _ _ Hn1' Hn1) in Hi1. rewrite (u16_fun _ _ _ _ Hn2' Hn2) in Hi2, Q.
    destruct (vec_nth _ _ _ _ _ _ H Hi1) as ([l] & Er & Hr).
    destruct (vec_nth _ _ _ _ _ _ Hr Hi2) as ([v1 v2] & Es & H1 & H2).
    apply (covers_iff _ _ _ _ _ Hcov) in Hg. apply (or_zero_iff _ _ _ _ _ Hc1) in Hg1.
    apply (or_zero_iff _ _ _ _ _ Hc2) in Hg2.
    replace (p + 16 + (value_size flags1 + value_size flags2) * (n2 * c1 + c2)) with
      (p + 16 + (value_size flags1 + value_size flags2) * n2 * c1 + (value_size flags1 + value_size flags2) * c2) in Q by lia.
    assert (S : exists s, (if second then v2 else v1) = Some s /\ single_at f p flags q s).
    { destruct second; destruct Q as (-> & ->); [exact (value_some _ _ _ _ _ H2 Z)|exact (value_some _ _ _ _ _ H1 Z)]. }
    destruct S as (s & Ev & Hv). exists s. split; [|exact Hv].
    exists g, i, h, c1, c2, (mkPair2s l), (mkPair2 v1 v2). cbn. auto 10.
  - intros (-> & _) (g & a' & i & flags' & _ & _ & _ & [(Ht & _)|(Ht & _)]); lia.
  - intros (-> & _) (g & a' & i & flags' & _ & _ & _ & [(Ht & _)|(Ht & _)]); lia.
  - intros (-> & _) (g & a' & i & flags' & _ & _ & _ & [(Ht & _)|(Ht & _)]); lia.
  - intros (-> & _) (g & a' & i & flags' & _ & _ & _ & [(Ht & _)|(Ht & _)]); lia.
  - intros (-> & _) (g & a' & i & flags' & _ & _ & _ & [(Ht & _)|(Ht & _)]); lia.
  - intros (-> & _) (g & a' & i & flags' & _ & _ & _ & [(Ht & _)|(Ht & _)]); lia.
  - intros (-> & _) (g & a' & i & flags' & _ & _ & _ & [(Ht & _)|(Ht & _)]); lia.
Qed.

Lemma refines_iff o f p ty t xs second c r :
  gpos_type_at o ty f p t -> (refines t xs second c r <-> refines_at f p ty xs second c r).
Proof.
  intros H. split.
  - intros (s & V & R). destruct (valued_down _ _ _ _ _ _ _ _ H V) as (base & q & flags & V' & S).
    exists base, q, flags. split; [exact V'|]. apply (value_remedied_iff _ _ _ _ _ _ _ S), R.
  - intros (base & q & flags & V & R). destruct (valued_up _ _ _ _ _ _ _ _ _ _ H V) as (s & V' & S).
    { intros ->. destruct R as (_ & T & _). rewrite N.bits_0 in T. discriminate T. }
    exists s. split; [exact V'|]. apply (value_remedied_iff _ _ _ _ _ _ _ S), R.
Qed.

(** ** What is read *)

Lemma correction_means o f p v r :
  bounded f -> reads o read_correction f p v -> (remedied v r <-> remedied_at f p r).
Proof. intros B H. apply remedied_iff. exact (proj1 (piece_reads PieceCorrection o f p v B eq_refl) H). Qed.

Lemma anchor_means o f p v vertical r :
  bounded f -> reads o read_anchor f p v -> (anchor_remedied v vertical r <-> anchor_remedied_at f p vertical r).
Proof. intros B H. apply anchor_remedied_iff. exact (proj1 (piece_reads PieceAnchor o f p v B eq_refl) H). Qed.

Lemma refinement_means o ty f p t xs second c r :
  bounded f -> reads o (read_gpos_type ty) f p t -> (refines t xs second c r <-> refines_at f p ty xs second c r).
Proof. intros B H. apply (refines_iff o). exact (proj1 (piece_reads (PieceGposType ty) o f p t B eq_refl) H). Qed.

Lemma gpos_refines o f p v k j xs second c r :
  bounded f -> reads o read_glyph_positioning f p v ->
  ((exists t, in_lookup v k j t /\ refines t xs second c r) <->
   (exists q ty, in_lookup_at o f p k j q ty /\ refines_at f q ty xs second c r)).
Proof.
  intros B H. apply (request_reads RequestGpos o f p v B) in H. cbn in H. split.
  - intros (t & I & R). destruct (lookup_down _ _ _ _ _ _ _ _ H I) as (q & ty & I' & Ht).
    exists q, ty. split; [exact I'|]. apply (refines_iff _ _ _ _ _ _ _ _ _ Ht), R.
  - intros (q & ty & I & R). destruct (lookup_up _ _ _ _ _ _ _ _ _ H I) as (t & I' & Ht).
    exists t. split; [exact I'|]. apply (refines_iff _ _ _ _ _ _ _ _ _ Ht), R.
Qed.

(** ** Palettes *)

Lemma layout_reads f p h :
  cpal_header_at f p h ->
  exists n, let '(entries, count, offset, indices) := cpal_layout h in
    u16_at f (p + 2) entries /\ u16_at f (p + 4) n /\ u16_at f (p + 6) count /\ u32_at f (p + 8) offset /\
    u16s_at f (p + 12) n indices.
Proof. destruct h as [[]|[]]; cbn; intros H; eexists; repeat match goal with |- _ /\ _ => split end; apply H. Qed.

Lemma palettes_mean o f p v debug_assertions k j blue green red alpha :
  bounded f -> reads o read_color_palettes f p v ->
  (painted (color_palettes_iter debug_assertions v) k j blue green red alpha <-> painted_at f p k j blue green red alpha).
Proof.
  intros B H. pose proof (cpal_iter o f p v debug_assertions B H) as P. apply (request_reads RequestCpal o f p v B) in H.
  cbn in H. destruct v as [h colors]. unfold palettes_of in P. unfold color_palettes_at in H.
  pose proof (layout_reads f p h) as L.
  destruct (cpal_layout h) as [[[entries count] offset] indices]. destruct H as (Hh & V). destruct (L Hh) as (n & He & Hn & Hc & Ho & I).
  set (palettes := color_palettes_iter debug_assertions (mkColorPalettes h colors)) in *. clearbody palettes.
  destruct P as (Hlen & P). unfold painted, painted_at. split.
  - intros (palette & Ep & Ec).
    assert (S : exists first, entry indices k = Some first).
    { unfold entry in *. destruct (nth_error indices (N.to_nat k)) as [first|] eqn:E; [eauto|]. exfalso.
      apply nth_error_None in E. rewrite <- Hlen in E. apply nth_error_None in E. congruence. }
    destruct S as (first & Ef). destruct (P _ _ _ Ep Ef) as (Hl & Q). destruct (Q _ _ Ec) as (E & Z).
    destruct (vec_entry _ _ _ _ _ _ _ I Ef) as (Hk & Hf). apply entry_short in Ec. rewrite Hl in Ec.
    assert (Hj : first + j < count).
    { rewrite N2Nat.id in Z. destruct (N.le_gt_cases count (first + j)) as [Hle|]; [|assumption]. apply Z in Hle. discriminate Hle. }
    symmetry in E. rewrite <- N2Nat.inj_add in E. destruct (vec_entry _ _ _ _ _ _ _ V E) as (_ & Hq). cbn in Hq.
    eexists entries, n, count, offset, first, _. do 8 (split; [assumption|]). split; [reflexivity|]. exact Hq.
  - intros (entries' & n' & count' & offset' & first & q & He' & Hj & Hn' & Hk & Hc' & Ho' & Hf & Hlt & -> & Hq).
    rewrite (u16_fun _ _ _ _ He' He) in *. rewrite (u16_fun _ _ _ _ Hn' Hn) in *. rewrite (u16_fun _ _ _ _ Hc' Hc) in *.
    rewrite (ProofOpen.u32_at_unique _ _ _ _ Ho' Ho) in *.
    destruct (vec_nth _ _ _ _ _ _ I Hk) as (first' & Ef & Hf'). rewrite (u16_fun _ _ _ _ Hf Hf') in *.
    destruct (vec_nth _ _ _ _ _ _ V Hlt) as ([b g r a] & E & Hb & Hg & Hr & Ha). destruct Hq as (Hb' & Hg' & Hr' & Ha').
    assert (S : exists palette, entry palettes k = Some palette).
    { unfold entry. destruct (nth_error palettes (N.to_nat k)) as [palette|] eqn:Ep; [eauto|]. exfalso.
      apply nth_error_None in Ep. rewrite Hlen in Ep. apply nth_error_None in Ep. congruence. }
    destruct S as (palette & Ep). exists palette. split; [exact Ep|]. destruct (P _ _ _ Ep Ef) as (Hl & Q).
    unfold entry. destruct (nth_error palette (N.to_nat j)) as [x|] eqn:Ex.
    + destruct (Q _ _ Ex) as (-> & _). rewrite <- N2Nat.inj_add. rewrite E.
      rewrite (u8_fun _ _ _ _ Hb' Hb), (u8_fun _ _ _ _ Hg' Hg), (u8_fun _ _ _ _ Hr' Hr), (u8_fun _ _ _ _ Ha' Ha). reflexivity.
    + exfalso. apply nth_error_None in Ex. lia.
Qed.
