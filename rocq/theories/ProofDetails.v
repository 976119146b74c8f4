(** What corrections, glyph definitions, stores of variations and axes say. *)

From Verif Require ProofOpen.
From Verif Require Import ReadsTactics ProofFindings ProofRequests ProofPieces ProofReads.
From Verif Require Export SpecDetails ProofMeaning.

#[local] Arguments N.mul : simpl never.
#[local] Arguments N.add : simpl never.
#[local] Arguments N.sub : simpl never.

(** ** Devices *)

Lemma word_of_short format first last size :
  first <= size <= last -> word_of format (size - first) < device_bits first last format / 16 + 1.
Proof.
  intros H. unfold word_of, device_bits. assert (2 ^ format * (size - first) / 16 <= 2 ^ format * (last - first + 1) / 16); [|lia].
  apply N.div_le_mono; [lia|]. apply N.mul_le_mono_l. lia.
Qed.

Lemma tunes_iff f p v size z : device_at f p v -> (tunes v size z <-> tunes_at f p size z).
Proof.
  destruct v as [first last format deltas]. unfold tunes. cbn. intros (Ha & Hb & _ & Hf & _ & V). split.
  - intros (I & word & E & ->). destruct (vec_entry _ _ _ _ _ _ _ V E) as (_ & Hw). exists first, last, format, word. auto 10.
  - intros (first' & last' & format' & word & Ha' & Hb' & Hf' & I & Hw & ->).
    rewrite (u16_fun _ _ _ _ Ha' Ha) in *. rewrite (u16_fun _ _ _ _ Hb' Hb) in *. rewrite (u16_fun _ _ _ _ Hf' Hf) in *.
    split; [exact I|]. destruct (vec_nth _ _ _ _ _ _ V (word_of_short format first last size I)) as (w & E & Hw').
    exists w. rewrite (u16_fun _ _ _ _ Hw Hw'). auto.
Qed.

Lemma tunes_total f p v size : device_at f p v -> device_start_size v <= size <= device_end_size v ->
  exists z, tunes v size z.
Proof.
  destruct v as [first last format deltas]. unfold tunes. cbn. intros (_ & _ & _ & _ & _ & V) I.
  destruct (vec_nth _ _ _ _ _ _ V (word_of_short format first last size I)) as (w & E & _). eauto.
Qed.

Lemma signed_range bits x : 1 <= bits -> x < 2 ^ bits ->
  (- Z.of_N (2 ^ (bits - 1)) <= signed bits x < Z.of_N (2 ^ (bits - 1)))%Z.
Proof.
  intros Hb Hx. unfold signed. assert (E : 2 ^ bits = 2 * 2 ^ (bits - 1)).
  { rewrite <- N.pow_succ_r' by lia. f_equal. lia. }
  rewrite E in *. destruct (N.ltb_spec x (2 ^ (bits - 1))); lia.
Qed.

Lemma tunes_range f p v size z : device_at f p v -> tunes v size z ->
  exists format, u16_at f (p + 4) format /\ (format = 1%N /\ -2 <= z < 2 \/ format = 2%N /\ -8 <= z < 8 \/ format = 3%N /\ -128 <= z < 128)%Z.
Proof.
  destruct v as [first last format deltas]. unfold tunes. cbn. intros (_ & _ & _ & Hf & I & _) (_ & w & _ & ->).
  exists format. split; [exact Hf|]. unfold packed.
  assert (F : format = 1 \/ format = 2 \/ format = 3) by lia. set (k := size - first). clearbody k.
  destruct F as [->|[->| ->]]; [left|right; left|right; right]; (split; [reflexivity|]).
  - apply (signed_range 2); [lia|]. apply N.mod_lt. discriminate.
  - apply (signed_range 4); [lia|]. apply N.mod_lt. discriminate.
  - apply (signed_range 8); [lia|]. apply N.mod_lt. discriminate.
Qed.

Lemma device_means o f p v size z :
  bounded f -> reads o read_device f p v -> (tunes v size z <-> tunes_at f p size z).
Proof. intros B H. apply (piece_reads PieceDevice o f p v B eq_refl) in H. cbn in H. exact (tunes_iff _ _ _ _ _ H). Qed.

Lemma device_total o f p v size :
  bounded f -> reads o read_device f p v ->
  ((exists z, tunes_at f p size z) <-> device_start_size v <= size <= device_end_size v).
Proof.
  intros B H. apply (piece_reads PieceDevice o f p v B eq_refl) in H. cbn in H. split.
  - intros (z & T). apply (tunes_iff _ _ _ _ _ H) in T. exact (proj1 T).
  - intros I. destruct (tunes_total _ _ _ _ H I) as (z & T). exists z. apply (tunes_iff _ _ _ _ _ H), T.
Qed.

Lemma device_range o f p v size z :
  bounded f -> reads o read_device f p v -> tunes v size z ->
  exists format, u16_at f (p + 4) format /\ (format = 1%N /\ -2 <= z < 2 \/ format = 2%N /\ -8 <= z < 8 \/ format = 3%N /\ -128 <= z < 128)%Z.
Proof. intros B H. apply (piece_reads PieceDevice o f p v B eq_refl) in H. cbn in H. exact (tunes_range _ _ _ _ _ H). Qed.

(** ** Glyph definitions *)

Definition gdef_field (h : GdefHeader) (k : N) : N :=
  let '(a, b, c, d, m, _) := gdef_offsets h in
  match k with 0 => a | 1 => b | 2 => c | 3 => d | 4 => m | _ => 0 end.

Lemma field_place p k : p + 4 + 2 * k = match k with 0 => p + 4 | 1 => p + 6 | 2 => p + 8 | 3 => p + 10 | 4 => p + 12 | _ => p + 4 + 2 * k end.
Proof. destruct k as [|[[[k|k|]|[k|k|]|]|[[k|k|]|[k|k|]|]|]]; lia. Qed.

Lemma field_cases k : k < 4 -> k = 0 \/ k = 1 \/ k = 2 \/ k = 3.
Proof. lia. Qed.

Lemma defined_down f p h k : gdef_header_at f p h -> gdef_field h k <> 0 -> defined_at f p k (p + gdef_field h k).
Proof.
  intros H Z. unfold defined_at.
  assert (K : (k < 4 \/ k = 4)).
  { destruct h as [[]|[]|[]]; unfold gdef_field in Z; cbn in Z; destruct k as [|[[[k|k|]|[k|k|]|]|[[k|k|]|[k|k|]|]|]]; try contradiction; lia. }
  rewrite field_place.
  destruct h as [[major minor a b c d]|[major minor a b c d m]|[major minor a b c d m i]]; cbn in H; unfold gdef_field in *; cbn in Z |- *.
  - destruct H as (_ & _ & Hm & -> & Ha & Hb & Hc & Hd). exists 0.
    destruct K as [K| ->]; [|contradiction].
    destruct (field_cases k K) as [->|[->|[->| ->]]]; cbn in Z |- *; eexists; repeat match goal with |- _ /\ _ => split end; try eassumption; auto.
  - destruct H as (_ & _ & Hm & -> & Ha & Hb & Hc & Hd & Hs). exists 2.
    destruct K as [K| ->].
    + destruct (field_cases k K) as [->|[->|[->| ->]]]; cbn in Z |- *; eexists; repeat match goal with |- _ /\ _ => split end; try eassumption; auto.
    + cbn in Z |- *. eexists. repeat match goal with |- _ /\ _ => split end; try eassumption; auto. right. lia.
  - destruct H as (_ & _ & Hm & -> & Ha & Hb & Hc & Hd & Hs & _). exists 3.
    destruct K as [K| ->].
    + destruct (field_cases k K) as [->|[->|[->| ->]]]; cbn in Z |- *; eexists; repeat match goal with |- _ /\ _ => split end; try eassumption; auto.
    + cbn in Z |- *. eexists. repeat match goal with |- _ /\ _ => split end; try eassumption; auto. right. lia.
Qed.

Lemma defined_up f p h k r : gdef_header_at f p h -> defined_at f p k r -> gdef_field h k <> 0 /\ r = p + gdef_field h k.
Proof.
  intros H (minor' & link & Hm' & Hk & Hl & Z & ->).
  enough (E : link = gdef_field h k) by (subst link; auto). rewrite field_place in Hl.
  destruct h as [[major minor a b c d]|[major minor a b c d m]|[major minor a b c d m i]]; cbn in H; unfold gdef_field; cbn.
  - destruct H as (_ & _ & Hm & -> & Ha & Hb & Hc & Hd). rewrite (u16_fun _ _ _ _ Hm' Hm) in *.
    assert (K : k < 4) by lia. destruct (field_cases k K) as [->|[->|[->| ->]]]; eapply u16_fun; eassumption.
  - destruct H as (_ & _ & Hm & -> & Ha & Hb & Hc & Hd & Hs). destruct Hk as [K|(-> & _)].
    + destruct (field_cases k K) as [->|[->|[->| ->]]]; eapply u16_fun; eassumption.
    + eapply u16_fun; eassumption.
  - destruct H as (_ & _ & Hm & -> & Ha & Hb & Hc & Hd & Hs & _). destruct Hk as [K|(-> & _)].
    + destruct (field_cases k K) as [->|[->|[->| ->]]]; eapply u16_fun; eassumption.
    + eapply u16_fun; eassumption.
Qed.

(** A part that may be missing. *)
Lemma part_iff {A} f p h k (elem : N -> A -> Prop) v (P : A -> Prop) (Q : N -> Prop) :
  gdef_header_at f p h -> maybe_at elem p (gdef_field h k) v -> (forall q t, elem q t -> (P t <-> Q q)) ->
  ((exists t, v = Some t /\ P t) <-> exists r, defined_at f p k r /\ Q r).
Proof.
  intros H M E. split.
  - intros (t & -> & HP). destruct M as (Z & M). exists (p + gdef_field h k). split; [exact (defined_down _ _ _ _ H Z)|].
    apply (E _ _ M), HP.
  - intros (r & D & HQ). destruct (defined_up _ _ _ _ _ H D) as (Z & ->). destruct v as [t|]; [|contradiction].
    exists t. split; [reflexivity|]. apply (E _ _ (proj2 M)), HQ.
Qed.

Lemma gdef_parts o f p v :
  glyph_definition_at o f p v ->
  gdef_header_at f p (glyph_definition_header v) /\
  maybe_at (class_at f) p (gdef_field (glyph_definition_header v) 0) (glyph_definition_glyph_class v) /\
  maybe_at (attachments_at f) p (gdef_field (glyph_definition_header v) 1) (glyph_definition_attachments v) /\
  maybe_at (class_at f) p (gdef_field (glyph_definition_header v) 3) (glyph_definition_mark_class v) /\
  maybe_at (marks_at f) p (gdef_field (glyph_definition_header v) 4) (glyph_definition_marks v).
Proof.
  destruct v as [h a b c d e i]. unfold glyph_definition_at, glyph_definition_with, gdef_field.
  destruct (gdef_offsets h) as [[[[[x0 x1] x2] x3] x4] x5] eqn:E. cbn. rewrite E. intuition.
Qed.

Lemma defined_class_iff f p h k v g c :
  gdef_header_at f p h -> maybe_at (class_at f) p (gdef_field h k) v ->
  (defined_class v g c <-> defined_class_at f p k g c).
Proof. intros H M. apply (part_iff _ _ _ _ _ _ _ _ H M). intros q t T. exact (classifies_iff _ _ _ _ _ T). Qed.

Lemma points_iff f r t g point :
  attachments_at f r t ->
  ((exists i a, covers (attachments_coverage t) g i /\ entry (attachments_records t) i = Some a /\ In point (attachment_indices a)) <->
   (exists c i n link m j, u16_at f r c /\ covered_at f (r + c) g i /\ u16_at f (r + 2) n /\ i < n /\
     u16_at f (r + 4 + 2 * i) link /\ u16_at f (r + link) m /\ j < m /\ u16_at f (r + link + 2 + 2 * j) point)).
Proof.
  destruct t as [c n offsets coverage records]. cbn. intros (Hc & Hn & Ho & C & L). split.
  - intros (i & a & Hg & E & I). apply (covers_iff _ _ _ _ _ C) in Hg.
    destruct (link_down _ _ _ _ _ _ _ _ _ Ho L E) as (x & Hi & Hx & Ha). destruct a as [m l]. cbn in *. destruct Ha as (Hm & Hl).
    apply (listed_iff _ _ _ _ _ Hl) in I. destruct I as (j & Hj & Hp). exists c, i, n, x, m, j. auto 10.
  - intros (c' & i & n' & x & m & j & Hc' & Hg & Hn' & Hi & Hx & Hm & Hj & Hp).
    rewrite (u16_fun _ _ _ _ Hc' Hc) in *. rewrite (u16_fun _ _ _ _ Hn' Hn) in *. apply (covers_iff _ _ _ _ _ C) in Hg.
    destruct (link_up _ _ _ _ _ _ _ _ _ Ho L Hi Hx) as ([m' l] & E & Hm' & Hl). rewrite (u16_fun _ _ _ _ Hm Hm') in *.
    exists i, (mkAttachment m' l). split; [exact Hg|]. split; [exact E|]. apply (listed_iff _ _ _ _ _ Hl). eauto.
Qed.

Lemma sets_iff f r t k g :
  marks_at f r t ->
  ((exists c i, entry (marks_coverages t) k = Some c /\ covers c g i) <->
   (exists n link i, u16_at f (r + 2) n /\ k < n /\ u32_at f (r + 4 + 4 * k) link /\ covered_at f (r + link) g i)).
Proof.
  destruct t as [format n offsets coverages]. cbn. intros (_ & _ & Hn & Ho & L). split.
  - intros (c & i & E & Hg). destruct (linked_entry _ _ _ _ _ _ L E) as (x & Ex & C).
    destruct (vec_entry _ _ _ _ _ k x Ho Ex) as (Hk & Hx). apply (covers_iff _ _ _ _ _ C) in Hg. exists n, x, i. auto.
  - intros (n' & x & i & Hn' & Hk & Hx & Hg). rewrite (u16_fun _ _ _ _ Hn' Hn) in *.
    destruct (vec_nth _ _ _ _ _ _ Ho Hk) as (x' & Ex & Hx'). rewrite (ProofOpen.u32_at_unique _ _ _ _ Hx Hx') in *.
    destruct (linked_nth _ _ _ _ _ _ L Ex) as (c & E & C). apply (covers_iff _ _ _ _ _ C) in Hg. eauto.
Qed.

Lemma gdef_means o f p v :
  bounded f -> reads o read_glyph_definition f p v ->
  (forall g c, defined_class (glyph_definition_glyph_class v) g c <-> defined_class_at f p 0 g c) /\
  (forall g point, pointed v g point <-> pointed_at f p g point) /\
  (forall g c, defined_class (glyph_definition_mark_class v) g c <-> defined_class_at f p 3 g c) /\
  (forall k g, gathered v k g <-> gathered_at f p k g).
Proof.
  intros B R. apply (request_reads RequestGdef o f p v B) in R. destruct (gdef_parts _ _ _ _ R) as (H & A & T & D & M).
  split; [|split; [|split]].
  - intros g c. exact (defined_class_iff _ _ _ _ _ _ _ H A).
  - intros g point. pose proof (part_iff _ _ _ _ _ _ _ _ H T (fun q t X => points_iff f q t g point X)) as E.
    split.
    + intros (t & i & r & Et & X). destruct (proj1 E ltac:(eauto)) as (q & Dq & c & i' & n & link & m & j & Y).
      exists q, c, i', n, link, m, j. split; assumption.
    + intros (q & c & i & n & link & m & j & Dq & Y). destruct (proj2 E) as (t & Et & i' & r & X).
      { exists q. split; [exact Dq|]. exists c, i, n, link, m, j. exact Y. }
      exists t, i', r. split; assumption.
  - intros g c. exact (defined_class_iff _ _ _ _ _ _ _ H D).
  - intros k g. pose proof (part_iff _ _ _ _ _ _ _ _ H M (fun q t X => sets_iff f q t k g X)) as E.
    split.
    + intros (t & c & i & Et & X). destruct (proj1 E ltac:(eauto)) as (q & Dq & n & link & i' & Y).
      exists q, n, link, i'. split; assumption.
    + intros (q & n & link & i & Dq & Y). destruct (proj2 E) as (t & Et & c & i' & X).
      { exists q. split; [exact Dq|]. exists n, link, i. exact Y. }
      exists t, c, i'. split; assumption.
Qed.

(** ** Stores of variations *)

Lemma u8_fun f p a b : u8_at f p a -> u8_at f p b -> a = b.
Proof. intros (x & Hx & ->) (y & Hy & ->). congruence. Qed.

Lemma u8_pair f p a b : u8_at f p a -> u8_at f (p + 1) b -> u16_at f p (256 * a + b).
Proof. intros (x & Hx & ->) (y & Hy & ->). exists x, y. auto. Qed.

Lemma u16_signed f p z : i16_at f p z <-> exists u, u16_at f p u /\ z = signed 16 u.
Proof. reflexivity. Qed.

Lemma row_short item_count width inner k : inner < item_count -> k < width -> width * inner + k < item_count * width.
Proof. intros Hi Hk. nia. Qed.

Lemma varies_iff o f p v outer inner region z :
  store_at o f p v ->
  (forall r, entry (store_records v) outer = Some r ->
    store_record_short_delta_count r + store_record_region_count r < 2 ^ 16) ->
  (varies v outer inner region z <-> varies_at f p outer inner region z).
Proof.
  destruct v as [format ro n offsets records]. cbn [store_at store_records]. intros (_ & _ & _ & Hn & Ho & L) S.
  assert (G : forall r j q, store_record_at o f q r ->
    store_record_short_delta_count r + store_record_region_count r < 2 ^ 16 ->
    inner < store_record_item_count r -> j < store_record_region_count r ->
    (let row := (store_record_short_delta_count r + store_record_region_count r) * inner in
     (if j <? store_record_short_delta_count r then
       exists a b, entry (store_record_deltas r) (row + 2 * j) = Some a /\
         entry (store_record_deltas r) (row + 2 * j + 1) = Some b /\ z = signed 16 (256 * a + b)
      else exists a, entry (store_record_deltas r) (row + store_record_short_delta_count r + j) = Some a /\ z = signed 8 a) <->
     (if j <? store_record_short_delta_count r then
       i16_at f (q + 6 + 2 * store_record_region_count r + row + 2 * j) z
      else i8_at f (q + 6 + 2 * store_record_region_count r + row + store_record_short_delta_count r + j) z))).
  { intros [items short regions indices deltas] j q. cbn [store_record_at Types.store_record_item_count
      Types.store_record_short_delta_count Types.store_record_region_count Types.store_record_deltas].
    intros (_ & _ & _ & _ & _ & V) W Hi Hj. rewrite (N.mod_small _ _ W) in V. set (row := (short + regions) * inner) in *.
    cbn zeta. destruct (N.ltb_spec j short) as [Hs|Hs].
    - rewrite u16_signed. split.
      + intros (a & b & Ea & Eb & ->). destruct (vec_entry _ _ _ _ _ _ _ V Ea) as (_ & Ha), (vec_entry _ _ _ _ _ _ _ V Eb) as (_ & Hb).
        exists (256 * a + b). split; [|reflexivity]. apply u8_pair.
        * replace (q + 6 + 2 * regions + row + 2 * j) with (q + 6 + 2 * regions + 1 * (row + 2 * j)) by lia. exact Ha.
        * replace (q + 6 + 2 * regions + row + 2 * j + 1) with (q + 6 + 2 * regions + 1 * (row + 2 * j + 1)) by lia. exact Hb.
      + intros (u & Hu & ->).
        destruct (vec_nth _ _ _ _ _ (row + 2 * j) V) as (a & Ea & Ha).
        { apply row_short; [exact Hi|lia]. }
        destruct (vec_nth _ _ _ _ _ (row + 2 * j + 1) V) as (b & Eb & Hb).
        { replace (row + 2 * j + 1) with (row + (2 * j + 1)) by lia. apply row_short; [exact Hi|lia]. }
        exists a, b. split; [exact Ea|]. split; [exact Eb|]. f_equal.
        replace (q + 6 + 2 * regions + 1 * (row + 2 * j)) with (q + 6 + 2 * regions + row + 2 * j) in Ha by lia.
        replace (q + 6 + 2 * regions + 1 * (row + 2 * j + 1)) with (q + 6 + 2 * regions + row + 2 * j + 1) in Hb by lia.
        exact (u16_fun _ _ _ _ Hu (u8_pair _ _ _ _ Ha Hb)).
    - unfold i8_at. split.
      + intros (a & Ea & ->). destruct (vec_entry _ _ _ _ _ _ _ V Ea) as (_ & Ha). exists a. split; [|reflexivity].
        replace (q + 6 + 2 * regions + row + short + j) with (q + 6 + 2 * regions + 1 * (row + short + j)) by lia. exact Ha.
      + intros (u & Hu & ->). destruct (vec_nth _ _ _ _ _ (row + short + j) V) as (a & Ea & Ha).
        { replace (row + short + j) with (row + (short + j)) by lia. apply row_short; [exact Hi|lia]. }
        exists a. split; [exact Ea|]. f_equal.
        replace (q + 6 + 2 * regions + 1 * (row + short + j)) with (q + 6 + 2 * regions + row + short + j) in Ha by lia.
        exact (u8_fun _ _ _ _ Hu Ha). }
  split.
  - intros (r & j & Er & Ej & Hi & H). cbn in Er. destruct (linked_entry _ _ _ _ _ _ L Er) as (x & Ex & Hr).
    destruct (vec_entry _ _ _ _ _ outer x Ho Ex) as (Hk & Hx).
    assert (Hj : j < store_record_region_count r /\ u16_at f (p + x + 6 + 2 * j) region).
    { destruct r. cbn in Hr, Ej |- *. destruct Hr as (_ & _ & _ & V & _). exact (vec_entry _ _ _ _ _ _ _ V Ej). }
    apply (G _ _ _ Hr (S _ Er) Hi (proj1 Hj)) in H.
    destruct r as [items short regions indices deltas]. cbn in Hr, H, Hj, Hi. destruct Hr as (H1 & H2 & H3 & _).
    exists n, x, (p + x), items, short, regions, j. do 10 (split; [tauto|]). exact H.
  - intros (n' & x & q & items & short & regions & j & Hn' & Hk & Hx & -> & H1 & H2 & H3 & Hj & Hg & Hi & H).
    rewrite (u16_fun _ _ _ _ Hn' Hn) in *. destruct (vec_nth _ _ _ _ _ _ Ho Hk) as (x' & Ex & Hx').
    rewrite (ProofOpen.u32_at_unique _ _ _ _ Hx Hx') in *. destruct (linked_nth _ _ _ _ _ _ L Ex) as (r & Er & Hr).
    assert (E : store_record_item_count r = items /\ store_record_short_delta_count r = short /\
      store_record_region_count r = regions /\ entry (store_record_region_indices r) j = Some region).
    { destruct r as [items' short' regions' indices deltas]. cbn in Hr |- *. destruct Hr as (H1' & H2' & H3' & V & _).
      rewrite (u16_fun _ _ _ _ H1' H1), (u16_fun _ _ _ _ H2' H2). rewrite (u16_fun _ _ _ _ H3' H3) in *.
      destruct (vec_nth _ _ _ _ _ _ V Hj) as (g & Eg & Hg'). rewrite (u16_fun _ _ _ _ Hg Hg'). auto. }
    destruct E as (<- & <- & <- & Eg). exists r, j. cbn [Types.store_records]. do 3 (split; [assumption|]).
    apply (G _ _ _ Hr (S _ Er) Hi Hj), H.
Qed.

Lemma store_means o f p v outer inner region z :
  bounded f -> reads o read_store f p v ->
  (overflow_checks o = true \/ forall r, In r (store_records v) ->
    store_record_short_delta_count r + store_record_region_count r < 2 ^ 16) ->
  (varies v outer inner region z <-> varies_at f p outer inner region z).
Proof.
  intros B H S. apply (piece_reads PieceStore o f p v B eq_refl) in H. cbn [piece_conforms] in H.
  apply (varies_iff o); [exact H|]. intros r E. destruct S as [S|S]; [|exact (S _ (nth_error_In _ _ E))].
  destruct v as [format ro n offsets records]. cbn in H, E. destruct H as (_ & _ & _ & _ & _ & L).
  destruct (linked_entry _ _ _ _ _ _ L E) as (x & _ & Hr). destruct r. cbn [store_record_at] in Hr. apply Hr, S.
Qed.

(** ** Axes *)

Lemma i32_fun f p a b : i32_at f p a -> i32_at f p b -> a = b.
Proof. intros (u & Hu & ->) (w & Hw & ->). rewrite (ProofOpen.u32_at_unique _ _ _ _ Hu Hw). reflexivity. Qed.

Lemma axes_mean o f p v :
  bounded f -> reads o read_font_variations f p v ->
  (forall i t least default most, axis v i t least default most <-> axis_at f p i t least default most) /\
  (forall k name t z, situates v k name t z <-> situates_at f p k name t z).
Proof.
  intros B H. apply (request_reads RequestFvar o f p v B) in H. cbn [conforms] in H.
  destruct v as [[major minor start reserved n size m len] axes instances]. cbn in H.
  destruct H as ((_ & _ & Hs & _ & _ & Hn & Hz & Hm & Hl) & A & I). split.
  - intros i t a b c. split.
    + intros (x & E & <- & <- & <- & <-). destruct (vec_entry _ _ _ _ _ _ _ A E) as (Hi & Hx). destruct x. cbn in *.
      exists start, n, size. tauto.
    + intros (start' & n' & size' & Hs' & Hn' & Hz' & Hi & Ht & Ha & Hb & Hc).
      rewrite (u16_fun _ _ _ _ Hs' Hs) in *. rewrite (u16_fun _ _ _ _ Hn' Hn) in *. rewrite (u16_fun _ _ _ _ Hz' Hz) in *.
      destruct (vec_nth _ _ _ _ _ _ A Hi) as ([t' a' b' c' fl nm] & E & Ht' & Ha' & Hb' & Hc' & _).
      exists (mkAxisRecord t' a' b' c' fl nm). cbn.
      rewrite (ProofOpen.tag_at_unique _ _ _ _ Ht Ht'), (i32_fun _ _ _ _ Ha Ha'), (i32_fun _ _ _ _ Hb Hb'), (i32_fun _ _ _ _ Hc Hc'). auto.
  - intros k name t z. split.
    + intros (r & x & j & Er & <- & Ex & <- & Ez). cbn in *. destruct (vec_entry _ _ _ _ _ _ _ A Ex) as (Hj & Hx).
      destruct (vec_entry _ _ _ _ _ _ _ I Er) as (Hk & Hr). destruct r as [nm fl cs ps], x as [t' a' b' c' fl' nm']. cbn in *.
      destruct Hr as (Hnm & _ & V & _), Hx as (Ht & _). destruct (vec_entry _ _ _ _ _ _ _ V Ez) as (_ & Hzz).
      exists start, n, size, m, len, j. eexists. do 8 (split; [assumption|]). split; [reflexivity|]. split; assumption.
    + intros (start' & n' & size' & m' & len' & j & q & Hs' & Hn' & Hz' & Hm' & Hl' & Hj & Ht & Hk & -> & Hnm & Hzz).
      rewrite (u16_fun _ _ _ _ Hs' Hs) in *. rewrite (u16_fun _ _ _ _ Hn' Hn) in *. rewrite (u16_fun _ _ _ _ Hz' Hz) in *.
      rewrite (u16_fun _ _ _ _ Hm' Hm) in *. rewrite (u16_fun _ _ _ _ Hl' Hl) in *.
      destruct (vec_nth _ _ _ _ _ _ A Hj) as ([t' a' b' c' fl nm] & E & Ht' & _).
      destruct (vec_nth _ _ _ _ _ _ I Hk) as ([nm2 fl2 cs ps] & Er & Hnm' & _ & V & _).
      destruct (vec_nth _ _ _ _ _ _ V Hj) as (z' & Ez & Hz2).
      exists (mkInstanceRecord nm2 fl2 cs ps), (mkAxisRecord t' a' b' c' fl nm), j. cbn.
      rewrite (u16_fun _ _ _ _ Hnm Hnm'), (ProofOpen.tag_at_unique _ _ _ _ Ht Ht'), (i32_fun _ _ _ _ Hzz Hz2). auto 10.
Qed.
