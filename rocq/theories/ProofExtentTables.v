(** The extents of the remaining tables and of all reads. *)

From Verif Require Export ProofExtent.
From Verif Require Import Reads ReadsTactics ProofPositions ProofCursor ProofWriterTables.

Lemma meas_within {A} e B (m : M A) q (R : A -> N -> Prop) :
  meas B m e q (fun v _ E => R v E) -> meas B (stay m) e q (fun v r E => r = q /\ R v E).
Proof. intros H. eapply meas_post; [apply meas_stay, H|]. intros v r E _ [-> [_ X]]. auto. Qed.

Lemma sum_const {A} n (l : list A) : sum (map (fun _ => n) l) = n * N.of_nat (length l).
Proof.
  induction l as [|x l IH]; [cbn; lia|]. cbn [map length]. unfold sum in *. cbn [fold_right]. rewrite IH. lia.
Qed.

Section Gpos.
Variable e : env.
Hypothesis Hb : bounded (content e).
Notation measured := (measured e).
Notation sized := (sized e).

Lemma anchor_measured : measured read_anchor anchor_extent.
Proof. intros B q. looked. unfold anchor_extent.
  pick; [variant read_anchor3|variant read_anchor2|variant read_anchor1]. Qed.
Hint Resolve anchor_measured : extent.

(** ** Records whose offsets are from an earlier position *)

Section From.
Variable base : N.
Hypothesis Hbase : base < 9223372036854775808.

Definition rowed {A} (m : M A) (en links : A -> N) : Prop := forall B q, q <= B -> base <= B ->
  meas B m e q (fun v r E => r = q + en v /\ r <= E /\ E = mx (mx B r) (base + links v)).

Lemma take_if_meas {A} B b (m : M A) P q : sized m 2 P -> q <= B ->
  meas B (take_if b m) e q (fun v r E => (forall x, v = Some x -> P x) /\ r = q + field v /\
    r <= E /\ E = mx B r).
Proof.
  intros Hm L. unfold take_if. destruct b.
  - eapply meas_map; [apply Hm|]. unfold at_. intros v r E ? (? & -> & ? & ? & ->). repeat apply conj; auto.
    intros x X. injection X as <-. assumption.
  - apply meas_pure. unfold mx. cbn. repeat apply conj; try lia. discriminate.
Qed.

Lemma linked_meas B o q : (forall x, o = Some x -> x < 65536) -> base <= B ->
  meas B (take_linked base o) e q (fun v _ E => E = mx B (base + link o v)).
Proof.
  intros H L. destruct o as [o|]; cbn [take_linked].
  - specialize (H o eq_refl). eapply meas_post; [meas_leaf|]. intros [c|] r E _ ->; reflexivity.
  - apply meas_pure. unfold mx. cbn. lia.
Qed.

Ltac plain := cbn -[N.add N.mul N.max N.of_nat N.le N.lt mx sum most field link size anchors_links maybe_far].
Ltac row := apply meas_pure; subst; plain; repeat apply conj; [lia|unfold mx; lia|bounds].

Lemma single_rowed flags : rowed (read_single base flags) single_end single_links.
Proof.
  intros B q L G. unfold read_single.
  do 4 (eapply meas_bind; [eapply (take_if_meas _ _ _ _ _ (i16_sized e Hb)); lia|meas_facts]).
  do 4 (eapply meas_bind; [eapply (take_if_meas _ _ _ _ _ (u16_sized e Hb)); lia|meas_facts]).
  match goal with |- meas ?E' (bind (stay (bind (take_linked _ ?a) (fun _ => bind (take_linked _ ?b) (fun _ =>
      bind (take_linked _ ?c) (fun _ => bind (take_linked _ ?d) _))))) _) _ ?q' _ =>
    eapply meas_bind; [apply (meas_within e E' _ q' (fun v E => E = mx E' (base + let '(x, y, z, t) := v in
      N.max (link a x) (N.max (link b y) (N.max (link c z) (link d t))))))|] end.
  - do 4 (eapply meas_bind; [apply linked_meas; [assumption|lia]|meas_facts]). apply meas_pure. bounds.
  - intros [[[? ?] ?] ?] ? ? ? [-> ->]. unfold single_end, single_links. row.
Qed.

Definition value_meas B flags q : q <= B -> base <= B ->
  meas B (if 0 <? flags then v <- read_single base flags;; ret (Some v) else ret None) e q
    (fun v r E => r = q + value_end v /\ r <= E /\ E = mx (mx B r) (base + value_links v)).
Proof.
  intros L G. destruct (0 <? flags).
  - eapply meas_map; [apply single_rowed; assumption|]. intros v r E _ X. exact X.
  - apply meas_pure. unfold mx. cbn. repeat apply conj; lia.
Qed.

Lemma pair1_rowed a b : rowed (read_pair1 base a b)
  (fun r => 2 + value_end (pair1_value1 r) + value_end (pair1_value2 r))
  (fun r => N.max (value_links (pair1_value1 r)) (value_links (pair1_value2 r))).
Proof.
  intros B q L G. unfold read_pair1. meas_on. do 2 (eapply meas_bind; [apply value_meas; lia|meas_facts]).
  apply meas_pure. subst. cbn [pair1_value1 pair1_value2]. repeat apply conj; [lia|unfold mx; lia|bounds].
Qed.

Lemma pair2_rowed a b : rowed (read_pair2 base a b)
  (fun r => value_end (pair2_value1 r) + value_end (pair2_value2 r))
  (fun r => N.max (value_links (pair2_value1 r)) (value_links (pair2_value2 r))).
Proof.
  intros B q L G. unfold read_pair2. do 2 (eapply meas_bind; [apply value_meas; lia|meas_facts]).
  apply meas_pure. subst. cbn [pair2_value1 pair2_value2]. repeat apply conj; [lia|unfold mx; lia|bounds].
Qed.

Lemma pair2s_rowed n a b : rowed (read_pair2s base n a b) pair2s_end pair2s_links.
Proof.
  intros B q L G. unfold read_pair2s. eapply meas_map.
  - apply (meas_for e base); [intros i C r; apply pair2_rowed|assumption..].
  - unfold pair2s_end, pair2s_links. intros v r E _ (_ & X). exact X.
Qed.

Lemma anchors_meas B n offsets q : Forall (fun o => o < 65536) offsets -> base <= B ->
  meas B (stay (jump_take_maybe_n base n offsets read_anchor)) e q
    (fun v r E => r = q /\ E = mx B (base + anchors_links offsets v)).
Proof. intros F L. apply (meas_within e B _ q (fun v E => E = _)). unfold anchors_links. meas_leaf. Qed.

Lemma base_rowed n : rowed (read_base base n) (fun r => 2 * N.of_nat (length (base_anchor_offsets r)))
  (fun r => anchors_links (base_anchor_offsets r) (base_anchors r)).
Proof.
  intros B q L G. unfold read_base. meas_on.
  eapply meas_bind; [apply anchors_meas; [eassumption|lia]|]. meas_facts. row.
Qed.
Lemma component_rowed n : rowed (read_component base n)
  (fun r => 2 * N.of_nat (length (component_anchor_offsets r)))
  (fun r => anchors_links (component_anchor_offsets r) (component_anchors r)).
Proof.
  intros B q L G. unfold read_component. meas_on.
  eapply meas_bind; [apply anchors_meas; [eassumption|lia]|]. meas_facts. row.
Qed.
Lemma mark2_rowed n : rowed (read_mark2 base n) (fun r => 2 * N.of_nat (length (mark2_anchor_offsets r)))
  (fun r => anchors_links (mark2_anchor_offsets r) (mark2_anchors r)).
Proof.
  intros B q L G. unfold read_mark2. meas_on.
  eapply meas_bind; [apply anchors_meas; [eassumption|lia]|]. meas_facts. row.
Qed.

Lemma mark1_rowed : rowed (read_mark1 base) (fun _ => 4) (mark1_links (opts e)).
Proof.
  intros B q L G. unfold read_mark1. do 3 meas_on. subst.
  match goal with |- meas ?E' (bind _ (fun a => ret (mkMark1 _ ?o a))) _ ?q' _ =>
    eapply meas_bind with (Q := fun v r E =>
    r = q' /\ E = mx E' (base + if ignore_incomplete_marks (opts e) && (o =? 0) then 0 else o +
      anchor_extent v)) end.
  - destruct (ignore_incomplete_marks (opts e)); cbn [andb].
    + match goal with |- meas ?E' (bind (stay (jump_take_maybe _ ?o _)) _) _ ?q' _ =>
        eapply meas_bind; [apply (meas_within e E' _ q' (fun v E =>
          match v with Some v => 0 < o /\ E = mx E' (base + (o + anchor_extent v)) | None =>
            o = 0 /\ E = E' end))|] end.
      * unfold jump_take_maybe. match goal with |- context [0 <? ?o] => destruct (N.ltb_spec 0 o) end.
        -- eapply meas_map; [meas_leaf|]. auto.
        -- apply meas_pure. split; [lia|reflexivity].
      * intros [a|] ? ? ? [-> [O ->]]; apply meas_pure; (split; [reflexivity|]).
        -- match goal with |- context [?o =? 0] => destruct (N.eqb_spec o 0); [lia|reflexivity] end.
        -- subst. change (0 =? 0) with true. cbv iota. unfold mx. lia.
    + apply (meas_within e _ _ _ (fun v E => E = _)). meas_leaf.
  - meas_facts. apply meas_pure. subst. unfold mark1_links. cbn [mark1_anchor_offset mark1_anchor].
    repeat apply conj; [lia|unfold mx; lia|bounds].
Qed.

Lemma connection_rowed : rowed (read_connection base) (fun _ => 4) connection_links.
Proof.
  intros B q L G. unfold read_connection. do 2 meas_on.
  match goal with |- meas ?E' (bind (stay
    (bind (jump_take_maybe _ ?a _) (fun _ => bind (jump_take_maybe _ ?b _) _))) _) _ ?q' _ =>
    eapply meas_bind; [apply (meas_within e E' _ q' (fun v E => E = mx E' (base + let '(x, y) := v in
      N.max (maybe_far a (option_map anchor_extent x)) (maybe_far b (option_map anchor_extent y)))))|] end.
  - do 2 meas_on. apply meas_pure. bounds.
  - intros [? ?] ? ? ? [-> ->]. unfold connection_links. row.
Qed.
End From.

(** Rows of records. *)
Ltac rows base H := eapply meas_bind;
  [apply (meas_for e base); [intros ? ? ?; apply H; assumption|lia..]|meas_facts].

Lemma pair1s_measured a b : measured (read_pair1s a b) pair1s_extent.
Proof. intros B q. unfold read_pair1s, pair1s_extent, pair1s_end. do 2 meas_on. subst.
  rows q pair1_rowed. apply meas_pure. shown. Qed.
Lemma mark1s_measured : measured read_mark1s (mark1s_extent (opts e)).
Proof.
  intros B q. unfold read_mark1s, mark1s_extent. do 2 meas_on. subst. rows q mark1_rowed.
  apply meas_pure. subst.
  cbn [mark1s_records].
  rewrite sum_const. bounds.
Qed.
Lemma bases_measured n : measured (read_bases n) bases_extent.
Proof. intros B q. unfold read_bases, bases_extent, bases_end. do 2 meas_on. subst.
  rows q base_rowed. apply meas_pure. shown. Qed.
Lemma mark2s_measured n : measured (read_mark2s n) mark2s_extent.
Proof. intros B q. unfold read_mark2s, mark2s_extent, mark2s_end. do 2 meas_on. subst.
  rows q mark2_rowed. apply meas_pure. shown. Qed.
Lemma gpos_ligature_measured n : measured (read_gpos_ligature n) gpos_ligature_extent.
Proof. intros B q. unfold read_gpos_ligature, gpos_ligature_extent. do 2 meas_on. subst.
  rows q component_rowed. apply meas_pure. shown. Qed.
Hint Resolve pair1s_measured mark1s_measured bases_measured mark2s_measured gpos_ligature_measured : extent.
Lemma gpos_ligatures_measured n : measured (read_gpos_ligatures n) gpos_ligatures_extent.
Proof. unfold gpos_ligatures_extent. walked. Qed.
Hint Resolve gpos_ligatures_measured : extent.

Lemma single_adjustment_measured : measured read_single_adjustment
  (fun v => gpos_type_extent (opts e) (GposSingleAdjustment v)).
Proof.
  intros B q. looked. unfold gpos_type_extent. pick.
  - unfold read_single_adjustment2. eapply meas_bind; [|intros ? ? ? ? X; apply meas_pure; exact X].
    do 5 meas_on. subst. rows q single_rowed. meas_on. apply meas_pure. shown.
  - unfold read_single_adjustment1. eapply meas_bind; [|intros ? ? ? ? X; apply meas_pure; exact X].
    do 4 meas_on. subst. eapply meas_bind; [eapply (single_rowed q); lia|]. meas_facts. meas_on.
    apply meas_pure. subst.
    cbn [single_adjustment1_value single_adjustment1_coverage_offset single_adjustment1_coverage]. bounds.
Qed.
Lemma pair_adjustment_measured : measured read_pair_adjustment
  (fun v => gpos_type_extent (opts e) (GposPairAdjustment v)).
Proof.
  intros B q. looked. unfold gpos_type_extent. pick.
  - unfold read_pair_adjustment2. eapply meas_bind; [|intros ? ? ? ? X; apply meas_pure; exact X].
    do 9 meas_on. subst. rows q pair2s_rowed. repeat meas_on. apply meas_pure. shown.
  - variant read_pair_adjustment1.
Qed.
Lemma cursive_attachment_measured : measured read_cursive_attachment
  (fun v => gpos_type_extent (opts e) (GposCursiveAttachment v)).
Proof.
  intros B q. unfold gpos_type_extent, read_cursive_attachment. do 4 meas_on. subst.
  rows q connection_rowed. meas_on. apply meas_pure. subst.
  cbn [cursive_attachment_connections cursive_attachment_coverage_offset cursive_attachment_coverage].
  rewrite sum_const. bounds.
Qed.
Lemma mark_to_base_attachment_measured :
  measured read_mark_to_base_attachment (fun v => gpos_type_extent (opts e) (GposMarkToBaseAttachment v)).
Proof. unfold gpos_type_extent. walked. Qed.
Lemma mark_to_ligature_attachment_measured :
  measured read_mark_to_ligature_attachment
    (fun v => gpos_type_extent (opts e) (GposMarkToLigatureAttachment v)).
Proof. unfold gpos_type_extent. walked. Qed.
Lemma mark_to_mark_attachment_measured :
  measured read_mark_to_mark_attachment (fun v => gpos_type_extent (opts e) (GposMarkToMarkAttachment v)).
Proof. unfold gpos_type_extent. walked. Qed.
Lemma extension_positioning_measured :
  measured read_extension_positioning (fun v => gpos_type_extent (opts e) (GposExtensionPositioning v)).
Proof. unfold gpos_type_extent. walked. Qed.

Lemma gpos_type_measured t : measured (read_gpos_type t) (gpos_type_extent (opts e)).
Proof.
  intros B q. unfold read_gpos_type.
  pick; (eapply meas_map; [apply single_adjustment_measured || apply pair_adjustment_measured ||
    apply cursive_attachment_measured || apply mark_to_base_attachment_measured ||
    apply mark_to_ligature_attachment_measured || apply mark_to_mark_attachment_measured ||
    (apply context_measured; assumption) || (apply chained_context_measured; assumption) ||
    apply extension_positioning_measured|intros ? ? ? ? X; exact X]).
Qed.
End Gpos.

(** ** CPAL and fvar *)

Section Others.
Variable e : env.
Hypothesis Hb : bounded (content e).
Notation measured := (measured e).

Definition cpal_offset (h : CpalHeader) : N :=
  match h with CpalVersion0 h => cpal_header0_color_offset h | CpalVersion1 h =>
    cpal_header1_color_offset h end.
Definition cpal_count (h : CpalHeader) : N :=
  match h with CpalVersion0 h => cpal_header0_color_count h | CpalVersion1 h => cpal_header1_color_count h end.
Definition cpal_palettes (h : CpalHeader) : N :=
  match h with CpalVersion0 h => cpal_header0_palette_count h | CpalVersion1 h =>
    cpal_header1_palette_count h end.

Lemma cpal_header_meas B q : meas B read_cpal_header e q (fun h _ E =>
  cpal_offset h < 4294967296 /\ cpal_count h < 65536 /\ q < 9223372036854775808 /\ q <= E /\
  E = mx B (q + (12 + 2 * cpal_palettes h))).
Proof.
  looked. pick; [unfold read_cpal_header1|unfold read_cpal_header0];
    (eapply meas_bind; [|intros ? ? ? ? X; apply meas_pure; exact X]); repeat meas_on; apply meas_pure;
    cbn -[N.add N.mul N.lt N.le mx]; repeat apply conj; try assumption; try reflexivity; try lia; bounds.
Qed.

Lemma colors_measured count : 0 < count -> measured (take_vec count read_color) (fun _ => 4 * count).
Proof.
  intros H B q. eapply meas_post; [eapply meas_vec; [apply color_sized, Hb|lia]|].
  intros v r E _ (_ & _ & -> & _ & ->). reflexivity.
Qed.

(** Nothing is read, wherever that is. *)
Lemma meas_nothing {A} B base o (m : M A) q : base + o < 18446744073709551616 ->
  meas B (jump_take base o (take_vec 0 m)) e q (fun _ _ E => E = B).
Proof.
  intros H. unfold jump_take. eapply meas_bind; [apply meas_add, H|].
  intros ? ? ? _ (-> & -> & ->). apply meas_blind; [reflexivity|auto].
Qed.

Lemma color_measured : measured read_color_palettes color_extent.
Proof.
  intros B q. unfold read_color_palettes. meas_on. subst. eapply meas_bind; [apply cpal_header_meas|].
  intros h ? E ? (? & ? & ? & ? & ->).
  assert (S : forall c, meas (mx B (q + (12 + 2 * cpal_palettes h)))
    (jump_take q (cpal_offset h) (take_vec (cpal_count h) read_color)) e c (fun _ _ E =>
      E = mx B (q + N.max (12 + 2 * cpal_palettes h) (steps_far (cpal_offset h) 4 (cpal_count h) 4)))).
  { intros c. unfold steps_far. destruct (N.eqb_spec (cpal_count h) 0) as [Z|Z].
    - rewrite Z. eapply meas_post; [apply meas_nothing; lia|]. intros ? ? ? _ ->. bounds.
    - eapply meas_post; [eapply meas_jump; [apply colors_measured; lia|lia]|]. intros ? ? ? _ ->. bounds. }
  unfold color_extent. destruct h; (eapply meas_map; [apply S|]); intros ? ? ? _ X; exact X.
Qed.

(** Steps of one length. *)
Lemma meas_steps {A} B base step count (m : M A) size q :
  measured m (fun _ => size) -> base + count * step < 18446744073709551616 ->
  meas B (for_n count (fun i => jump_take base (N.of_nat i * step) m)) e q
    (fun _ _ E => E = mx B (if count =? 0 then 0 else base + (count - 1) * step + size)).
Proof.
  intros Hm S. unfold for_n. rewrite <- (N2Nat.id count) in *.
  generalize dependent (N.to_nat count). intros c S.
  rewrite Nat2N.id.
  cut (forall d i B q, (i + d <= c)%nat ->
    meas B (for_range i d (fun i => jump_take base (N.of_nat i * step) m)) e q (fun _ _ E => E = mx B
      (if (d =? 0)%nat then 0 else base + (N.of_nat i + N.of_nat d - 1) * step + size))).
  { intros H. eapply meas_post; [apply (H c 0%nat B q); lia|]. intros v r E ? ->.
    destruct c; cbn [Nat.eqb]; [reflexivity|]. destruct (N.eqb_spec (N.of_nat (Datatypes.S c)) 0);
      [lia|]. f_equal. }
  clear B q. induction d as [|d IH]; intros i B q G; cbn [for_range].
  - apply meas_pure. cbn [Nat.eqb]. unfold mx. lia.
  - assert (N.of_nat i * step <= N.of_nat c * step) by (apply N.mul_le_mono_r; lia).
    eapply meas_bind; [eapply meas_jump; [exact Hm|lia]|]. intros v r E ? ->.
    eapply meas_bind; [apply IH; lia|]. intros vs s E ? ->. apply meas_pure. cbn [Nat.eqb].
    destruct d; cbn [Nat.eqb].
    + replace (N.of_nat i + N.of_nat 1 - 1) with (N.of_nat i) by lia. unfold mx. lia.
    + assert (N.of_nat i * step <= (N.of_nat i + N.of_nat (Datatypes.S (Datatypes.S d)) - 1) * step)
      by (apply N.mul_le_mono_r; lia).
      replace (N.of_nat (Datatypes.S i) + N.of_nat (Datatypes.S d) - 1)
        with (N.of_nat i + N.of_nat (Datatypes.S (Datatypes.S d)) - 1) by lia.
      generalize dependent ((N.of_nat i + N.of_nat (Datatypes.S (Datatypes.S d)) - 1) * step).
      intros. unfold mx. lia.
Qed.

Lemma fvar_header_meas B q : meas B read_fvar_header e q (fun h _ E =>
  fvar_header_axis_offset h < 65536 /\ fvar_header_axis_count h < 65536 /\ fvar_header_axis_size h < 65536 /\
  fvar_header_instance_count h < 65536 /\ fvar_header_instance_size h < 65536 /\
  q < 9223372036854775808 /\ q + 16 <= E /\ E = mx B (q + 16)).
Proof.
  unfold read_fvar_header. repeat meas_on. apply meas_pure. cbn -[N.add N.lt N.le mx].
  repeat apply conj; try assumption; [lia|bounds].
Qed.

Lemma axis_record_measured : measured read_axis_record (fun _ => 20).
Proof. walked. Qed.
Lemma instance_record_measured n : measured (read_instance_record n) (fun _ => 6 + 4 * n).
Proof. walked. Qed.

Lemma variation_measured : measured read_font_variations variation_extent.
Proof.
  intros B q. unfold read_font_variations. meas_on. subst. eapply meas_bind; [apply fvar_header_meas|].
  intros h ? E ? (? & ? & ? & ? & ? & ? & ? & ->).
  assert (fvar_header_axis_count h * fvar_header_axis_size h <= 65535 * 65535) by (apply N.mul_le_mono; lia).
  assert (fvar_header_instance_count h * fvar_header_instance_size h <= 65535 * 65535) by
    (apply N.mul_le_mono; lia).
  eapply meas_bind; [apply meas_add; lia|]. intros ? ? ? _ (-> & -> & ->).
  eapply meas_bind; [eapply meas_steps; [apply axis_record_measured|lia]|]. intros ? ? ? _ ->.
  eapply meas_bind; [apply meas_add; lia|]. intros ? ? ? _ (-> & -> & ->).
  eapply meas_bind; [eapply meas_steps; [apply instance_record_measured|lia]|]. intros ? ? ? _ ->.
  apply meas_pure. unfold variation_extent, steps_far. cbn [font_variations_header]. cbv zeta.
  destruct (_ =? 0), (_ =? 0); bounds.
Qed.

(** ** Fonts *)

Lemma font_meas d B q : meas B (read_font d) e q (fun _ r E => q + 12 <= r /\ E = mx B r).
Proof.
  unfold read_font, read_offsets. eapply meas_bind; [|intros ? ? ? ? X; apply meas_pure; exact X].
  looked. subst. destruct (truetype_accept d _); [|apply meas_raise].
  eapply meas_bind with (Q := fun _ r E => r = q + 12 /\ q + 12 <= E /\ E = mx (mx B (q + 4)) (q + 12)).
  - unfold read_offsets_header. repeat meas_on. apply meas_pure. repeat apply conj; [lia|lia|bounds].
  - meas_facts. meas_on. apply meas_pure. split; [lia|bounds].
Qed.

Lemma font_firm d : firm e (read_font d).
Proof. intros B q. eapply meas_post; [apply font_meas|]. cbv beta. intros ? ? ? ? [? ->].
  split; [lia|reflexivity]. Qed.

Lemma file_firm d : firm e (read_file d).
Proof.
  intros B q. unfold read_file. looked. subst. destruct (tag_eqb _ _); [apply meas_raise|].
  eapply meas_map; [apply font_meas|]. intros ? ? ? ? [? ->]. split; [lia|bounds].
Qed.

End Others.

Theorem request_measured {A} (r : request A) e :
  bounded (content e) -> measured e (reader r) (extent (opts e) r).
Proof.
  intros Hb. destruct r; cbn [reader extent].
  - apply firm_measured; [apply file_firm, Hb|]. intros p v q H. exact (file_consumed _ _ _ _ _ H).
  - apply firm_measured; [apply font_firm, Hb|]. intros p v q H. exact (font_consumed _ _ _ _ _ H).
  - apply definition_measured, Hb.
  - apply directory_measured; [exact Hb|]. intros t. apply gpos_type_measured, Hb.
  - apply directory_measured; [exact Hb|]. intros t. apply gsub_type_measured, Hb.
  - apply color_measured, Hb.
  - apply variation_measured, Hb.
Qed.

Theorem request_extent {A} (r : request A) o f p v q n :
  bounded f -> reader r (mkEnv f o) p = Ok (v, q) ->
  (p + extent o r v <= n -> reader r (mkEnv (cut n f) o) p = Ok (v, q)) /\
  (n < p + extent o r v -> reader r (mkEnv (cut n f) o) p = Err UnexpectedEnd).
Proof.
  intros Hb H. destruct (request_measured r (mkEnv f o) Hb 0 p v q H) as (E & _ & F & G & X).
  unfold mx in X. cbn [opts] in X. rewrite N.max_r in X by lia. subst E.
  split; [intros L; exact (F n L)|intros L; apply (G n); [lia|exact L]].
Qed.
