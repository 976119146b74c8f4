(** The readers of src/tables/glyph_positioning read exactly the formats of
    SpecGpos.v. *)

From Verif Require Export ProofLayout ModelGpos SpecGpos.

(** ** Bits of value formats *)

Lemma bits_below_next flags k :
  bits_below flags (S k) = bits_below flags k + (if N.testbit flags (N.of_nat k) then 1 else 0).
Proof.
  unfold bits_below. rewrite seq_S, filter_app, app_length, Nat.add_0_l. cbn [filter].
  destruct (N.testbit flags (N.of_nat k)); cbn [length]; lia.
Qed.

Section Gpos.
Context (S : Prop) (e : env) (Hb : bounded (content e)).
Notation f := (content e).
Hint Resolve for_n_takes : reads.
Hint Extern 1 (_ < 2 ^ 63) => base_small : reads.
Hint Extern 1 (finds _ (jump_take_maybe_n _ _ _ _) _ _ _) => found : reads.
Hint Extern 1 (finds _ (jump_take_n _ _ _ _) _ _ _) => found : reads.
Hint Extern 1 (finds _ (jump_take_maybe _ _ _) _ _ _) => found : reads.
Hint Extern 1 (finds _ (jump_take _ _ _) _ _ _) => found : reads.

Lemma read_anchor1_finds p : finds S read_anchor1 e p (anchor1_at f p).
Proof. linked. Qed.
Hint Resolve read_anchor1_finds : reads.

Lemma read_anchor2_finds p : finds S read_anchor2 e p (anchor2_at f p).
Proof. linked. Qed.
Hint Resolve read_anchor2_finds : reads.

Lemma read_anchor3_finds p : finds S read_anchor3 e p (anchor3_at f p).
Proof. linked. Qed.
Hint Resolve read_anchor3_finds : reads.

Lemma read_anchor_finds p : finds S read_anchor e p (anchor_at f p).
Proof. dispatch. Qed.
Hint Resolve read_anchor_finds : reads.

Lemma read_base_takes base mark_class_count p :
  base < 2 ^ 63 -> takes S (read_base base mark_class_count) e p (base_at f base mark_class_count p)
    (2 * mark_class_count).
Proof. intros Hbase. sequential. Qed.
Hint Resolve read_base_takes : reads.

Lemma read_bases_finds mark_class_count p :
  finds S (read_bases mark_class_count) e p (bases_at f mark_class_count p).
Proof. linked. Qed.
Hint Resolve read_bases_finds : reads.

Lemma read_component_takes base mark_class_count p :
  base < 2 ^ 63 -> takes S (read_component base mark_class_count) e p
    (component_at f base mark_class_count p) (2 * mark_class_count).
Proof. intros Hbase. sequential. Qed.
Hint Resolve read_component_takes : reads.

Lemma read_gpos_ligature_finds mark_class_count p :
  finds S (read_gpos_ligature mark_class_count) e p (gpos_ligature_at f mark_class_count p).
Proof. linked. Qed.
Hint Resolve read_gpos_ligature_finds : reads.

Lemma read_gpos_ligatures_finds mark_class_count p :
  finds S (read_gpos_ligatures mark_class_count) e p (gpos_ligatures_at f mark_class_count p).
Proof. linked. Qed.
Hint Resolve read_gpos_ligatures_finds : reads.

Lemma read_mark2_takes base mark_class_count p :
  base < 2 ^ 63 -> takes S (read_mark2 base mark_class_count) e p
    (mark2_at f base mark_class_count p) (2 * mark_class_count).
Proof. intros Hbase. sequential. Qed.
Hint Resolve read_mark2_takes : reads.

Lemma read_mark2s_finds mark_class_count p :
  finds S (read_mark2s mark_class_count) e p (mark2s_at f mark_class_count p).
Proof. linked. Qed.
Hint Resolve read_mark2s_finds : reads.

Lemma read_mark1_takes base p :
  base < 2 ^ 63 -> takes S (read_mark1 base) e p (mark1_at (opts e) f base p) 4.
Proof.
  intros Hbase. enter. eapply takes_conv.
  - step. step. step. eapply takes_bind with (P := fun anchor =>
      (x0 = 0 /\ ignore_incomplete_marks (opts e) = true /\
        anchor = AnchorFormat1 (mkAnchor1 0 0 0)) \/
      ((x0 <> 0 \/ ignore_incomplete_marks (opts e) = false) /\
        anchor_at f (base + x0) anchor)) (n := 0).
    + destruct (ignore_incomplete_marks (opts e)).
      * eapply takes_conv; [steps| |reflexivity]. intros v; cbv beta; split.
        -- intros ([y|] & Hy & ->); [destruct Hy; right; auto|left; auto].
        -- intros [(-> & _ & ->)|[[Ho|] Hv]]; [exists None; split; reflexivity| |discriminate].
           exists (Some v). split; [split; assumption|reflexivity].
      * eapply takes_conv; [apply takes_stay; found| |reflexivity].
        intros v; cbv beta; split; [auto|]. intros [(_ & H1 & _)|[_ H1]]; [discriminate|exact H1].
    + intros. apply takes_ret.
  - matches.
  - reflexivity.
Qed.
Hint Resolve read_mark1_takes : reads.

Lemma read_mark1s_finds p : finds S read_mark1s e p (mark1s_at (opts e) f p).
Proof. linked. Qed.
Hint Resolve read_mark1s_finds : reads.

Lemma read_connection_takes base p :
  base < 2 ^ 63 -> takes S (read_connection base) e p (connection_at f base p) 4.
Proof.
  intros Hbase. enter. eapply takes_conv.
  - step. step. eapply takes_bind with (P := fun '(start_anchor, end_anchor) =>
      maybe_at (anchor_at f) base x start_anchor /\ maybe_at (anchor_at f) base x0 end_anchor)
      (Q := fun '(start_anchor, end_anchor) v => v = mkConnection x x0 start_anchor end_anchor)
      (n := 0).
    + apply takes_stay. eapply finds_conv; [steps|]. intros [a b]; cbv beta iota; split.
      * intros (y & Hy & z & Hz & [= -> ->]). auto.
      * intros [Ha Hz]. exists a. split; [exact Ha|]. exists b. auto.
    + intros [a b] Hab. apply takes_ret.
  - intros v; cbv beta; split.
    + intros (x & Hx & y & Hy & [a b] & [Ha Hb'] & ->). cbn. auto.
    + destruct v as [x y a b]. intros (Hx & Hy & Ha & Hb').
      exists x. split; [exact Hx|]. exists y. split; [exact Hy|]. exists (a, b). auto.
  - reflexivity.
Qed.
Hint Resolve read_connection_takes : reads.

(** ** Value records *)

Definition bit_size (flags : N) (k : nat) : N := if N.testbit flags (N.of_nat k) then 2 else 0.

Lemma field_next flags k p :
  p + 2 * bits_below flags k + bit_size flags k = p + 2 * bits_below flags (Datatypes.S k).
Proof. rewrite bits_below_next. unfold bit_size. destruct (N.testbit _ _); lia. Qed.

Lemma take_field_takes {A} (m : M A) elem flags k p :
  (forall q, takes S m e q (elem q) 2) ->
  takes S (take_if (has_flag flags (2 ^ N.of_nat k)) m) e (p + 2 * bits_below flags k)
    (field_at elem flags k p) (bit_size flags k).
Proof.
  intros Hm. rewrite has_flag_bit. unfold take_if, bit_size, field_at.
  destruct (N.testbit flags (N.of_nat k)).
  - eapply takes_conv; [eapply takes_bind; [apply Hm|intros; apply takes_ret]| |reflexivity].
    intros v; cbv beta; split.
    + intros (x & Hx & ->). auto.
    + destruct v as [x|]; [intros [_ Hx]; eauto|discriminate].
  - eapply takes_conv; [apply takes_ret| |reflexivity]. intros v; cbv beta; split.
    + intros ->. reflexivity.
    + destruct v as [x|]; [intros [H _]; discriminate|reflexivity].
Qed.

Lemma take_linked_finds base flags k p offset q :
  base < 2 ^ 63 -> field_at (u16_at f) flags k p offset ->
  finds S (take_linked base offset) e q (corrected_at f base offset).
Proof.
  intros Hbase Ho. destruct offset as [o|]; cbn.
  - destruct Ho as [_ Ho]. found.
  - apply finds_ret.
Qed.

Lemma bind_field {A B} (m : M A) (k : option A -> M B) elem flags i p Q n :
  (forall q, takes S m e q (elem q) 2) ->
  (forall x, field_at elem flags i p x ->
    takes S (k x) e (p + 2 * bits_below flags (Datatypes.S i)) (Q x) n) ->
  takes S (bind (take_if (has_flag flags (2 ^ N.of_nat i)) m) k) e (p + 2 * bits_below flags i)
    (fun w => exists x, field_at elem flags i p x /\ Q x w) (bit_size flags i + n).
Proof.
  intros Hm Hk. eapply takes_bind; [apply take_field_takes, Hm|]. intros x Hx.
  rewrite field_next. apply Hk, Hx.
Qed.

Lemma read_single_takes base flags p :
  base < 2 ^ 63 ->
  takes S (read_single base flags) e p (single_at f base flags p) (value_size flags).
Proof.
  intros Hbase. rewrite <- (N.add_0_r p) at 1. change (p + 0) with (p + 2 * bits_below flags 0).
  enter. eapply takes_conv.
  - eapply (bind_field _ _ _ flags 0); [apply take_i16_takes|]. intros x0 H0.
    eapply (bind_field _ _ _ flags 1); [apply take_i16_takes|]. intros x1 H1.
    eapply (bind_field _ _ _ flags 2); [apply take_i16_takes|]. intros x2 H2.
    eapply (bind_field _ _ _ flags 3); [apply take_i16_takes|]. intros x3 H3.
    eapply (bind_field _ _ _ flags 4); [apply take_u16_takes|]. intros x4 H4.
    eapply (bind_field _ _ _ flags 5); [apply take_u16_takes|]. intros x5 H5.
    eapply (bind_field _ _ _ flags 6); [apply take_u16_takes|]. intros x6 H6.
    eapply (bind_field _ _ _ flags 7); [apply take_u16_takes|]. intros x7 H7.
    eapply takes_bind with (P := fun '(a, b, c, d) =>
      corrected_at f base x4 a /\ corrected_at f base x5 b /\
      corrected_at f base x6 c /\ corrected_at f base x7 d)
      (Q := fun '(a, b, c, d) v => v = mkSingle x0 x1 x2 x3 x4 x5 x6 x7 a b c d) (n := 0).
    + apply takes_stay. eapply finds_conv.
      * eapply finds_bind; [eapply take_linked_finds; [exact Hbase|exact H4]|]. intros.
        eapply finds_bind; [eapply take_linked_finds; [exact Hbase|exact H5]|]. intros.
        eapply finds_bind; [eapply take_linked_finds; [exact Hbase|exact H6]|]. intros.
        eapply finds_bind; [eapply take_linked_finds; [exact Hbase|exact H7]|]. intros.
        apply finds_ret.
      * intros [[[a b] c] d]; cbv beta iota; split.
        -- intros; break. match goal with H : _ = _ |- _ => injection H as -> -> -> -> end. auto.
        -- intros; break. unshelve build; assumption.
    + intros [[[a b] c] d] H. apply takes_ret.
  - intros v; cbv beta; split.
    + intros; break. destruct x7 as [[[a b] c] d]. break. subst v. cbn. fields.
    + destruct v; unfold single_at; intros; break.
      do 8 (eexists; split; [eassumption|]).
      eexists (_, _, _, _). split; [|reflexivity]. fields.
  - unfold value_size. rewrite !bits_below_next. unfold bits_below, bit_size. cbn [filter seq length].
    repeat match goal with |- context [N.testbit ?a ?b] => destruct (N.testbit a b) end; reflexivity.
Qed.
Hint Resolve read_single_takes : reads.

Lemma take_value_takes base flags p :
  base < 2 ^ 63 ->
  takes S (if 0 <? flags then v <- read_single base flags;; ret (Some v) else ret None) e p
    (value_at f base flags p) (value_size flags).
Proof.
  intros Hbase. destruct (N.eq_dec flags 0) as [->|Hf].
  - eapply takes_conv; [apply takes_ret| |reflexivity]. intros v; split.
    + intros ->. reflexivity.
    + destruct v as [x|]; [intros [H _]; congruence|reflexivity].
  - rewrite (proj2 (N.ltb_lt 0 flags)) by lia. eapply takes_conv; [steps| |lia].
    intros v; split.
    + intros (x & Hx & ->). split; assumption.
    + destruct v as [x|]; [intros [_ H]; exists x; auto|intros H; contradiction].
Qed.
Hint Resolve take_value_takes : reads.

Lemma read_pair1_takes base flags1 flags2 p :
  base < 2 ^ 63 -> takes S (read_pair1 base flags1 flags2) e p (pair1_at f base flags1 flags2 p)
    (2 + value_size flags1 + value_size flags2).
Proof. intros Hbase. sequential. Qed.
Hint Resolve read_pair1_takes : reads.

Lemma read_pair1s_finds flags1 flags2 p :
  finds S (read_pair1s flags1 flags2) e p (pair1s_at f flags1 flags2 p).
Proof. linked. Qed.
Hint Resolve read_pair1s_finds : reads.

Lemma read_pair2_takes base flags1 flags2 p :
  base < 2 ^ 63 -> takes S (read_pair2 base flags1 flags2) e p (pair2_at f base flags1 flags2 p)
    (value_size flags1 + value_size flags2).
Proof. intros Hbase. sequential. Qed.
Hint Resolve read_pair2_takes : reads.

Lemma read_pair2s_takes base count2 flags1 flags2 p :
  base < 2 ^ 63 -> takes S (read_pair2s base count2 flags1 flags2) e p
    (pair2s_at f base count2 flags1 flags2 p) ((value_size flags1 + value_size flags2) * count2).
Proof. intros Hbase. sequential. Qed.
Hint Resolve read_pair2s_takes : reads.

Lemma take_value_flags_takes p : takes S take_value_flags e p (value_flags_at (opts e) f p) 2.
Proof. apply take_flags_takes. Qed.
Hint Resolve take_value_flags_takes : reads.

Lemma read_single_adjustment1_finds p :
  finds S read_single_adjustment1 e p (single_adjustment1_at (opts e) f p).
Proof. linked. Qed.
Hint Resolve read_single_adjustment1_finds : reads.

Lemma read_single_adjustment2_finds p :
  finds S read_single_adjustment2 e p (single_adjustment2_at (opts e) f p).
Proof. linked. Qed.
Hint Resolve read_single_adjustment2_finds : reads.

Lemma read_single_adjustment_finds p :
  finds S read_single_adjustment e p (single_adjustment_at (opts e) f p).
Proof. dispatch. Qed.
Hint Resolve read_single_adjustment_finds : reads.

Lemma read_pair_adjustment1_finds p :
  finds S read_pair_adjustment1 e p (pair_adjustment1_at (opts e) f p).
Proof. linked. Qed.
Hint Resolve read_pair_adjustment1_finds : reads.

Lemma read_pair_adjustment2_finds p :
  finds S read_pair_adjustment2 e p (pair_adjustment2_at (opts e) f p).
Proof. linked. Qed.
Hint Resolve read_pair_adjustment2_finds : reads.

Lemma read_pair_adjustment_finds p :
  finds S read_pair_adjustment e p (pair_adjustment_at (opts e) f p).
Proof. dispatch. Qed.
Hint Resolve read_pair_adjustment_finds : reads.

Lemma read_cursive_attachment_finds p :
  finds S read_cursive_attachment e p (cursive_attachment_at f p).
Proof. linked. Qed.
Hint Resolve read_cursive_attachment_finds : reads.

Lemma read_mark_to_base_attachment_finds p :
  finds S read_mark_to_base_attachment e p (mark_to_base_attachment_at (opts e) f p).
Proof. linked. Qed.
Hint Resolve read_mark_to_base_attachment_finds : reads.

Lemma read_mark_to_ligature_attachment_finds p :
  finds S read_mark_to_ligature_attachment e p (mark_to_ligature_attachment_at (opts e) f p).
Proof. linked. Qed.
Hint Resolve read_mark_to_ligature_attachment_finds : reads.

Lemma read_mark_to_mark_attachment_finds p :
  finds S read_mark_to_mark_attachment e p (mark_to_mark_attachment_at (opts e) f p).
Proof. linked. Qed.
Hint Resolve read_mark_to_mark_attachment_finds : reads.

Lemma read_extension_positioning_finds p :
  finds S read_extension_positioning e p (extension_positioning_at f p).
Proof. linked. Qed.
Hint Resolve read_extension_positioning_finds : reads.

Lemma read_gpos_type_finds type_ p :
  finds S (read_gpos_type type_) e p (gpos_type_at (opts e) type_ f p).
Proof. typed. Qed.
Hint Resolve read_gpos_type_finds : reads.

Lemma read_glyph_positioning_finds p :
  finds S read_glyph_positioning e p (glyph_positioning_at (opts e) f p).
Proof. apply read_directory_finds; [exact Hb|]. apply read_gpos_type_finds. Qed.
Hint Resolve read_glyph_positioning_finds : reads.
End Gpos.

#[export] Hint Resolve read_anchor1_finds read_anchor2_finds read_anchor3_finds
  read_anchor_finds read_base_takes read_bases_finds read_component_takes
  read_gpos_ligature_finds read_gpos_ligatures_finds read_mark2_takes read_mark2s_finds
  read_mark1_takes read_mark1s_finds read_connection_takes read_single_takes take_value_takes
  read_pair1_takes read_pair1s_finds read_pair2_takes read_pair2s_takes take_value_flags_takes
  read_single_adjustment1_finds read_single_adjustment2_finds read_single_adjustment_finds
  read_pair_adjustment1_finds read_pair_adjustment2_finds read_pair_adjustment_finds
  read_cursive_attachment_finds read_mark_to_base_attachment_finds
  read_mark_to_ligature_attachment_finds read_mark_to_mark_attachment_finds
  read_extension_positioning_finds read_gpos_type_finds read_glyph_positioning_finds : reads.
