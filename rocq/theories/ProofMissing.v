(** Missing lists and anchors in a build that does not ignore them. *)

From Verif Require Export SpecMissing Requests Encode.
From Verif Require Import Reads ReadsTactics ProofGpos ProofGsub ProofRequests ProofBuilds.

Lemma list_refused {A} o (elem : N -> A -> Prop) base default v :
  ignore_incomplete_directories o = false -> list_at o elem base 0 default v -> elem base v.
Proof.
  intros Ho [(_ & H & _)|[_ H]]; [congruence|]. rewrite N.add_0_r in H. exact H.
Qed.

Lemma vec_single {A} (elem : N -> A -> Prop) s p n l :
  vec_at elem s p n l -> n = 1 -> exists x, l = [x] /\ elem p x.
Proof.
  intros [Hn H] ->. destruct l as [|x [|y l]]; cbn in Hn; try lia. exists x. split; [reflexivity|].
  specialize (H 0%nat x eq_refl). rewrite N.mul_0_r, N.add_0_r in H. exact H.
Qed.

Lemma linked_single {A} (elem : N -> A -> Prop) base a l :
  linked_at elem base [a] l -> exists x, l = [x] /\ elem (base + a) x.
Proof. intros H. inversion H as [|? ? ? ? Hx Hl]; subst. inversion Hl; subst. eauto. Qed.

Lemma tag_low f p t n : tag_at f p t -> u16_at f p n -> n < 256 -> u16_at f (p + 2) 0 ->
  exists b, Byte.to_N b = n /\ t = Tag x00 b x00 x00.
Proof.
  destruct t as [a b c d]. cbn [tag_at]. intros (Ha & Hb & Hc & Hd) (b0 & b1 & H0 & H1 & ->) Hn
    (b2 & b3 & H2 & H3 & E).
  rewrite Ha in H0. injection H0 as <-. rewrite Hb in H1. injection H1 as <-.
  rewrite Hc in H2. injection H2 as <-.
  replace (p + 2 + 1) with (p + 3) in H3 by lia. rewrite Hd in H3. injection H3 as <-.
  assert (Ea : Byte.to_N a = 0) by lia. assert (Ec : Byte.to_N c = 0) by lia.
  assert (Ed : Byte.to_N d = 0) by lia.
  assert (Z : forall x, Byte.to_N x = 0 -> x = x00).
  { intros x Hx. pose proof (Byte.of_to_N x) as Ho. rewrite Hx in Ho. cbn in Ho. congruence. }
  exists b. split; [lia|]. rewrite (Z _ Ea), (Z _ Ec), (Z _ Ed). reflexivity.
Qed.

Lemma directory_misread {T} o (table_at : N -> file -> N -> T -> Prop) f p v :
  ignore_incomplete_directories o = false -> directory_at o table_at f p v -> misread_lists v.
Proof.
  intros Ho. destruct v as [major minor s t l x scripts features lookups variations].
  intros (Hmajor & -> & Hminor & Em & Hs & Ht & Hl & _ & _ & Ls & Lf & Ll & _).
  unfold misread_lists; cbn. split; [|split].
  - intros ->. apply list_refused in Ls; [|exact Ho]. destruct scripts as [n headers records].
    destruct Ls as (Hn & Hh & Hr). pose proof (u16_fun _ _ _ _ Hn Hmajor) as ->.
    destruct (vec_single _ _ _ _ _ Hh eq_refl) as ([tg off] & -> & Htag & Hoff).
    destruct (linked_single _ _ _ _ Hr) as (r & -> & _).
    destruct (tag_low _ _ _ _ Htag Hminor) as (b & Eb & ->).
    { destruct Em as [-> | ->]; reflexivity. }
    { replace (p + 2 + 2) with (p + 4) by lia. exact Hs. }
    exists b, r. split; [exact Eb|].
    replace (p + 2 + 4) with (p + 6) in Hoff by lia.
    rewrite (u16_fun _ _ _ _ Hoff Ht). reflexivity.
  - intros ->. apply list_refused in Lf; [|exact Ho]. destruct features as [n headers records].
    destruct Lf as (Hn & Hh & Hr). pose proof (u16_fun _ _ _ _ Hn Hmajor) as ->.
    destruct (vec_single _ _ _ _ _ Hh eq_refl) as ([tg off] & -> & Htag & Hoff).
    replace (p + 2 + 4) with (p + 6) in Hoff by lia. pose proof (u16_fun _ _ _ _ Hoff Ht) as ->.
    destruct (linked_single _ _ _ _ Hr) as (r & -> & Hat).
    exists tg, r. split; [reflexivity|]. cbn in Hat. rewrite N.add_0_r in Hat.
    destruct r as [po n indices ps]. destruct Hat as (Hp & Hc & _). cbn.
    split; [exact (u16_fun _ _ _ _ Hp Hmajor)|exact (u16_fun _ _ _ _ Hc Hminor)].
  - intros ->. apply list_refused in Ll; [|exact Ho]. destruct lookups as [n offsets records].
    destruct Ll as (Hn & Hh & Hr). pose proof (u16_fun _ _ _ _ Hn Hmajor) as ->.
    destruct (vec_single _ _ _ _ _ Hh eq_refl) as (off & -> & Hoff).
    destruct (linked_single _ _ _ _ Hr) as (r & -> & _).
    exists r. rewrite (u16_fun _ _ _ _ Hoff Hminor). reflexivity.
Qed.

Lemma gsub_misread o f p v :
  bounded f -> ignore_incomplete_directories o = false -> reads o read_glyph_substitution f p v ->
  misread_lists v.
Proof.
  intros B Ho H. apply (request_reads RequestGsub) in H; [|exact B].
  eapply directory_misread; [exact Ho|exact H].
Qed.

Lemma gpos_misread o f p v :
  bounded f -> ignore_incomplete_directories o = false -> reads o read_glyph_positioning f p v ->
  misread_lists v.
Proof.
  intros B Ho H. apply (request_reads RequestGpos) in H; [|exact B].
  eapply directory_misread; [exact Ho|exact H].
Qed.

(** The three lists are missing or empty, and yet there is a script. *)
Definition sample_missing : list byte := flat_map be16 [1; 0; 0; 10; 10; 0; 0].

Definition sample_missing_table {T} : Directory T :=
  mkDirectory 1 0 0 10 10 0
    (mkScripts 1 [mkScriptHeader (Tag x00 x00 x00 x00) 10] [mkScriptRecord 0 0 [] None []])
    (mkFeatures 0 [] []) (mkLookups 0 [] []) None.

Lemma sample_missing_read :
  reads debug_build read_glyph_substitution (file_of sample_missing) 0 sample_missing_table /\
  reads debug_build read_glyph_positioning (file_of sample_missing) 0 sample_missing_table.
Proof. split; eexists; vm_compute; reflexivity. Qed.

Lemma missing_script_not_refused :
  ~ (forall f v, bounded f -> reads debug_build read_glyph_substitution f 0 v -> complete_directory v) /\
  ~ (forall f v, bounded f -> reads debug_build read_glyph_positioning f 0 v -> complete_directory v).
Proof.
  split; intros H.
  - destruct (H _ _ (file_of_bounded sample_missing ltac:(vm_compute; discriminate))
      (proj1 sample_missing_read)) as [E _]. apply E. reflexivity.
  - destruct (H _ _ (file_of_bounded sample_missing ltac:(vm_compute; discriminate))
      (proj2 sample_missing_read)) as [E _]. apply E. reflexivity.
Qed.

(** ** Anchors *)

Lemma anchor_format_at f p a : anchor_at f p a -> u16_at f p (anchor_format a).
Proof.
  destruct a as [[n x y]|[n x y i]|[n x y i j k l]]; cbn; intros [-> H]; apply H.
Qed.

Lemma marks_misread o f p v m :
  bounded f -> ignore_incomplete_marks o = false -> reads o read_mark1s f p v ->
  In m (mark1s_records v) -> mark1_anchor_offset m = 0 -> mark1s_count v = anchor_format (mark1_anchor m).
Proof.
  intros B Ho H Hm E. apply mark1s_reads in H; [|exact B].
  destruct v as [n records]. destruct H as (Hc & _ & Hv). cbn [mark1s_records] in Hm.
  apply In_nth_error in Hm. destruct Hm as [i Hi]. specialize (Hv i m Hi).
  destruct m as [k offset anchor]. cbn in E. subst offset.
  destruct Hv as (_ & _ & [(_ & Hv & _)|[_ Hv]]); [congruence|].
  rewrite N.add_0_r in Hv. apply anchor_format_at in Hv. cbn.
  exact (u16_fun _ _ _ _ Hc Hv).
Qed.

Lemma anchor_format_range a : 1 <= anchor_format a <= 3.
Proof. destruct a; cbn; lia. Qed.

Lemma marks_many o f p n i :
  bounded f -> ignore_incomplete_marks o = false -> u16_at f p n -> 3 < n -> i < n ->
  u16_at f (p + 2 + 4 * i + 2) 0 -> fails o read_mark1s f p.
Proof.
  intros B Ho Hn Hb Hi Hz. apply mark1s_fails; [exact B|]. intros [v Hv].
  pose proof (proj2 (mark1s_reads _ _ _ _ B) Hv) as Hr.
  destruct v as [n' records]. pose proof Hv as (Hc & Hl & Hat).
  pose proof (u16_fun _ _ _ _ Hc Hn) as ->.
  destruct (nth_error records (N.to_nat i)) as [m|] eqn:E.
  2: { apply nth_error_None in E. lia. }
  pose proof (Hat _ _ E) as Hm. rewrite N2Nat.id in Hm.
  pose proof (marks_misread _ _ _ _ m B Ho Hr (nth_error_In _ _ E)) as F. cbn in F.
  destruct m as [k offset anchor]. destruct Hm as (_ & Ho' & _).
  cbn in F. specialize (F (u16_fun _ _ _ _ Ho' Hz)).
  pose proof (anchor_format_range anchor). lia.
Qed.
