(** Property C116: lookups come to the end of every text. *)

From Verif Require Import ProofEnds.

(** C116: whatever the subtables and the depth of rules, what is left of a text after a lookup has done something at its
    beginning is shorter. *)
Theorem C116_shorter depth skipped replaced ruled k left text ys rest :
  does depth skipped replaced ruled k left text ys rest -> (length rest < length text)%nat.
Proof. exact (does_shorter depth skipped replaced ruled k left text ys rest). Qed.
Print Assumptions C116_shorter.

(** It cannot be that nothing becomes of a text: by the values, *)
Theorem C116_texts v d script language wanted depth n text :
  ~ forall out, ~ shaped_by v d script language wanted depth n text out.
Proof. exact (shaped_ends depth _ _ _ _ _ n text). Qed.
Print Assumptions C116_texts.

(** by the bytes, be they of tables or not, *)
Theorem C116_texts_at o f p pd script language wanted depth n text :
  ~ forall out, ~ shaped_at o f p pd script language wanted depth n text out.
Proof. exact (shaped_ends depth _ _ _ _ _ n text). Qed.
Print Assumptions C116_texts_at.

(** and for a caller who follows extensions. *)
Theorem C116_texts_beyond o f p v d script language wanted depth n text :
  ~ forall out, ~ shaped_beyond o f p v d script language wanted depth n text out.
Proof. exact (shaped_ends depth _ _ _ _ _ n text). Qed.
Print Assumptions C116_texts_beyond.

(** Where some subtable of a lookup has something to do, something is done. *)
Theorem C116_ready depth skipped replaced ruled k j r left text :
  ready (skipped k) (replaced k) (ruled k) j r left text ->
  ~ forall ys rest, ~ does (S depth) skipped replaced ruled k left text ys rest.
Proof. exact (ready_does depth skipped replaced ruled k j r left text). Qed.
Print Assumptions C116_ready.

(** The same for the movements of glyphs: a lookup is done with at least one glyph, and with none that is not there. *)
Theorem C116_done depth skipped minded adjusted ruled k left text m m' n :
  nudges depth skipped minded adjusted ruled k left text m m' n -> (0 < n <= length text)%nat.
Proof. exact (nudges_done depth skipped minded adjusted ruled k left text m m' n). Qed.
Print Assumptions C116_done.

Theorem C116_kerning v d script language wanted depth text n :
  ~ forall m, ~ kerned_by v d script language wanted depth text n m.
Proof. exact (kerned_ends depth _ _ _ _ _ text n). Qed.
Print Assumptions C116_kerning.

Theorem C116_kerning_at o f p pd script language wanted depth text n :
  ~ forall m, ~ kerned_at o f p pd script language wanted depth text n m.
Proof. exact (kerned_ends depth _ _ _ _ _ text n). Qed.
Print Assumptions C116_kerning_at.

Theorem C116_kerning_beyond o f p v d script language wanted depth text n :
  ~ forall m, ~ kerned_beyond o f p v d script language wanted depth text n m.
Proof. exact (kerned_ends depth _ _ _ _ _ text n). Qed.
Print Assumptions C116_kerning_beyond.

Theorem C116_heeds depth (sub : N -> N -> GposType -> Prop) skipped minded ruled k j r left text m :
  heeds (skipped k) (minded k) (ruled k) j r left text ->
  ~ forall m' n, ~ nudges (S depth) skipped minded (fun k j xs second c z => exists t, sub k j t /\ adjusts t xs second c z)
    ruled k left text m m' n.
Proof. exact (heeds_nudges_by depth sub skipped minded ruled k j r left text m). Qed.
Print Assumptions C116_heeds.

(** If the subtables leave no doubt (C111), just one thing becomes of a text, and its glyphs are moved in just one way. *)
Theorem C116_one v d script language wanted depth n text : clear_substitutions v ->
  ~ forall out, ~ forall out', shaped_by v d script language wanted depth n text out' <-> out' = out.
Proof. exact (texts_just_one v d script language wanted depth n text). Qed.
Print Assumptions C116_one.

Theorem C116_one_way v d script language wanted depth text n : clear_positionings v ->
  ~ forall m, ~ (kerned_by v d script language wanted depth text n m /\
    forall m', kerned_by v d script language wanted depth text n m' -> forall i c, m' i c = m i c).
Proof. exact (kerning_just_one v d script language wanted depth text n). Qed.
Print Assumptions C116_one_way.

(** The first lookup replaces 30 by two of it, the second one has a rule that asks for itself. *)
Example C116_example :
  let f := words [1; 0; 0; 0; 0; 0;  1; 0; 10; 28; 44;  1; 27745; 29806; 8; 4; 0; 0; 0; 0;  1; 27753; 26465; 8; 0; 2; 0; 1;
    2; 6; 34;  2; 0; 1; 8;  1; 8; 1; 14;  1; 1; 30;  2; 30; 30;  5; 0; 1; 8;  3; 1; 1; 12; 0; 1;  1; 1; 30] in
  exists v d, bounded f /\ reads debug_build read_glyph_substitution f 12 v /\ reads debug_build read_glyph_definition f 0 d /\
    shaped_by v d (Tag "l" "a" "t" "n") None (fun _ => False) 1 1 [30; 30] [30; 30; 30; 30] /\
    gsub_asks (in_lookup v) 1 1 /\ turned_on v (Tag "l" "a" "t" "n") None (fun _ => False) 1 /\
    ready (skips v d 1) (fun j r xs ys => exists t, in_lookup v 1 j t /\ replaces_as t r xs ys)
      (fun j r before xs after actions => exists t, in_lookup v 1 j t /\ gsub_rule_as t r before xs after actions) 0 0 [] [30; 30] /\
    (forall depth, ~ forall ys rest, ~ does (S depth) (skips v d)
      (fun k j r xs ys => exists t, in_lookup v k j t /\ replaces_as t r xs ys)
      (fun k j r before xs after actions => exists t, in_lookup v k j t /\ gsub_rule_as t r before xs after actions) 1 []
      [30; 30] ys rest).
Proof.
  intros f. do 2 eexists. split; [apply file_of_bounded; vm_compute; discriminate|].
  do 2 (split; [eexists; vm_compute; reflexivity|]).
  match goal with |- shaped_by ?v ?d _ _ _ _ _ _ _ /\ _ => set (w := v); set (e := d) end.
  assert (O : forall k, k = 0 \/ k = 1 -> turned_on w (Tag "l" "a" "t" "n") None (fun _ => False) k).
  { intros k K. exists (Tag "l" "i" "g" "a"); left; exists 0; do 3 eexists; exists 0; do 2 eexists;
      do 3 (split; [reflexivity|]); split; [reflexivity|]; do 4 (split; [reflexivity|]).
    destruct K as [-> | ->]; [left|right; left]; reflexivity. }
  assert (S : forall k g, ~ skips w e k g).
  { intros k g (l & _ & [((t & E & _) & _)|[((t & E & _) & _)|((t & E & _) & _)]]); discriminate E. }
  assert (U : exists t, in_lookup w 1 0 t /\ gsub_rule_as t 0 [] [30] [] [mkAction 0 1]).
  { eexists. split; [eexists; split; reflexivity|]. do 3 (split; [reflexivity|]). split; [|reflexivity].
    apply Forall2_cons; [exists 0; reflexivity|apply Forall2_nil]. }
  assert (R : ready (skips w e 1) (fun j r xs ys => exists t, in_lookup w 1 j t /\ replaces_as t r xs ys)
    (fun j r before xs after actions => exists t, in_lookup w 1 j t /\ gsub_rule_as t r before xs after actions) 0 0 [] [30; 30]).
  { right. exists [mkAction 0 1], [30]. exists 30, [], [30], [], [], [], [], [], [], [30].
    split; [reflexivity|]. split; [apply S|]. split; [apply begins_glyph; [apply S|apply begins_end]|].
    do 2 (split; [apply begins_end|]). exact U. }
  split.
  { apply (shaped_on _ _ _ _ _ _ 0 _ [30; 30] [30; 30; 30; 30]); [apply shaped_none|apply O; auto| |].
    - assert (D : forall left rest, does 2 (skips w e) (fun k j r xs ys => exists t, in_lookup w k j t /\ replaces_as t r xs ys)
        (fun k j r before xs after actions => exists t, in_lookup w k j t /\ gsub_rule_as t r before xs after actions) 0 left
        (30 :: rest) [30; 30] rest).
      { intros left rest. apply (does_fires 1 _ _ _ 0 left (30 :: rest) [30; 30] [] rest). exists 30, [], rest.
        split; [reflexivity|]. split; [apply S|]. split; [apply begins_glyph; [apply S|apply begins_end]|].
        eexists. split; [eexists; split; reflexivity|]. split; [reflexivity|]. exists 30, 0. eexists.
        do 3 (split; [reflexivity|]). reflexivity. }
      apply (goes_does _ _ _ [30; 30] [30]); [apply D|]. apply (goes_does _ _ _ [30; 30] []); [apply D|].
      exact (goes_end _ [30; 30; 30; 30]).
    - apply (back_none (skips w e 0) _ [30; 30; 30; 30] []). intros j b g a z (t & (l & El & Et) & H). injection El as <-.
      apply nth_error_In in Et. destruct Et as [<-|[]]. exact H. }
  split.
  { destruct U as (t & L & H). exists 0, t, [], [30], [], [mkAction 0 1], (mkAction 0 1).
    split; [exact L|]. split; [exact (as_rule _ _ _ _ _ _ H)|]. split; [left; reflexivity|reflexivity]. }
  split; [apply O; auto|]. split; [exact R|].
  intros depth. apply (ready_does depth (skips w e) (fun k j r xs ys => exists t, in_lookup w k j t /\ replaces_as t r xs ys)
    (fun k j r before xs after actions => exists t, in_lookup w k j t /\ gsub_rule_as t r before xs after actions) 1 0 0). exact R.
Qed.

(** The glyph 30 is moved by 60, and the lookup is done with it alone. *)
Example C116_kerning_example :
  let f := words [1; 0; 0; 0; 0; 0;  1; 0; 10; 28; 42;  1; 27745; 29806; 8; 4; 0; 0; 0; 0;  1; 27493; 29294; 8; 0; 1; 0;
    1; 4;  1; 0; 1; 8;  1; 8; 4; 60;  1; 1; 30] in
  exists v d, bounded f /\ reads debug_build read_glyph_positioning f 12 v /\ reads debug_build read_glyph_definition f 0 d /\
    heeds (skips v d 0) (fun j xs past => exists t, in_lookup v 0 j t /\ minds t xs past)
      (fun j r before xs after actions => exists t, in_lookup v 0 j t /\ gpos_rule_as t r before xs after actions) 0 0 [] [30; 30] /\
    (forall m, exists m', nudges 1 (skips v d) (fun k j xs past => exists t, in_lookup v k j t /\ minds t xs past)
      (fun k j xs second c z => exists t, in_lookup v k j t /\ adjusts t xs second c z)
      (fun k j r before xs after actions => exists t, in_lookup v k j t /\ gpos_rule_as t r before xs after actions) 0 []
      [30; 30] m m' 1 /\ m' 0%nat 2%nat = (m 0%nat 2%nat + 60)%Z).
Proof.
  intros f. do 2 eexists. split; [apply file_of_bounded; vm_compute; discriminate|].
  do 2 (split; [eexists; vm_compute; reflexivity|]).
  match goal with |- heeds (skips ?v ?d 0) _ _ _ _ _ _ /\ _ => set (w := v); set (e := d) end.
  assert (S : forall k g, ~ skips w e k g).
  { intros k g (l & _ & [((t & E & _) & _)|[((t & E & _) & _)|((t & E & _) & _)]]); discriminate E. }
  assert (M : meets (skips w e 0) (fun j xs past => exists t, in_lookup w 0 j t /\ minds t xs past) 0 [30; 30] [30] [30] false).
  { exists 30, [], [30], []. split; [reflexivity|]. split; [apply S|]. split; [reflexivity|].
    split; [apply begins_glyph; [apply S|apply begins_end]|]. eexists. split; [eexists; split; reflexivity|].
    split; [reflexivity|]. exists 30, 0. split; reflexivity. }
  split; [left; split; [reflexivity|]; eauto|].
  assert (A : forall second c z, (exists t, in_lookup w 0 0 t /\ adjusts t [30] second c z) <->
    second = false /\ c = 2%nat /\ z = 60%Z).
  { intros second c z. split.
    - intros (t & (l & El & Et) & H). injection El as <-. injection Et as <-. destruct H as (g & i & _ & _ & -> & H).
      destruct c as [|[|[|[|c]]]]; try discriminate H. injection H as <-. auto.
    - intros (-> & -> & ->). eexists. split; [eexists; split; reflexivity|]. exists 30, 0. do 3 (split; [reflexivity|]). reflexivity. }
  intros m. exists (fun h c => if (Nat.eqb h 0 && Nat.eqb c 2)%bool then (m h c + 60)%Z else m h c). split; [|reflexivity].
  exists 0, 0. split; [unfold earlier; lia|]. left. split; [reflexivity|].
  exists [30], [30], false, (fun h c => if (Nat.eqb h 0 && Nat.eqb c 2)%bool then (m h c + 60)%Z else m h c).
  split; [exact M|]. split; [|split; [|reflexivity]].
  - intros h c. destruct (Nat.eqb_spec h 0) as [->|E]; [|right; split; [left; exact E|reflexivity]].
    destruct (Nat.eqb_spec c 2) as [->|E]; [left; split; [reflexivity|]; exists 60%Z; split; [apply A; auto|reflexivity]|].
    right. split; [|reflexivity]. right. intros z H. apply A in H. destruct H as (_ & H & _). exact (E H).
  - intros h c. right. split; [|reflexivity]. right. intros z H. apply A in H. destruct H as (H & _). discriminate H.
Qed.
