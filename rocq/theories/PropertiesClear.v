(** Property C111: one thing becomes of a text. *)

From Verif Require Import ProofClear.

(** C111: if the subtables of a GSUB table leave no doubt, at most one thing becomes of a text, whether one looks at the
    values or at the bytes.  By C116 something becomes of it. *)
Theorem C111_texts v d script language wanted depth n text out out' :
  clear_substitutions v -> shaped_by v d script language wanted depth n text out ->
  shaped_by v d script language wanted depth n text out' -> out = out'.
Proof. exact (texts_one v d script language wanted depth n text out out'). Qed.
Print Assumptions C111_texts.

Theorem C111_texts_at o f p v pd d script language wanted depth n text out out' :
  bounded f -> reads o read_glyph_substitution f p v -> reads o read_glyph_definition f pd d -> clear_substitutions v ->
  shaped_at o f p pd script language wanted depth n text out ->
  shaped_at o f p pd script language wanted depth n text out' -> out = out'.
Proof. exact (texts_one_at o f p v pd d script language wanted depth n text out out'). Qed.
Print Assumptions C111_texts_at.

(** If those of a GPOS table leave no doubt, the glyphs of a text are moved in one way only.  By C116 there is one. *)
Theorem C111_kerning v d script language wanted depth text n m m' i c :
  clear_positionings v -> kerned_by v d script language wanted depth text n m ->
  kerned_by v d script language wanted depth text n m' -> m i c = m' i c.
Proof. exact (kerning_one v d script language wanted depth text n m m' i c). Qed.
Print Assumptions C111_kerning.

Theorem C111_kerning_at o f p v pd d script language wanted depth text n m m' i c :
  bounded f -> reads o read_glyph_positioning f p v -> reads o read_glyph_definition f pd d -> clear_positionings v ->
  kerned_at o f p pd script language wanted depth text n m ->
  kerned_at o f p pd script language wanted depth text n m' -> m i c = m' i c.
Proof. exact (kerning_one_at o f p v pd d script language wanted depth text n m m' i c). Qed.
Print Assumptions C111_kerning_at.

(** So it is for a caller who reads what extensions lead to. *)
Theorem C111_texts_beyond o f p v d script language wanted depth n text out out' :
  clear_substitutions_beyond o f p v -> shaped_beyond o f p v d script language wanted depth n text out ->
  shaped_beyond o f p v d script language wanted depth n text out' -> out = out'.
Proof. exact (texts_beyond_one o f p v d script language wanted depth n text out out'). Qed.
Print Assumptions C111_texts_beyond.

Theorem C111_kerning_beyond o f p v d script language wanted depth text n m m' i c :
  clear_positionings_beyond o f p v -> kerned_beyond o f p v d script language wanted depth text n m ->
  kerned_beyond o f p v d script language wanted depth text n m' -> m i c = m' i c.
Proof. exact (kerning_beyond_one o f p v d script language wanted depth text n m m' i c). Qed.
Print Assumptions C111_kerning_beyond.

(** Coverages and classes whose words in the file ascend leave no doubt. *)
Theorem C111_coverages o f p v :
  bounded f -> reads o read_coverage f p v -> ascending_coverage_at f p -> clear_coverage v.
Proof. exact (coverage_ascends o f p v). Qed.
Print Assumptions C111_coverages.

Theorem C111_classes o f p v :
  bounded f -> reads o read_class f p v -> ascending_class_at f p -> clear_class v.
Proof. exact (class_ascends o f p v). Qed.
Print Assumptions C111_classes.

(** So do subtables whose coverages, classes and pairs are in order in the file, with one alternate at most. *)
Theorem C111_gsub_order o f p v :
  bounded f -> reads o read_glyph_substitution f p v ->
  (forall k j q ty, in_lookup_at o f p k j q ty -> substitution_in_order_at f q ty) -> clear_substitutions v.
Proof. exact (substitutions_ordered o f p v). Qed.
Print Assumptions C111_gsub_order.

Theorem C111_gpos_order o f p v :
  bounded f -> reads o read_glyph_positioning f p v ->
  (forall k j q ty, in_lookup_at o f p k j q ty -> positioning_in_order_at f q ty) -> clear_positionings v.
Proof. exact (positionings_ordered o f p v). Qed.
Print Assumptions C111_gpos_order.

Theorem C111_gsub_order_beyond o f p v :
  bounded f -> reads o read_glyph_substitution f p v ->
  (forall k j q ty, subtable_for_at o Substitution f p k j q ty -> substitution_in_order_at f q ty) ->
  clear_substitutions_beyond o f p v.
Proof. exact (substitutions_beyond_ordered o f p v). Qed.
Print Assumptions C111_gsub_order_beyond.

Theorem C111_gpos_order_beyond o f p v :
  bounded f -> reads o read_glyph_positioning f p v ->
  (forall k j q ty, subtable_for_at o Positioning f p k j q ty -> positioning_in_order_at f q ty) ->
  clear_positionings_beyond o f p v.
Proof. exact (positionings_beyond_ordered o f p v). Qed.
Print Assumptions C111_gpos_order_beyond.

(** In a table with a clear substitution 20 and 21 become 5 and 6 and nothing else.  Where a glyph is covered twice, two
    things may become of it. *)
Example C111_example :
  let head := [1; 0; 0; 0; 0; 0;  1; 0; 10; 28; 42;  1; 27745; 29806; 8; 4; 0; 0; 0; 0;  1; 27753; 26465; 8; 0; 1; 0;
    1; 4; 1; 0; 1; 8;  2; 10; 2; 5; 6;  1; 2] in
  let f := words (head ++ [20; 21]) in
  let g := words (head ++ [20; 20]) in
  exists v v' d d', bounded f /\ reads debug_build read_glyph_substitution f 12 v /\ reads debug_build read_glyph_definition f 0 d /\
    clear_substitutions v /\ ascending_coverage_at f 76 /\
    (forall out, shaped_by v d (Tag "l" "a" "t" "n") None (fun _ => False) 0 1 [20; 21; 20] out <-> out = [5; 6; 5]) /\
    reads debug_build read_glyph_substitution g 12 v' /\ reads debug_build read_glyph_definition g 0 d' /\
    ~ clear_substitutions v' /\
    shaped_by v' d' (Tag "l" "a" "t" "n") None (fun _ => False) 0 1 [20] [5] /\
    shaped_by v' d' (Tag "l" "a" "t" "n") None (fun _ => False) 0 1 [20] [6].
Proof.
  assert (X : forall v d x0 x1, turned_on v (Tag "l" "a" "t" "n") None (fun _ => False) 0 ->
    (forall x, ~ skips v d 0 x) -> (forall j before x after y, ~ exists t, in_lookup v 0 j t /\ gsub_reverse t before x after y) ->
    (exists t, in_lookup v 0 0 t /\ replaces_as t 0 [x0] [5] /\ replaces_as t 0 [x1] [6]) ->
    forall text out, Forall2 (fun x y => (x = x0 /\ y = 5) \/ (x = x1 /\ y = 6)) text out ->
    shaped_by v d (Tag "l" "a" "t" "n") None (fun _ => False) 0 1 text out).
  { intros v d x0 x1 T S Z (t & I & R0 & R1) text out H. apply (shaped_on _ _ _ _ _ _ 0 _ text out); [apply shaped_none|exact T| |].
    - change (goes_through (does 1 (skips v d) (fun k j r xs ys => exists t, in_lookup v k j t /\ replaces_as t r xs ys)
        (fun k j r before xs after actions => exists t, in_lookup v k j t /\ gsub_rule_as t r before xs after actions) 0)
        (rev []) text ([] ++ out)).
      generalize (@nil N). induction H as [|x y text out E H IH]; intros done.
      + rewrite app_nil_r. match goal with |- goes_through ?q _ _ _ => pose proof (goes_end q (rev done)) as G end.
        rewrite rev_involutive in G. exact G.
      + apply (goes_does _ _ _ [y] text).
        * apply (does_fires 0 _ _ _ 0 _ (x :: text) [y] [] text). exists x, [], text.
          split; [reflexivity|]. split; [apply S|]. split; [apply begins_glyph; [apply S|apply begins_end]|].
          exists t. split; [exact I|]. destruct E as [(-> & ->)|(-> & ->)]; assumption.
        * specialize (IH (done ++ [y])). rewrite rev_app_distr, <- app_assoc in IH. exact IH.
    - pose proof (back_none (skips v d 0) _ (rev out) [] Z) as G. rewrite rev_involutive, app_nil_r in G. exact G. }
  intros head f g. eexists. eexists. eexists. eexists. split; [apply file_of_bounded; vm_compute; discriminate|].
  split; [eexists; vm_compute; reflexivity|]. split; [eexists; vm_compute; reflexivity|].
  match goal with |- clear_substitutions ?v /\ _ => set (w := v) end.
  assert (C : clear_substitutions w).
  { intros k j t (l & El & Et). apply nth_error_In in El. destruct El as [<-|[]]. apply nth_error_In in Et.
    destruct Et as [<-|[]]. intros x i i' H H'. cbn in H, H'. unfold entry in H, H'.
    destruct (N.to_nat i) as [|[|a]] eqn:Ei; [| |destruct a; discriminate H]; injection H as <-;
      (destruct (N.to_nat i') as [|[|b]] eqn:Ei'; [| |destruct b; discriminate H']); try discriminate H'; lia. }
  split; [exact C|]. split.
  { exists 2. split; [do 2 eexists; do 2 (split; [vm_compute; reflexivity|]); reflexivity|]. left.
    split; [do 2 eexists; do 2 (split; [vm_compute; reflexivity|]); reflexivity|]. intros i j x y I H H'.
    assert (i = 0 /\ j = 1) as (-> & ->) by lia. destruct H as (b & c & Hb & Hc & ->). destruct H' as (b' & c' & Hb' & Hc' & ->).
    vm_compute in Hb, Hc, Hb', Hc'. injection Hb as <-. injection Hc as <-. injection Hb' as <-. injection Hc' as <-. reflexivity. }
  assert (T : forall v, v = w -> turned_on v (Tag "l" "a" "t" "n") None (fun _ => False) 0).
  { intros v ->. exists (Tag "l" "i" "g" "a"). left. exists 0. do 3 eexists. exists 0. do 2 eexists.
    do 3 (split; [reflexivity|]). split; [reflexivity|]. do 4 (split; [reflexivity|]). left. reflexivity. }
  match goal with |- (forall out, shaped_by _ ?d _ _ _ _ _ _ _ <-> _) /\ _ => set (e := d) end.
  split.
  { assert (Y : shaped_by w e (Tag "l" "a" "t" "n") None (fun _ => False) 0 1 [20; 21; 20] [5; 6; 5]).
    { apply (X w e 20 21); [exact (T w eq_refl)| | | |repeat (apply Forall2_cons; [lia|]); apply Forall2_nil].
      - intros x (l & El & H). injection El as <-. cbn zeta in H. cbn in H.
        destruct H as [(_ & H)|[(_ & H)|(_ & [H|[(s & H & _)|(H & _)]])]]; [discriminate H..|]. apply H. reflexivity.
      - intros j before x after y (t & (l & El & Et) & H). injection El as <-. apply nth_error_In in Et.
        destruct Et as [<-|[]]. exact H.
      - eexists. split; [eexists; split; reflexivity|].
        split; (split; [reflexivity|]); [exists 20, 0, 5|exists 21, 1, 6]; do 3 (split; [reflexivity|]); reflexivity. }
    intros out. split; [intros H; exact (texts_one _ _ _ _ _ _ _ _ _ _ C H Y)|intros ->; exact Y]. }
  clear T. clearbody w e. split; [eexists; vm_compute; reflexivity|]. split; [eexists; vm_compute; reflexivity|].
  match goal with |- ~ clear_substitutions ?v /\ shaped_by _ ?d _ _ _ _ _ _ _ /\ _ => set (w' := v); set (e' := d) end.
  assert (Y : forall out, out = [5] \/ out = [6] -> shaped_by w' e' (Tag "l" "a" "t" "n") None (fun _ => False) 0 1 [20] out).
  { intros out H. apply (X w' e' 20 20).
    - exists (Tag "l" "i" "g" "a"). left. exists 0. do 3 eexists. exists 0. do 2 eexists.
      do 3 (split; [reflexivity|]). split; [reflexivity|]. do 4 (split; [reflexivity|]). left. reflexivity.
    - intros x (l & El & G). injection El as <-. cbn zeta in G. cbn in G.
      destruct G as [(_ & G)|[(_ & G)|(_ & [G|[(s & G & _)|(G & _)]])]]; [discriminate G..|]. apply G. reflexivity.
    - intros j before x after y (t & (l & El & Et) & G). injection El as <-. apply nth_error_In in Et.
      destruct Et as [<-|[]]. exact G.
    - eexists. split; [eexists; split; reflexivity|].
      split; (split; [reflexivity|]); [exists 20, 0, 5|exists 20, 1, 6]; do 3 (split; [reflexivity|]); reflexivity.
    - destruct H as [-> | ->]; apply Forall2_cons; auto; apply Forall2_nil. }
  assert (Y5 := Y [5] (or_introl eq_refl)). assert (Y6 := Y [6] (or_intror eq_refl)).
  split; [|split; [exact Y5|exact Y6]]. intros C'. discriminate (texts_one _ _ _ _ _ _ _ _ _ _ C' Y5 Y6).
Qed.

(** Alternates of which there is one, rules by ascending classes, pairs that are listed once and pairs of classes are
    clear; a pair that is listed twice is not. *)
Example C111_clear_example :
  exists a b c p q r, reads debug_build (read_gsub_type 3) (words [1; 8; 1; 14;  1; 1; 20;  1; 30]) 0 a /\
    reads debug_build (read_gsub_type 5) (words [2; 10; 16; 1; 0;  1; 1; 20;  2; 2; 20; 25; 1; 26; 27; 2]) 0 b /\
    reads debug_build (read_gsub_type 6) (words [2; 14; 20; 20; 20; 1; 0;  1; 1; 20;  2; 2; 20; 25; 1; 26; 27; 2]) 0 c /\
    reads debug_build (read_gpos_type 2) (words [1; 22; 4; 0; 1; 12;  2; 31; 100; 32; 65436;  1; 1; 30]) 0 p /\
    reads debug_build (read_gpos_type 2) (words [2; 18; 4; 0; 24; 24; 1; 1; 9;  1; 1; 20;  2; 2; 20; 25; 1; 26; 27; 2]) 0 q /\
    reads debug_build (read_gpos_type 2) (words [1; 22; 4; 0; 1; 12;  2; 31; 100; 31; 65436;  1; 1; 30]) 0 r /\
    clear_substitution a /\ clear_substitution b /\ clear_substitution c /\ clear_positioning p /\ clear_positioning q /\
    ~ clear_positioning r /\ adjusts r [30; 31] false 2 100 /\ adjusts r [30; 31] false 2 (-100).
Proof.
  do 6 eexists. do 6 (split; [eexists; vm_compute; reflexivity|]).
  assert (K : clear_class (ClassFormat2 (mkClass2 2 2 [mkClassRecord 20 25 1; mkClassRecord 26 27 2]))).
  { intros g x y (h & [<-|[<-|[]]] & I & ->) (k & [<-|[<-|[]]] & I' & ->); cbn in *; lia. }
  assert (L : forall n i x, clear_coverage (CoverageFormat1 (mkCoverage1 n i [x]))).
  { intros n i x g y z H H'. cbn in H, H'. unfold entry in H, H'. destruct (N.to_nat y) as [|[|l]] eqn:Ey; [|discriminate H..].
    destruct (N.to_nat z) as [|[|l]] eqn:Ez; [|discriminate H'..]. lia. }
  split; [split; [apply L|intros h [<-|[]]; cbn; lia]|]. split; [exact K|]. split; [exact K|].
  split; [split; [apply L|]|].
  { intros h [<-|[]]. cbn. apply NoDup_cons; [intros [H|[]]; discriminate H|]. apply NoDup_cons; [intros []|apply NoDup_nil]. }
  split; [split; exact K|]. split.
  { intros (_ & D). specialize (D _ (or_introl eq_refl)). cbn in D. inversion D as [|x l N D']; subst. apply N. left. reflexivity. }
  split; exists 30, 0; do 2 eexists; do 2 (split; [reflexivity|]).
  - split; [left; reflexivity|]. split; [reflexivity|]. eexists. split; reflexivity.
  - split; [right; left; reflexivity|]. split; [reflexivity|]. eexists. split; reflexivity.
Qed.

(** In a table with two pairs that are listed once, 30 is moved before 32 in one way. *)
Example C111_kerning_example :
  let f := words [1; 0; 0; 0; 0; 0;  1; 0; 10; 28; 42;  1; 27745; 29806; 8; 4; 0; 0; 0; 0;  1; 27493; 29294; 8; 0; 1; 0;
    1; 4; 2; 0; 1; 8;  1; 22; 4; 0; 1; 12;  2; 31; 100; 32; 65436;  1; 1; 30] in
  exists v d m, bounded f /\ reads debug_build read_glyph_positioning f 12 v /\ reads debug_build read_glyph_definition f 0 d /\
    clear_positionings v /\ kerned_by v d (Tag "l" "a" "t" "n") None (fun _ => False) 0 [30; 32] 1 m /\
    (forall m', kerned_by v d (Tag "l" "a" "t" "n") None (fun _ => False) 0 [30; 32] 1 m' ->
      m' 0%nat 2%nat = (-100)%Z /\ forall i c, (i, c) <> (0, 2)%nat -> m' i c = 0%Z).
Proof.
  eexists. eexists. exists (ProofKerning.shift (fun _ _ => 0%Z) 0 2 (-100)). split; [apply file_of_bounded; vm_compute; discriminate|].
  do 2 (split; [eexists; vm_compute; reflexivity|]).
  match goal with |- clear_positionings ?v /\ kerned_by _ ?d _ _ _ _ _ _ _ /\ _ => set (w := v); set (e := d) end.
  assert (C : clear_positionings w).
  { intros k j t (l & El & Et). apply nth_error_In in El. destruct El as [<-|[]]. apply nth_error_In in Et.
    destruct Et as [<-|[]]. split.
    - intros g y z H H'. cbn in H, H'. unfold entry in H, H'. destruct (N.to_nat y) as [|[|l]] eqn:Ey; [|discriminate H..].
      destruct (N.to_nat z) as [|[|l]] eqn:Ez; [|discriminate H'..]. lia.
    - intros h [<-|[]]. cbn. apply NoDup_cons; [intros [H|[]]; discriminate H|]. apply NoDup_cons; [intros []|apply NoDup_nil]. }
  assert (S : forall x, ~ skips w e 0 x).
  { intros x (l & El & G). injection El as <-. cbn zeta in G. cbn in G.
    destruct G as [(_ & G)|[(_ & G)|(_ & [G|[(s & G & _)|(G & _)]])]]; [discriminate G..|]. apply G. reflexivity. }
  assert (M : forall j xs past, (exists t, in_lookup w 0 j t /\ minds t xs past) -> exists h, xs = [30; h]).
  { intros j xs past (t & (l & El & Et) & H). injection El as <-. apply nth_error_In in Et. destruct Et as [<-|[]].
    destruct H as (_ & g & i & r & s & G & _ & _ & ->). apply nth_error_In in G. destruct G as [<-|[]]. eauto. }
  assert (A : forall second c z, (exists t, in_lookup w 0 0 t /\ adjusts t [30; 32] second c z) -> second = false /\ c = 2%nat).
  { intros second c z (t & (l & El & Et) & H). injection El as <-. injection Et as <-.
    destruct H as (g & i & r & s & G & Er & I & [= <- E] & v & Ev & E'). apply nth_error_In in Er. destruct Er as [<-|[]].
    destruct I as [<-|[<-|[]]]; [discriminate E|]. destruct second; [discriminate Ev|]. injection Ev as <-.
    split; [reflexivity|]. destruct c as [|[|[|[|c]]]]; try discriminate E'. reflexivity. }
  assert (U : forall j rk before xs after l, ~ exists t, in_lookup w 0 j t /\ gpos_rule_as t rk before xs after l).
  { intros j rk before xs after l (t & (r & Er & Et) & H). injection Er as <-. apply nth_error_In in Et.
    destruct Et as [<-|[]]. exact H. }
  assert (K : kerned_by w e (Tag "l" "a" "t" "n") None (fun _ => False) 0 [30; 32] 1 (ProofKerning.shift (fun _ _ => 0%Z) 0 2 (-100))).
  { apply (kerned_on _ _ _ _ _ _ _ 0 (fun _ _ => 0%Z)); [apply kerned_none| |].
    - exists (Tag "k" "e" "r" "n"). left. exists 0. do 3 eexists. exists 0. do 2 eexists.
      do 3 (split; [reflexivity|]). split; [reflexivity|]. do 4 (split; [reflexivity|]). left. reflexivity.
    - eapply (runs_does _ _ _ _ _ 1).
      + apply nudges_kerns. exists [30; 32], [], false, (ProofKerning.shift (fun _ _ => 0%Z) 0 2 (-100)).
        split; [|split; [|split; [|reflexivity]]].
        * exists 30, [32], [32], []. split; [reflexivity|]. split; [apply S|]. split; [reflexivity|].
          split; [do 2 (apply begins_glyph; [apply S|]); apply begins_end|].
          eexists. split; [eexists; split; reflexivity|]. split; [split; [discriminate|intros X; destruct (X eq_refl)]|].
          exists 30, 0. do 2 eexists. do 2 (split; [reflexivity|]). split; [right; left; reflexivity|reflexivity].
        * apply adds_shift.
          -- eexists. split; [eexists; split; reflexivity|]. exists 30, 0. do 2 eexists. do 2 (split; [reflexivity|]).
             split; [right; left; reflexivity|]. split; [reflexivity|]. eexists. split; reflexivity.
          -- intros c z H. exact (proj2 (A _ _ _ H)).
        * apply adds_still. intros c z H. destruct (A _ _ _ H) as (X & _). discriminate X.
      + cbn [firstn skipn rev app]. apply runs_on; [|apply runs_end]. intros mid n. apply nudges_not.
        intros j rk [(_ & xs & rest & past & y & ys & tail & kept & [= <- _] & _ & -> & G & H)|(l & r & H)].
        * apply M in H. destruct H as (h & [= H _]).
        * destruct H as (y & xs & tail & before & after & k0 & k' & r' & k'' & r'' & _ & _ & _ & _ & _ & H).
          exact (U j _ _ _ _ _ H). }
  split; [exact C|]. split; [exact K|]. intros m' H. split; [exact (kerning_one _ _ _ _ _ _ _ _ _ _ 0 2 C H K)|].
  intros i c X. rewrite (kerning_one _ _ _ _ _ _ _ _ _ _ i c C H K). unfold ProofKerning.shift.
  destruct (Nat.eqb_spec i 0) as [->|]; [|reflexivity]. destruct (Nat.eqb_spec c 2) as [->|]; [|reflexivity].
  destruct (X eq_refl).
Qed.

(** An extension leads to a subtable that leaves no doubt, or to one that does though the extension itself does not. *)
Example C111_extension_example :
  let head := [1; 0; 10; 28; 42;  1; 27745; 29806; 8; 4; 0; 0; 0; 0;  1; 27753; 26465; 8; 0; 1; 0;
    1; 4; 7; 0; 1; 8;  1; 1; 0; 8;  2; 10; 2; 5; 6;  1; 2] in
  let f := words (head ++ [20; 21]) in
  let g := words (head ++ [20; 20]) in
  exists v w, reads debug_build read_glyph_substitution f 0 v /\ clear_substitutions_beyond debug_build f 0 v /\
    reads debug_build read_glyph_substitution g 0 w /\ clear_substitutions w /\ ~ clear_substitutions_beyond debug_build g 0 w.
Proof.
  intros head f g. eexists. eexists. split; [eexists; vm_compute; reflexivity|]. split.
  { intros k j u (t & (l & El & Et) & H). pose proof El as El'. pose proof Et as Et'. apply nth_error_In in El'.
    destruct El' as [<-|[]]. apply nth_error_In in Et'. destruct Et' as [<-|[]]. cbn in H.
    destruct H as (q & (a & r & s & Ea & Er & Es & ->) & e & R). apply nth_error_In in Ea. destruct Ea as [<-|[]].
    apply nth_error_In in Er. destruct Er as [<-|[]]. apply nth_error_In in Es. destruct Es as [<-|[]].
    vm_compute in R. injection R as <- _. intros x i i' H H'. cbn in H, H'. unfold entry in H, H'.
    destruct (N.to_nat i) as [|[|b]] eqn:Ei; [| |destruct b; discriminate H]; injection H as <-;
      (destruct (N.to_nat i') as [|[|b]] eqn:Ei'; [| |destruct b; discriminate H']); try discriminate H'; lia. }
  split; [eexists; vm_compute; reflexivity|]. split.
  - intros k j t (l & El & Et). apply nth_error_In in El. destruct El as [<-|[]]. apply nth_error_In in Et.
    destruct Et as [<-|[]]. exact I.
  - match goal with |- ~ clear_substitutions_beyond _ _ _ ?v => set (w := v) end. intros C.
    assert (X : exists u, subtable_for debug_build Substitution g 0 w 0 0 u /\
      replaces_as u 0 [20] [5] /\ replaces_as u 0 [20] [6]).
    { eexists. split.
      - eexists. split; [eexists; split; reflexivity|].
        eexists. split; [do 3 eexists; do 3 (split; [reflexivity|]); reflexivity|]. eexists. vm_compute. reflexivity.
      - split; (split; [reflexivity|]); [exists 20, 0, 5|exists 20, 1, 6]; do 3 (split; [reflexivity|]); reflexivity. }
    destruct X as (u & S & R5 & R6). destruct (replaces_one _ _ _ _ _ _ _ (C _ _ _ S) R5 R6) as (_ & E). discriminate E.
Qed.

(** Coverages, classes and subtables that are in order, and some that are not. *)
Example C111_order_example :
  let classes := [2; 2; 20; 25; 1; 26; 27; 2] in
  ascending_coverage_at (words [2; 2; 20; 25; 0; 26; 27; 6]) 0 /\
  ~ ascending_coverage_at (words [2; 2; 20; 25; 0; 25; 27; 6]) 0 /\ ~ ascending_coverage_at (words [1; 2; 20; 20]) 0 /\
  ascending_class_at (words [1; 20; 2; 1; 2]) 0 /\ ascending_class_at (words classes) 0 /\
  ~ ascending_class_at (words [2; 2; 20; 25; 1; 25; 27; 2]) 0 /\
  substitution_in_order_at (words [1; 8; 1; 14;  1; 1; 20;  1; 30]) 0 3 /\
  ~ substitution_in_order_at (words [1; 8; 1; 14;  1; 1; 20;  2; 30; 31]) 0 3 /\
  substitution_in_order_at (words [1; 6; 0;  1; 1; 20]) 0 5 /\
  substitution_in_order_at (words ([2; 10; 16; 1; 0;  1; 1; 20] ++ classes)) 0 5 /\
  substitution_in_order_at (words ([2; 14; 8; 20; 8; 1; 0;  1; 1; 20] ++ classes)) 0 6 /\
  substitution_in_order_at (words [3; 0; 0; 0; 0]) 0 6 /\
  positioning_in_order_at (words [1; 22; 4; 0; 1; 12;  2; 31; 100; 32; 65436;  1; 1; 30]) 0 2 /\
  positioning_in_order_at (words ([2; 18; 4; 0; 24; 24; 1; 1; 9;  1; 1; 20] ++ classes)) 0 2 /\
  positioning_in_order_at (words [3; 0; 0]) 0 7 /\ positioning_in_order_at (words [3; 0; 0; 0; 0]) 0 8.
Proof.
  intros classes.
  split; [exists 2; split; [word|]; right; split; [word|]; ascends|].
  split; [intros (n & N & [(F & _)|(_ & A)]); [known F; discriminate F|];
    known N; subst n; specialize (A 0 1 25 25 ltac:(lia)); enough (25 < 25) by lia; apply A; word|].
  split; [intros (n & N & [(_ & A)|(F & _)]); [|known F; discriminate F];
    known N; subst n; specialize (A 0 1 20 20 ltac:(lia)); enough (20 < 20) by lia; apply A; word|].
  split; [left; word|]. split; [right; split; [word|]; exists 2; split; [word|]; ascends|].
  split; [intros [F|(_ & n & N & A)]; [known F; discriminate F|];
    known N; subst n; specialize (A 0 1 25 25 ltac:(lia)); enough (25 < 25) by lia; apply A; word|].
  assert (C : forall f p c, u16_at f (p + 2) c -> u16_at f (p + c) 1 -> u16_at f (p + c + 2) 1 -> covered_in_order_at f p (p + 2)).
  { intros f p c Hc Hf Hn. exists c. split; [exact Hc|]. exists 1. split; [exact Hn|]. left. split; [exact Hf|]. intros; lia. }
  split.
  { split; [intros _; apply (C _ 0 8); word|]. split; [|split; intros E; discriminate E].
    intros _ n i offset m N I O M. known N. subst n. assert (i = 0) by lia. subst i. known O. subst offset. known M. lia. }
  split.
  { intros (_ & A & _). enough (2 <= 1) by lia. apply (A eq_refl 1 0 14 2); [word|lia|word|word]. }
  split.
  { split; [intros; lia|]. split; [intros E; discriminate E|]. split; [|intros E; discriminate E]. intros _. left.
    split; [word|]. apply (C _ 0 6); word. }
  split.
  { split; [intros; lia|]. split; [intros E; discriminate E|]. split; [|intros E; discriminate E]. intros _. right. left.
    split; [word|]. exists 16. split; [word|]. right. split; [word|]. exists 2. split; [word|]. ascends. }
  split.
  { split; [intros; lia|]. split; [intros E; discriminate E|]. split; [intros E; discriminate E|]. intros _. right. left.
    split; [word|]. exists 20. split; [word|]. right. split; [word|]. exists 2. split; [word|]. ascends. }
  split.
  { split; [intros; lia|]. do 2 (split; [intros E; discriminate E|]). intros _. right. right. word. }
  split.
  { split; [intros _; apply (C _ 0 22); word|]. split; [|split; [|split; intros E; discriminate E]].
    - intros _ _ flags1 flags2 n i offset m j k g h F1 F2 N I O M J G H. known F1. known F2. known N. subst flags1 flags2 n.
      assert (i = 0) by lia. subst i. known O. subst offset. known M. subst m. assert (j = 0 /\ k = 1) as (-> & ->) by lia.
      known G. known H. lia.
    - intros _ F. known F. discriminate F. }
  split.
  { split; [intros _; apply (C _ 0 18); word|]. split; [intros _ F; known F; discriminate F|].
    split; [|split; intros E; discriminate E]. intros _ _.
    split; exists 24; (split; [word|]); right; (split; [word|]); exists 2; (split; [word|]); ascends. }
  split.
  { split; [intros; lia|]. do 2 (split; [intros E; discriminate E|]). split; [|intros E; discriminate E].
    intros _. right. right. word. }
  { split; [intros; lia|]. do 3 (split; [intros E; discriminate E|]). intros _. right. right. word. }
Qed.
