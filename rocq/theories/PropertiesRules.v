(** Property C97: which glyphs the rules of contexts apply to. *)

From Verif Require Import ProofRules.

(** C97: which glyphs a context applies to and which actions it asks for, *)
Theorem C97_contexts o f p v xs actions :
  bounded f -> reads o read_context f p v -> (applies v xs actions <-> applies_at f p xs actions).
Proof. exact (context_means o f p v xs actions). Qed.
Print Assumptions C97_contexts.

(** between which others, *)
Theorem C97_chained_contexts o f p v before xs after actions :
  bounded f -> reads o read_chained_context f p v ->
  (applies_between v before xs after actions <-> applies_between_at f p before xs after actions).
Proof. exact (chained_context_means o f p v before xs after actions). Qed.
Print Assumptions C97_chained_contexts.

(** and which glyph a reverse chained substitution replaces by which between others is the same whether one looks at the
    bytes or at the value. *)
Theorem C97_reverse o f p v before x after y :
  bounded f -> reads o read_reverse_chained_contextual_substibution f p v ->
  (replaces_between v before x after y <-> replaces_between_at f p before x after y).
Proof. exact (reverse_means o f p v before x after y). Qed.
Print Assumptions C97_reverse.

(** So it is for each subtable of each lookup of a whole table. *)
Theorem C97_gsub o f p v k j :
  bounded f -> reads o read_glyph_substitution f p v ->
  (forall before xs after actions, (exists t, in_lookup v k j t /\ gsub_rule t before xs after actions) <->
    (exists q ty, in_lookup_at o f p k j q ty /\ rule_of_at f q 5 ty before xs after actions)) /\
  (forall before x after y, (exists t, in_lookup v k j t /\ gsub_reverse t before x after y) <->
    (exists q, in_lookup_at o f p k j q 8 /\ replaces_between_at f q before x after y)).
Proof. exact (gsub_rules_mean o f p v k j). Qed.
Print Assumptions C97_gsub.

Theorem C97_gpos o f p v k j before xs after actions :
  bounded f -> reads o read_glyph_positioning f p v ->
  ((exists t, in_lookup v k j t /\ gpos_rule t before xs after actions) <->
   (exists q ty, in_lookup_at o f p k j q ty /\ rule_of_at f q 7 ty before xs after actions)).
Proof. exact (gpos_rules_mean o f p v k j before xs after actions). Qed.
Print Assumptions C97_gpos.

(** A rule for a glyph and another, once by glyph and once by class; sets of rules may be missing, and glyphs without a
    class are in the class zero. *)
Example C97_example_contexts :
  let f := words [1; 8; 1; 14;  1; 1; 30;  1; 4;  2; 1; 45; 1; 7] in
  let g := words [2; 12; 20; 2; 0; 36;  1; 2; 30; 31;  2; 2; 30; 30; 1; 40; 49; 2;  2; 6; 16;  2; 1; 2; 0; 5;  3; 0; 0; 2] in
  exists t u, bounded f /\ bounded g /\ reads debug_build read_context f 0 t /\ reads debug_build read_context g 0 u /\
    applies t [30; 45] [mkAction 1 7] /\ (forall a, ~ applies t [30; 46] a) /\ (forall a, ~ applies t [31; 45] a) /\
    applies u [30; 45] [mkAction 0 5] /\ applies u [30; 99; 49] [] /\ (forall a, ~ applies u [30; 50] a) /\
    (forall x a, ~ applies u [31; x] a).
Proof.
  eexists. eexists. do 2 (split; [apply file_of_bounded; vm_compute; discriminate|]).
  do 2 (split; [eexists; vm_compute; reflexivity|]).
  split; [exists 30, 0; do 2 eexists; do 2 (split; [reflexivity|]); split; [left; reflexivity|]; split; reflexivity|].
  split; [intros a (g & i & set & r & _ & Es & Hr & E & _)|].
  { apply nth_error_In in Es. destruct Es as [<-|[]]. destruct Hr as [<-|[]]. discriminate E. }
  split; [intros a (g & i & set & r & Hg & _ & _ & [= <- _] & _)|].
  { apply nth_error_In in Hg. destruct Hg as [E|[]]. discriminate E. }
  assert (two : forall g c, by_class (ClassFormat2 (mkClass2 2 2 [mkClassRecord 30 30 1; mkClassRecord 40 49 2])) c g ->
    (c = 1 /\ g = 30) \/ (c = 2 /\ 40 <= g <= 49) \/ (c = 0 /\ g <> 30 /\ ~ 40 <= g <= 49)).
  { intros g c [(r & [<-|[<-|[]]] & Hr & ->)|(-> & N)]; cbn in *; [left; lia|right; left; lia|].
    right. right. split; [reflexivity|]. split.
    - intros ->. apply (N 1). eexists. split; [left; reflexivity|]. cbn. lia.
    - intros I. apply (N 2). eexists. split; [right; left; reflexivity|]. cbn. lia. }
  assert (one : forall g c, (c = 1 /\ g = 30) \/ (c = 2 /\ 40 <= g <= 49) \/ (c = 0 /\ g <> 30 /\ ~ 40 <= g <= 49) ->
    by_class (ClassFormat2 (mkClass2 2 2 [mkClassRecord 30 30 1; mkClassRecord 40 49 2])) c g).
  { intros g c [(-> & ->)|[(-> & I)|(-> & J & I)]].
    - left. eexists. split; [left; reflexivity|]. cbn. lia.
    - left. eexists. split; [right; left; reflexivity|]. cbn. lia.
    - right. split; [reflexivity|]. intros d (r & [<-|[<-|[]]] & Hr & _); cbn in Hr; lia. }
  split; [exists 30, [45], 0, 1; do 2 eexists; split; [reflexivity|]; split; [apply one; lia|]; split; [reflexivity|];
    split; [left; reflexivity|]; split; [reflexivity|]; split; [|reflexivity]; repeat (apply Forall2_cons; [apply one; lia|]); apply Forall2_nil|].
  split; [exists 30, [99; 49], 0, 1; do 2 eexists; split; [reflexivity|]; split; [apply one; lia|]; split; [reflexivity|];
    split; [right; left; reflexivity|]; split; [reflexivity|]; split; [|reflexivity]; repeat (apply Forall2_cons; [apply one; lia|]); apply Forall2_nil|].
  split.
  - intros a (g & rest & i & c & set & r & _ & _ & Es & Hr & [= <- <-] & F & _).
    apply nth_error_In in Es. destruct Es as [E|[[= <-]|[]]]; [discriminate E|]. destruct Hr as [<-|[<-|[]]]; inversion F; subst.
    + match goal with H : by_class _ _ _ |- _ => apply two in H end. lia.
    + match goal with H : Forall2 _ [_] [] |- _ => inversion H end.
  - intros x a (g & rest & i & c & set & r & _ & Hc & Es & _ & [= <- _] & _). apply two in Hc.
    assert (c = 0) as -> by lia. discriminate Es.
Qed.

(** The same rule in each of the three formats of chained contexts. *)
Example C97_example_chained :
  let f := words [1; 8; 1; 14;  1; 1; 11;  1; 4;  1; 10; 1; 1; 12; 1; 0; 9] in
  let g := words [2; 16; 22; 30; 38; 2; 0; 46;  1; 1; 11;  1; 10; 1; 3;  1; 11; 1; 1;  1; 12; 1; 4;
    1; 4;  1; 3; 1; 1; 4; 1; 0; 9] in
  let h := words [3; 1; 20; 1; 26; 1; 32; 1; 0; 9;  1; 1; 10;  1; 1; 11;  1; 1; 12] in
  let rule v := applies_between v [10] [11] [12] [mkAction 0 9] /\ (forall a, ~ applies_between v [12] [11] [10] a) /\
    (forall a, ~ applies_between v [10] [13] [12] a) /\ (forall a, ~ applies_between v [10] [11] [] a) in
  exists t u v, bounded f /\ bounded g /\ bounded h /\ reads debug_build read_chained_context f 0 t /\
    reads debug_build read_chained_context g 0 u /\ reads debug_build read_chained_context h 0 v /\
    rule t /\ rule u /\ rule v.
Proof.
  eexists. eexists. eexists. do 3 (split; [apply file_of_bounded; vm_compute; discriminate|]).
  do 3 (split; [eexists; vm_compute; reflexivity|]).
  split; [split; [|repeat match goal with |- _ /\ _ => split end]|split].
  - exists 11, 0. do 2 eexists. do 2 (split; [reflexivity|]). split; [left; reflexivity|]. repeat split; reflexivity.
  - intros a (g & i & set & r & _ & Es & Hr & E & _). apply nth_error_In in Es. destruct Es as [<-|[]].
    destruct Hr as [<-|[]]. discriminate E.
  - intros a (g & i & set & r & Hg & _ & _ & _ & [= <- _] & _). apply nth_error_In in Hg. destruct Hg as [E|[]]. discriminate E.
  - intros a (g & i & set & r & _ & Es & Hr & _ & _ & E & _). apply nth_error_In in Es. destruct Es as [<-|[]].
    destruct Hr as [<-|[]]. discriminate E.
  - assert (one : forall g c d, by_class (ClassFormat1 (mkClass1 1 g 1 [c])) c d -> c = 0 \/ d = g).
    { intros g c d [(H & E)|(-> & _)]; [|auto]. right. cbn in *. apply entry_short in E. cbn in E. lia. }
    assert (two : forall g c, by_class (ClassFormat1 (mkClass1 1 g 1 [c])) c g).
    { intros g c. left. cbn. split; [lia|]. rewrite N.sub_diag. reflexivity. }
    split; [|repeat match goal with |- _ /\ _ => split end].
    + exists 11, [], 0, 1. do 2 eexists. split; [reflexivity|]. split; [apply two|]. split; [reflexivity|].
      split; [left; reflexivity|]. split; [reflexivity|]. repeat match goal with |- _ /\ _ => split end; try reflexivity; repeat (apply Forall2_cons; [apply two|]); apply Forall2_nil.
    + intros a (g & rest & i & c & set & r & _ & _ & Es & Hr & _ & F & _). apply nth_error_In in Es.
      destruct Es as [E|[[= <-]|[]]]; [discriminate E|]. destruct Hr as [<-|[]]. inversion F; subst.
      match goal with H : by_class _ _ _ |- _ => apply one in H; destruct H as [E|E]; discriminate E end.
    + intros a (g & rest & i & c & set & r & Hg & _ & _ & _ & [= <- _] & _). apply nth_error_In in Hg.
      destruct Hg as [E|[]]. discriminate E.
    + intros a (g & rest & i & c & set & r & _ & _ & Es & Hr & _ & _ & _ & F & _). apply nth_error_In in Es.
      destruct Es as [E|[[= <-]|[]]]; [discriminate E|]. destruct Hr as [<-|[]]. inversion F.
  - assert (one : forall g d, by_coverage (CoverageFormat1 (mkCoverage1 1 1 [g])) d -> d = g).
    { intros g d (i & H). apply nth_error_In in H. destruct H as [E|[]]. symmetry. exact E. }
    assert (two : forall g, by_coverage (CoverageFormat1 (mkCoverage1 1 1 [g])) g).
    { intros g. exists 0. reflexivity. }
    split; [|repeat match goal with |- _ /\ _ => split end].
    + cbn. repeat match goal with |- _ /\ _ => split end; try reflexivity; repeat (apply Forall2_cons; [apply two|]); apply Forall2_nil.
    + intros a (F & _). inversion F; subst. match goal with H : by_coverage _ _ |- _ => apply one in H; discriminate H end.
    + intros a (_ & F & _). inversion F; subst. match goal with H : by_coverage _ _ |- _ => apply one in H; discriminate H end.
    + intros a (_ & _ & F & _). inversion F.
Qed.

(** A glyph replaced only between two others, in a whole table. *)
Example C97_example_reverse :
  let f := words [1; 0; 10; 12; 14;  0;  0;  1; 4;  8; 0; 1; 8;  1; 16; 1; 22; 1; 28; 1; 77;  1; 1; 11;  1; 1; 10;  1; 1; 12] in
  exists v t, bounded f /\ reads debug_build read_glyph_substitution f 0 v /\ in_lookup v 0 0 t /\
    gsub_reverse t [10] 11 [12] 77 /\ (forall y, ~ gsub_reverse t [12] 11 [10] y) /\
    (forall y, ~ gsub_reverse t [10] 12 [12] y) /\ (forall before xs after a, ~ gsub_rule t before xs after a).
Proof.
  eexists. eexists. split; [apply file_of_bounded; vm_compute; discriminate|]. split; [eexists; vm_compute; reflexivity|].
  split; [eexists; split; reflexivity|].
  split; [exists 0; split; [reflexivity|]; repeat match goal with |- _ /\ _ => split end; try reflexivity; apply Forall2_cons; try apply Forall2_nil; exists 0; reflexivity|].
  split; [|split].
  - intros y (i & _ & F & _). inversion F; subst. match goal with H : by_coverage _ _ |- _ => destruct H as (j & K) end.
    apply nth_error_In in K. destruct K as [E|[]]. discriminate E.
  - intros y (i & H & _). apply nth_error_In in H. destruct H as [E|[]]. discriminate E.
  - intros before xs after a [].
Qed.
