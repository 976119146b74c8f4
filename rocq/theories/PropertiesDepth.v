(** Property C113: a limit to the depth of rules makes no difference for tables whose rules are nested no deeper. *)

From Verif Require Import ProofDepth.

(** C113: if rules are nested no deeper than a caller follows them, the same becomes of a text whoever follows them further,
    by the values and by the bytes. *)
Theorem C113_texts v d script language wanted depth more n text out :
  (forall k, turned_on v script language wanted k -> k < n -> nests (gsub_asks (in_lookup v)) depth k) ->
  (shaped_by v d script language wanted depth n text out <-> shaped_by v d script language wanted (depth + more) n text out).
Proof. exact (texts_depth v d script language wanted depth more n text out). Qed.
Print Assumptions C113_texts.

Theorem C113_texts_at o f p v pd d script language wanted depth more n text out :
  bounded f -> reads o read_glyph_substitution f p v -> reads o read_glyph_definition f pd d ->
  (forall k, turned_on v script language wanted k -> k < n -> nests (gsub_asks (in_lookup v)) depth k) ->
  (shaped_at o f p pd script language wanted depth n text out <-> shaped_at o f p pd script language wanted (depth + more) n text out).
Proof. exact (texts_depth_at o f p v pd d script language wanted depth more n text out). Qed.
Print Assumptions C113_texts_at.

Theorem C113_texts_beyond o f p v d script language wanted depth more n text out :
  (forall k, turned_on v script language wanted k -> k < n -> nests (gsub_asks (subtable_for o Substitution f p v)) depth k) ->
  (shaped_beyond o f p v d script language wanted depth n text out <->
   shaped_beyond o f p v d script language wanted (depth + more) n text out).
Proof. exact (texts_depth_beyond o f p v d script language wanted depth more n text out). Qed.
Print Assumptions C113_texts_beyond.

(** The glyphs of a text are moved the same. *)
Theorem C113_kerning v d script language wanted depth more text n m :
  (forall k, turned_on v script language wanted k -> k < n -> nests (gpos_asks (in_lookup v)) depth k) ->
  (kerned_by v d script language wanted depth text n m <-> kerned_by v d script language wanted (depth + more) text n m).
Proof. exact (kerning_depth v d script language wanted depth more text n m). Qed.
Print Assumptions C113_kerning.

Theorem C113_kerning_at o f p v pd d script language wanted depth more text n m :
  bounded f -> reads o read_glyph_positioning f p v -> reads o read_glyph_definition f pd d ->
  (forall k, turned_on v script language wanted k -> k < n -> nests (gpos_asks (in_lookup v)) depth k) ->
  (kerned_at o f p pd script language wanted depth text n m <-> kerned_at o f p pd script language wanted (depth + more) text n m).
Proof. exact (kerning_depth_at o f p v pd d script language wanted depth more text n m). Qed.
Print Assumptions C113_kerning_at.

Theorem C113_kerning_beyond o f p v d script language wanted depth more text n m :
  (forall k, turned_on v script language wanted k -> k < n -> nests (gpos_asks (subtable_for o Positioning f p v)) depth k) ->
  (kerned_beyond o f p v d script language wanted depth text n m <->
   kerned_beyond o f p v d script language wanted (depth + more) text n m).
Proof. exact (kerning_depth_beyond o f p v d script language wanted depth more text n m). Qed.
Print Assumptions C113_kerning_beyond.

(** There is a depth that is enough if lookups can be numbered so that they ask only for those with lower numbers, and there
    is none for a lookup that asks for itself. *)
Theorem C113_enough (asks : N -> N -> Prop) (number : N -> nat) :
  (forall k l, asks k l -> (number l < number k)%nat) -> forall d k, (number k <= d)%nat -> nests asks d k.
Proof. exact (nests_ranked asks number). Qed.
Print Assumptions C113_enough.

Theorem C113_never (asks : N -> N -> Prop) k : asks k k -> forall d, ~ nests asks d k.
Proof. exact (nests_self asks k). Qed.
Print Assumptions C113_never.

(** A rule asks for a lookup that has none, so that a depth of one is enough and 30 becomes 31; a depth of zero is not, and
    30 stays.  In another table the rule asks for its own lookup. *)
Example C113_example :
  let table l := words [1; 0; 0; 0; 0; 0;  1; 0; 10; 28; 42;  1; 27745; 29806; 8; 4; 0; 0; 0; 0;  1; 27753; 26465; 8; 0; 1; 0;
    2; 6; 32;  5; 0; 1; 8;  3; 1; 1; 12; 0; l;  1; 1; 30;  1; 0; 1; 8;  2; 8; 1; 31;  1; 1; 30] in
  exists v d w, bounded (table 1) /\ reads debug_build read_glyph_substitution (table 1) 12 v /\
    reads debug_build read_glyph_definition (table 1) 0 d /\ reads debug_build read_glyph_substitution (table 0) 12 w /\
    turned_on v (Tag "l" "a" "t" "n") None (fun _ => False) 0 /\
    (forall k, nests (gsub_asks (in_lookup v)) 1 k) /\ ~ nests (gsub_asks (in_lookup v)) 0 0 /\
    (forall depth, ~ nests (gsub_asks (in_lookup w)) depth 0) /\
    (forall more out, shaped_by v d (Tag "l" "a" "t" "n") None (fun _ => False) (1 + more) 1 [30] out <-> out = [31]) /\
    (forall out, shaped_by v d (Tag "l" "a" "t" "n") None (fun _ => False) 0 1 [30] out <-> out = [30]).
Proof.
  intros table. do 3 eexists. split; [apply file_of_bounded; vm_compute; discriminate|].
  do 3 (split; [eexists; vm_compute; reflexivity|]).
  match goal with |- turned_on ?v _ _ _ _ /\ _ /\ _ /\ (forall depth, ~ nests (gsub_asks (in_lookup ?v')) depth 0) /\ _ =>
    set (w := v); set (w' := v') end.
  assert (T : turned_on w (Tag "l" "a" "t" "n") None (fun _ => False) 0).
  { exists (Tag "l" "i" "g" "a"). left. exists 0. do 3 eexists. exists 0. do 2 eexists.
    do 3 (split; [reflexivity|]). split; [reflexivity|]. do 4 (split; [reflexivity|]). left. reflexivity. }
  split; [exact T|].
  assert (L : forall k j t, in_lookup w k j t -> (k = 0 /\ in_lookup w 0 0 t) \/ (k = 1 /\ in_lookup w 1 0 t)).
  { intros k j t (l & El & Et). pose proof El as E. unfold entry in El. cbn in El.
    destruct (N.to_nat k) as [|[|a]] eqn:Ek; [left|right|destruct a; discriminate El]; (split; [lia|]); injection El as <-;
      eexists; (split; [reflexivity|]); apply nth_error_In in Et; destruct Et as [<-|[]]; reflexivity. }
  assert (A : forall k l, gsub_asks (in_lookup w) k l -> k = 0 /\ l = 1).
  { intros k l (j & t & b & xs & a & acts & x & I & H & J & E).
    destruct (L _ _ _ I) as [(-> & r & Er & Et)|(-> & r & Er & Et)]; injection Er as <-; injection Et as <-; [|destruct H].
    destruct H as (_ & _ & _ & ->). destruct J as [<-|[]]. split; [reflexivity|symmetry; exact E]. }
  assert (Q : gsub_rule_as (GsubContextualSubstitution (ContextFormat3 (mkContext3 3 1 1 [12]
    [mkAction 0 1] [CoverageFormat1 (mkCoverage1 1 1 [30])]))) 0 [] [30] [] [mkAction 0 1]).
  { do 3 (split; [reflexivity|]). split; [|reflexivity]. apply Forall2_cons; [exists 0; reflexivity|apply Forall2_nil]. }
  split.
  { intros k l H l' H'. apply A in H. apply A in H'. lia. }
  split.
  { intros H. apply (H 1). exists 0. eexists. exists [], [30], [], [mkAction 0 1], (mkAction 0 1).
    split; [eexists; split; reflexivity|]. split; [exact (as_rule _ _ _ _ _ _ Q)|]. split; [left; reflexivity|reflexivity]. }
  split.
  { apply nests_self. exists 0. eexists. exists [], [30], [], [mkAction 0 0], (mkAction 0 0).
    split; [eexists; split; reflexivity|]. split; [|split; [left; reflexivity|reflexivity]].
    do 2 (split; [reflexivity|]). split; [|reflexivity]. apply Forall2_cons; [exists 0; reflexivity|apply Forall2_nil]. }
  match goal with |- (forall more out, shaped_by _ ?d _ _ _ _ _ _ _ <-> _) /\ _ => set (e := d) end.
  assert (S : forall k x, k = 0 \/ k = 1 -> ~ skips w e k x).
  { intros k x [-> | ->] (l & El & G); injection El as <-; cbn zeta in G; cbn in G;
      (destruct G as [(_ & G)|[(_ & G)|(_ & [G|[(s & G & _)|(G & _)]])]]; [discriminate G..|]); apply G; reflexivity. }
  assert (C : clear_substitutions w).
  { intros k j t I. destruct (L _ _ _ I) as [(_ & r & Er & Et)|(_ & r & Er & Et)]; injection Er as <-; injection Et as <-; [exact Logic.I|].
    intros g y z H H'. cbn in H, H'. unfold entry in H, H'. destruct (N.to_nat y) as [|[|l]] eqn:Ey; [|discriminate H..].
    destruct (N.to_nat z) as [|[|l]] eqn:Ez; [|discriminate H'..]. lia. }
  assert (Z : forall j before x after y, ~ exists t, in_lookup w 0 j t /\ gsub_reverse t before x after y).
  { intros j before x after y (t & I & H). destruct (L _ _ _ I) as [(_ & r & Er & Et)|(E & _)]; [|discriminate E].
    injection Er as <-; injection Et as <-. exact H. }
  assert (P : forall depth y, acted (skips w e 0) (does depth (skips w e)
      (fun k j r xs ys => exists t, in_lookup w k j t /\ replaces_as t r xs ys)
      (fun k j r before xs after actions => exists t, in_lookup w k j t /\ gsub_rule_as t r before xs after actions))
      [] [mkAction 0 1] 1 [30] 1 [y] ->
    shaped_by w e (Tag "l" "a" "t" "n") None (fun _ => False) depth 1 [30] [y]).
  { intros depth y G. apply (shaped_on _ _ _ _ _ _ 0 _ [30] [y]); [apply shaped_none|exact T| |].
    - apply (goes_does _ _ _ [y] []); [|exact (goes_end _ [y])]. apply (does_acted _ _ _ _ _ _ _ [mkAction 0 1] [] 1 [y]); [|exact G].
      exists 30, [], [], [], [], [], [], [], [], []. split; [reflexivity|]. split; [apply S; auto|].
      split; [apply begins_glyph; [apply S; auto|apply begins_end]|]. do 2 (split; [apply begins_end|]).
      eexists. split; [eexists; split; reflexivity|exact Q].
    - exact (back_none (skips w e 0) _ [y] [] Z). }
  split.
  - intros more out.
    assert (Y : shaped_by w e (Tag "l" "a" "t" "n") None (fun _ => False) (1 + more) 1 [30] [31]).
    { apply P. apply (acted_done _ _ _ _ _ _ _ [] [30] [31] []).
      - split; [reflexivity|]. split; [apply reaches_here; apply S; auto|cbn; lia].
      - apply (does_fires more _ _ _ 1 _ [30] [31] [] []). exists 30, [], [].
        split; [reflexivity|]. split; [apply S; auto|]. split; [apply begins_glyph; [apply S; auto|apply begins_end]|].
        eexists. split; [eexists; split; reflexivity|]. split; [reflexivity|]. exists 30, 0, 31. do 3 (split; [reflexivity|]). reflexivity.
      - apply acted_none. }
    split; [intros H; exact (texts_one _ _ _ _ _ _ _ _ _ _ C H Y)|intros ->; exact Y].
  - intros out. assert (Y : shaped_by w e (Tag "l" "a" "t" "n") None (fun _ => False) 0 1 [30] [30]).
    { apply P. apply acted_not; [intros before here ys rest _ []|apply acted_none]. }
    split; [intros H; exact (texts_one _ _ _ _ _ _ _ _ _ _ C H Y)|intros ->; exact Y].
Qed.

(** The same for a table of positionings. *)
Example C113_kerning_example :
  let table l := words [1; 0; 10; 28; 42;  1; 27745; 29806; 8; 4; 0; 0; 0; 0;  1; 27493; 29294; 8; 0; 1; 0;
    2; 6; 32;  7; 0; 1; 8;  3; 1; 1; 12; 0; l;  1; 1; 30;  1; 0; 1; 8;  1; 8; 4; 50;  1; 1; 30] in
  exists v w, reads debug_build read_glyph_positioning (table 1) 0 v /\ reads debug_build read_glyph_positioning (table 0) 0 w /\
    turned_on v (Tag "l" "a" "t" "n") None (fun _ => False) 0 /\
    (forall k l, gpos_asks (in_lookup v) k l <-> k = 0 /\ l = 1) /\
    (forall k, nests (gpos_asks (in_lookup v)) 1 k) /\ ~ nests (gpos_asks (in_lookup v)) 0 0 /\
    (forall depth, ~ nests (gpos_asks (in_lookup w)) depth 0).
Proof.
  intros table. do 2 eexists. do 2 (split; [eexists; vm_compute; reflexivity|]).
  match goal with |- turned_on ?v _ _ _ _ /\ _ => set (w := v) end.
  split.
  { exists (Tag "k" "e" "r" "n"). left. exists 0. do 3 eexists. exists 0. do 2 eexists.
    do 3 (split; [reflexivity|]). split; [reflexivity|]. do 4 (split; [reflexivity|]). left. reflexivity. }
  assert (A : forall k l, gpos_asks (in_lookup w) k l <-> k = 0 /\ l = 1).
  { intros k l. split.
    - intros (j & t & b & xs & a & acts & x & (r & Er & Et) & H & J & E). unfold entry in Er. cbn in Er.
      destruct (N.to_nat k) as [|[|i]] eqn:Ek; [| |destruct i; discriminate Er]; injection Er as <-;
        apply nth_error_In in Et; destruct Et as [<-|[]]; [|destruct H].
      destruct H as (_ & _ & _ & ->). destruct J as [<-|[]]. cbn in E. lia.
    - intros (-> & ->). exists 0. eexists. exists [], [30], [], [mkAction 0 1], (mkAction 0 1).
      split; [eexists; split; reflexivity|]. split; [|split; [left; reflexivity|reflexivity]].
      do 2 (split; [reflexivity|]). split; [|reflexivity]. apply Forall2_cons; [exists 0; reflexivity|apply Forall2_nil]. }
  split; [exact A|]. split; [intros k l H l' H'; apply A in H; apply A in H'; lia|].
  split; [intros H; apply (H 1), A; auto|]. apply nests_self. exists 0. eexists. exists [], [30], [], [mkAction 0 0], (mkAction 0 0).
  split; [eexists; split; reflexivity|]. split; [|split; [left; reflexivity|reflexivity]].
  do 2 (split; [reflexivity|]). split; [|reflexivity]. apply Forall2_cons; [exists 0; reflexivity|apply Forall2_nil].
Qed.
