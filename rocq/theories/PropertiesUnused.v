(** Property C114: lookups that nothing leads to make no difference. *)

From Verif Require Import ProofUnused.

(** C114: if the same lookups of two tables are on, and the lookups that are on or that rules lead to are the same, then the
    same becomes of a text by both, whatever the other lookups are. *)
Theorem C114_texts v w d script language wanted depth n text out :
  (forall k, k < n -> (turned_on v script language wanted k <-> turned_on w script language wanted k)) ->
  (forall k, reached (gsub_asks (in_lookup v)) (turned_on v script language wanted) n k -> same_lookup v w k) ->
  (shaped_by v d script language wanted depth n text out <-> shaped_by w d script language wanted depth n text out).
Proof. exact (texts_used v w d script language wanted depth n text out). Qed.
Print Assumptions C114_texts.

Theorem C114_texts_at o f p v pd d f' p' w pd' script language wanted depth n text out :
  bounded f -> reads o read_glyph_substitution f p v -> reads o read_glyph_definition f pd d ->
  bounded f' -> reads o read_glyph_substitution f' p' w -> reads o read_glyph_definition f' pd' d ->
  (forall k, k < n -> (turned_on v script language wanted k <-> turned_on w script language wanted k)) ->
  (forall k, reached (gsub_asks (in_lookup v)) (turned_on v script language wanted) n k -> same_lookup v w k) ->
  (shaped_at o f p pd script language wanted depth n text out <-> shaped_at o f' p' pd' script language wanted depth n text out).
Proof. exact (texts_used_at o f p v pd d f' p' w pd' script language wanted depth n text out). Qed.
Print Assumptions C114_texts_at.

(** The glyphs of a text are moved the same. *)
Theorem C114_kerning v w d script language wanted depth text n m :
  (forall k, k < n -> (turned_on v script language wanted k <-> turned_on w script language wanted k)) ->
  (forall k, reached (gpos_asks (in_lookup v)) (turned_on v script language wanted) n k -> same_lookup v w k) ->
  (kerned_by v d script language wanted depth text n m <-> kerned_by w d script language wanted depth text n m).
Proof. exact (kerning_used v w d script language wanted depth text n m). Qed.
Print Assumptions C114_kerning.

Theorem C114_kerning_at o f p v pd d f' p' w pd' script language wanted depth text n m :
  bounded f -> reads o read_glyph_positioning f p v -> reads o read_glyph_definition f pd d ->
  bounded f' -> reads o read_glyph_positioning f' p' w -> reads o read_glyph_definition f' pd' d ->
  (forall k, k < n -> (turned_on v script language wanted k <-> turned_on w script language wanted k)) ->
  (forall k, reached (gpos_asks (in_lookup v)) (turned_on v script language wanted) n k -> same_lookup v w k) ->
  (kerned_at o f p pd script language wanted depth text n m <-> kerned_at o f' p' pd' script language wanted depth text n m).
Proof. exact (kerning_used_at o f p v pd d f' p' w pd' script language wanted depth text n m). Qed.
Print Assumptions C114_kerning_at.

(** The first lookup is on and asks for the second; nothing leads to the third, which is not the same in the second table.
    The third table has another second lookup, and there 30 becomes 32. *)
Example C114_example :
  let table y z := words [1; 0; 0; 0; 0; 0;  1; 0; 10; 28; 42;  1; 27745; 29806; 8; 4; 0; 0; 0; 0;  1; 27753; 26465; 8; 0; 1; 0;
    3; 8; 34; 56;  5; 0; 1; 8;  3; 1; 1; 12; 0; 1;  1; 1; 30;  1; 0; 1; 8;  2; 8; 1; y;  1; 1; 30;
    1; 0; 1; 8;  2; 8; 1; z;  1; 1; 30] in
  exists v w x d, bounded (table 31 40) /\ bounded (table 31 41) /\
    reads debug_build read_glyph_substitution (table 31 40) 12 v /\ reads debug_build read_glyph_definition (table 31 40) 0 d /\
    reads debug_build read_glyph_substitution (table 31 41) 12 w /\ reads debug_build read_glyph_definition (table 31 41) 0 d /\
    reads debug_build read_glyph_substitution (table 32 40) 12 x /\
    (forall k, turned_on v (Tag "l" "a" "t" "n") None (fun _ => False) k <->
      turned_on w (Tag "l" "a" "t" "n") None (fun _ => False) k) /\
    (forall k, reached (gsub_asks (in_lookup v)) (turned_on v (Tag "l" "a" "t" "n") None (fun _ => False)) 3 k <->
      k = 0 \/ k = 1) /\
    (forall k, k = 0 \/ k = 1 -> same_lookup v w k) /\ ~ same_lookup v w 2 /\ ~ same_lookup v x 1 /\
    shaped_by v d (Tag "l" "a" "t" "n") None (fun _ => False) 1 3 [30] [31] /\
    shaped_by w d (Tag "l" "a" "t" "n") None (fun _ => False) 1 3 [30] [31] /\
    shaped_by x d (Tag "l" "a" "t" "n") None (fun _ => False) 1 3 [30] [32].
Proof.
  intros table. do 4 eexists. do 2 (split; [apply file_of_bounded; vm_compute; discriminate|]).
  do 5 (split; [eexists; vm_compute; reflexivity|]).
  match goal with |- (forall k, turned_on ?v _ _ _ k <-> turned_on ?w _ _ _ k) /\ _ /\ _ /\ _ /\ ~ same_lookup _ ?x 1 /\
    shaped_by _ ?d _ _ _ _ _ _ _ /\ _ => set (v1 := v); set (v2 := w); set (v3 := x); set (e := d) end.
  assert (T : forall k, (turned_on v1 (Tag "l" "a" "t" "n") None (fun _ => False) k <-> k = 0) /\
    (turned_on v2 (Tag "l" "a" "t" "n") None (fun _ => False) k <-> k = 0) /\
    (turned_on v3 (Tag "l" "a" "t" "n") None (fun _ => False) k <-> k = 0)).
  { intros k. split; [|split]; (split;
      [intros (feature & [(i & h & s & l & y & g & r & _ & _ & Es & _ & _ & _ & _ & Er & I)|([] & _)]);
        apply nth_error_In in Er; destruct Er as [<-|[]]; destruct I as [<-|[]]; reflexivity|
       intros ->; exists (Tag "l" "i" "g" "a"); left; exists 0; do 3 eexists; exists 0; do 2 eexists;
        do 3 (split; [reflexivity|]); split; [reflexivity|]; do 4 (split; [reflexivity|]); left; reflexivity]). }
  split; [intros k; destruct (T k) as (A & B & _); rewrite A, B; reflexivity|].
  assert (A : forall k l, gsub_asks (in_lookup v1) k l <-> k = 0 /\ l = 1).
  { intros k l. split.
    - intros (j & t & b & xs & a & acts & y & (r & Er & Et) & H & J & E). unfold entry in Er. cbn in Er.
      destruct (N.to_nat k) as [|[|[|i]]] eqn:Ek; [| | |destruct i; discriminate Er]; injection Er as <-;
        apply nth_error_In in Et; destruct Et as [<-|[]]; [|destruct H|destruct H].
      destruct H as (_ & _ & _ & ->). destruct J as [<-|[]]. cbn in E. lia.
    - intros (-> & ->). exists 0. eexists. exists [], [30], [], [mkAction 0 1], (mkAction 0 1).
      split; [eexists; split; reflexivity|]. split; [|split; [left; reflexivity|reflexivity]].
      do 2 (split; [reflexivity|]). split; [|reflexivity]. apply Forall2_cons; [exists 0; reflexivity|apply Forall2_nil]. }
  assert (R : forall k, reached (gsub_asks (in_lookup v1)) (turned_on v1 (Tag "l" "a" "t" "n") None (fun _ => False)) 3 k <->
    k = 0 \/ k = 1).
  { assert (R0 : reached (gsub_asks (in_lookup v1)) (turned_on v1 (Tag "l" "a" "t" "n") None (fun _ => False)) 3 0).
    { apply reached_on; [apply T; reflexivity|lia]. }
    intros k. split.
    - intros H. destruct H as [k H _|k l _ H]; [left; apply T; exact H|right; apply A in H; lia].
    - intros [-> | ->]; [exact R0|]. apply (reached_by _ _ _ 0 1 R0). apply A. auto. }
  assert (L : forall k, k = 0 \/ k = 1 -> same_lookup v1 v2 k) by (intros k [-> | ->]; reflexivity).
  split; [exact R|]. split; [exact L|]. split; [discriminate|]. split; [discriminate|].
  assert (Y : forall v y, (forall k, turned_on v (Tag "l" "a" "t" "n") None (fun _ => False) k <-> k = 0) ->
    (forall k g, k = 0 \/ k = 1 -> ~ skips v e k g) ->
    (forall j b g a z, ~ exists t, in_lookup v 0 j t /\ gsub_reverse t b g a z) ->
    (exists t, in_lookup v 0 0 t /\ gsub_rule_as t 0 [] [30] [] [mkAction 0 1]) ->
    (exists t, in_lookup v 1 0 t /\ replaces_as t 0 [30] [y]) ->
    shaped_by v e (Tag "l" "a" "t" "n") None (fun _ => False) 1 3 [30] [y]).
  { intros v y O S Z U Q. apply (shaped_off _ _ _ _ _ _ 2); [|intros H; apply O in H; discriminate H].
    apply (shaped_off _ _ _ _ _ _ 1); [|intros H; apply O in H; discriminate H].
    apply (shaped_on _ _ _ _ _ _ 0 _ [30] [y]); [apply shaped_none|apply O; reflexivity| |].
    - apply (goes_does _ _ _ [y] []); [|exact (goes_end _ [y])].
      apply (does_acted _ _ _ _ _ _ _ [mkAction 0 1] [] 1 [y]).
      + exists 30, [], [], [], [], [], [], [], [], []. split; [reflexivity|]. split; [apply S; auto|].
        split; [apply begins_glyph; [apply S; auto|apply begins_end]|]. do 2 (split; [apply begins_end|]). exact U.
      + apply (acted_done _ _ _ _ _ _ _ [] [30] [y] []).
        * split; [reflexivity|]. split; [apply reaches_here; apply S; auto|cbn; lia].
        * apply (does_fires 0 _ _ _ 1 _ [30] [y] [] []). exists 30, [], [].
          split; [reflexivity|]. split; [apply S; auto|]. split; [apply begins_glyph; [apply S; auto|apply begins_end]|exact Q].
        * apply acted_none.
    - exact (back_none (skips v e 0) _ [y] [] Z). }
  assert (Y1 : shaped_by v1 e (Tag "l" "a" "t" "n") None (fun _ => False) 1 3 [30] [31]).
  { apply Y.
    - intros k. apply T.
    - intros k g [-> | ->] (l & El & G); injection El as <-; cbn zeta in G; cbn in G;
        (destruct G as [(_ & G)|[(_ & G)|(_ & [G|[(s & G & _)|(G & _)]])]]; [discriminate G..|]); apply G; reflexivity.
    - intros j b g a z (t & (l & El & Et) & H). injection El as <-. apply nth_error_In in Et. destruct Et as [<-|[]]. exact H.
    - eexists. split; [eexists; split; reflexivity|]. do 3 (split; [reflexivity|]). split; [|reflexivity].
      apply Forall2_cons; [exists 0; reflexivity|apply Forall2_nil].
    - eexists. split; [eexists; split; reflexivity|]. split; [reflexivity|]. exists 30, 0, 31. do 3 (split; [reflexivity|]). reflexivity. }
  split; [exact Y1|]. split.
  { apply (texts_used v1 v2 e); [intros k _; destruct (T k) as (A' & B & _); rewrite A', B; reflexivity| |exact Y1].
    intros k H. apply L, R, H. }
  apply Y.
  - intros k. apply T.
  - intros k g [-> | ->] (l & El & G); injection El as <-; cbn zeta in G; cbn in G;
      (destruct G as [(_ & G)|[(_ & G)|(_ & [G|[(s & G & _)|(G & _)]])]]; [discriminate G..|]); apply G; reflexivity.
  - intros j b g a z (t & (l & El & Et) & H). injection El as <-. apply nth_error_In in Et. destruct Et as [<-|[]]. exact H.
  - eexists. split; [eexists; split; reflexivity|]. do 3 (split; [reflexivity|]). split; [|reflexivity].
    apply Forall2_cons; [exists 0; reflexivity|apply Forall2_nil].
  - eexists. split; [eexists; split; reflexivity|]. split; [reflexivity|]. exists 30, 0, 32. do 3 (split; [reflexivity|]). reflexivity.
Qed.

(** The same for tables of positionings. *)
Example C114_kerning_example :
  let table y z := words [1; 0; 0; 0; 0; 0;  1; 0; 10; 28; 42;  1; 27745; 29806; 8; 4; 0; 0; 0; 0;  1; 27493; 29294; 8; 0; 1; 0;
    3; 8; 34; 56;  7; 0; 1; 8;  3; 1; 1; 12; 0; 1;  1; 1; 30;  1; 0; 1; 8;  1; 8; 4; y;  1; 1; 30;
    1; 0; 1; 8;  1; 8; 4; z;  1; 1; 30] in
  exists v w x d, bounded (table 50 60) /\ bounded (table 50 61) /\
    reads debug_build read_glyph_positioning (table 50 60) 12 v /\ reads debug_build read_glyph_definition (table 50 60) 0 d /\
    reads debug_build read_glyph_positioning (table 50 61) 12 w /\ reads debug_build read_glyph_definition (table 50 61) 0 d /\
    reads debug_build read_glyph_positioning (table 51 60) 12 x /\
    (forall k, turned_on v (Tag "l" "a" "t" "n") None (fun _ => False) k <->
      turned_on w (Tag "l" "a" "t" "n") None (fun _ => False) k) /\
    (forall k, reached (gpos_asks (in_lookup v)) (turned_on v (Tag "l" "a" "t" "n") None (fun _ => False)) 3 k <->
      k = 0 \/ k = 1) /\
    ~ reached (gpos_asks (in_lookup v)) (turned_on v (Tag "l" "a" "t" "n") None (fun _ => False)) 0 0 /\
    (forall k, k = 0 \/ k = 1 -> same_lookup v w k) /\ ~ same_lookup v w 2 /\ ~ same_lookup v x 1 /\
    (forall m, kerned_by v d (Tag "l" "a" "t" "n") None (fun _ => False) 1 [30] 3 m <->
      kerned_by w d (Tag "l" "a" "t" "n") None (fun _ => False) 1 [30] 3 m).
Proof.
  intros table. do 4 eexists. do 2 (split; [apply file_of_bounded; vm_compute; discriminate|]).
  do 5 (split; [eexists; vm_compute; reflexivity|]).
  match goal with |- (forall k, turned_on ?v _ _ _ k <-> turned_on ?w _ _ _ k) /\ _ => set (v1 := v); set (v2 := w) end.
  assert (T : forall k, (turned_on v1 (Tag "l" "a" "t" "n") None (fun _ => False) k <-> k = 0) /\
    (turned_on v2 (Tag "l" "a" "t" "n") None (fun _ => False) k <-> k = 0)).
  { intros k. split; (split;
      [intros (feature & [(i & h & s & l & y & g & r & _ & _ & Es & _ & _ & _ & _ & Er & I)|([] & _)]);
        apply nth_error_In in Er; destruct Er as [<-|[]]; destruct I as [<-|[]]; reflexivity|
       intros ->; exists (Tag "k" "e" "r" "n"); left; exists 0; do 3 eexists; exists 0; do 2 eexists;
        do 3 (split; [reflexivity|]); split; [reflexivity|]; do 4 (split; [reflexivity|]); left; reflexivity]). }
  assert (O : forall k, turned_on v1 (Tag "l" "a" "t" "n") None (fun _ => False) k <->
    turned_on v2 (Tag "l" "a" "t" "n") None (fun _ => False) k).
  { intros k. destruct (T k) as (A & B). rewrite A, B. reflexivity. }
  split; [exact O|].
  assert (A : forall k l, gpos_asks (in_lookup v1) k l <-> k = 0 /\ l = 1).
  { intros k l. split.
    - intros (j & t & b & xs & a & acts & y & (r & Er & Et) & H & J & E). unfold entry in Er. cbn in Er.
      destruct (N.to_nat k) as [|[|[|i]]] eqn:Ek; [| | |destruct i; discriminate Er]; injection Er as <-;
        apply nth_error_In in Et; destruct Et as [<-|[]]; [|destruct H|destruct H].
      destruct H as (_ & _ & _ & ->). destruct J as [<-|[]]. cbn in E. lia.
    - intros (-> & ->). exists 0. eexists. exists [], [30], [], [mkAction 0 1], (mkAction 0 1).
      split; [eexists; split; reflexivity|]. split; [|split; [left; reflexivity|reflexivity]].
      do 2 (split; [reflexivity|]). split; [|reflexivity]. apply Forall2_cons; [exists 0; reflexivity|apply Forall2_nil]. }
  assert (R : forall k, reached (gpos_asks (in_lookup v1)) (turned_on v1 (Tag "l" "a" "t" "n") None (fun _ => False)) 3 k <->
    k = 0 \/ k = 1).
  { assert (R0 : reached (gpos_asks (in_lookup v1)) (turned_on v1 (Tag "l" "a" "t" "n") None (fun _ => False)) 3 0).
    { apply reached_on; [apply T; reflexivity|lia]. }
    intros k. split.
    - intros H. destruct H as [k H _|k l _ H]; [left; apply T; exact H|right; apply A in H; lia].
    - intros [-> | ->]; [exact R0|]. apply (reached_by _ _ _ 0 1 R0). apply A. auto. }
  assert (L : forall k, k = 0 \/ k = 1 -> same_lookup v1 v2 k) by (intros k [-> | ->]; reflexivity).
  split; [exact R|]. split.
  { intros H. inversion H as [k G N E|k l G N E]; [lia|]. apply A in N. lia. }
  split; [exact L|]. split; [discriminate|]. split; [discriminate|].
  intros m. apply kerning_used; [intros k _; apply O|]. intros k H. apply L, R, H.
Qed.
