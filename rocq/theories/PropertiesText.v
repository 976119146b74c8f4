(** Property C108: what becomes of a text. *)

From Verif Require Import ProofText.

(** C108: what the substitutions of a script and a language make of a text, with the features that are wanted, is
    the same whether one looks at the bytes of the two tables or at the values; rules of contexts may ask for lookups that
    have rules themselves, up to a depth. *)
Theorem C108_texts o f p v pd d script language wanted depth n text out :
  bounded f -> reads o read_glyph_substitution f p v -> reads o read_glyph_definition f pd d ->
  (shaped_by v d script language wanted depth n text out <-> shaped_at o f p pd script language wanted depth n text out).
Proof. exact (texts_mean o f p v pd d script language wanted depth n text out). Qed.
Print Assumptions C108_texts.

(** Something becomes of every text. *)
Theorem C108_something o f p pd script language wanted depth n text :
  ~ (forall out, ~ shaped_at o f p pd script language wanted depth n text out).
Proof. exact (texts_some o f p pd script language wanted depth n text). Qed.
Print Assumptions C108_something.

(** Where a lookup has something to do, something is done. *)
Theorem C108_done depth s r u k left text j rank :
  ready (s k) (r k) (u k) j rank left text -> ~ forall ys rest, ~ does (S depth) s r u k left text ys rest.
Proof. exact (does_some depth s r u k left text j rank). Qed.
Print Assumptions C108_done.

(** An action of a rule is for one of the glyphs to which the rule applies, which is not skipped. *)
Theorem C108_within s n text a before here :
  placed s n text a before here -> exists x, nth_error (firstn n text) (length before) = Some x /\ ~ s x.
Proof. exact (placed_within s n text a before here). Qed.
Print Assumptions C108_within.

(** It is the same too for a caller who reads what extensions lead to. *)
Theorem C108_extensions o f p v pd d script language wanted depth n text out :
  bounded f -> reads o read_glyph_substitution f p v -> reads o read_glyph_definition f pd d ->
  (shaped_beyond o f p v d script language wanted depth n text out <-> shaped_beyond_at o f p pd script language wanted depth n text out).
Proof. exact (texts_beyond o f p v pd d script language wanted depth n text out). Qed.
Print Assumptions C108_extensions.

(** So it is from the start of a font file on. *)
Theorem C108_font_texts ds o f p w u script language wanted depth n text out :
  bounded f -> reads o (open_take ds TableGlyphSubstitution read_glyph_substitution) f p w ->
  reads o (open_take ds TableGlyphDefinition read_glyph_definition) f p u ->
  (taken_says w (fun v => taken_says u (fun d => shaped_by v d script language wanted depth n text out)) <->
   font_says f p (Tag "G" "S" "U" "B") (fun q => font_says f p (Tag "G" "D" "E" "F") (fun r =>
     shaped_at o f q r script language wanted depth n text out))).
Proof. exact (font_texts_mean ds o f p w u script language wanted depth n text out). Qed.
Print Assumptions C108_font_texts.

(** A ligature that skips marks, which German requires, the second one of its set as the first one, which would be preferred,
    does not apply, and a shift by one, of which the second subtable never gets its
    turn, that has to be wanted; without either nothing happens.  The next lookup replaces 60 by 61 after 4, 5 and 60, the
    last 60 first, and the last one has 7 and 8 shifted after 30. *)
Example C108_example :
  let f := words [1; 2; 14; 0; 0; 36; 46;  2; 3; 30; 30; 1; 31; 31; 2; 50; 52; 3;  2; 1; 50; 51; 7;  1; 1; 0; 8;  1; 1; 50;
    1; 0; 10; 44; 74;
    1; 27745; 29806; 8;  10; 1; 17477; 21792; 18;  0; 65535; 1; 1;  0; 0; 1; 1;
    2; 27753; 26465; 14; 29537; 27764; 24;  0; 3; 0; 2; 3;  0; 1; 1;
    4; 10; 52; 96; 134;  4; 8; 1; 8;  1; 8; 1; 14;  1; 1; 20;  2; 6; 14;  90; 3; 21; 22;  91; 2; 21;
    1; 0; 2; 10; 26;  1; 6; 65535;  2; 1; 0; 9; 0;  2; 10; 2; 40; 41;  1; 2; 5; 6;
    8; 0; 1; 8;  1; 14; 1; 20; 0; 1; 61;  1; 1; 60;  1; 3; 4; 5; 60;
    5; 0; 1; 8;  3; 2; 1; 14; 20; 1; 1;  1; 1; 30;  1; 2; 7; 8] in
  exists v d, bounded f /\ reads debug_build read_glyph_substitution f 60 v /\ reads debug_build read_glyph_definition f 0 d /\
    shaped_by v d (Tag "l" "a" "t" "n") (Some (Tag "D" "E" "U" " ")) (fun t => t = Tag "s" "a" "l" "t") 1 4
      [20; 50; 21; 7; 5; 60; 60; 30; 8] [91; 50; 6; 4; 61; 61; 30; 6] /\
    shaped_by v d (Tag "l" "a" "t" "n") (Some (Tag "D" "E" "U" " ")) (fun _ => False) 1 4
      [20; 50; 21; 7; 5; 60; 60; 30; 8] [91; 50; 7; 5; 61; 61; 30; 7] /\
    (forall out, shaped_by v d (Tag "l" "a" "t" "n") None (fun _ => False) 1 4 [20; 50; 21; 7; 5; 60; 60; 30; 8] out ->
      out = [20; 50; 21; 7; 5; 60; 60; 30; 8]) /\
    (forall out, shaped_by v d (Tag "l" "a" "t" "n") (Some (Tag "D" "E" "U" " ")) (fun _ => False) 1 1 [20; 21; 22] out ->
      out = [90]).
Proof.
  eexists. eexists. split; [apply file_of_bounded; vm_compute; discriminate|].
  do 2 (split; [eexists; vm_compute; reflexivity|]).
  match goal with |- shaped_by ?v ?d _ _ _ _ _ _ _ /\ _ => set (w := v); set (e := d) end.
  assert (C : forall g c, defined_class (glyph_definition_glyph_class e) g c <-> (g = 30 /\ c = 1) \/ (g = 31 /\ c = 2) \/ (50 <= g <= 52 /\ c = 3)).
  { intros g c. split.
    - intros (t & [= <-] & r & [<-|[<-|[<-|[]]]] & H); cbn in H; lia.
    - intros H. eexists. split; [reflexivity|]. destruct H as [(-> & ->)|[(-> & ->)|(I & ->)]]; eexists.
      + split; [left; reflexivity|]. cbn. lia.
      + split; [right; left; reflexivity|]. cbn. lia.
      + split; [right; right; left; reflexivity|]. cbn. lia. }
  assert (S0 : forall g, skips w e 0 g <-> 50 <= g <= 52).
  { intros g. split.
    - intros (l & El & H). injection El as <-. cbn zeta in H. rewrite !C in H. cbn in H.
      destruct H as [(_ & H)|[(_ & H)|(H & _)]]; [discriminate H|discriminate H|lia].
    - intros I. eexists. split; [reflexivity|]. cbn zeta. right. right. rewrite C. split; [lia|]. left. reflexivity. }
  assert (S1 : forall g, ~ skips w e 1 g).
  { intros g (l & El & H). injection El as <-. cbn zeta in H. cbn in H.
    destruct H as [(_ & H)|[(_ & H)|(_ & [H|[(s & H & _)|(H & _)]])]]; [discriminate H..|]. apply H. reflexivity. }
  assert (S2 : forall g, ~ skips w e 2 g).
  { intros g (l & El & H). injection El as <-. cbn zeta in H. cbn in H.
    destruct H as [(_ & H)|[(_ & H)|(_ & [H|[(s & H & _)|(H & _)]])]]; [discriminate H..|]. apply H. reflexivity. }
  assert (S3 : forall g, ~ skips w e 3 g).
  { intros g (l & El & H). injection El as <-. cbn zeta in H. cbn in H.
    destruct H as [(_ & H)|[(_ & H)|(_ & [H|[(s & H & _)|(H & _)]])]]; [discriminate H..|]. apply H. reflexivity. }
  assert (U : forall k j r before xs after l, k < 3 ->
    ~ exists t, in_lookup w k j t /\ gsub_rule_as t r before xs after l).
  { intros k j r0 before xs after l Hk (t & (r & Er & Et) & H). destruct k as [|k]; [injection Er as <-|].
    { cbn in Et. apply nth_error_In in Et. destruct Et as [<-|[]]. exact H. }
    assert (Ek : N.pos k = 1 \/ N.pos k = 2) by lia. destruct Ek as [Ek|Ek]; rewrite Ek in Er; injection Er as <-;
      cbn in Et; apply nth_error_In in Et; cbn in Et.
    - destruct Et as [<-|[<-|[]]]; exact H.
    - destruct Et as [<-|[]]; exact H. }
  assert (U3 : forall j r before xs after l, (exists t, in_lookup w 3 j t /\ gsub_rule_as t r before xs after l) ->
    exists c, xs = [30; c]).
  { intros j r0 before xs after l (t & (r & Er & Et) & H). injection Er as <-. cbn in Et. apply nth_error_In in Et.
    destruct Et as [<-|[]]. destruct H as (_ & _ & H). cbn in H. destruct H as (_ & H & _).
    inversion H as [|c1 x cs xs' (i & C1) H' E1 E2]; subst. inversion H' as [|c2 y cs' xs'' _ H'' E1 E2]; subst.
    inversion H''; subst. apply nth_error_In in C1. destruct C1 as [<-|[]]. eauto. }
  assert (U3' : forall c, c = 7 \/ c = 8 -> exists t, in_lookup w 3 0 t /\ gsub_rule_as t 0 [] [30; c] [] [mkAction 1 1]).
  { intros c G. eexists. split; [eexists; split; reflexivity|]. do 3 (split; [reflexivity|]). split; [|reflexivity].
    apply Forall2_cons; [exists 0; reflexivity|]. apply Forall2_cons; [|apply Forall2_nil].
    destruct G as [-> | ->]; [exists 0|exists 1]; reflexivity. }
  assert (R3 : forall j r xs ys, ~ exists t, in_lookup w 3 j t /\ replaces_as t r xs ys).
  { intros j r xs ys (t & (l & El & Et) & H). injection El as <-. cbn in Et. apply nth_error_In in Et.
    destruct Et as [<-|[]]. exact (proj2 H). }
  assert (Z3 : forall j before x after y, ~ exists t, in_lookup w 3 j t /\ gsub_reverse t before x after y).
  { intros j before x after y (t & (l & El & Et) & H). injection El as <-. cbn in Et. apply nth_error_In in Et.
    destruct Et as [<-|[]]. exact H. }
  assert (Z0 : forall j before x after y, ~ exists t, in_lookup w 0 j t /\ gsub_reverse t before x after y).
  { intros j before x after y (t & (l & El & Et) & H). injection El as <-. cbn in Et. apply nth_error_In in Et.
    destruct Et as [<-|[]]. exact H. }
  assert (Z1 : forall j before x after y, ~ exists t, in_lookup w 1 j t /\ gsub_reverse t before x after y).
  { intros j before x after y (t & (l & El & Et) & H). injection El as <-. cbn in Et. apply nth_error_In in Et.
    destruct Et as [<-|[<-|[]]]; exact H. }
  assert (R2 : forall j r xs ys, ~ exists t, in_lookup w 2 j t /\ replaces_as t r xs ys).
  { intros j r xs ys (t & (l & El & Et) & H). injection El as <-. cbn in Et. apply nth_error_In in Et.
    destruct Et as [<-|[]]. exact (proj2 H). }
  assert (Z2 : forall j before x after y, (exists t, in_lookup w 2 j t /\ gsub_reverse t before x after y) -> x = 60).
  { intros j before x after y (t & (l & El & Et) & H). injection El as <-. cbn in Et. apply nth_error_In in Et.
    destruct Et as [<-|[]]. destruct H as (i & G & _). apply nth_error_In in G. destruct G as [<-|[]]. reflexivity. }
  assert (Z2' : forall g, g = 4 \/ g = 5 \/ g = 60 -> exists t, in_lookup w 2 0 t /\ gsub_reverse t [g] 60 [] 61).
  { intros g G. eexists. split; [eexists; split; reflexivity|]. exists 0. split; [reflexivity|].
    split; [|split; [apply Forall2_nil|reflexivity]]. apply Forall2_cons; [|apply Forall2_nil].
    destruct G as [-> | [-> | ->]]; [exists 0|exists 1|exists 2]; reflexivity. }
  assert (R0 : forall j r xs ys, (exists t, in_lookup w 0 j t /\ replaces_as t r xs ys) <->
    j = 0 /\ ((r = 0 /\ xs = [20; 21; 22] /\ ys = [90]) \/ (r = 1 /\ xs = [20; 21] /\ ys = [91]))).
  { intros j r0 xs ys. split.
    - intros (t & (l & El & Et) & H). injection El as <-. cbn in Et. unfold entry in Et.
      destruct (N.to_nat j) as [|m] eqn:Ej; [|destruct m; discriminate Et]. injection Et as <-.
      destruct H as (g & i & r & l & G & E & I & -> & ->). cbn in G.
      apply nth_error_In in G. destruct G as [<-|[]]. apply nth_error_In in E. destruct E as [<-|[]].
      split; [lia|]. unfold entry in I. destruct (N.to_nat r0) as [|[|m]] eqn:Er; [| |destruct m; discriminate I];
        injection I as <-; [left|right]; (split; [lia|]; split; reflexivity).
    - intros (-> & H). eexists. split; [eexists; split; reflexivity|].
      destruct H as [(-> & -> & ->)|(-> & -> & ->)]; eexists 20, 0, _, _; do 4 (split; [reflexivity|]); reflexivity. }
  assert (R1 : forall j r xs ys, (exists t, in_lookup w 1 j t /\ replaces_as t r xs ys) ->
    exists g, g <= 9 /\ xs = [g]).
  { intros j r0 xs ys (t & (l & El & Et) & H). injection El as <-. cbn in Et. unfold entry in Et.
    destruct (N.to_nat j) as [|[|m]]; [| |destruct m; discriminate Et]; injection Et as <-; destruct H as (_ & H).
    - destruct H as (g & i & (r & [<-|[]] & G) & -> & _). cbn in G. exists g. split; [lia|reflexivity].
    - destruct H as (g & i & y & G & _ & -> & _). cbn in G. apply nth_error_In in G.
      exists g. destruct G as [<-|[<-|[]]]; (split; [lia|reflexivity]). }
  assert (R1' : forall g, g <= 9 -> exists t, in_lookup w 1 0 t /\ replaces_as t 0 [g] [SpecMeaning.shifted g (-1)%Z]).
  { intros g G. eexists. split; [eexists; split; reflexivity|]. split; [reflexivity|]. exists g, g. split; [|split; reflexivity].
    eexists. split; [left; reflexivity|]. cbn. lia. }
  assert (T0 : turned_on w (Tag "l" "a" "t" "n") (Some (Tag "D" "E" "U" " ")) (fun _ => False) 0).
  { exists (Tag "l" "i" "g" "a"). left. exists 0. do 3 eexists. exists 0. do 2 eexists. do 3 (split; [reflexivity|]).
    split; [exists 0; eexists; split; [reflexivity|]; split; reflexivity|]. do 4 (split; [reflexivity|]). left. reflexivity. }
  assert (T2 : turned_on w (Tag "l" "a" "t" "n") (Some (Tag "D" "E" "U" " ")) (fun _ => False) 2).
  { exists (Tag "l" "i" "g" "a"). left. exists 0. do 3 eexists. exists 0. do 2 eexists. do 3 (split; [reflexivity|]).
    split; [exists 0; eexists; split; [reflexivity|]; split; reflexivity|]. do 4 (split; [reflexivity|]). right. left. reflexivity. }
  assert (T2' : turned_on w (Tag "l" "a" "t" "n") (Some (Tag "D" "E" "U" " ")) (fun t => t = Tag "s" "a" "l" "t") 2).
  { destruct T2 as (t & [H|([] & _)]). exists t. left. exact H. }
  assert (T3 : turned_on w (Tag "l" "a" "t" "n") (Some (Tag "D" "E" "U" " ")) (fun _ => False) 3).
  { exists (Tag "l" "i" "g" "a"). left. exists 0. do 3 eexists. exists 0. do 2 eexists. do 3 (split; [reflexivity|]).
    split; [exists 0; eexists; split; [reflexivity|]; split; reflexivity|]. do 4 (split; [reflexivity|]). right. right. left. reflexivity. }
  assert (T3' : turned_on w (Tag "l" "a" "t" "n") (Some (Tag "D" "E" "U" " ")) (fun t => t = Tag "s" "a" "l" "t") 3).
  { destruct T3 as (t & [H|([] & _)]). exists t. left. exact H. }
  assert (T1 : turned_on w (Tag "l" "a" "t" "n") (Some (Tag "D" "E" "U" " ")) (fun t => t = Tag "s" "a" "l" "t") 1).
  { exists (Tag "s" "a" "l" "t"). right. split; [reflexivity|]. exists 0. do 3 eexists. exists 1. do 2 eexists.
    do 3 (split; [reflexivity|]).
    split; [exists 0; eexists; split; [reflexivity|]; split; reflexivity|].
    split; [left; reflexivity|]. do 3 (split; [reflexivity|]). left. reflexivity. }
  assert (T0' : turned_on w (Tag "l" "a" "t" "n") (Some (Tag "D" "E" "U" " ")) (fun t => t = Tag "s" "a" "l" "t") 0).
  { destruct T0 as (t & [H|([] & _)]). exists t. left. exact H. }
  assert (T1' : ~ turned_on w (Tag "l" "a" "t" "n") (Some (Tag "D" "E" "U" " ")) (fun _ => False) 1).
  { intros (t & [H|([] & _)]). destruct H as (i & h & s & l & x & g & q & _ & _ & Es & El & Hx & _ & _ & Eq & I).
    apply nth_error_In in Es. destruct Es as [<-|[]]. destruct El as (n & m & _ & _ & El).
    apply nth_error_In in El. destruct El as [<-|[]]. cbn in Hx. subst x. injection Eq as <-.
    destruct I as [I|[I|[I|[]]]]; discriminate I. }
  assert (T : forall k, ~ turned_on w (Tag "l" "a" "t" "n") None (fun _ => False) k).
  { intros k (t & [H|([] & _)]). destruct H as (i & h & s & l & x & g & q & _ & _ & Es & El & Hx & Eg & _).
    apply nth_error_In in Es. destruct Es as [<-|[]]. injection El as <-. cbn in Hx. subst x. discriminate (entry_short _ _ _ Eg). }
  clearbody w e.
  set (rep := fun k j r xs ys => exists t, in_lookup w k j t /\ replaces_as t r xs ys) in *.
  set (rul := fun k j r before xs after l => exists t, in_lookup w k j t /\ gsub_rule_as t r before xs after l) in *.
  (* the first lookup *)
  assert (N0 : forall d left x text ys rest, x <> 20 -> ~ does (S d) (skips w e) rep rul 0 left (x :: text) ys rest).
  { intros d left x text ys rest Hx. apply does_not. intros j rk [(zs & k & r & y & xs & tail & [= <- _] & _ & _ & H)|(l & r & H)].
    - apply R0 in H. destruct H as (_ & [(_ & E & _)|(_ & E & _)]); injection E as E; lia.
    - destruct H as (y & xs & tail & before & after & k0 & k' & r' & k'' & r'' & _ & _ & _ & _ & _ & H).
      exact (U 0 j _ _ _ _ _ ltac:(lia) H). }
  assert (G0 : goes_through (does 2 (skips w e) rep rul 0) [] [20; 50; 21; 7; 5; 60; 60; 30; 8] [91; 50; 7; 5; 60; 60; 30; 8]).
  { apply (goes_does _ _ _ [91] ([50] ++ [7; 5; 60; 60; 30; 8])).
    - exists 0, 1. split.
      { intros i s L [(zs & k & r & y & xs & tail & [= <- <-] & _ & G & H)|(l & r & H)].
        - apply R0 in H. destruct H as (-> & [(_ & E & _)|(-> & _)]); [|destruct L as [L|(_ & L)]; lia]. injection E as ->.
          inversion G; subst; [|rewrite S0 in *; lia]. match goal with H : begins _ [21; 22] _ _ _ |- _ => inversion H; subst end.
          match goal with H : begins _ [21; 22] _ _ _ |- _ => inversion H; subst end; [|rewrite S0 in *; lia].
          match goal with H : begins _ [22] _ _ _ |- _ => inversion H; subst end. rewrite S0 in *. lia.
        - destruct H as (y & xs & tail & before & after & k0 & k' & r' & k'' & r'' & _ & _ & _ & _ & _ & H).
          exact (U 0 i _ _ _ _ _ ltac:(lia) H). }
      left. exists [50], [7; 5; 60; 60; 30; 8]. split; [|reflexivity].
      exists 20, [21], [50; 21; 7; 5; 60; 60; 30; 8]. split; [reflexivity|]. split; [rewrite S0; lia|].
      split; [|apply R0; split; [reflexivity|]; right; split; [reflexivity|]; split; reflexivity].
      apply begins_glyph; [rewrite S0; lia|]. apply begins_skipped; [rewrite S0; lia|].
      apply begins_glyph; [rewrite S0; lia|]. apply begins_end.
    - cbn [app rev]. do 7 (apply goes_on; [intros ys rest; apply N0; lia|]). apply goes_end. }
  (* the second one *)
  assert (N1 : forall d left x text ys rest, 9 < x -> ~ does (S d) (skips w e) rep rul 1 left (x :: text) ys rest).
  { intros d left x text ys rest Hx. apply does_not. intros j rk [(zs & k & r & y & xs & tail & [= <- _] & _ & _ & H)|(l & r & H)].
    - apply R1 in H. destruct H as (g & G & [= <- _]). lia.
    - destruct H as (y & xs & tail & before & after & k0 & k' & r' & k'' & r'' & _ & _ & _ & _ & _ & H).
      exact (U 1 j _ _ _ _ _ ltac:(lia) H). }
  assert (F1 : forall d left x text, x <= 9 ->
    does (S d) (skips w e) rep rul 1 left (x :: text) [SpecMeaning.shifted x (-1)%Z] ([] ++ text)).
  { intros d left x text Hx. apply does_fires. exists x, [], text. split; [reflexivity|]. split; [apply S1|].
    split; [apply begins_glyph; [apply S1|apply begins_end]|exact (R1' x Hx)]. }
  assert (G1 : goes_through (does 2 (skips w e) rep rul 1) [] [91; 50; 7; 5; 60; 60; 30; 8] [91; 50; 6; 4; 60; 60; 30; 7]).
  { do 2 (apply goes_on; [intros ys rest; apply N1; lia|]).
    do 2 (eapply goes_does; [apply F1; lia|]; cbn [app rev]).
    do 3 (apply goes_on; [intros ys rest; apply N1; lia|]).
    eapply goes_does; [apply F1; lia|]. apply goes_end. }
  (* the third one *)
  assert (N2 : forall d left text ys rest, ~ does (S d) (skips w e) rep rul 2 left text ys rest).
  { intros d left text ys rest. apply does_not. intros j rk [(zs & k & r & y & xs & tail & _ & _ & _ & H)|(l & r & H)].
    - exact (R2 _ _ _ _ H).
    - destruct H as (y & xs & tail & before & after & k0 & k' & r' & k'' & r'' & _ & _ & _ & _ & _ & H).
      exact (U 2 j _ _ _ _ _ ltac:(lia) H). }
  assert (G2 : forall a b c, b = 4 \/ b = 5 -> a <> 60 -> c <> 60 -> goes_back (skips w e 2)
    (fun j before x after y => exists t, in_lookup w 2 j t /\ gsub_reverse t before x after y)
    [c; 30; 60; 60; b; a; 50; 91] [] [91; 50; a; b; 61; 61; 30; c]).
  { intros a b c Hb Ha Hc. assert (Q : forall left x right i z, x <> 60 -> ~ turns (skips w e 2)
      (fun j before x after y => exists t, in_lookup w 2 j t /\ gsub_reverse t before x after y) i left x right z).
    { intros left x right i z Hx (before & after & k & r & k' & r' & _ & _ & _ & H). exact (Hx (Z2 _ _ _ _ _ H)). }
    assert (F : forall g left right, g = 4 \/ g = 5 \/ g = 60 -> turns (skips w e 2)
      (fun j before x after y => exists t, in_lookup w 2 j t /\ gsub_reverse t before x after y) 0 (g :: left) 60 right 61).
    { intros g left right G. exists [g], [], [], left, [], right. split; [apply S2|].
      split; [apply begins_glyph; [apply S2|apply begins_end]|]. split; [apply begins_end|exact (Z2' g G)]. }
    do 2 (apply back_on; [intros i z; apply Q; lia|]).
    apply (back_turns _ _ 0 60 _ _ 61); [apply F; lia|intros i z I; lia|].
    apply (back_turns _ _ 0 60 _ _ 61); [apply F; lia|intros i z I; lia|].
    do 4 (apply back_on; [intros i z; apply Q; lia|]). apply back_end. }
  (* the last one *)
  assert (N3 : forall d left x text ys rest, x <> 30 -> ~ does (S d) (skips w e) rep rul 3 left (x :: text) ys rest).
  { intros d left x text ys rest Hx. apply does_not. intros j rk [(zs & k & r & y & xs & tail & _ & _ & _ & H)|(l & r & H)].
    - exact (R3 _ _ _ _ H).
    - destruct H as (y & xs & tail & before & after & k0 & k' & r' & k'' & r'' & [= <- _] & _ & _ & _ & _ & H).
      apply U3 in H. destruct H as (c & E). injection E as E _. exact (Hx E). }
  assert (G3 : forall a b c, a <> 30 -> b <> 30 -> c = 7 \/ c = 8 ->
    goes_through (does 2 (skips w e) rep rul 3) [] [91; 50; a; b; 61; 61; 30; c]
      [91; 50; a; b; 61; 61; 30; SpecMeaning.shifted c (-1)%Z]).
  { intros a b c Ha Hb Hc. do 6 (apply goes_on; [intros ys rest; apply N3; lia|]).
    apply (goes_does _ _ _ (firstn 2 [30; SpecMeaning.shifted c (-1)%Z]) (skipn 2 [30; SpecMeaning.shifted c (-1)%Z]));
      [|apply goes_end].
    apply (does_acted _ _ _ _ _ _ _ [mkAction 1 1] []).
    - exists 30, [c], [c], [], [], [], [], [61; 61; b; a; 50; 91], [], []. split; [reflexivity|]. split; [apply S3|].
      split; [apply begins_glyph; [apply S3|]; apply begins_glyph; [apply S3|]; apply begins_end|].
      split; [apply begins_end|]. split; [apply begins_end|exact (U3' c Hc)].
    - apply (acted_done _ _ _ _ _ _ _ [30] [c] [SpecMeaning.shifted c (-1)%Z] ([] ++ [])); [|apply F1; lia|apply acted_none].
      split; [reflexivity|]. split; [|cbn; lia].
      apply (reaches_glyph _ 30 0); [apply S3|]. apply reaches_here. apply S3. }
  unfold shaped_by. fold rep. fold rul. split; [|split; [|split]].
  - apply (shaped_on _ _ _ _ _ _ 3 _ [91; 50; 6; 4; 61; 61; 30; 7] [91; 50; 6; 4; 61; 61; 30; 6]);
      [|exact T3'|apply (G3 6 4 7); lia|exact (back_none _ _ _ [] Z3)].
    apply (shaped_on _ _ _ _ _ _ 2 _ [91; 50; 6; 4; 60; 60; 30; 7] [91; 50; 6; 4; 60; 60; 30; 7]);
      [|exact T2'|apply goes_none, N2|apply (G2 6 4 7); lia].
    apply (shaped_on _ _ _ _ _ _ 1 _ [91; 50; 7; 5; 60; 60; 30; 8] [91; 50; 6; 4; 60; 60; 30; 7]);
      [|exact T1|exact G1|exact (back_none _ _ _ [] Z1)].
    apply (shaped_on _ _ _ _ _ _ 0 _ [20; 50; 21; 7; 5; 60; 60; 30; 8] [91; 50; 7; 5; 60; 60; 30; 8]);
      [apply shaped_none|exact T0'|exact G0|exact (back_none _ _ _ [] Z0)].
  - apply (shaped_on _ _ _ _ _ _ 3 _ [91; 50; 7; 5; 61; 61; 30; 8] [91; 50; 7; 5; 61; 61; 30; 7]);
      [|exact T3|apply (G3 7 5 8); lia|exact (back_none _ _ _ [] Z3)].
    apply (shaped_on _ _ _ _ _ _ 2 _ [91; 50; 7; 5; 60; 60; 30; 8] [91; 50; 7; 5; 60; 60; 30; 8]);
      [|exact T2|apply goes_none, N2|apply (G2 7 5 8); lia].
    apply (shaped_off _ _ _ _ _ _ 1); [|exact T1'].
    apply (shaped_on _ _ _ _ _ _ 0 _ [20; 50; 21; 7; 5; 60; 60; 30; 8] [91; 50; 7; 5; 60; 60; 30; 8]);
      [apply shaped_none|exact T0|exact G0|exact (back_none _ _ _ [] Z0)].
  - clear - T. intros out H. induction H as [text|n text mid mid' out _ _ O _ _|n text out _ IH _]; [reflexivity|destruct (T _ O)|exact IH].
  - intros out H.
    inversion H as [|n t mid mid' o H0 O G B|n t o H0 O]; subst.
    all: match goal with E : ?n + 1 = 1 |- _ => assert (n = 0) by lia; subst n end.
    all: inversion H0 as [t0| |]; subst; try lia.
    2: { destruct O. exact T0. }
    assert (E : mid' = [90]).
    { inversion G as [|l t ys rest o D G'|l x t o N G']; subst.
      - destruct D as (j & rk & M & [(kept & behind & (x & xs & tail & [= <- <-] & _ & X & R) & ->)|(l & r & n & t' & (y & xs & tail & before & after & k0 & k' & r' & k'' & r'' & _ & _ & _ & _ & _ & X) & _)]);
          [|destruct (U 0 j _ _ _ _ _ ltac:(lia) X)].
        apply R0 in R. destruct R as (-> & [(-> & E & ->)|(-> & E & ->)]).
        + injection E as ->. assert (Y : kept = [] /\ behind = []).
          { repeat match goal with H : begins _ (_ :: _) _ _ _ |- _ => inversion H; subst; clear H; try (rewrite S0 in *; lia) end.
            match goal with H : begins _ [] _ _ _ |- _ => inversion H; subst end. auto. }
          destruct Y as (-> & ->). inversion G' as [|l t ys rest o D _|]; subst; [reflexivity|].
          apply does_length in D. cbn in D. lia.
        + destruct (M 0 0); [right; lia|]. left. exists [90], [], []. exists 20, [21; 22], [21; 22]. split; [reflexivity|].
          split; [rewrite S0; lia|]. split; [|apply R0; auto 10].
          do 3 (apply begins_glyph; [rewrite S0; lia|]). apply begins_end.
      - exfalso. eapply N. apply (does_fires 1 _ _ _ 0 [] [20; 21; 22] [90] [] []).
        exists 20, [21; 22], [21; 22]. split; [reflexivity|].
        split; [rewrite S0; lia|]. split; [|apply R0; auto 10].
        do 3 (apply begins_glyph; [rewrite S0; lia|]). apply begins_end. }
    subst mid'. cbn in B. inversion B as [|j x l r y o X|x l r o _ X]; subst.
    + destruct X as (before & after & k & r & k' & r' & _ & _ & _ & X). destruct (Z0 _ _ _ _ _ X).
    + inversion X; subst. reflexivity.
Qed.
