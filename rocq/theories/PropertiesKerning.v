(** Property C109: by how much the glyphs of a text are moved. *)

From Verif Require Import ProofKerning.

(** C109: by how much the adjustments of a script and a language, with the features that are wanted, move the glyphs of a
    text is the same whether one looks at the bytes of the two tables or at the values; rules of contexts may ask for
    lookups that have rules themselves, up to a depth. *)
Theorem C109_kerning o f p v pd d script language wanted depth text n m :
  bounded f -> reads o read_glyph_positioning f p v -> reads o read_glyph_definition f pd d ->
  (kerned_by v d script language wanted depth text n m <-> kerned_at o f p pd script language wanted depth text n m).
Proof. exact (kerning_means o f p v pd d script language wanted depth text n m). Qed.
Print Assumptions C109_kerning.

(** Whatever a subtable adjusts it is about. *)
Theorem C109_minded v xs second c z : adjusts v xs second c z -> exists past, minds v xs past.
Proof. exact (adjusts_minds v xs second c z). Qed.
Print Assumptions C109_minded.

(** Every text is moved somehow, if by nothing. *)
Theorem C109_something o f p pd script language wanted depth text n :
  ~ (forall m, ~ kerned_at o f p pd script language wanted depth text n m).
Proof. exact (kerning_some o f p pd script language wanted depth text n). Qed.
Print Assumptions C109_something.

(** Where a lookup has something to do, something is done. *)
Theorem C109_done depth s r (a : N -> N -> list N -> bool -> nat -> Z -> Prop) u k left text m j rank :
  (forall k j xs second c z, a k j xs second c z -> (c < 4)%nat) -> heeds (s k) (r k) (u k) j rank left text ->
  ~ forall m' n, ~ nudges (S depth) s r a u k left text m m' n.
Proof. exact (nudges_some depth s r a u k left text m j rank). Qed.
Print Assumptions C109_done.

(** It is the same too for a caller who reads what extensions lead to. *)
Theorem C109_extensions o f p v pd d script language wanted depth text n m :
  bounded f -> reads o read_glyph_positioning f p v -> reads o read_glyph_definition f pd d ->
  (kerned_beyond o f p v d script language wanted depth text n m <->
   kerned_beyond_at o f p pd script language wanted depth text n m).
Proof. exact (kerning_beyond o f p v pd d script language wanted depth text n m). Qed.
Print Assumptions C109_extensions.

(** So it is from the start of a font file on. *)
Theorem C109_font_kerning ds o f p w u script language wanted depth text n m :
  bounded f -> reads o (open_take ds TableGlyphPositioning read_glyph_positioning) f p w ->
  reads o (open_take ds TableGlyphDefinition read_glyph_definition) f p u ->
  (taken_says w (fun v => taken_says u (fun d => kerned_by v d script language wanted depth text n m)) <->
   font_says f p (Tag "G" "P" "O" "S") (fun q => font_says f p (Tag "G" "D" "E" "F") (fun r =>
     kerned_at o f q r script language wanted depth text n m))).
Proof. exact (font_kerning_means ds o f p w u script language wanted depth text n m). Qed.
Print Assumptions C109_font_kerning.

(** Pairs that skip marks, which German requires, of which the second subtable never gets its turn; a shift of single
    glyphs that has to be wanted; a rule that asks for the latter after 21; and pairs of which both glyphs are moved, so
    that the second one does not begin another. *)
Example C109_example :
  let f := words [1; 2; 14; 0; 0; 36; 46;  2; 3; 30; 30; 1; 31; 31; 2; 50; 52; 3;  2; 1; 50; 51; 7;  1; 1; 0; 8;  1; 1; 50;
    1; 0; 10; 44; 74;
    1; 27745; 29806; 8;  10; 1; 17477; 21792; 18;  0; 65535; 1; 1;  0; 0; 1; 1;
    2; 27753; 26465; 14; 29537; 27764; 24;  0; 3; 0; 2; 3;  0; 1; 1;
    4; 10; 78; 104; 138;
    2; 8; 2; 10; 44;  1; 14; 4; 0; 2; 22; 28;  1; 2; 20; 21;  1; 21; 65526;  1; 21; 65533;
      1; 12; 4; 0; 1; 18;  1; 1; 20;  1; 21; 65437;
    1; 0; 1; 8;  1; 8; 1; 4;  2; 1; 5; 9; 0;
    7; 0; 1; 8;  3; 2; 1; 14; 20; 1; 1;  1; 1; 21;  1; 1; 7;
    2; 0; 1; 8;  1; 12; 4; 4; 1; 18;  1; 1; 21;  1; 21; 5; 6] in
  exists v d m, bounded f /\ reads debug_build read_glyph_positioning f 60 v /\ reads debug_build read_glyph_definition f 0 d /\
    kerned_by v d (Tag "l" "a" "t" "n") (Some (Tag "D" "E" "U" " ")) (fun t => t = Tag "s" "a" "l" "t") 1
      [20; 50; 21; 21; 21; 7] 4 m /\
    m 0%nat 2%nat = (-10)%Z /\ m 2%nat 2%nat = 2%Z /\ m 3%nat 2%nat = 3%Z /\ m 5%nat 0%nat = 8%Z /\
    (forall h c, (h, c) <> (0, 2)%nat -> (h, c) <> (2, 2)%nat -> (h, c) <> (3, 2)%nat -> (h, c) <> (5, 0)%nat ->
      m h c = 0%Z) /\
    (forall m, kerned_by v d (Tag "l" "a" "t" "n") None (fun _ => False) 1 [20; 50; 21; 21; 21; 7] 4 m ->
      forall h c, m h c = 0%Z).
Proof.
  eexists. eexists.
  exists (shift (shift (shift (shift (shift (shift (shift (fun _ _ => 0%Z) 0 2 (-10)) 2 2 (-3)) 3 2 (-3)) 5 0 4) 5 0 4) 2 2 5) 3 2 6).
  split; [apply file_of_bounded; vm_compute; discriminate|].
  do 2 (split; [eexists; vm_compute; reflexivity|]).
  match goal with |- kerned_by ?v ?d _ _ _ _ _ _ _ /\ _ => set (w := v); set (e := d) end.
  cut (kerned_by w e (Tag "l" "a" "t" "n") (Some (Tag "D" "E" "U" " ")) (fun t => t = Tag "s" "a" "l" "t") 1
    [20; 50; 21; 21; 21; 7] 4
    (shift (shift (shift (shift (shift (shift (shift (fun _ _ => 0%Z) 0 2 (-10)) 2 2 (-3)) 3 2 (-3)) 5 0 4) 5 0 4) 2 2 5) 3 2 6)).
  { intros H. split; [exact H|]. do 4 (split; [reflexivity|]). split.
    - intros h c H1 H2 H3 H4. unfold shift.
      assert (Q : forall a b, (h, c) <> (a, b) -> Nat.eqb h a && Nat.eqb c b = false).
      { intros a b X. destruct (Nat.eqb_spec h a) as [->|]; [|reflexivity]. destruct (Nat.eqb_spec c b) as [->|]; [|reflexivity].
        destruct (X eq_refl). }
      rewrite (Q _ _ H1), (Q _ _ H2), (Q _ _ H3), (Q _ _ H4). reflexivity.
    - clear H. assert (T : forall k, ~ turned_on w (Tag "l" "a" "t" "n") None (fun _ => False) k).
      { intros k (t & [H|([] & _)]). destruct H as (i & h & s & l & x & g & q & _ & _ & Es & El & Hx & Eg & _).
        apply nth_error_In in Es. destruct Es as [<-|[]]. injection El as <-. cbn in Hx. subst x. discriminate (entry_short _ _ _ Eg). }
      clearbody w e. clear - T. intros m H. induction H as [|n m m' _ _ O _|n m _ IH _]; [reflexivity|destruct (T _ O)|exact IH]. }
  assert (C : forall g c, defined_class (glyph_definition_glyph_class e) g c <-> (g = 30 /\ c = 1) \/ (g = 31 /\ c = 2) \/ (50 <= g <= 52 /\ c = 3)).
  { intros g c. split.
    - intros (t & [= <-] & r & [<-|[<-|[<-|[]]]] & H); cbn in H; lia.
    - intros H. eexists. split; [reflexivity|]. destruct H as [(-> & ->)|[(-> & ->)|(I & ->)]]; eexists.
      + split; [left; reflexivity|]. cbn. lia.
      + split; [right; left; reflexivity|]. cbn. lia.
      + split; [right; right; left; reflexivity|]. cbn. lia. }
  assert (S0 : forall g, skips w e 0 g <-> 50 <= g <= 52).
  { intros g. split.
    - intros (l & El & H). injection El as <-. cbn zeta in H. rewrite !C in H. cbn in H.
      destruct H as [(_ & H)|[(_ & H)|(H & _)]]; [discriminate H|discriminate H|lia].
    - intros I. eexists. split; [reflexivity|]. cbn zeta. right. right. rewrite C. split; [lia|]. left. reflexivity. }
  assert (SX : forall k g, k = 1 \/ k = 2 \/ k = 3 -> ~ skips w e k g).
  { intros k g K (l & El & H). destruct K as [-> | [-> | ->]]; injection El as <-; cbn zeta in H; cbn in H;
      (destruct H as [(_ & H)|[(_ & H)|(_ & [H|[(s & H & _)|(H & _)]])]]; [discriminate H..|]; apply H; reflexivity). }
  (* what the subtables are about *)
  set (mnd := fun k j xs past => exists t, in_lookup w k j t /\ minds t xs past).
  set (adj := fun k j xs second c z => exists t, in_lookup w k j t /\ adjusts t xs second c z).
  set (rul := fun k j r before xs after l => exists t, in_lookup w k j t /\ gpos_rule_as t r before xs after l).
  assert (P0 : forall j xs past, mnd 0 j xs past -> xs = [20; 21] \/ xs = [21; 21]).
  { intros j xs past (t & (l & El & Et) & H). injection El as <-. cbn in Et. apply nth_error_In in Et.
    destruct Et as [<-|[<-|[]]]; destruct H as (_ & g & i & r & s & G & Er & I & ->); unfold covers in G; cbn in G, Er, I;
      destruct (N.to_nat i) as [|[|k]] eqn:Ei; unfold entry in G, Er; rewrite Ei in G, Er; cbn in G, Er;
      try (destruct k; discriminate G); try discriminate G; injection G as <-; injection Er as <-;
      destruct I as [<-|[]]; auto. }
  assert (P0' : forall xs, xs = [20; 21] \/ xs = [21; 21] -> mnd 0 0 xs false).
  { intros xs H. eexists. split; [eexists; split; reflexivity|]. split; [split; [discriminate|intros X; destruct (X eq_refl)]|].
    destruct H as [-> | ->]; [exists 20, 0|exists 21, 1]; do 2 eexists; do 2 (split; [reflexivity|]);
      (split; [left; reflexivity|reflexivity]). }
  assert (A0 : forall xs b c z, adj 0 0 xs b c z <->
    b = false /\ c = 2%nat /\ ((xs = [20; 21] /\ z = (-10)%Z) \/ (xs = [21; 21] /\ z = (-3)%Z))).
  { intros xs b c z. split.
    - intros (t & (l & El & Et) & H). injection El as <-. cbn in Et. injection Et as <-.
      destruct H as (g & i & r & s & G & Er & I & -> & v & Ev & E). unfold covers in G. cbn in G, Er, I.
      destruct (N.to_nat i) as [|[|k]] eqn:Ei; unfold entry in G, Er; rewrite Ei in G, Er; cbn in G, Er;
        try (destruct k; discriminate G); injection G as <-; injection Er as <-; destruct I as [<-|[]];
        (destruct b; [discriminate Ev|]; injection Ev as <-; destruct c as [|[|[|[|c]]]]; try discriminate E; injection E as <-; auto 10).
    - intros (-> & -> & H). eexists. split; [eexists; split; reflexivity|].
      destruct H as [(-> & ->)|(-> & ->)]; [exists 20, 0|exists 21, 1]; do 2 eexists; do 2 (split; [reflexivity|]);
        (split; [left; reflexivity|]; split; [reflexivity|]; eexists; split; reflexivity). }
  assert (P1 : forall j xs past, mnd 1 j xs past -> exists g, 5 <= g <= 9 /\ xs = [g]).
  { intros j xs past (t & (l & El & Et) & H). injection El as <-. cbn in Et. apply nth_error_In in Et.
    destruct Et as [<-|[]]. destruct H as (_ & g & i & (r & [<-|[]] & G) & ->). cbn in G. exists g. split; [lia|reflexivity]. }
  assert (P1' : mnd 1 0 [7] false).
  { eexists. split; [eexists; split; reflexivity|]. split; [reflexivity|]. exists 7, 2. split; [|reflexivity].
    eexists. split; [left; reflexivity|]. cbn. lia. }
  assert (A1 : forall b c z, adj 1 0 [7] b c z <-> b = false /\ c = 0%nat /\ z = 4%Z).
  { intros b c z. split.
    - intros (t & (l & El & Et) & H). injection El as <-. cbn in Et. injection Et as <-.
      destruct H as (g & i & _ & _ & -> & E). destruct c as [|[|[|[|c]]]]; try discriminate E. injection E as <-. auto.
    - intros (-> & -> & ->). eexists. split; [eexists; split; reflexivity|]. exists 7, 2. split.
      + eexists. split; [left; reflexivity|]. cbn. lia.
      + do 2 (split; [reflexivity|]). reflexivity. }
  assert (P2 : forall j xs past, ~ mnd 2 j xs past).
  { intros j xs past (t & (l & El & Et) & H). injection El as <-. cbn in Et. apply nth_error_In in Et.
    destruct Et as [<-|[]]. exact H. }
  assert (P3 : forall j xs past, mnd 3 j xs past -> xs = [21; 21]).
  { intros j xs past (t & (l & El & Et) & H). injection El as <-. cbn in Et. apply nth_error_In in Et.
    destruct Et as [<-|[]]. destruct H as (_ & g & i & r & s & G & Er & I & ->). apply nth_error_In in G. destruct G as [<-|[]].
    apply nth_error_In in Er. destruct Er as [<-|[]]. destruct I as [<-|[]]. reflexivity. }
  assert (P3' : mnd 3 0 [21; 21] true).
  { eexists. split; [eexists; split; reflexivity|]. split; [split; [discriminate|reflexivity]|].
    exists 21, 0. do 2 eexists. do 2 (split; [reflexivity|]). split; [left; reflexivity|reflexivity]. }
  assert (A3 : forall b c z, adj 3 0 [21; 21] b c z <-> c = 2%nat /\ z = if b then 6%Z else 5%Z).
  { intros b c z. split.
    - intros (t & (l & El & Et) & H). injection El as <-. cbn in Et. injection Et as <-.
      destruct H as (g & i & r & s & G & Er & I & _ & v & Ev & E). apply nth_error_In in Er. destruct Er as [<-|[]].
      destruct I as [<-|[]]. destruct b; injection Ev as <-; destruct c as [|[|[|[|c]]]]; try discriminate E; injection E as <-; auto.
    - intros (-> & ->). eexists. split; [eexists; split; reflexivity|]. exists 21, 0. do 2 eexists.
      do 2 (split; [reflexivity|]). split; [left; reflexivity|]. split; [reflexivity|]. destruct b; (eexists; split; reflexivity). }
  assert (U : forall k j rk before xs after l, k = 0 \/ k = 1 \/ k = 3 -> ~ rul k j rk before xs after l).
  { intros k j rk before xs after l K (t & (r & Er & Et) & H). destruct K as [-> | [-> | ->]]; injection Er as <-;
      cbn in Et; apply nth_error_In in Et; cbn in Et.
    - destruct Et as [<-|[<-|[]]]; exact H.
    - destruct Et as [<-|[]]; exact H.
    - destruct Et as [<-|[]]; exact H. }
  assert (U2 : forall j rk before xs after l, rul 2 j rk before xs after l -> xs = [21; 7]).
  { intros j rk before xs after l (t & (r & Er & Et) & H). injection Er as <-. cbn in Et. apply nth_error_In in Et.
    destruct Et as [<-|[]]. destruct H as (_ & _ & H). cbn in H. destruct H as (_ & H & _).
    inversion H as [|c1 x cs xs' (i & C1) H' E1 E2]; subst. inversion H' as [|c2 y cs' xs'' (i' & C2) H'' E1 E2]; subst.
    inversion H''; subst. apply nth_error_In in C1. destruct C1 as [<-|[]]. apply nth_error_In in C2. destruct C2 as [<-|[]].
    reflexivity. }
  assert (U2' : rul 2 0 0 [] [21; 7] [] [mkAction 1 1]).
  { eexists. split; [eexists; split; reflexivity|]. do 3 (split; [reflexivity|]). split; [|reflexivity].
    apply Forall2_cons; [exists 0; reflexivity|]. apply Forall2_cons; [exists 0; reflexivity|apply Forall2_nil]. }
  assert (T : forall k, k = 0 \/ k = 2 \/ k = 3 ->
    turned_on w (Tag "l" "a" "t" "n") (Some (Tag "D" "E" "U" " ")) (fun t => t = Tag "s" "a" "l" "t") k).
  { intros k K. exists (Tag "l" "i" "g" "a"). left. exists 0. do 3 eexists. exists 0. do 2 eexists. do 3 (split; [reflexivity|]).
    split; [exists 0; eexists; split; [reflexivity|]; split; reflexivity|]. do 4 (split; [reflexivity|]).
    cbn. destruct K as [-> | [-> | ->]]; auto. }
  assert (T1 : turned_on w (Tag "l" "a" "t" "n") (Some (Tag "D" "E" "U" " ")) (fun t => t = Tag "s" "a" "l" "t") 1).
  { exists (Tag "s" "a" "l" "t"). right. split; [reflexivity|]. exists 0. do 3 eexists. exists 1. do 2 eexists.
    do 3 (split; [reflexivity|]).
    split; [exists 0; eexists; split; [reflexivity|]; split; reflexivity|].
    split; [left; reflexivity|]. do 3 (split; [reflexivity|]). left. reflexivity. }
  unfold kerned_by. fold mnd. fold adj. fold rul. clearbody mnd adj rul. clear C. clearbody w e.
  (* the first lookup *)
  assert (N0 : forall d left x text m m' n, (forall xs kept rest, xs = [20; 21] \/ xs = [21; 21] -> ~ skips w e 0 x ->
      ~ begins (skips w e 0) xs kept rest (x :: text)) -> ~ nudges (S d) (skips w e) mnd adj rul 0 left (x :: text) m m' n).
  { intros d left x text m m' n B. apply nudges_not. intros j rk [(_ & xs & rest & past & y & ys & tail & kept & [= <- _] & Y & _ & G & H)|(l & r & H)].
    - exact (B _ _ _ (P0 _ _ _ H) Y G).
    - destruct H as (y & xs & tail & before & after & k0 & k' & r' & k'' & r'' & _ & _ & _ & _ & _ & H).
      exact (U 0 j _ _ _ _ _ ltac:(lia) H). }
  assert (K0 : forall d left text x y kept rest m z, begins (skips w e 0) [x; y] kept rest (x :: text) ->
    (x = 20 /\ y = 21 /\ z = (-10)%Z) \/ (x = 21 /\ y = 21 /\ z = (-3)%Z) ->
    nudges (S d) (skips w e) mnd adj rul 0 left (x :: text) m (shift m (length left) 2 z) 1).
  { intros d left text x y kept rest m z G H. assert (X : [x; y] = [20; 21] \/ [x; y] = [21; 21])
      by (destruct H as [(-> & -> & _)|(-> & -> & _)]; auto).
    apply nudges_kerns. exists [x; y], rest, false, (shift m (length left) 2 z).
    split; [|split; [|split; [|reflexivity]]].
    - exists x, [y], text, kept. split; [reflexivity|]. split; [rewrite S0; lia|]. split; [reflexivity|]. split; [exact G|exact (P0' _ X)].
    - apply adds_shift.
      + apply A0. split; [reflexivity|]. split; [reflexivity|]. destruct H as [(-> & -> & ->)|(-> & -> & ->)]; auto.
      + intros e0 y0 H0. apply A0 in H0. apply H0.
    - apply adds_still. intros c z0 H0. apply A0 in H0. destruct H0 as (H0 & _). discriminate H0. }
  assert (G0 : forall m, runs_through (nudges 2 (skips w e) mnd adj rul 0) [] [20; 50; 21; 21; 21; 7] m
    (shift (shift (shift m 0 2 (-10)) 2 2 (-3)) 3 2 (-3))).
  { intros m. eapply runs_does.
    { apply (K0 1%nat [] [50; 21; 21; 21; 7] 20 21 [50] [21; 21; 7] m (-10)%Z); [|auto].
      apply begins_glyph; [rewrite S0; lia|]. apply begins_skipped; [rewrite S0; lia|].
      apply begins_glyph; [rewrite S0; lia|]. apply begins_end. }
    cbn [firstn skipn rev app]. apply runs_on.
    { intros mid n. apply N0. intros xs kept rest _ Y. rewrite S0 in Y. lia. }
    eapply runs_does.
    { apply (K0 1%nat [50; 20] [21; 21; 7] 21 21 [] [21; 7] _ (-3)%Z); [|auto].
      apply begins_glyph; [rewrite S0; lia|]. apply begins_glyph; [rewrite S0; lia|]. apply begins_end. }
    cbn [firstn skipn rev app]. eapply runs_does.
    { apply (K0 1%nat [21; 50; 20] [21; 7] 21 21 [] [7] _ (-3)%Z); [|auto].
      apply begins_glyph; [rewrite S0; lia|]. apply begins_glyph; [rewrite S0; lia|]. apply begins_end. }
    cbn [firstn skipn rev app length]. apply runs_on.
    { intros mid n. apply N0. intros xs kept rest X _ G. destruct X as [-> | ->]; inversion G; subst; rewrite ?S0 in *; try lia.
      match goal with H : begins _ [21] _ _ _ |- _ => inversion H; subst end; rewrite ?S0 in *; lia. }
    apply runs_on.
    { intros mid n. apply N0. intros xs kept rest X _ G. destruct X as [-> | ->]; inversion G; subst; rewrite ?S0 in *; lia. }
    apply runs_end. }
  (* the second one *)
  assert (N1 : forall d left x text m m' n, 9 < x -> ~ nudges (S d) (skips w e) mnd adj rul 1 left (x :: text) m m' n).
  { intros d left x text m m' n Hx. apply nudges_not.
    intros j rk [(_ & xs & rest & past & y & ys & tail & kept & [= <- _] & _ & -> & G & H)|(l & r & H)].
    - apply P1 in H. destruct H as (g & I & [= <- _]). lia.
    - destruct H as (y & xs & tail & before & after & k0 & k' & r' & k'' & r'' & _ & _ & _ & _ & _ & H).
      exact (U 1 j _ _ _ _ _ ltac:(lia) H). }
  assert (K1 : forall d left text m, nudges (S d) (skips w e) mnd adj rul 1 left (7 :: text) m (shift m (length left) 0 4) 1).
  { intros d left text m. apply nudges_kerns. exists [7], text, false, (shift m (length left) 0 4).
    split; [|split; [|split; [|reflexivity]]].
    - exists 7, [], text, []. split; [reflexivity|]. split; [apply SX; lia|]. split; [reflexivity|].
      split; [apply begins_glyph; [apply SX; lia|apply begins_end]|exact P1'].
    - apply adds_shift; [apply A1; auto|]. intros e0 y0 H0. apply A1 in H0. apply H0.
    - apply adds_still. intros c z0 H0. apply A1 in H0. destruct H0 as (H0 & _). discriminate H0. }
  assert (G1 : forall m, runs_through (nudges 2 (skips w e) mnd adj rul 1) [] [20; 50; 21; 21; 21; 7] m (shift m 5 0 4)).
  { intros m. do 5 (apply runs_on; [intros mid n; apply N1; lia|]). eapply runs_does; [apply K1|].
    cbn [firstn skipn rev app length]. apply runs_end. }
  (* the third one *)
  assert (N2 : forall d left x y text m m' n, [x; y] <> [21; 7] -> ~ nudges (S d) (skips w e) mnd adj rul 2 left (x :: y :: text) m m' n).
  { intros d left x y text m m' n X. apply nudges_not.
    intros j rk [(_ & xs & rest & past & y' & ys & tail & kept & _ & _ & _ & G & H)|(l & r & H)]; [exact (P2 _ _ _ H)|].
    destruct H as (y' & xs & tail & before & after & k0 & k' & r' & k'' & r'' & _ & _ & G & _ & _ & H).
    apply U2 in H. rewrite H in G. inversion G; subst; [|eapply SX; [|eassumption]; lia].
    match goal with H : begins _ [7] _ _ _ |- _ => inversion H; subst end; [apply X; reflexivity|eapply SX; [|eassumption]; lia]. }
  assert (G2 : forall m, runs_through (nudges 2 (skips w e) mnd adj rul 2) [] [20; 50; 21; 21; 21; 7] m (shift m 5 0 4)).
  { intros m. do 4 (apply runs_on; [intros mid n; apply N2; discriminate|]).
    eapply (runs_does _ _ _ _ _ (length [21; 7] - length (@nil N))); [|apply runs_end].
    apply (nudges_enacted _ _ _ _ _ _ _ _ [mkAction 1 1]).
    - exists 21, [7], [7], [], [], [], [], [21; 21; 50; 20], [], []. split; [reflexivity|]. split; [apply SX; lia|].
      split; [apply begins_glyph; [apply SX; lia|]; apply begins_glyph; [apply SX; lia|]; apply begins_end|].
      split; [apply begins_end|]. split; [apply begins_end|exact U2'].
    - apply (enacted_done _ _ _ _ _ _ _ [21] [7] _ (shift m 5 0 4) 1); [|exact (K1 0%nat [21; 21; 21; 50; 20] [] m)|apply enacted_none].
      split; [reflexivity|]. split; [|cbn; lia]. apply (reaches_glyph _ 21 0); [apply SX; lia|]. apply reaches_here. apply SX. lia. }
  (* the last one *)
  assert (N3 : forall d left x text m m' n, (forall tail, x :: text <> 21 :: 21 :: tail) ->
    ~ nudges (S d) (skips w e) mnd adj rul 3 left (x :: text) m m' n).
  { intros d left x text m m' n X. apply nudges_not.
    intros j rk [(_ & xs & rest & past & y & ys & tail & kept & _ & _ & _ & G & H)|(l & r & H)].
    - apply P3 in H. rewrite H in G. inversion G; subst; [|eapply SX; [|eassumption]; lia].
      match goal with H : begins _ [21] _ _ _ |- _ => inversion H; subst end; [eapply X; reflexivity|eapply SX; [|eassumption]; lia].
    - destruct H as (y & xs & tail & before & after & k0 & k' & r' & k'' & r'' & _ & _ & _ & _ & _ & H).
      exact (U 3 j _ _ _ _ _ ltac:(lia) H). }
  assert (G3 : forall m, runs_through (nudges 2 (skips w e) mnd adj rul 3) [] [20; 50; 21; 21; 21; 7] m
    (shift (shift m 2 2 5) 3 2 6)).
  { intros m. do 2 (apply runs_on; [intros mid n; apply N3; discriminate|]).
    eapply (runs_does _ _ _ _ (shift (shift m 2 2 5) 3 2 6) 2).
    - apply nudges_kerns. exists [21; 21], [21; 7], true, (shift m 2 2 5). split; [|split; [|split; [|reflexivity]]].
      + exists 21, [21], [21; 21; 7], []. split; [reflexivity|]. split; [apply SX; lia|]. split; [reflexivity|].
        split; [|exact P3']. apply begins_glyph; [apply SX; lia|]. apply begins_glyph; [apply SX; lia|]. apply begins_end.
      + apply adds_shift; [apply A3; auto|]. intros e0 y0 H0. apply A3 in H0. apply H0.
      + apply (adds_shift _ 3); [apply A3; auto|]. intros e0 y0 H0. apply A3 in H0. apply H0.
    - cbn [firstn skipn rev app]. do 2 (apply runs_on; [intros mid n; apply N3; discriminate|]). apply runs_end. }
  apply (kerned_on _ _ _ _ _ _ _ 3 _ _) with (2 := T 3 ltac:(lia)) (3 := G3 _).
  apply (kerned_on _ _ _ _ _ _ _ 2 _ _) with (2 := T 2 ltac:(lia)) (3 := G2 _).
  apply (kerned_on _ _ _ _ _ _ _ 1 _ _) with (2 := T1) (3 := G1 _).
  apply (kerned_on _ _ _ _ _ _ _ 0 _ _) with (2 := T 0 ltac:(lia)) (3 := G0 _).
  apply kerned_none.
Qed.
