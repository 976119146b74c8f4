(** Property C115: definitions of glyphs make a difference only to lookups whose flags take something from them. *)

From Verif Require Import ProofPlain.

(** C115: if the definitions agree in what the flags of lookups that are on or led to take from them, the same becomes of a
    text. *)
Theorem C115_texts v d d' script language wanted depth n text out :
  every v (reached (gsub_asks (in_lookup v)) (turned_on v script language wanted) n) (fun l => agree_for l d d') ->
  (shaped_by v d script language wanted depth n text out <-> shaped_by v d' script language wanted depth n text out).
Proof. exact (texts_agree v d d' script language wanted depth n text out). Qed.
Print Assumptions C115_texts.

Theorem C115_texts_beyond o f p v d d' script language wanted depth n text out :
  every v (reached (gsub_asks (subtable_for o Substitution f p v)) (turned_on v script language wanted) n)
    (fun l => agree_for l d d') ->
  (shaped_beyond o f p v d script language wanted depth n text out <->
   shaped_beyond o f p v d' script language wanted depth n text out).
Proof. exact (texts_agree_beyond o f p v d d' script language wanted depth n text out). Qed.
Print Assumptions C115_texts_beyond.

(** The same for the movements of glyphs. *)
Theorem C115_kerning v d d' script language wanted depth text n m :
  every v (reached (gpos_asks (in_lookup v)) (turned_on v script language wanted) n) (fun l => agree_for l d d') ->
  (kerned_by v d script language wanted depth text n m <-> kerned_by v d' script language wanted depth text n m).
Proof. exact (kerning_agrees v d d' script language wanted depth text n m). Qed.
Print Assumptions C115_kerning.

Theorem C115_kerning_beyond o f p v d d' script language wanted depth text n m :
  every v (reached (gpos_asks (subtable_for o Positioning f p v)) (turned_on v script language wanted) n)
    (fun l => agree_for l d d') ->
  (kerned_beyond o f p v d script language wanted depth text n m <->
   kerned_beyond o f p v d' script language wanted depth text n m).
Proof. exact (kerning_agrees_beyond o f p v d d' script language wanted depth text n m). Qed.
Print Assumptions C115_kerning_beyond.

(** If the flags take nothing from the definitions, these can be any, and the bytes of GDEF too. *)
Theorem C115_texts_at o f p v pd d f' p' pd' d' script language wanted depth n text out :
  bounded f -> reads o read_glyph_substitution f p v -> reads o read_glyph_definition f pd d ->
  bounded f' -> reads o read_glyph_substitution f' p' v -> reads o read_glyph_definition f' pd' d' ->
  every v (reached (gsub_asks (in_lookup v)) (turned_on v script language wanted) n) plain ->
  (shaped_at o f p pd script language wanted depth n text out <-> shaped_at o f' p' pd' script language wanted depth n text out).
Proof. exact (texts_plain_at o f p v pd d f' p' pd' d' script language wanted depth n text out). Qed.
Print Assumptions C115_texts_at.

Theorem C115_kerning_at o f p v pd d f' p' pd' d' script language wanted depth text n m :
  bounded f -> reads o read_glyph_positioning f p v -> reads o read_glyph_definition f pd d ->
  bounded f' -> reads o read_glyph_positioning f' p' v -> reads o read_glyph_definition f' pd' d' ->
  every v (reached (gpos_asks (in_lookup v)) (turned_on v script language wanted) n) plain ->
  (kerned_at o f p pd script language wanted depth text n m <-> kerned_at o f' p' pd' script language wanted depth text n m).
Proof. exact (kerning_plain_at o f p v pd d f' p' pd' d' script language wanted depth text n m). Qed.
Print Assumptions C115_kerning_at.

(** These are all such lookups: any other skips different glyphs for different definitions. *)
Theorem C115_plain (T : Type) (v : Directory T) k l : entry (lookups_records (directory_lookups v)) k = Some l ->
  (plain l <-> forall d d' g, skips v d k g <-> skips v d' k g).
Proof. exact (plain_exactly v k l). Qed.
Print Assumptions C115_plain.

(** A ligature of 30 and 31, and a text with 50 between them.  If the lookup skips marks, it depends on the class of 50 in
    the definitions; otherwise it does not. *)
Example C115_example :
  let table flags c := words [1; 0; 12; 0; 0; 0;  1; 50; 1; c;
    1; 0; 10; 28; 42;  1; 27745; 29806; 8; 4; 0; 0; 0; 0;  1; 27753; 26465; 8; 0; 1; 0;
    1; 4;  4; flags; 1; 8;  1; 8; 1; 14;  1; 1; 30;  1; 4;  99; 2; 31] in
  exists v w d e, bounded (table 1 3) /\ bounded (table 1 0) /\
    reads debug_build read_glyph_substitution (table 1 3) 20 v /\ reads debug_build read_glyph_definition (table 1 3) 0 d /\
    reads debug_build read_glyph_substitution (table 1 0) 20 v /\ reads debug_build read_glyph_definition (table 1 0) 0 e /\
    reads debug_build read_glyph_substitution (table 8 3) 20 w /\ reads debug_build read_glyph_definition (table 8 3) 0 d /\
    every v (reached (gsub_asks (in_lookup v)) (turned_on v (Tag "l" "a" "t" "n") None (fun _ => False)) 1) plain /\
    reached (gsub_asks (in_lookup w)) (turned_on w (Tag "l" "a" "t" "n") None (fun _ => False)) 1 0 /\
    ~ every w (fun k => k = 0) plain /\
    shaped_by v d (Tag "l" "a" "t" "n") None (fun _ => False) 1 1 [30; 50; 31] [30; 50; 31] /\
    shaped_by v e (Tag "l" "a" "t" "n") None (fun _ => False) 1 1 [30; 50; 31] [30; 50; 31] /\
    shaped_by w d (Tag "l" "a" "t" "n") None (fun _ => False) 1 1 [30; 50; 31] [99; 50] /\
    shaped_by w e (Tag "l" "a" "t" "n") None (fun _ => False) 1 1 [30; 50; 31] [30; 50; 31].
Proof.
  intros table. do 4 eexists. do 2 (split; [apply file_of_bounded; vm_compute; discriminate|]).
  do 6 (split; [eexists; vm_compute; reflexivity|]).
  match goal with |- _ /\ _ /\ _ /\ shaped_by ?v ?d _ _ _ _ _ _ _ /\ shaped_by _ ?e _ _ _ _ _ _ _ /\ shaped_by ?w _ _ _ _ _ _ _ _ /\ _ =>
    set (v1 := v); set (v2 := w); set (d1 := d); set (d2 := e) end.
  assert (T : forall k, (turned_on v1 (Tag "l" "a" "t" "n") None (fun _ => False) k <-> k = 0) /\
    (turned_on v2 (Tag "l" "a" "t" "n") None (fun _ => False) k <-> k = 0)).
  { intros k. split; (split;
      [intros (feature & [(i & h & s & l & y & g & r & _ & _ & Es & _ & _ & _ & _ & Er & I)|([] & _)]);
        apply nth_error_In in Er; destruct Er as [<-|[]]; destruct I as [<-|[]]; reflexivity|
       intros ->; exists (Tag "l" "i" "g" "a"); left; exists 0; do 3 eexists; exists 0; do 2 eexists;
        do 3 (split; [reflexivity|]); split; [reflexivity|]; do 4 (split; [reflexivity|]); left; reflexivity]). }
  assert (P : every v1 (reached (gsub_asks (in_lookup v1)) (turned_on v1 (Tag "l" "a" "t" "n") None (fun _ => False)) 1) plain).
  { intros k l _ E. apply nth_error_In in E. destruct E as [<-|[]]. repeat split. }
  split; [exact P|]. split; [apply reached_on; [apply T; reflexivity|lia]|].
  split; [intros H; destruct (H 0 _ eq_refl eq_refl) as (_ & _ & X & _); discriminate X|].
  assert (Y : forall v d, (forall k, turned_on v (Tag "l" "a" "t" "n") None (fun _ => False) k <-> k = 0) ->
    (forall j t, in_lookup v 0 j t -> in_lookup v1 0 0 t) -> (forall g, ~ skips v d 0 g) ->
    shaped_by v d (Tag "l" "a" "t" "n") None (fun _ => False) 1 1 [30; 50; 31] [30; 50; 31]).
  { intros v d O I S. apply (shaped_on _ _ _ _ _ _ 0 _ [30; 50; 31] [30; 50; 31]); [apply shaped_none|apply O; reflexivity| |].
    - assert (D : forall left x y z, (x, y) <> (30, 31) -> forall ys rest, ~ does 2 (skips v d)
        (fun k j r xs ys => exists t, in_lookup v k j t /\ replaces_as t r xs ys)
        (fun k j r before xs after actions => exists t, in_lookup v k j t /\ gsub_rule_as t r before xs after actions) 0 left
          (x :: y :: z) ys rest /\ ~ does 2 (skips v d)
        (fun k j r xs ys => exists t, in_lookup v k j t /\ replaces_as t r xs ys)
        (fun k j r before xs after actions => exists t, in_lookup v k j t /\ gsub_rule_as t r before xs after actions) 0 left
          [x] ys rest).
      { intros left x y z N ys rest.
        assert (D : forall text, does 2 (skips v d)
          (fun k j r xs ys => exists t, in_lookup v k j t /\ replaces_as t r xs ys)
          (fun k j r before xs after actions => exists t, in_lookup v k j t /\ gsub_rule_as t r before xs after actions) 0 left
            text ys rest -> exists kept behind, begins (skips v d 0) [30; 31] kept behind text).
        { intros text (j & r & _ & [(kept & behind & (x' & xs & tail & _ & _ & B & t & L & H) & _)|
            (actions & behind & n & text' & (x' & xs & tail & b & a & k1 & k2 & r1 & k3 & r2 & _ & _ & _ & _ & _ & t & L & H) & _)]).
          - apply I in L. destruct L as (l & El & Et). injection El as <-. injection Et as <-.
            destruct H as (g & i & q & m & Cg & Eq & Em & X & _). apply nth_error_In in Cg, Eq, Em.
            destruct Cg as [<-|[]]. destruct Eq as [<-|[]]. destruct Em as [<-|[]]. cbn in X. rewrite X in B. eauto.
          - apply I in L. destruct L as (l & El & Et). injection El as <-. injection Et as <-. destruct H. }
        split; intros H; apply D in H; destruct H as (kept & behind & H); inversion H as [|? ? ? ? ? ? H1|? ? ? ? ? ? H1]; subst;
          try (exact (S _ H1)).
        - match goal with B : begins _ [31] _ _ _ |- _ => inversion B as [| |? ? ? ? ? ? H2]; subst end; [|exact (S _ H2)].
          apply N. reflexivity.
        - match goal with B : begins _ [31] _ _ _ |- _ => inversion B end. }
      apply goes_on; [intros ys rest; apply (D [] 30 50 [31]); discriminate|].
      apply goes_on; [intros ys rest; apply (D [30] 50 31 []); discriminate|].
      apply goes_on; [intros ys rest; apply (D [50; 30] 31 0 []); discriminate|exact (goes_end _ [31; 50; 30])].
    - apply (back_none (skips v d 0) _ [31; 50; 30] []). intros j b g a z (t & L & H). apply I in L.
      destruct L as (l & El & Et). injection El as <-. injection Et as <-. exact H. }
  assert (Y1 : shaped_by v1 d1 (Tag "l" "a" "t" "n") None (fun _ => False) 1 1 [30; 50; 31] [30; 50; 31]).
  { apply Y; [apply T|intros j t (l & E & H); injection E as <-; eexists; split; [reflexivity|];
      apply nth_error_In in H; destruct H as [<-|[]]; reflexivity|].
    intros g (l & El & G). injection El as <-. cbn zeta in G. cbn in G.
    destruct G as [(_ & G)|[(_ & G)|(_ & [G|[(s & G & _)|(G & _)]])]]; [discriminate G..|]. apply G. reflexivity. }
  split; [exact Y1|]. split; [apply (texts_agree v1 d1 d2); [apply every_plain; exact P|exact Y1]|]. split.
  - assert (S : skips v2 d1 0 50 /\ ~ skips v2 d1 0 30 /\ ~ skips v2 d1 0 31).
    { split; [eexists; split; [reflexivity|]; cbn zeta; right; right; split; [|left; reflexivity];
        eexists; split; [reflexivity|]; split; [cbn; lia|reflexivity]|].
      split; (intros (l & El & [(_ & G)|[(_ & G)|((t & Et & G) & _)]]); injection El as <-; [discriminate G..|]);
        injection Et as <-; destruct G as (L & _); cbn in L; lia. }
    destruct S as (S1 & S2 & S3).
    apply (shaped_on _ _ _ _ _ _ 0 _ [30; 50; 31] [99; 50]); [apply shaped_none|apply T; reflexivity| |].
    + apply (goes_does _ _ _ [99] [50]).
      * apply (does_fires 1 _ _ _ 0 [] [30; 50; 31] [99] [50] []). exists 30, [31], [50; 31]. split; [reflexivity|].
        split; [exact S2|]. split.
        { apply begins_glyph; [exact S2|]. apply begins_skipped; [exact S1|]. apply begins_glyph; [exact S3|apply begins_end]. }
        eexists. split; [eexists; split; reflexivity|]. exists 30, 0. do 2 eexists. do 4 (split; [reflexivity|]). reflexivity.
      * apply goes_on; [|exact (goes_end _ [50; 99])].
        intros ys rest (j & r & _ & [(kept & behind & (x' & xs & tail & E & N & _) & _)|
          (actions & behind & n & text' & (x' & xs & tail & b & a & k1 & k2 & r1 & k3 & r2 & E & N & _) & _)]);
          injection E as <- <-; exact (N S1).
    + apply (back_none (skips v2 d1 0) _ [50; 99] []). intros j b g a z (t & (l & El & Et) & H). injection El as <-.
      apply nth_error_In in Et. destruct Et as [<-|[]]. exact H.
  - apply Y; [apply T|intros j t (l & E & H); injection E as <-; eexists; split; [reflexivity|];
      apply nth_error_In in H; destruct H as [<-|[]]; reflexivity|].
    intros g (l & El & [(_ & G)|[(_ & G)|((t & Et & G) & _)]]); injection El as <-; [discriminate G..|].
    injection Et as <-. destruct G as (_ & G). apply nth_error_In in G. destruct G as [G|[]]. discriminate G.
Qed.

(** A lookup that skips marks, and definitions that have the same marks, but not the same bases. *)
Example C115_kerning_example :
  let table c := words [1; 0; 12; 0; 0; 0;  1; 50; 2; 3; c;
    1; 0; 10; 28; 42;  1; 27745; 29806; 8; 4; 0; 0; 0; 0;  1; 27493; 29294; 8; 0; 1; 0;
    1; 4;  1; 8; 1; 8;  1; 8; 4; 60;  1; 1; 30] in
  exists v d e, bounded (table 1) /\ bounded (table 2) /\
    reads debug_build read_glyph_positioning (table 1) 22 v /\ reads debug_build read_glyph_definition (table 1) 0 d /\
    reads debug_build read_glyph_positioning (table 2) 22 v /\ reads debug_build read_glyph_definition (table 2) 0 e /\
    reached (gpos_asks (in_lookup v)) (turned_on v (Tag "l" "a" "t" "n") None (fun _ => False)) 1 0 /\
    ~ every v (fun k => k = 0) plain /\ every v (fun _ => True) (fun l => agree_for l d e) /\
    ~ same_class (glyph_definition_glyph_class d) (glyph_definition_glyph_class e) 1 /\
    ~ same_class (glyph_definition_glyph_class d) (glyph_definition_glyph_class e) 2 /\
    (forall depth text m, kerned_by v d (Tag "l" "a" "t" "n") None (fun _ => False) depth text 1 m <->
      kerned_by v e (Tag "l" "a" "t" "n") None (fun _ => False) depth text 1 m).
Proof.
  intros table. do 3 eexists. do 2 (split; [apply file_of_bounded; vm_compute; discriminate|]).
  do 4 (split; [eexists; vm_compute; reflexivity|]).
  match goal with |- reached (gpos_asks (in_lookup ?v)) _ _ _ /\ _ /\ every _ _ (fun l => agree_for _ ?d ?e) /\ _ =>
    set (w := v); set (d1 := d); set (d2 := e) end.
  split.
  { apply reached_on; [|lia]. exists (Tag "k" "e" "r" "n"); left; exists 0; do 3 eexists; exists 0; do 2 eexists;
      do 3 (split; [reflexivity|]); split; [reflexivity|]; do 4 (split; [reflexivity|]); left; reflexivity. }
  split; [intros H; destruct (H 0 _ eq_refl eq_refl) as (_ & _ & X & _); discriminate X|].
  assert (C1 : forall g c, defined_class (glyph_definition_glyph_class d1) g c <-> (g = 50 /\ c = 3) \/ (g = 51 /\ c = 1)).
  { intros g c. split.
    - intros (t & Et & H). injection Et as <-. destruct H as (L & H). cbn in L, H. unfold entry in H.
      destruct (N.to_nat (g - 50)) as [|[|i]] eqn:E; [| |destruct i; discriminate H]; injection H as <-; lia.
    - intros [(-> & ->)|(-> & ->)]; eexists; (split; [reflexivity|]); (split; [cbn; lia|reflexivity]). }
  assert (C2 : forall g c, defined_class (glyph_definition_glyph_class d2) g c <-> (g = 50 /\ c = 3) \/ (g = 51 /\ c = 2)).
  { intros g c. split.
    - intros (t & Et & H). injection Et as <-. destruct H as (L & H). cbn in L, H. unfold entry in H.
      destruct (N.to_nat (g - 50)) as [|[|i]] eqn:E; [| |destruct i; discriminate H]; injection H as <-; lia.
    - intros [(-> & ->)|(-> & ->)]; eexists; (split; [reflexivity|]); (split; [cbn; lia|reflexivity]). }
  assert (A : every w (fun _ => True) (fun l => agree_for l d1 d2)).
  { intros k l _ E. apply nth_error_In in E. destruct E as [<-|[]]. unfold agree_for. cbn -[same_class gathered d1 d2].
    do 2 (split; [discriminate|]). split; [intros _ g; rewrite C1, C2; lia|]. split; [lia|discriminate]. }
  split; [exact A|]. split; [intros H; specialize (H 51); rewrite C1, C2 in H; lia|].
  split; [intros H; specialize (H 51); rewrite C1, C2 in H; lia|].
  intros depth text m. apply kerning_agrees. intros k l _ E. exact (A k l Logic.I E).
Qed.

(** What other flags take from the definitions: bases only, ligatures only, the class of marks one, and the set zero. *)
Example C115_agree_example :
  let l flags set := mkLookupRecord 1 flags 0 [] set ([] : list GsubType) in
  let d c m s := mkGlyphDefinition (GdefVersion12 (mkGdefHeader12 1 2 14 0 0 14 14)) (Some (ClassFormat1 (mkClass1 1 50 3 c)))
    None None (Some (ClassFormat1 (mkClass1 1 50 3 m))) (Some (mkMarks 1 2 [12; 12] s)) None in
  let at_ g := CoverageFormat1 (mkCoverage1 1 1 [g]) in
  let one := d [1; 2; 3] [1; 2; 0] [at_ 50; at_ 51] in
  agree_for (l 2 None) one (d [1; 3; 2] [3; 4; 5] []) /\ ~ agree_for (l 2 None) one (d [2; 1; 3] [1; 2; 0] [at_ 50; at_ 51]) /\
  agree_for (l 4 None) one (d [3; 2; 1] [3; 4; 5] []) /\ ~ agree_for (l 4 None) one (d [2; 1; 3] [1; 2; 0] [at_ 50; at_ 51]) /\
  agree_for (l 256 None) one (d [2; 1; 3] [1; 3; 4] []) /\ ~ agree_for (l 256 None) one (d [1; 2; 3] [2; 1; 0] [at_ 50; at_ 51]) /\
  ~ agree_for (l 256 None) one (d [1; 3; 2] [1; 2; 0] [at_ 50; at_ 51]) /\
  agree_for (l 16 (Some 0)) one (d [2; 1; 3] [3; 4; 5] [at_ 50; at_ 52]) /\
  ~ agree_for (l 16 (Some 0)) one (d [1; 2; 3] [1; 2; 0] [at_ 51; at_ 51]) /\
  ~ agree_for (l 16 (Some 0)) one (d [1; 3; 2] [1; 2; 0] [at_ 50; at_ 51]).
Proof.
  intros l d at_ one.
  assert (C : forall x y z g c, defined_class (Some (ClassFormat1 (mkClass1 1 50 3 [x; y; z]))) g c <->
    (g = 50 /\ c = x) \/ (g = 51 /\ c = y) \/ (g = 52 /\ c = z)).
  { intros x y z g c. split.
    - intros (t & Et & H). injection Et as <-. destruct H as (L & H). cbn in L, H. unfold entry in H.
      destruct (N.to_nat (g - 50)) as [|[|[|i]]] eqn:E; [| | |destruct i; discriminate H]; injection H as <-; lia.
    - intros [(-> & ->)|[(-> & ->)|(-> & ->)]]; eexists; (split; [reflexivity|]); (split; [cbn; lia|reflexivity]). }
  assert (S : forall x y c m g, gathered (d c m [at_ x; at_ y]) 0 g <-> g = x).
  { intros x y c m g. split.
    - intros (t & q & i & [= <-] & [= <-] & H). apply nth_error_In in H. destruct H as [<-|[]]. reflexivity.
    - intros ->. eexists _, _, 0. do 2 (split; [reflexivity|]). reflexivity. }
  assert (A : forall flags set c m s,
    (N.testbit flags 1 = true -> forall g, defined_class (Some (ClassFormat1 (mkClass1 1 50 3 [1; 2; 3]))) g 1 <->
      defined_class (Some (ClassFormat1 (mkClass1 1 50 3 c))) g 1) ->
    (N.testbit flags 2 = true -> forall g, defined_class (Some (ClassFormat1 (mkClass1 1 50 3 [1; 2; 3]))) g 2 <->
      defined_class (Some (ClassFormat1 (mkClass1 1 50 3 c))) g 2) ->
    (N.testbit flags 3 = true \/ 256 <= flags \/ set <> None ->
      forall g, defined_class (Some (ClassFormat1 (mkClass1 1 50 3 [1; 2; 3]))) g 3 <->
      defined_class (Some (ClassFormat1 (mkClass1 1 50 3 c))) g 3) ->
    (256 <= flags -> forall g, defined_class (Some (ClassFormat1 (mkClass1 1 50 3 [1; 2; 0]))) g (flags / 256) <->
      defined_class (Some (ClassFormat1 (mkClass1 1 50 3 m))) g (flags / 256)) ->
    (forall k, set = Some k -> forall g, gathered one k g <-> gathered (d c m s) k g) -> agree_for (l flags set) one (d c m s)).
  { intros. split; [assumption|]. do 3 (split; [assumption|]). assumption. }
  split; [apply A; intros H; [intros g; rewrite !C; lia|discriminate H|destruct H as [H|[H|H]]; [discriminate H|lia|elim H; reflexivity]|
    lia|discriminate]|].
  split; [intros (H & _); specialize (H eq_refl 50); apply proj1 in H; cbn -[defined_class] in H; rewrite !C in H; lia|].
  split; [apply A; intros H; [discriminate H|intros g; rewrite !C; lia|destruct H as [H|[H|H]]; [discriminate H|lia|elim H; reflexivity]|
    lia|discriminate]|].
  split; [intros (_ & H & _); specialize (H eq_refl 51); apply proj1 in H; cbn -[defined_class] in H; rewrite !C in H; lia|].
  split; [apply A; intros H; [discriminate H..|intros g; rewrite !C; lia|intros g; change (256 / 256) with 1; rewrite !C; lia|discriminate]|].
  split; [intros (_ & _ & _ & H & _); specialize (H (N.le_refl 256) 50); apply proj1 in H; cbn -[defined_class] in H;
    rewrite !C in H; lia|].
  split; [intros (_ & _ & H & _); specialize (H (or_intror (or_introl (N.le_refl 256))) 52); apply proj1 in H;
    cbn -[defined_class] in H; rewrite !C in H; lia|].
  split; [apply A; [intros H; discriminate H..|intros H g; rewrite !C; lia|lia|intros k H g; injection H as <-; unfold one; rewrite !S; lia]|].
  split; [intros (_ & _ & _ & _ & H); specialize (H 0 eq_refl 50); unfold one in H; rewrite !S in H; lia|].
  intros (_ & _ & H & _). assert (X : Some 0 <> None) by discriminate. specialize (H (or_intror (or_intror X)) 52).
  apply proj1 in H. cbn -[defined_class] in H. rewrite !C in H. lia.
Qed.
