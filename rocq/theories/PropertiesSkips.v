(** Property C105: which glyphs lookups skip. *)

From Verif Require Import ProofSkips.

(** C105: which glyphs a lookup skips, given the definitions of glyphs, is the same whether one looks at the bytes of the
    two tables or at the values. *)
Theorem C105_gsub o f p v pd d k g :
  bounded f -> reads o read_glyph_substitution f p v -> reads o read_glyph_definition f pd d ->
  (skips v d k g <-> skips_at o f p pd k g).
Proof. exact (gsub_skips o f p v pd d k g). Qed.
Print Assumptions C105_gsub.

Theorem C105_gpos o f p v pd d k g :
  bounded f -> reads o read_glyph_positioning f p v -> reads o read_glyph_definition f pd d ->
  (skips v d k g <-> skips_at o f p pd k g).
Proof. exact (gpos_skips o f p v pd d k g). Qed.
Print Assumptions C105_gpos.

(** So it is from the start of a font file on. *)
Theorem C105_font_gsub ds o f p w u k g :
  bounded f -> reads o (open_take ds TableGlyphSubstitution read_glyph_substitution) f p w ->
  reads o (open_take ds TableGlyphDefinition read_glyph_definition) f p u ->
  (taken_says w (fun v => taken_says u (fun d => skips v d k g)) <->
   font_says f p (Tag "G" "S" "U" "B") (fun q => font_says f p (Tag "G" "D" "E" "F") (fun r => skips_at o f q r k g))).
Proof. exact (font_gsub_skips ds o f p w u k g). Qed.
Print Assumptions C105_font_gsub.

Theorem C105_font_gpos ds o f p w u k g :
  bounded f -> reads o (open_take ds TableGlyphPositioning read_glyph_positioning) f p w ->
  reads o (open_take ds TableGlyphDefinition read_glyph_definition) f p u ->
  (taken_says w (fun v => taken_says u (fun d => skips v d k g)) <->
   font_says f p (Tag "G" "P" "O" "S") (fun q => font_says f p (Tag "G" "D" "E" "F") (fun r => skips_at o f q r k g))).
Proof. exact (font_gpos_skips ds o f p w u k g). Qed.
Print Assumptions C105_font_gpos.

(** A base, a ligature and three marks, one in a set and two in a class, and lookups that skip bases, marks outside of
    the set, marks outside of the class and all marks. *)
Example C105_example :
  let f := words [1; 2; 14; 0; 0; 36; 46;  2; 3; 30; 30; 1; 31; 31; 2; 50; 52; 3;  2; 1; 50; 51; 7;  1; 1; 0; 8;  1; 1; 50;
    1; 0; 10; 12; 14;  0;  0;  4; 10; 16; 24; 30;  1; 2; 0;  1; 16; 0; 0;  1; 1792; 0;  1; 8; 0] in
  exists v d, bounded f /\ reads debug_build read_glyph_substitution f 60 v /\ reads debug_build read_glyph_definition f 0 d /\
    skips v d 0 30 /\ ~ skips v d 0 31 /\ ~ skips v d 0 50 /\
    skips v d 1 51 /\ ~ skips v d 1 50 /\ ~ skips v d 1 30 /\
    skips v d 2 52 /\ ~ skips v d 2 51 /\
    skips v d 3 50 /\ ~ skips v d 3 31 /\ ~ skips v d 4 50.
Proof.
  eexists. eexists. split; [apply file_of_bounded; vm_compute; discriminate|].
  do 2 (split; [eexists; vm_compute; reflexivity|]).
  match goal with |- skips ?v ?d _ _ /\ _ => set (w := v); set (e := d) end.
  assert (C : forall g c, defined_class (glyph_definition_glyph_class e) g c <-> (g = 30 /\ c = 1) \/ (g = 31 /\ c = 2) \/ (50 <= g <= 52 /\ c = 3)).
  { intros g c. split.
    - intros (t & [= <-] & r & [<-|[<-|[<-|[]]]] & H); cbn in H; lia.
    - intros H. eexists. split; [reflexivity|]. destruct H as [(-> & ->)|[(-> & ->)|(I & ->)]]; eexists.
      + split; [left; reflexivity|]. cbn. lia.
      + split; [right; left; reflexivity|]. cbn. lia.
      + split; [right; right; left; reflexivity|]. cbn. lia. }
  assert (M : forall g c, defined_class (glyph_definition_mark_class e) g c <-> 50 <= g <= 51 /\ c = 7).
  { intros g c. split.
    - intros (t & [= <-] & r & [<-|[]] & H). cbn in H. lia.
    - intros H. eexists. split; [reflexivity|]. eexists. split; [left; reflexivity|]. cbn. lia. }
  assert (S : forall g, gathered e 0 g <-> g = 50).
  { intros g. split.
    - intros (t & c & i & [= <-] & [= <-] & H). apply nth_error_In in H. destruct H as [<-|[]]. reflexivity.
    - intros ->. eexists _, _, 0. do 2 (split; [reflexivity|]). reflexivity. }
  clearbody e. unfold skips.
  split; [eexists; split; [reflexivity|]; cbn zeta; left; rewrite C; split; [lia|reflexivity]|].
  split; [intros (l & [= <-] & H); cbn zeta in H; rewrite ?C in H|].
  { destruct H as [H|[(_ & H)|H]]; [lia|discriminate H|lia]. }
  split; [intros (l & [= <-] & H); cbn zeta in H; rewrite ?C in H|].
  { destruct H as [H|[H|(_ & [H|[(s & H & _)|(H & _)]])]]; [lia|lia|discriminate H..|]. apply H. reflexivity. }
  split; [eexists; split; [reflexivity|]; cbn zeta; right; right; rewrite C; split; [lia|]; right; left; exists 0|].
  { split; [reflexivity|]. rewrite S. lia. }
  split; [intros (l & [= <-] & H); cbn zeta in H; rewrite ?C in H|].
  { destruct H as [H|[H|(_ & [H|[(s & [= <-] & H)|(H & _)]])]]; [lia|lia|discriminate H|rewrite S in H; lia|]. apply H. reflexivity. }
  split; [intros (l & [= <-] & H); cbn zeta in H; rewrite ?C in H|].
  { destruct H as [(_ & H)|[H|H]]; [discriminate H|lia|lia]. }
  split; [eexists; split; [reflexivity|]; cbn zeta; right; right; rewrite C; split; [lia|]; right; right|].
  { split; [discriminate|]. rewrite M. lia. }
  split; [intros (l & [= <-] & H); cbn zeta in H; rewrite ?C in H|].
  { destruct H as [H|[H|(_ & [H|[(s & H & _)|(_ & H)]])]]; [lia|lia|discriminate H..|]. apply H, M. split; [lia|reflexivity]. }
  split; [eexists; split; [reflexivity|]; cbn zeta; right; right; rewrite C; split; [lia|]; left; reflexivity|].
  split; [intros (l & [= <-] & H); cbn zeta in H; rewrite ?C in H|].
  { destruct H as [H|[(_ & H)|H]]; [lia|discriminate H|lia]. }
  intros (l & E & _). discriminate E.
Qed.
