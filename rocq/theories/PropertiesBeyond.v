(** Property C106: what subtables that extensions lead to say. *)

From Verif Require Import ProofBeyond.

(** C106: which glyphs the subtable of a lookup, or the one it leads to if it is an extension, replaces by which others is
    the same whether one looks at the bytes or at the values, provided that it can be read; *)
Theorem C106_gsub o f p v k j xs ys :
  bounded f -> reads o read_glyph_substitution f p v ->
  ((exists u, subtable_for o Substitution f p v k j u /\ replaces u xs ys) <->
   (exists q ty, subtable_for_at o Substitution f p k j q ty /\ readable o Substitution f q ty /\ replaces_at f q ty xs ys)).
Proof. exact (beyond_gsub o f p v k j xs ys). Qed.
Print Assumptions C106_gsub.

(** so are the rules of contexts, *)
Theorem C106_gsub_rules o f p v k j before xs after actions :
  bounded f -> reads o read_glyph_substitution f p v ->
  ((exists u, subtable_for o Substitution f p v k j u /\ gsub_rule u before xs after actions) <->
   (exists q ty, subtable_for_at o Substitution f p k j q ty /\ readable o Substitution f q ty /\
     rule_of_at f q 5 ty before xs after actions)).
Proof. exact (beyond_gsub_rules o f p v k j before xs after actions). Qed.
Print Assumptions C106_gsub_rules.

(** what reverse chained substitutions replace, *)
Theorem C106_gsub_reverse o f p v k j before x after y :
  bounded f -> reads o read_glyph_substitution f p v ->
  ((exists u, subtable_for o Substitution f p v k j u /\ gsub_reverse u before x after y) <->
   (exists q ty, subtable_for_at o Substitution f p k j q ty /\ readable o Substitution f q ty /\
     ty = 8 /\ replaces_between_at f q before x after y)).
Proof. exact (beyond_gsub_reverse o f p v k j before x after y). Qed.
Print Assumptions C106_gsub_reverse.

(** by how much it adjusts glyphs *)
Theorem C106_gpos o f p v k j xs second c z :
  bounded f -> reads o read_glyph_positioning f p v ->
  ((exists u, subtable_for o Positioning f p v k j u /\ adjusts u xs second c z) <->
   (exists q ty, subtable_for_at o Positioning f p k j q ty /\ readable o Positioning f q ty /\
     adjusts_at f q ty xs second c z)).
Proof. exact (beyond_gpos o f p v k j xs second c z). Qed.
Print Assumptions C106_gpos.

(** and with which corrections, *)
Theorem C106_gpos_corrections o f p v k j xs second c r :
  bounded f -> reads o read_glyph_positioning f p v ->
  ((exists u, subtable_for o Positioning f p v k j u /\ refines u xs second c r) <->
   (exists q ty, subtable_for_at o Positioning f p k j q ty /\ readable o Positioning f q ty /\
     refines_at f q ty xs second c r)).
Proof. exact (beyond_gpos_refines o f p v k j xs second c r). Qed.
Print Assumptions C106_gpos_corrections.

(** which glyphs it attaches to which others, *)
Theorem C106_gpos_anchors o f p v k j x y n a b :
  bounded f -> reads o read_glyph_positioning f p v ->
  ((exists u, subtable_for o Positioning f p v k j u /\ attaches u x y n a b) <->
   (exists q ty, subtable_for_at o Positioning f p k j q ty /\ readable o Positioning f q ty /\
     attaches_at o f q ty x y n a b)).
Proof. exact (beyond_gpos_anchors o f p v k j x y n a b). Qed.
Print Assumptions C106_gpos_anchors.

(** and the rules of contexts there. *)
Theorem C106_gpos_rules o f p v k j before xs after actions :
  bounded f -> reads o read_glyph_positioning f p v ->
  ((exists u, subtable_for o Positioning f p v k j u /\ gpos_rule u before xs after actions) <->
   (exists q ty, subtable_for_at o Positioning f p k j q ty /\ readable o Positioning f q ty /\
     rule_of_at f q 7 ty before xs after actions)).
Proof. exact (beyond_gpos_rules o f p v k j before xs after actions). Qed.
Print Assumptions C106_gpos_rules.

(** So it is for a feature of a script and a language of a table that was taken from a font file, if the caller counts
    from where the directory of the font has the table. *)
Theorem C106_font_gsub d o f p w q script language required feature k j xs ys :
  bounded f -> found_at f p (Tag "G" "S" "U" "B") q ->
  reads o (open_take d TableGlyphSubstitution read_glyph_substitution) f p w ->
  (taken_says w (fun v => enables v script language required feature k /\
     exists u, subtable_for o Substitution f q v k j u /\ replaces u xs ys) <->
   enables_at o f q script language required feature k /\
     exists r ty, subtable_for_at o Substitution f q k j r ty /\ readable o Substitution f r ty /\ replaces_at f r ty xs ys).
Proof. exact (font_beyond_gsub d o f p w q script language required feature k j xs ys). Qed.
Print Assumptions C106_font_gsub.

Theorem C106_font_gpos d o f p w q script language required feature k j xs second c z :
  bounded f -> found_at f p (Tag "G" "P" "O" "S") q ->
  reads o (open_take d TableGlyphPositioning read_glyph_positioning) f p w ->
  (taken_says w (fun v => enables v script language required feature k /\
     exists u, subtable_for o Positioning f q v k j u /\ adjusts u xs second c z) <->
   enables_at o f q script language required feature k /\
     exists r ty, subtable_for_at o Positioning f q k j r ty /\ readable o Positioning f r ty /\
       adjusts_at f r ty xs second c z).
Proof. exact (font_beyond_gpos d o f p w q script language required feature k j xs second c z). Qed.
Print Assumptions C106_font_gpos.

(** A lookup with an extension that leads to a substitution, and one with the substitution itself. *)
Example C106_example :
  let f := words [1; 0; 10; 12; 14;  0;  0;  2; 6; 14;  7; 0; 1; 16;  1; 0; 1; 16;  1; 1; 0; 8;  1; 6; 3;  1; 1; 5] in
  exists v, bounded f /\ reads debug_build read_glyph_substitution f 0 v /\
    (forall t ys, in_lookup v 0 0 t -> ~ replaces t [5] ys) /\
    (exists u, subtable_for debug_build Substitution f 0 v 0 0 u /\ replaces u [5] [8]) /\
    (exists u, subtable_for debug_build Substitution f 0 v 1 0 u /\ replaces u [5] [8]) /\
    (forall u ys, subtable_for debug_build Substitution f 0 v 0 0 u -> ~ replaces u [6] ys).
Proof.
  cbv zeta. eexists. split; [apply file_of_bounded; vm_compute; discriminate|]. split; [eexists; vm_compute; reflexivity|].
  split; [intros t ys (l & [= <-] & [= <-]) R; exact R|].
  split.
  { eexists. split.
    - eexists. split; [eexists; split; reflexivity|]. cbn [extension]. eexists. split.
      + eexists _, _, _. do 3 (split; [reflexivity|]). reflexivity.
      + eexists. vm_compute. reflexivity.
    - exists 5, 0. split; [reflexivity|]. split; vm_compute; reflexivity. }
  split.
  { eexists. split.
    - eexists. split; [eexists; split; reflexivity|]. reflexivity.
    - exists 5, 0. split; [reflexivity|]. split; vm_compute; reflexivity. }
  intros u ys (t & (l & [= <-] & Et) & S) R. injection Et as <-. cbn [extension] in S. destruct S as (q & S & e & E).
  destruct S as (x & r & s & [= <-] & [= <-] & [= <-] & ->). vm_compute in E. injection E as <- _.
  destruct R as (g & i & C & [= <-] & _). apply nth_error_In in C. destruct C as [C|[]]. discriminate C.
Qed.
