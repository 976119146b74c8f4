(** Property C104: from the bytes of a font file to what it says about glyphs. *)

From Verif Require Import ProofThrough.

(** C104: which glyphs a feature of a script and a language replaces by which others, according to the table that one takes
    from a file, if there is one, is what one finds from the start of the file on, one word at a time; *)
Theorem C104_gsub d o f p w script language required feature k j xs ys :
  bounded f -> reads o (open_take d TableGlyphSubstitution read_glyph_substitution) f p w ->
  (taken_says w (fun v => enables v script language required feature k /\ exists t, in_lookup v k j t /\ replaces t xs ys) <->
   font_says f p (Tag "G" "S" "U" "B") (fun q => enables_at o f q script language required feature k /\
     exists r ty, in_lookup_at o f q k j r ty /\ replaces_at f r ty xs ys)).
Proof. exact (through_gsub d o f p w script language required feature k j xs ys). Qed.
Print Assumptions C104_gsub.

(** so are the rules of its contexts; *)
Theorem C104_gsub_rules d o f p w script language required feature k j before xs after actions :
  bounded f -> reads o (open_take d TableGlyphSubstitution read_glyph_substitution) f p w ->
  (taken_says w (fun v => enables v script language required feature k /\
     exists t, in_lookup v k j t /\ gsub_rule t before xs after actions) <->
   font_says f p (Tag "G" "S" "U" "B") (fun q => enables_at o f q script language required feature k /\
     exists r ty, in_lookup_at o f q k j r ty /\ rule_of_at f r 5 ty before xs after actions)).
Proof. exact (through_gsub_rules d o f p w script language required feature k j before xs after actions). Qed.
Print Assumptions C104_gsub_rules.

(** so is what its reverse chained substitutions replace; *)
Theorem C104_gsub_reverse d o f p w script language required feature k j before x after y :
  bounded f -> reads o (open_take d TableGlyphSubstitution read_glyph_substitution) f p w ->
  (taken_says w (fun v => enables v script language required feature k /\
     exists t, in_lookup v k j t /\ gsub_reverse t before x after y) <->
   font_says f p (Tag "G" "S" "U" "B") (fun q => enables_at o f q script language required feature k /\
     exists r, in_lookup_at o f q k j r 8 /\ replaces_between_at f r before x after y)).
Proof. exact (through_gsub_reverse d o f p w script language required feature k j before x after y). Qed.
Print Assumptions C104_gsub_reverse.

(** which glyphs a feature adjusts by how much, *)
Theorem C104_gpos d o f p w script language required feature k j xs second c z :
  bounded f -> reads o (open_take d TableGlyphPositioning read_glyph_positioning) f p w ->
  (taken_says w (fun v => enables v script language required feature k /\
     exists t, in_lookup v k j t /\ adjusts t xs second c z) <->
   font_says f p (Tag "G" "P" "O" "S") (fun q => enables_at o f q script language required feature k /\
     exists r ty, in_lookup_at o f q k j r ty /\ adjusts_at f r ty xs second c z)).
Proof. exact (through_gpos d o f p w script language required feature k j xs second c z). Qed.
Print Assumptions C104_gpos.

(** which glyphs it attaches to which others, *)
Theorem C104_gpos_anchors d o f p w script language required feature k j x y n a b :
  bounded f -> reads o (open_take d TableGlyphPositioning read_glyph_positioning) f p w ->
  (taken_says w (fun v => enables v script language required feature k /\
     exists t, in_lookup v k j t /\ attaches t x y n a b) <->
   font_says f p (Tag "G" "P" "O" "S") (fun q => enables_at o f q script language required feature k /\
     exists r ty, in_lookup_at o f q k j r ty /\ attaches_at o f r ty x y n a b)).
Proof. exact (through_gpos_anchors d o f p w script language required feature k j x y n a b). Qed.
Print Assumptions C104_gpos_anchors.

(** what corrections it adds to adjustments *)
Theorem C104_gpos_corrections d o f p w script language required feature k j xs second c r :
  bounded f -> reads o (open_take d TableGlyphPositioning read_glyph_positioning) f p w ->
  (taken_says w (fun v => enables v script language required feature k /\
     exists t, in_lookup v k j t /\ refines t xs second c r) <->
   font_says f p (Tag "G" "P" "O" "S") (fun q => enables_at o f q script language required feature k /\
     exists s ty, in_lookup_at o f q k j s ty /\ refines_at f s ty xs second c r)).
Proof. exact (through_gpos_refines d o f p w script language required feature k j xs second c r). Qed.
Print Assumptions C104_gpos_corrections.

(** and which rules of contexts it has; *)
Theorem C104_gpos_rules d o f p w script language required feature k j before xs after actions :
  bounded f -> reads o (open_take d TableGlyphPositioning read_glyph_positioning) f p w ->
  (taken_says w (fun v => enables v script language required feature k /\
     exists t, in_lookup v k j t /\ gpos_rule t before xs after actions) <->
   font_says f p (Tag "G" "P" "O" "S") (fun q => enables_at o f q script language required feature k /\
     exists r ty, in_lookup_at o f q k j r ty /\ rule_of_at f r 7 ty before xs after actions)).
Proof. exact (through_gpos_rules d o f p w script language required feature k j before xs after actions). Qed.
Print Assumptions C104_gpos_rules.

(** the classes of glyphs and of marks, the attachment points and the sets of marks, *)
Theorem C104_gdef d o f p w g c :
  bounded f -> reads o (open_take d TableGlyphDefinition read_glyph_definition) f p w ->
  (taken_says w (fun v => defined_class (glyph_definition_glyph_class v) g c) <->
   font_says f p (Tag "G" "D" "E" "F") (fun q => defined_class_at f q 0 g c)).
Proof. exact (through_gdef d o f p w g c). Qed.
Print Assumptions C104_gdef.

Theorem C104_gdef_points d o f p w g point :
  bounded f -> reads o (open_take d TableGlyphDefinition read_glyph_definition) f p w ->
  (taken_says w (fun v => pointed v g point) <-> font_says f p (Tag "G" "D" "E" "F") (fun q => pointed_at f q g point)).
Proof. exact (through_gdef_points d o f p w g point). Qed.
Print Assumptions C104_gdef_points.

Theorem C104_gdef_marks d o f p w g c :
  bounded f -> reads o (open_take d TableGlyphDefinition read_glyph_definition) f p w ->
  (taken_says w (fun v => defined_class (glyph_definition_mark_class v) g c) <->
   font_says f p (Tag "G" "D" "E" "F") (fun q => defined_class_at f q 3 g c)).
Proof. exact (through_gdef_marks d o f p w g c). Qed.
Print Assumptions C104_gdef_marks.

Theorem C104_gdef_sets d o f p w k g :
  bounded f -> reads o (open_take d TableGlyphDefinition read_glyph_definition) f p w ->
  (taken_says w (fun v => gathered v k g) <-> font_says f p (Tag "G" "D" "E" "F") (fun q => gathered_at f q k g)).
Proof. exact (through_gdef_sets d o f p w k g). Qed.
Print Assumptions C104_gdef_sets.

(** the axes and the coordinates of instances, *)
Theorem C104_fvar_axes d o f p w i t least default most :
  bounded f -> reads o (open_take d TableFontVariations read_font_variations) f p w ->
  (taken_says w (fun v => axis v i t least default most) <->
   font_says f p (Tag "f" "v" "a" "r") (fun q => axis_at f q i t least default most)).
Proof. exact (through_fvar_axes d o f p w i t least default most). Qed.
Print Assumptions C104_fvar_axes.


Theorem C104_fvar d o f p w k name t z :
  bounded f -> reads o (open_take d TableFontVariations read_font_variations) f p w ->
  (taken_says w (fun v => situates v k name t z) <->
   font_says f p (Tag "f" "v" "a" "r") (fun q => situates_at f q k name t z)).
Proof. exact (through_fvar d o f p w k name t z). Qed.
Print Assumptions C104_fvar.

(** and the colors of palettes. *)
Theorem C104_cpal d o f p w debug_assertions k j blue green red alpha :
  bounded f -> reads o (open_take d TableColorPalettes read_color_palettes) f p w ->
  (taken_says w (fun v => painted (color_palettes_iter debug_assertions v) k j blue green red alpha) <->
   font_says f p (Tag "C" "P" "A" "L") (fun q => painted_at f q k j blue green red alpha)).
Proof. exact (through_cpal d o f p w debug_assertions k j blue green red alpha). Qed.
Print Assumptions C104_cpal.

(** A font with two tables, palettes and substitutions. *)
Example C104_example :
  let f := words [20308; 21583; 2; 32; 1; 0;
    17232; 16716; 0; 0; 0; 44; 0; 28;  18259; 21826; 0; 0; 0; 72; 0; 164;
    0; 2; 2; 3; 0; 16; 0; 1;  258; 772; 1286; 1800; 2314; 2828;
    1; 0; 10; 44; 72;
    1; 27745; 29806; 8;  10; 1; 17477; 21792; 18;  0; 65535; 1; 1;  0; 0; 1; 1;
    2; 27753; 26465; 14; 29537; 27764; 20;  0; 1; 0;  0; 2; 1; 0;
    2; 6; 48;  4; 0; 1; 8;  1; 8; 1; 14;  1; 1; 20;  2; 6; 14;  90; 3; 21; 22;  91; 2; 21;
    1; 0; 2; 10; 26;  1; 6; 65535;  2; 1; 0; 9; 0;  2; 10; 2; 40; 41;  1; 2; 5; 6] in
  exists w u, bounded f /\
    reads careless_build (open_take sample_deps TableGlyphSubstitution read_glyph_substitution) f 0 w /\
    reads careless_build (open_take sample_deps TableColorPalettes read_color_palettes) f 0 u /\
    reads careless_build (open_take sample_deps TableFontVariations read_font_variations) f 0 None /\
    taken_says w (fun v => enables v (Tag "l" "a" "t" "n") (Some (Tag "D" "E" "U" " ")) true (Tag "l" "i" "g" "a") 0 /\
      exists t, in_lookup v 0 0 t /\ replaces t [20; 21] [91]) /\
    ~ taken_says w (fun v => enables v (Tag "l" "a" "t" "n") None true (Tag "l" "i" "g" "a") 0 /\
      exists t, in_lookup v 0 0 t /\ replaces t [20; 21] [91]) /\
    taken_says u (fun v => painted (color_palettes_iter true v) 1 1 9 10 11 12) /\
    ~ taken_says (@None FontVariations) (fun v => situates v 0 257 (Tag "w" "g" "h" "t") 0).
Proof.
  eexists. eexists. split; [apply file_of_bounded; vm_compute; discriminate|]. do 3 (split; [eexists; vm_compute; reflexivity|]).
  split; [eexists; split; [reflexivity|]; split|].
  { exists 0. do 3 eexists. exists 0. do 2 eexists. do 3 (split; [reflexivity|]).
    split; [exists 0; eexists; repeat split; reflexivity|]. do 4 (split; [reflexivity|]). left. reflexivity. }
  { eexists. split; [eexists; split; reflexivity|]. exists 20, 0. do 2 eexists. do 2 (split; [reflexivity|]).
    split; [right; left; reflexivity|]. split; reflexivity. }
  split.
  { intros (v & [= <-] & (i & h & s & l & x & g & q & _ & _ & Es & El & Hx & Eg & _) & _).
    apply nth_error_In in Es. destruct Es as [<-|[]]. injection El as <-. cbn in Hx. subst x. discriminate (entry_short _ _ _ Eg). }
  split; [eexists; split; [reflexivity|]; eexists; split; reflexivity|].
  intros (v & E & _). discriminate E.
Qed.
