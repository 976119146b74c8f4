(** What a font file says. *)

From Verif Require Import ReadsTactics ProofFindings.
From Verif Require ProofOpen.
From Verif Require Export SpecThrough SpecOpen ModelOpen ProofRules ProofCorrections.

Lemma found_lists f p t n s : u16_at f (p + 4) n -> lists f p n t s -> found_at f p t (offset_record_offset s).
Proof.
  intros Hn (i & Hi & (Ht & _ & Ho & _) & <- & F). exists n, i. auto.
Qed.

Lemma found_unique f p t q r : found_at f p t q -> found_at f p t r -> q = r.
Proof.
  intros (n & i & Hn & Hi & Ht & F & Hq) (m & j & Hm & Hj & Ht' & F' & Hr).
  assert (E : i = j).
  { destruct (N.lt_trichotomy i j) as [L|[E|L]]; [|exact E|]; exfalso; [exact (F' _ L Ht)|exact (F _ L Ht')]. }
  subst j. exact (ProofOpen.u32_at_unique _ _ _ _ Hq Hr).
Qed.

Lemma through {A} d o t (m : M A) f p w (P : A -> Prop) (Q : N -> Prop) :
  (forall q v, reads o m f q v -> (P v <-> Q q)) ->
  reads o (open_take d t m) f p w -> (taken_says w P <-> font_says f p (table_tag t) Q).
Proof.
  intros H R. apply ProofOpen.open_reads in R. destruct R as (n & (version & _ & _ & _ & Hn & _) & R).
  unfold taken_says, font_says. destruct w as [v|].
  - destruct R as (s & L & _ & R). pose proof (found_lists _ _ _ _ _ Hn L) as F. split.
    + intros (v' & [= <-] & HP). exists (offset_record_offset s). split; [exact F|]. apply (H _ _ R), HP.
    + intros (q & F' & HQ). rewrite (found_unique _ _ _ _ _ F' F) in HQ. exists v. split; [reflexivity|]. apply (H _ _ R), HQ.
  - split; [intros (v & E & _); discriminate E|]. intros (q & (n' & i & Hn' & Hi & Ht & _) & _).
    rewrite (u16_fun _ _ _ _ Hn' Hn) in Hi. destruct (R _ Hi Ht).
Qed.

Lemma through_gsub d o f p w script language required feature k j xs ys :
  bounded f -> reads o (open_take d TableGlyphSubstitution read_glyph_substitution) f p w ->
  (taken_says w (fun v => enables v script language required feature k /\ exists t, in_lookup v k j t /\ replaces t xs ys) <->
   font_says f p (Tag "G" "S" "U" "B") (fun q => enables_at o f q script language required feature k /\
     exists r ty, in_lookup_at o f q k j r ty /\ replaces_at f r ty xs ys)).
Proof.
  intros B. apply through. intros q v R. rewrite (proj1 (enabled_means o f q script language required feature k B) v R).
  rewrite (gsub_means o f q v k j xs ys B R). reflexivity.
Qed.

Lemma through_gsub_rules d o f p w script language required feature k j before xs after actions :
  bounded f -> reads o (open_take d TableGlyphSubstitution read_glyph_substitution) f p w ->
  (taken_says w (fun v => enables v script language required feature k /\
     exists t, in_lookup v k j t /\ gsub_rule t before xs after actions) <->
   font_says f p (Tag "G" "S" "U" "B") (fun q => enables_at o f q script language required feature k /\
     exists r ty, in_lookup_at o f q k j r ty /\ rule_of_at f r 5 ty before xs after actions)).
Proof.
  intros B. apply through. intros q v R. rewrite (proj1 (enabled_means o f q script language required feature k B) v R).
  rewrite (proj1 (gsub_rules_mean o f q v k j B R) before xs after actions). reflexivity.
Qed.

Lemma through_gpos d o f p w script language required feature k j xs second c z :
  bounded f -> reads o (open_take d TableGlyphPositioning read_glyph_positioning) f p w ->
  (taken_says w (fun v => enables v script language required feature k /\
     exists t, in_lookup v k j t /\ adjusts t xs second c z) <->
   font_says f p (Tag "G" "P" "O" "S") (fun q => enables_at o f q script language required feature k /\
     exists r ty, in_lookup_at o f q k j r ty /\ adjusts_at f r ty xs second c z)).
Proof.
  intros B. apply through. intros q v R. rewrite (proj2 (enabled_means o f q script language required feature k B) v R).
  rewrite (proj1 (gpos_means o f q v k j B R) xs second c z). reflexivity.
Qed.

Lemma through_gpos_anchors d o f p w script language required feature k j x y n a b :
  bounded f -> reads o (open_take d TableGlyphPositioning read_glyph_positioning) f p w ->
  (taken_says w (fun v => enables v script language required feature k /\
     exists t, in_lookup v k j t /\ attaches t x y n a b) <->
   font_says f p (Tag "G" "P" "O" "S") (fun q => enables_at o f q script language required feature k /\
     exists r ty, in_lookup_at o f q k j r ty /\ attaches_at o f r ty x y n a b)).
Proof.
  intros B. apply through. intros q v R. rewrite (proj2 (enabled_means o f q script language required feature k B) v R).
  rewrite (proj2 (gpos_means o f q v k j B R) x y n a b). reflexivity.
Qed.

Lemma through_gdef d o f p w g c :
  bounded f -> reads o (open_take d TableGlyphDefinition read_glyph_definition) f p w ->
  (taken_says w (fun v => defined_class (glyph_definition_glyph_class v) g c) <->
   font_says f p (Tag "G" "D" "E" "F") (fun q => defined_class_at f q 0 g c)).
Proof. intros B. apply through. intros q v R. apply (gdef_means o f q v B R). Qed.

Lemma through_fvar d o f p w k name t z :
  bounded f -> reads o (open_take d TableFontVariations read_font_variations) f p w ->
  (taken_says w (fun v => situates v k name t z) <->
   font_says f p (Tag "f" "v" "a" "r") (fun q => situates_at f q k name t z)).
Proof. intros B. apply through. intros q v R. apply (axes_mean o f q v B R). Qed.

Lemma through_gdef_points d o f p w g point :
  bounded f -> reads o (open_take d TableGlyphDefinition read_glyph_definition) f p w ->
  (taken_says w (fun v => pointed v g point) <-> font_says f p (Tag "G" "D" "E" "F") (fun q => pointed_at f q g point)).
Proof. intros B. apply through. intros q v R. apply (gdef_means o f q v B R). Qed.

Lemma through_gdef_marks d o f p w g c :
  bounded f -> reads o (open_take d TableGlyphDefinition read_glyph_definition) f p w ->
  (taken_says w (fun v => defined_class (glyph_definition_mark_class v) g c) <->
   font_says f p (Tag "G" "D" "E" "F") (fun q => defined_class_at f q 3 g c)).
Proof. intros B. apply through. intros q v R. apply (gdef_means o f q v B R). Qed.

Lemma through_gdef_sets d o f p w k g :
  bounded f -> reads o (open_take d TableGlyphDefinition read_glyph_definition) f p w ->
  (taken_says w (fun v => gathered v k g) <-> font_says f p (Tag "G" "D" "E" "F") (fun q => gathered_at f q k g)).
Proof. intros B. apply through. intros q v R. apply (gdef_means o f q v B R). Qed.

Lemma through_fvar_axes d o f p w i t least default most :
  bounded f -> reads o (open_take d TableFontVariations read_font_variations) f p w ->
  (taken_says w (fun v => axis v i t least default most) <->
   font_says f p (Tag "f" "v" "a" "r") (fun q => axis_at f q i t least default most)).
Proof. intros B. apply through. intros q v R. apply (axes_mean o f q v B R). Qed.

Lemma through_cpal d o f p w debug_assertions k j blue green red alpha :
  bounded f -> reads o (open_take d TableColorPalettes read_color_palettes) f p w ->
  (taken_says w (fun v => painted (color_palettes_iter debug_assertions v) k j blue green red alpha) <->
   font_says f p (Tag "C" "P" "A" "L") (fun q => painted_at f q k j blue green red alpha)).
Proof. intros B. apply through. intros q v R. apply (palettes_mean o f q v _ _ _ _ _ _ _ B R). Qed.

Lemma through_gsub_reverse d o f p w script language required feature k j before x after y :
  bounded f -> reads o (open_take d TableGlyphSubstitution read_glyph_substitution) f p w ->
  (taken_says w (fun v => enables v script language required feature k /\
     exists t, in_lookup v k j t /\ gsub_reverse t before x after y) <->
   font_says f p (Tag "G" "S" "U" "B") (fun q => enables_at o f q script language required feature k /\
     exists r, in_lookup_at o f q k j r 8 /\ replaces_between_at f r before x after y)).
Proof.
  intros B. apply through. intros q v R. rewrite (proj1 (enabled_means o f q script language required feature k B) v R).
  rewrite (proj2 (gsub_rules_mean o f q v k j B R) before x after y). reflexivity.
Qed.

Lemma through_gpos_rules d o f p w script language required feature k j before xs after actions :
  bounded f -> reads o (open_take d TableGlyphPositioning read_glyph_positioning) f p w ->
  (taken_says w (fun v => enables v script language required feature k /\
     exists t, in_lookup v k j t /\ gpos_rule t before xs after actions) <->
   font_says f p (Tag "G" "P" "O" "S") (fun q => enables_at o f q script language required feature k /\
     exists r ty, in_lookup_at o f q k j r ty /\ rule_of_at f r 7 ty before xs after actions)).
Proof.
  intros B. apply through. intros q v R. rewrite (proj2 (enabled_means o f q script language required feature k B) v R).
  rewrite (gpos_rules_mean o f q v k j before xs after actions B R). reflexivity.
Qed.

Lemma through_gpos_refines d o f p w script language required feature k j xs second c r :
  bounded f -> reads o (open_take d TableGlyphPositioning read_glyph_positioning) f p w ->
  (taken_says w (fun v => enables v script language required feature k /\
     exists t, in_lookup v k j t /\ refines t xs second c r) <->
   font_says f p (Tag "G" "P" "O" "S") (fun q => enables_at o f q script language required feature k /\
     exists s ty, in_lookup_at o f q k j s ty /\ refines_at f s ty xs second c r)).
Proof.
  intros B. apply through. intros q v R. rewrite (proj2 (enabled_means o f q script language required feature k B) v R).
  rewrite (gpos_refines o f q v k j xs second c r B R). reflexivity.
Qed.

(** The same, if it is known where the table is. *)
Lemma through_at {A} d o t (m : M A) f p w q (P : A -> Prop) (Q : Prop) :
  found_at f p (table_tag t) q -> (forall v, reads o m f q v -> (P v <-> Q)) ->
  reads o (open_take d t m) f p w -> (taken_says w P <-> Q).
Proof.
  intros F H R. apply ProofOpen.open_reads in R. destruct R as (n & (version & _ & _ & _ & Hn & _) & R).
  unfold taken_says. destruct w as [v|].
  - destruct R as (s & L & _ & R). rewrite (found_unique _ _ _ _ _ (found_lists _ _ _ _ _ Hn L) F) in R.
    rewrite <- (H _ R). split; [intros (v' & [= <-] & HP); exact HP|eauto].
  - destruct F as (n' & i & Hn' & Hi & Ht & _). rewrite (u16_fun _ _ _ _ Hn' Hn) in Hi. destruct (R _ Hi Ht).
Qed.
