(** What is written does not depend on the layout of what was read. *)

From Verif Require Export ProofWriter.

Lemma links_map {A} (g : A -> A) (enc : A -> list byte) l :
  (forall x, enc (g x) = enc x) -> links enc (map g l) = links enc l.
Proof. intros H. unfold links. rewrite map_map. apply map_ext. intros x. now rewrite H. Qed.

Lemma maybe_map {A} (g : A -> A) (enc : A -> list byte) v :
  (forall x, enc (g x) = enc x) -> maybe_link enc (option_map g v) = maybe_link enc v.
Proof. intros H. destruct v; cbn; [unfold maybe_link; now rewrite H|reflexivity]. Qed.

Lemma maybes_map {A} (g : A -> A) (enc : A -> list byte) l :
  (forall x, enc (g x) = enc x) ->
  map (maybe_link enc) (map (option_map g) l) = map (maybe_link enc) l.
Proof. intros H. rewrite map_map. apply map_ext. intros v. apply maybe_map, H. Qed.

Lemma flat_map_same {A B} (g : A -> A) (enc : A -> list B) l :
  (forall x, enc (g x) = enc x) -> flat_map enc (map g l) = flat_map enc l.
Proof. intros H. induction l as [|x l IH]; cbn; [reflexivity|]. now rewrite H, IH. Qed.

Lemma tags_map {H} (g : H -> H) (tag_of : H -> tag) l :
  (forall h, tag_of (g h) = tag_of h) -> map tag_of (map g l) = map tag_of l.
Proof. intros E. rewrite map_map. apply map_ext, E. Qed.

Lemma tagged_map {A} (g : A -> A) (enc : A -> list byte) ts l :
  (forall x, enc (g x) = enc x) ->
  tagged enc (combine ts (map g l)) = tagged enc (combine ts l).
Proof.
  intros E. revert l. unfold tagged. induction ts as [|t ts IH]; intros [|x l]; cbn; [reflexivity..|].
  rewrite E. do 2 f_equal. apply IH.
Qed.

Create HintDb canonical.

Ltac canonical :=
  cbn;
  repeat first [rewrite tags_map by (intros []; reflexivity)
    |rewrite links_map by auto with canonical
    |rewrite maybes_map by auto with canonical
    |rewrite maybe_map by auto with canonical
    |rewrite flat_map_same by auto with canonical
    |rewrite tagged_map by auto with canonical
    |progress autorewrite with canonical];
  reflexivity.

Lemma context_records_canonical v : context_records_bytes (context_records_erase v) = context_records_bytes v.
Proof. now destruct v. Qed.
Lemma context_class_records_canonical v :
  context_class_records_bytes (context_class_records_erase v) = context_class_records_bytes v.
Proof. now destruct v. Qed.
Lemma chained_records_canonical v : chained_records_bytes (chained_records_erase v) = chained_records_bytes v.
Proof. now destruct v. Qed.
Lemma chained_class_records_canonical v :
  chained_class_records_bytes (chained_class_records_erase v) = chained_class_records_bytes v.
Proof. now destruct v. Qed.
#[export] Hint Resolve context_records_canonical context_class_records_canonical
  chained_records_canonical chained_class_records_canonical : canonical.

Lemma context_canonical v : context_bytes (context_erase v) = context_bytes v.
Proof. destruct v as [[]|[]|[]]; canonical. Qed.
Lemma chained_context_canonical v : chained_context_bytes (chained_context_erase v) = chained_context_bytes v.
Proof. destruct v as [[]|[]|[]]; canonical. Qed.

Lemma script_record_canonical v : script_record_bytes (script_record_erase v) = script_record_bytes v.
Proof. destruct v. canonical. Qed.
#[export] Hint Resolve script_record_canonical : canonical.

Lemma scripts_canonical v : scripts_bytes (scripts_erase v) = scripts_bytes v.
Proof. destruct v. canonical. Qed.

Lemma feature_record_canonical v : feature_record_bytes (feature_record_erase v) = feature_record_bytes v.
Proof. now destruct v. Qed.
#[export] Hint Resolve feature_record_canonical : canonical.

Lemma features_canonical v : features_bytes (features_erase v) = features_bytes v.
Proof. destruct v. canonical. Qed.

Section Lookups.
  Variable T : Type.
  Variable erase : T -> T.
  Variable enc : T -> list byte.
  Hypothesis table_canonical : forall v, enc (erase v) = enc v.
  Local Hint Resolve table_canonical : canonical.

  Lemma lookup_record_canonical v :
    lookup_record_bytes enc (lookup_record_erase erase v) = lookup_record_bytes enc v.
  Proof. destruct v. canonical. Qed.
  Local Hint Resolve lookup_record_canonical : canonical.

  Lemma lookups_canonical v : lookups_bytes enc (lookups_erase erase v) = lookups_bytes enc v.
  Proof. destruct v. canonical. Qed.

  Lemma directory_canonical v : directory_bytes enc (directory_erase erase v) = directory_bytes enc v.
  Proof. destruct v. cbn. now rewrite scripts_canonical, features_canonical, lookups_canonical. Qed.
End Lookups.

Lemma ligatures_canonical v : ligatures_bytes (ligatures_erase v) = ligatures_bytes v.
Proof. now destruct v. Qed.
#[export] Hint Resolve ligatures_canonical : canonical.

Lemma gsub_type_canonical v : gsub_type_bytes (gsub_type_erase v) = gsub_type_bytes v.
Proof.
  destruct v as [[[]|[]]|[]|[]|[]|t|t|[]|[]]; try canonical;
    [apply context_canonical|apply chained_context_canonical].
Qed.

Lemma glyph_substitution_canonical v :
  glyph_substitution_bytes (glyph_substitution_erase v) = glyph_substitution_bytes v.
Proof. apply directory_canonical, gsub_type_canonical. Qed.

Lemma anchor_canonical v : anchor_bytes (anchor_erase v) = anchor_bytes v.
Proof. now destruct v as [[]|[]|[]]. Qed.
#[export] Hint Resolve anchor_canonical : canonical.

Lemma anchors_canonical l : anchors_pieces (anchors_erase l) = anchors_pieces l.
Proof. apply maybes_map, anchor_canonical. Qed.

Lemma base_canonical v : anchors_pieces (base_anchors (base_erase v)) = anchors_pieces (base_anchors v).
Proof. destruct v. apply anchors_canonical. Qed.
Lemma component_canonical v :
  anchors_pieces (component_anchors (component_erase v)) = anchors_pieces (component_anchors v).
Proof. destruct v. apply anchors_canonical. Qed.
Lemma mark2_canonical v : anchors_pieces (mark2_anchors (mark2_erase v)) = anchors_pieces (mark2_anchors v).
Proof. destruct v. apply anchors_canonical. Qed.
#[export] Hint Resolve base_canonical component_canonical mark2_canonical : canonical.

Lemma bases_canonical v : bases_bytes (bases_erase v) = bases_bytes v.
Proof. destruct v. canonical. Qed.
Lemma gpos_ligature_canonical v : gpos_ligature_bytes (gpos_ligature_erase v) = gpos_ligature_bytes v.
Proof. destruct v. canonical. Qed.
#[export] Hint Resolve gpos_ligature_canonical : canonical.
Lemma gpos_ligatures_canonical v : gpos_ligatures_bytes (gpos_ligatures_erase v) = gpos_ligatures_bytes v.
Proof. destruct v. canonical. Qed.
Lemma mark2s_canonical v : mark2s_bytes (mark2s_erase v) = mark2s_bytes v.
Proof. destruct v. canonical. Qed.

Lemma mark1_canonical v : mark1_pieces (mark1_erase v) = mark1_pieces v.
Proof. now destruct v as [? ? [[]|[]|[]]]. Qed.
#[export] Hint Resolve mark1_canonical : canonical.
Lemma mark1s_canonical v : mark1s_bytes (mark1s_erase v) = mark1s_bytes v.
Proof. destruct v. canonical. Qed.

Lemma connection_canonical v : connection_pieces (connection_erase v) = connection_pieces v.
Proof. destruct v. canonical. Qed.

Lemma single_canonical v : single_pieces (single_erase v) = single_pieces v.
Proof. destruct v as [? ? ? ? [] [] [] [] ? ? ? ?]; reflexivity. Qed.

Lemma value_canonical v : value_pieces (option_map single_erase v) = value_pieces v.
Proof. destruct v; [apply single_canonical|reflexivity]. Qed.

Lemma pair1_canonical v : pair1_pieces (pair1_erase v) = pair1_pieces v.
Proof. destruct v. cbn. now rewrite !value_canonical. Qed.
Lemma pair2_canonical v : pair2_pieces (pair2_erase v) = pair2_pieces v.
Proof. destruct v. cbn. now rewrite !value_canonical. Qed.
#[export] Hint Resolve connection_canonical single_canonical pair1_canonical pair2_canonical : canonical.
Lemma pair1s_canonical v : pair1s_bytes (pair1s_erase v) = pair1s_bytes v.
Proof. destruct v. canonical. Qed.
Lemma pair2s_canonical v : pair2s_pieces (pair2s_erase v) = pair2s_pieces v.
Proof. destruct v. canonical. Qed.
#[export] Hint Resolve pair1s_canonical pair2s_canonical : canonical.

#[export] Hint Rewrite bases_canonical gpos_ligatures_canonical mark1s_canonical mark2s_canonical
  single_canonical : canonical.

Lemma gpos_type_canonical v : gpos_type_bytes (gpos_type_erase v) = gpos_type_bytes v.
Proof.
  destruct v as [[[]|[]]|[[]|[]]|[]|[]|[]|[]|t|t|[]]; try canonical;
    [apply context_canonical|apply chained_context_canonical].
Qed.

Lemma glyph_positioning_canonical v :
  glyph_positioning_bytes (glyph_positioning_erase v) = glyph_positioning_bytes v.
Proof. apply directory_canonical, gpos_type_canonical. Qed.

Lemma attachments_canonical v : attachments_bytes (attachments_erase v) = attachments_bytes v.
Proof. now destruct v. Qed.
Lemma caret_canonical v : caret_bytes (caret_erase v) = caret_bytes v.
Proof. now destruct v as [[]|[]|[]]. Qed.
#[export] Hint Resolve attachments_canonical caret_canonical : canonical.
Lemma gdef_ligature_canonical v : gdef_ligature_bytes (gdef_ligature_erase v) = gdef_ligature_bytes v.
Proof. destruct v. canonical. Qed.
#[export] Hint Resolve gdef_ligature_canonical : canonical.
Lemma gdef_ligatures_canonical v : gdef_ligatures_bytes (gdef_ligatures_erase v) = gdef_ligatures_bytes v.
Proof. destruct v. canonical. Qed.
Lemma marks_canonical v : marks_bytes (marks_erase v) = marks_bytes v.
Proof. now destruct v. Qed.
#[export] Hint Resolve gdef_ligatures_canonical marks_canonical : canonical.

Lemma glyph_definition_canonical v :
  glyph_definition_bytes (glyph_definition_erase v) = glyph_definition_bytes v.
Proof. destruct v as [[[]|[]|[]] ? ? ? ? ? ?]; canonical. Qed.

Lemma color_palettes_canonical v : color_palettes_bytes (color_palettes_erase v) = color_palettes_bytes v.
Proof. now destruct v as [[[]|[]] ?]. Qed.

Lemma font_variations_canonical v : font_variations_bytes (font_variations_erase v) = font_variations_bytes v.
Proof. now destruct v as [[] ? ?]. Qed.
