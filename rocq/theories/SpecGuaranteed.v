(** What can be relied on in a value that was read. *)

From Verif Require Export Api Requests Written SpecShape SpecEntries SpecCpal.

(** Whatever the file, what is read has the property. *)
Definition guaranteed {A} (o : options) (r : request A) (P : A -> Prop) : Prop :=
  forall f p v, bounded f -> reads o (reader r) f p v -> P v.

(** The property is about the content and not about where its parts are. *)
Definition by_content {A} (r : request A) (P : A -> Prop) : Prop :=
  forall v w, erased r v = erased r w -> P v -> P w.

(** The coordinates of instances are within the limits of their axes. *)
Definition instances_within (v : FontVariations) : Prop :=
  forall i instance axis x, In instance (font_variations_instance_records v) ->
    nth_error (font_variations_axis_records v) i = Some axis ->
    nth_error (instance_record_coordinates instance) i = Some x ->
    (axis_record_min_value axis <= x <= axis_record_max_value axis)%Z.

(** The tags of axes differ. *)
Definition axes_distinct (v : FontVariations) : Prop :=
  NoDup (map axis_record_tag (font_variations_axis_records v)).

(** The ranges of a coverage record how many glyphs there are before them. *)
Fixpoint ranges_indexed (n : N) (l : list CoverageRecord) : Prop :=
  match l with
  | [] => True
  | r :: l => coverage_record_index r = n /\
      ranges_indexed (n + (coverage_record_end_glyph_id r - coverage_record_start_glyph_id r + 1)) l
  end.

Definition coverages_indexed (v : GlyphSubstitution) : Prop :=
  forall t x c, has_subtable v t -> gsub_coverage t = Some (x, CoverageFormat2 c) ->
    ranges_indexed 0 (coverage2_records c).

(** The classes of the pairs of a subtable are below their numbers. *)
Definition classes_used (c : Class) : list N :=
  match c with
  | ClassFormat1 t => class1_indices t
  | ClassFormat2 t => map class_record_index (class2_records t)
  end.

Definition pairs_known (v : GlyphPositioning) : Prop :=
  forall t, has_subtable v (GposPairAdjustment (PairAdjustmentFormat2 t)) ->
    Forall (fun k => k < pair_adjustment2_class1_count t) (classes_used (pair_adjustment2_class1 t)) /\
    Forall (fun k => k < pair_adjustment2_class2_count t) (classes_used (pair_adjustment2_class2 t)).

(** The palettes are within the colors. *)
Definition palettes_within (v : ColorPalettes) : Prop :=
  let '(entry_count, color_count, _, color_indices) := cpal_layout (color_palettes_header v) in
  forall first, In first color_indices -> first + entry_count <= color_count.

(** The points of a glyph that others are attached to are in order. *)
Definition points_increasing (v : GlyphDefinition) : Prop :=
  forall l r i x y, glyph_definition_attachments v = Some l -> In r (attachments_records l) ->
    nth_error (attachment_indices r) i = Some x -> nth_error (attachment_indices r) (S i) = Some y -> x < y.
