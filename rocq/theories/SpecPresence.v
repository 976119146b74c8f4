(** Which parts of tables are optional: they are absent exactly if their offsets are zero. *)

From Verif Require Export SpecFlags SpecGdef.

Definition optional {A} (v : option A) (offset : N) : Prop := v = None <-> offset = 0.

Definition directory_optional {T} (v : Directory T) : Prop :=
  optional (directory_variations v) (directory_variation_offset v) /\
  (forall r, In r (scripts_records (directory_scripts v)) ->
    optional (script_record_default_language r) (script_record_default_language_offset r)) /\
  (forall r, In r (features_records (directory_features v)) ->
    optional (feature_record_parameters r) (feature_record_parameter_offset r)).

(** [GDEF]; the item variations are looked for at the offset of the sets of marks (C41). *)
Definition definition_optional (v : GlyphDefinition) : Prop :=
  let '(a, b, c, d, m, _) := gdef_offsets (glyph_definition_header v) in
  optional (glyph_definition_glyph_class v) a /\ optional (glyph_definition_attachments v) b /\
  optional (glyph_definition_ligatures v) c /\ optional (glyph_definition_mark_class v) d /\
  optional (glyph_definition_marks v) m /\
  (glyph_definition_variations v = None <->
    match glyph_definition_header v with GdefVersion13 _ => m = 0 | _ => True end).

(** The rows of anchors that may be missing in a subtable of [GPOS], with their offsets: those of bases, of
    components of ligatures, of second marks, and the two ends of cursive connections. *)
Definition anchor_rows (t : GposType) : list (list (option Anchor) * list N) :=
  match t with
  | GposCursiveAttachment t =>
      map (fun c => ([connection_start_anchor c; connection_end_anchor c],
        [connection_start_anchor_offset c; connection_end_anchor_offset c])) (cursive_attachment_connections t)
  | GposMarkToBaseAttachment t =>
      map (fun b => (base_anchors b, base_anchor_offsets b)) (bases_records (mark_to_base_attachment_bases t))
  | GposMarkToLigatureAttachment t =>
      flat_map (fun l => map (fun c => (component_anchors c, component_anchor_offsets c)) (gpos_ligature_components l))
        (gpos_ligatures_records (mark_to_ligature_attachment_ligatures t))
  | GposMarkToMarkAttachment t =>
      map (fun m => (mark2_anchors m, mark2_anchor_offsets m)) (mark2s_records (mark_to_mark_attachment_mark2s t))
  | _ => []
  end.

(** The first marks of a subtable, whose anchors may not be missing. *)
Definition first_marks (t : GposType) : list Mark1 :=
  match t with
  | GposMarkToBaseAttachment t => mark1s_records (mark_to_base_attachment_marks t)
  | GposMarkToLigatureAttachment t => mark1s_records (mark_to_ligature_attachment_marks t)
  | GposMarkToMarkAttachment t => mark1s_records (mark_to_mark_attachment_mark1s t)
  | _ => []
  end.

(** Row by row, and anchor by anchor. *)
Definition anchors_optional (t : GposType) : Prop :=
  forall row, In row (anchor_rows t) -> Forall2 optional (fst row) (snd row).

(** All anchors of a subtable. *)
Definition anchor_of (t : GposType) (a : Anchor) : Prop :=
  (exists row, In row (anchor_rows t) /\ In (Some a) (fst row)) \/ (exists m, In m (first_marks t) /\ mark1_anchor m = a).

(** The corrections of anchors. *)
Definition anchor_optional (a : Anchor) : Prop :=
  match a with
  | AnchorFormat3 a =>
      optional (anchor3_x_correction a) (anchor3_x_correction_offset a) /\
      optional (anchor3_y_correction a) (anchor3_y_correction_offset a)
  | _ => True
  end.

(** The corrections of value records, whose offsets may themselves be missing. *)
Definition correction_optional (v : option Correction) (offset : option N) : Prop :=
  v = None <-> offset = None \/ offset = Some 0.

Definition single_optional (s : Single) : Prop :=
  correction_optional (single_x_placement_correction s) (single_x_placement_correction_offset s) /\
  correction_optional (single_y_placement_correction s) (single_y_placement_correction_offset s) /\
  correction_optional (single_x_advance_correction s) (single_x_advance_correction_offset s) /\
  correction_optional (single_y_advance_correction s) (single_y_advance_correction_offset s).
