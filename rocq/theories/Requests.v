(** The reads a user of the crate asks for, each with its reader and its format. *)

From Verif Require Export Api ModelFont SpecGsub SpecGpos SpecGdef SpecCpal SpecFvar SpecFont SpecShape.

(** [File::read], [Font::read], and the tables this crate defines. *)
Inductive request : Type -> Type :=
| RequestFile (d : deps) : request File
| RequestFont (d : deps) : request Font
| RequestGdef : request GlyphDefinition
| RequestGpos : request GlyphPositioning
| RequestGsub : request GlyphSubstitution
| RequestCpal : request ColorPalettes
| RequestFvar : request FontVariations.

(** The code that is run. *)
Definition reader {A} (r : request A) : M A :=
  match r with
  | RequestFile d => read_file d
  | RequestFont d => read_font d
  | RequestGdef => read_glyph_definition
  | RequestGpos => read_glyph_positioning
  | RequestGsub => read_glyph_substitution
  | RequestCpal => read_color_palettes
  | RequestFvar => read_font_variations
  end.

(** The format: what has to be in the file for a value to be read. *)
Definition conforms {A} (o : options) (r : request A) (f : file) (p : N) : A -> Prop :=
  match r in request A return A -> Prop with
  | RequestFile d => fun v =>
      exists offsets, v = mkFile [mkFont offsets] /\
        offsets_header_tag (offsets_header offsets) <> Tag "t" "t" "c" "f" /\
        truetype_accept d (offsets_header_tag (offsets_header offsets)) = true /\
        offsets_at f p offsets
  | RequestFont d => fun v =>
      truetype_accept d (offsets_header_tag (offsets_header (font_offsets v))) = true /\
      offsets_at f p (font_offsets v)
  | RequestGdef => glyph_definition_at o f p
  | RequestGpos => glyph_positioning_at o f p
  | RequestGsub => glyph_substitution_at o f p
  | RequestCpal => color_palettes_at f p
  | RequestFvar => font_variations_at o f p
  end.

Definition is_gdef {A} (r : request A) : bool :=
  match r with RequestGdef => true | _ => false end.

(** The internal consistency of a value, without reference to a file. *)
Definition well_formed {A} (o : options) (r : request A) : A -> Prop :=
  match r in request A return A -> Prop with
  | RequestFile _ => fun v => match file_fonts v with
      | [font] => counts (offsets_header_table_count (offsets_header (font_offsets font)))
          (offsets_records (font_offsets font))
      | _ => False
      end
  | RequestFont _ => fun v =>
      counts (offsets_header_table_count (offsets_header (font_offsets v)))
        (offsets_records (font_offsets v))
  | RequestGdef => glyph_definition_wf
  | RequestGpos => glyph_positioning_wf o
  | RequestGsub => glyph_substitution_wf
  | RequestCpal => color_palettes_wf
  | RequestFvar => font_variations_wf
  end.
