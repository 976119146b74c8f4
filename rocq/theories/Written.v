(** Writing the values of Requests.v. *)

From Verif Require Export Requests Writer SpecErase SpecFits.

(** The value without its layout. *)
Definition erased {A} (r : request A) : A -> A :=
  match r in request A return A -> A with
  | RequestFile _ => fun v => v
  | RequestFont _ => fun v => v
  | RequestGdef => glyph_definition_erase
  | RequestGpos => glyph_positioning_erase
  | RequestGsub => glyph_substitution_erase
  | RequestCpal => color_palettes_erase
  | RequestFvar => font_variations_erase
  end.

(** A font that starts with a tag the reader accepts. *)
Definition font_in_range (d : deps) (v : Font) : Prop :=
  truetype_accept d (offsets_header_tag (offsets_header (font_offsets v))) = true /\
  offsets_fits (font_offsets v).

(** Every number fits its field, and reserved flags are zero if the build checks them. *)
Definition in_range {A} (o : options) (r : request A) : A -> Prop :=
  match r in request A return A -> Prop with
  | RequestFile d => fun v => Forall (fun font => font_in_range d font /\
      offsets_header_tag (offsets_header (font_offsets font)) <> Tag "t" "t" "c" "f") (file_fonts v)
  | RequestFont d => font_in_range d
  | RequestGdef => glyph_definition_fits o
  | RequestGpos => glyph_positioning_fits o
  | RequestGsub => glyph_substitution_fits o
  | RequestCpal => color_palettes_fits
  | RequestFvar => font_variations_fits o
  end.

(** The bytes. *)
Definition written {A} (r : request A) : A -> list byte :=
  match r in request A return A -> list byte with
  | RequestFile _ => fun v => flat_map (fun font => offsets_bytes (font_offsets font)) (file_fonts v)
  | RequestFont _ => fun v => offsets_bytes (font_offsets v)
  | RequestGdef => glyph_definition_bytes
  | RequestGpos => glyph_positioning_bytes
  | RequestGsub => glyph_substitution_bytes
  | RequestCpal => color_palettes_bytes
  | RequestFvar => font_variations_bytes
  end.

(** The offsets of the structures written one after another fit 16 bits.  There are none
    in a table directory. *)
Definition writable {A} (r : request A) : A -> Prop :=
  match r in request A return A -> Prop with
  | RequestFile _ => fun _ => True
  | RequestFont _ => fun _ => True
  | RequestGdef => fun v => gdef_writable v /\ size (glyph_definition_bytes v) < 65536
  | RequestGpos => fun v => size (glyph_positioning_bytes v) < 65536
  | RequestGsub => fun v => size (glyph_substitution_bytes v) < 65536
  | RequestCpal => fun v => size (color_palettes_bytes v) < 65536
  | RequestFvar => fun v => size (font_variations_bytes v) < 65536
  end.
