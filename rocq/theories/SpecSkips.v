(** Which glyphs lookups skip, once in terms of the bytes and once in terms of the values; see SpecMeaning.v. *)

From Verif Require Export SpecDetails ModelFlags.

(** The lookup with the index [k] of the table at [p] is at [q]. *)
Definition lookup_found_at (o : options) (f : file) (p k q : N) : Prop :=
  exists list n lookup,
    u16_at f (p + 8) list /\ (list <> 0 \/ ignore_incomplete_directories o = false) /\
    u16_at f (p + list) n /\ k < n /\ u16_at f (p + list + 2 + 2 * k) lookup /\ q = p + list + lookup.

(** Lookups skip, as their flags say, glyphs of the first three classes of the definitions at [d]: bases, ligatures and
    marks, and of the latter also those which are not in a set of marks or not in a class of marks. *)
Definition skips_at (o : options) (f : file) (p d k g : N) : Prop :=
  exists q flags, lookup_found_at o f p k q /\ u16_at f (q + 2) flags /\
  ((defined_class_at f d 0 g 1 /\ N.testbit flags 1 = true) \/
   (defined_class_at f d 0 g 2 /\ N.testbit flags 2 = true) \/
   (defined_class_at f d 0 g 3 /\
     (N.testbit flags 3 = true \/
      (N.testbit flags 4 = true /\ exists m set,
        u16_at f (q + 4) m /\ u16_at f (q + 6 + 2 * m) set /\ ~ gathered_at f d set g) \/
      (flags / 256 <> 0 /\ ~ defined_class_at f d 3 g (flags / 256))))).

Definition skips {T} (v : Directory T) (d : GlyphDefinition) (k g : N) : Prop :=
  exists l, entry (lookups_records (directory_lookups v)) k = Some l /\
  let flags := lookup_record_flags l in
  ((defined_class (glyph_definition_glyph_class d) g 1 /\ should_ignore_base_glyphs flags = true) \/
   (defined_class (glyph_definition_glyph_class d) g 2 /\ should_ignore_ligature flags = true) \/
   (defined_class (glyph_definition_glyph_class d) g 3 /\
     (should_ignore_marks flags = true \/
      (exists set, lookup_record_mark_filtering_set l = Some set /\ ~ gathered d set g) \/
      (flags / 256 <> 0 /\ ~ defined_class (glyph_definition_mark_class d) g (flags / 256))))).
