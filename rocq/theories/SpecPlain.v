(** What the flags of a lookup take from the definitions of glyphs. *)

From Verif Require Export SpecUnused.

(** The flags of a lookup take nothing from the definitions: it skips neither bases nor ligatures nor marks, and it has
    neither a set nor a class of marks. *)
Definition plain {T} (l : LookupRecord T) : Prop :=
  N.testbit (lookup_record_flags l) 1 = false /\ N.testbit (lookup_record_flags l) 2 = false /\
  N.testbit (lookup_record_flags l) 3 = false /\ lookup_record_flags l < 256 /\ lookup_record_mark_filtering_set l = None.

(** Two definitions have the same glyphs in a class. *)
Definition same_class (c c' : option Class) (i : N) : Prop := forall g, defined_class c g i <-> defined_class c' g i.

(** Two definitions agree in what the flags of a lookup take from them. *)
Definition agree_for {T} (l : LookupRecord T) (d d' : GlyphDefinition) : Prop :=
  (N.testbit (lookup_record_flags l) 1 = true ->
    same_class (glyph_definition_glyph_class d) (glyph_definition_glyph_class d') 1) /\
  (N.testbit (lookup_record_flags l) 2 = true ->
    same_class (glyph_definition_glyph_class d) (glyph_definition_glyph_class d') 2) /\
  (N.testbit (lookup_record_flags l) 3 = true \/ 256 <= lookup_record_flags l \/ lookup_record_mark_filtering_set l <> None ->
    same_class (glyph_definition_glyph_class d) (glyph_definition_glyph_class d') 3) /\
  (256 <= lookup_record_flags l ->
    same_class (glyph_definition_mark_class d) (glyph_definition_mark_class d') (lookup_record_flags l / 256)) /\
  (forall set, lookup_record_mark_filtering_set l = Some set -> forall g, gathered d set g <-> gathered d' set g).

(** The lookups of a table for which something holds, of those with an index such as [which]. *)
Definition every {T} (v : Directory T) (which : N -> Prop) (holds : LookupRecord T -> Prop) : Prop :=
  forall k l, which k -> entry (lookups_records (directory_lookups v)) k = Some l -> holds l.
