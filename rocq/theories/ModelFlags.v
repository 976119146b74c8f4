(** Model of the methods of the flags.  The ones the readers use are in ModelLayout.v
    ([has_mark_filtering]) and ModelGpos.v ([has_x_placement] and so on).  The macro [flags!]
    is the one of the crate [typeface]; see [has_flag] in Tape.v. *)

From Verif Require Export ModelGpos ModelFvar.

(** [Flags], src/layout/lookup.rs:28-38. *)
Definition is_right_to_left (flags : N) : bool := has_flag flags 0x0001.
Definition should_ignore_base_glyphs (flags : N) : bool := has_flag flags 0x0002.
Definition should_ignore_ligature (flags : N) : bool := has_flag flags 0x0004.
Definition should_ignore_marks (flags : N) : bool := has_flag flags 0x0008.
Definition lookup_is_invalid (flags : N) : bool := has_flag flags 0x00E0.

(** [Flags], src/tables/glyph_positioning/element.rs:217-230. *)
Definition value_is_invalid (flags : N) : bool := has_flag flags 0xFF00.

(** [AxisFlags], src/tables/font_variations/mod.rs:57-63. *)
Definition axis_is_hidden (flags : N) : bool := has_flag flags 0x0001.
Definition axis_is_invalid (flags : N) : bool := has_flag flags 0xFFFE.

(** [InstanceFlags], src/tables/font_variations/mod.rs:65-70. *)
Definition instance_is_invalid (flags : N) : bool := has_flag flags 0xFFFF.
