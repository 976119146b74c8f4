(** The binary format of [fvar]; see SpecLayout.v for the conventions. *)

From Verif Require Export SpecLayout.

Definition fvar_header_at (f : file) (p : N) (v : FvarHeader) : Prop :=
  let '(mkFvarHeader major_version minor_version axis_offset reserved axis_count axis_size
    instance_count instance_size) := v in
  u16_at f p major_version /\
  u16_at f (p + 2) minor_version /\
  u16_at f (p + 4) axis_offset /\
  u16_at f (p + 6) reserved /\ reserved = 2 /\
  u16_at f (p + 8) axis_count /\
  u16_at f (p + 10) axis_size /\
  u16_at f (p + 12) instance_count /\
  u16_at f (p + 14) instance_size.

(** [VariationAxisRecord]: all bits of the flags but the lowest are reserved. *)
Definition axis_record_at (o : options) (f : file) (p : N) (v : AxisRecord) : Prop :=
  let '(mkAxisRecord tag min_value default_value max_value flags name_id) := v in
  tag_at f p tag /\
  i32_at f (p + 4) min_value /\
  i32_at f (p + 8) default_value /\
  i32_at f (p + 12) max_value /\
  flags_at (checked_flags o) 0xFFFE f (p + 16) flags /\
  u16_at f (p + 18) name_id.

(** [InstanceRecord] with [axis_count] coordinates, the PostScript name always present
    (property C42 is about that); all bits of the flags are reserved. *)
Definition instance_record_at (o : options) (f : file) (axis_count p : N) (v : InstanceRecord) : Prop :=
  let '(mkInstanceRecord subfamily_name_id flags coordinates postscript_name_id) := v in
  u16_at f p subfamily_name_id /\
  flags_at (checked_flags o) 0xFFFF f (p + 2) flags /\
  i32s_at f (p + 4) axis_count coordinates /\
  u16_at f (p + 4 + 4 * axis_count) postscript_name_id.

(** [fvar]: the records are spaced by the sizes in the header. *)
Definition font_variations_at (o : options) (f : file) (p : N) (v : FontVariations) : Prop :=
  let '(mkFontVariations header axis_records instance_records) := v in
  let '(mkFvarHeader _ _ axis_offset _ axis_count axis_size instance_count instance_size) := header in
  fvar_header_at f p header /\
  vec_at (axis_record_at o f) axis_size (p + axis_offset) axis_count axis_records /\
  vec_at (instance_record_at o f axis_count) instance_size
    (p + axis_offset + axis_count * axis_size) instance_count instance_records.
