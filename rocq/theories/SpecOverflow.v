(** The item variations whose counts do not fit, in values and in files. *)

From Verif Require Export SpecGdef SpecBuilds.

(** In no record of the item variations do the counts add up to 2^16 or more. *)
Definition counts_fit (v : GlyphDefinition) : Prop :=
  match glyph_definition_variations v with
  | None => True
  | Some store => Forall (fun r => store_record_short_delta_count r + store_record_region_count r < 2 ^ 16)
      (store_records store)
  end.

(** Everything up to the deltas is in the file, and the counts add up to 2^16 or more. *)
Definition store_record_overflows (f : file) (p : N) : Prop :=
  exists item_count short_delta_count region_count region_indices,
  u16_at f p item_count /\
  u16_at f (p + 2) short_delta_count /\
  u16_at f (p + 4) region_count /\
  u16s_at f (p + 6) region_count region_indices /\
  2 ^ 16 <= short_delta_count + region_count.

(** The record [i] overflows, and what is before it is as it should be. *)
Definition store_overflows (o : options) (f : file) (p : N) : Prop :=
  exists region_offset count offsets,
  u16_at f p 1 /\
  u32_at f (p + 2) region_offset /\
  u16_at f (p + 6) count /\
  u32s_at f (p + 8) count offsets /\
  exists i offset records,
  nth_error offsets i = Some offset /\
  linked_at (store_record_at o f) p (firstn i offsets) records /\
  store_record_overflows f (p + offset).

Definition glyph_definition_overflows (o : options) (f : file) (p : N) : Prop :=
  exists header glyph_class attachments ligatures mark_class marks,
  let '(glyph_class_offset, attachment_offset, ligature_offset, mark_class_offset, mark_offset, _)
    := gdef_offsets header in
  gdef_header_at f p header /\
  maybe_at (class_at f) p glyph_class_offset glyph_class /\
  maybe_at (attachments_at f) p attachment_offset attachments /\
  maybe_at (gdef_ligatures_at f) p ligature_offset ligatures /\
  maybe_at (class_at f) p mark_class_offset mark_class /\
  maybe_at (marks_at f) p mark_offset marks /\
  gdef_variation_offset header <> 0 /\
  store_overflows o f (p + gdef_variation_offset header).
