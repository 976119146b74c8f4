(** Looking a table up in the directory of a font, stated without a reader. *)

From Verif Require Export Bytes Types.

(** [r] is the first record with the tag [t]. *)
Definition first_record (records : list OffsetRecord) (t : tag) (r : OffsetRecord) : Prop :=
  exists i, nth_error records i = Some r /\ offset_record_tag r = t /\
    forall j r', (j < i)%nat -> nth_error records j = Some r' -> offset_record_tag r' <> t.

(** Two directories that differ in nothing but the stored checksums. *)
Definition same_but_checksum (r s : OffsetRecord) : Prop :=
  offset_record_tag r = offset_record_tag s /\
  offset_record_offset r = offset_record_offset s /\
  offset_record_length r = offset_record_length s.

Definition same_but_checksums (x y : Font) : Prop :=
  Forall2 same_but_checksum (offsets_records (font_offsets x)) (offsets_records (font_offsets y)).

(** The record found for a tag by a getter: the one at the index of the first header
    with the tag. *)
Definition first_match {H R} (tag_of : H -> tag) (headers : list H) (records : list R) (t : tag)
    (found : option R) : Prop :=
  match found with
  | Some r => exists i h, nth_error headers i = Some h /\ tag_of h = t /\
      nth_error records i = Some r /\
      forall j h', (j < i)%nat -> nth_error headers j = Some h' -> tag_of h' <> t
  | None => forall h, In h headers -> tag_of h <> t
  end.
