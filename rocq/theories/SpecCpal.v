(** The binary format of [CPAL]; see SpecLayout.v for the conventions. *)

From Verif Require Export Bytes Types.

Definition cpal_header0_at (f : file) (p : N) (v : CpalHeader0) : Prop :=
  let '(mkCpalHeader0 version entry_count palette_count color_count color_offset color_indices)
    := v in
  u16_at f p version /\ version = 0 /\
  u16_at f (p + 2) entry_count /\
  u16_at f (p + 4) palette_count /\
  u16_at f (p + 6) color_count /\
  u32_at f (p + 8) color_offset /\
  u16s_at f (p + 12) palette_count color_indices.

Definition cpal_header1_at (f : file) (p : N) (v : CpalHeader1) : Prop :=
  let '(mkCpalHeader1 version entry_count palette_count color_count color_offset color_indices)
    := v in
  u16_at f p version /\ version = 1 /\
  u16_at f (p + 2) entry_count /\
  u16_at f (p + 4) palette_count /\
  u16_at f (p + 6) color_count /\
  u32_at f (p + 8) color_offset /\
  u16s_at f (p + 12) palette_count color_indices.

(** The header of [CPAL]: the variant is the one its version names. *)
Definition cpal_header_at (f : file) (p : N) (v : CpalHeader) : Prop :=
  match v with
  | CpalVersion0 t => cpal_header0_at f p t
  | CpalVersion1 t => cpal_header1_at f p t
  end.

(** The number of entries per palette, the number of colors, their offset, and the
    index of the first color of each palette. *)
Definition cpal_layout (v : CpalHeader) : N * N * N * list N :=
  match v with
  | CpalVersion0 (mkCpalHeader0 _ entry_count _ color_count color_offset color_indices) =>
      (entry_count, color_count, color_offset, color_indices)
  | CpalVersion1 (mkCpalHeader1 _ entry_count _ color_count color_offset color_indices) =>
      (entry_count, color_count, color_offset, color_indices)
  end.

(** [ColorRecord]. *)
Definition color_at (f : file) (p : N) (v : Color) : Prop :=
  let '(mkColor blue green red alpha) := v in
  u8_at f p blue /\
  u8_at f (p + 1) green /\
  u8_at f (p + 2) red /\
  u8_at f (p + 3) alpha.

(** [CPAL]. *)
Definition color_palettes_at (f : file) (p : N) (v : ColorPalettes) : Prop :=
  let '(mkColorPalettes header colors) := v in
  let '(_, color_count, color_offset, _) := cpal_layout header in
  cpal_header_at f p header /\
  vec_at (color_at f) 4 (p + color_offset) color_count colors.

(** The palettes: one per index of a first color, each with [entry_count] entries; the
    entry [j] of the palette starting at color [first] is color number [first + j], and
    is missing exactly if there is no such color. *)
Definition palettes_of (v : ColorPalettes) (palettes : list (list (option Color))) : Prop :=
  let '(mkColorPalettes header colors) := v in
  let '(entry_count, color_count, _, color_indices) := cpal_layout header in
  length palettes = length color_indices /\
  forall i palette first,
    nth_error palettes i = Some palette -> nth_error color_indices i = Some first ->
    N.of_nat (length palette) = entry_count /\
    forall j entry, nth_error palette j = Some entry ->
      entry = nth_error colors (N.to_nat first + j) /\
      (entry = None <-> color_count <= first + N.of_nat j).
