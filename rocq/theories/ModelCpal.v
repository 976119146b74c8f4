(** Model of src/tables/color_palettes.rs. *)

From Verif Require Export Tape.

(** [Header0::read], src/tables/color_palettes.rs:22-35. *)
Definition read_cpal_header0 : M CpalHeader0 :=
  version <- take_const take_u16 0;;
  entry_count <- take_u16;;
  palette_count <- take_u16;;
  color_count <- take_u16;;
  color_offset <- take_u32;;
  color_indices <- take_vec palette_count take_u16;;
  ret (mkCpalHeader0 version entry_count palette_count color_count color_offset color_indices).

(** [Header1::read], src/tables/color_palettes.rs:37-50. *)
Definition read_cpal_header1 : M CpalHeader1 :=
  version <- take_const take_u16 1;;
  entry_count <- take_u16;;
  palette_count <- take_u16;;
  color_count <- take_u16;;
  color_offset <- take_u32;;
  color_indices <- take_vec palette_count take_u16;;
  ret (mkCpalHeader1 version entry_count palette_count color_count color_offset color_indices).

(** [Header::read], src/tables/color_palettes.rs:103-111. *)
Definition read_cpal_header : M CpalHeader :=
  value <- peek take_u16;;
  match value with
  | 0 => v <- read_cpal_header0;; ret (CpalVersion0 v)
  | 1 => v <- read_cpal_header1;; ret (CpalVersion1 v)
  | _ => raise UnknownVersion
  end.

(** [Color::read], src/tables/color_palettes.rs:52-61. *)
Definition read_color : M Color :=
  blue <- take_u8;;
  green <- take_u8;;
  red <- take_u8;;
  alpha <- take_u8;;
  ret (mkColor blue green red alpha).

(** [ColorPalettes::read], src/tables/color_palettes.rs:90-101. *)
Definition read_color_palettes : M ColorPalettes :=
  position <- get_position;;
  header <- read_cpal_header;;
  let '(offset, count) :=
    match header with
    | CpalVersion0 header => (cpal_header0_color_offset header, cpal_header0_color_count header)
    | CpalVersion1 header => (cpal_header1_color_offset header, cpal_header1_color_count header)
    end in
  colors <- jump_take position offset (take_vec count read_color);;
  ret (mkColorPalettes header colors).

(** [ColorPalettes::iter], src/tables/color_palettes.rs:63-88: for each palette what its
    iterator does at each step, a color or [None] for a panic.  The iterators are
    lazy, so that a panic happens only if that step is taken.  Both the
    [debug_assert!] and the indexing panic; the former compares with the declared
    count, the latter with the vector. *)
Definition iter_color (debug_assertions : bool) (color_count : N) (colors : list Color)
    (color_index : N) : option Color :=
  if debug_assertions && negb (color_index <? color_count) then None
  else nth_error colors (N.to_nat color_index).

(** [ColorPalettes::iter], src/tables/color_palettes.rs:63-88, with the steps above. *)
Definition color_palettes_iter (debug_assertions : bool) (this : ColorPalettes)
    : list (list (option Color)) :=
  let '(entry_count, color_count, color_indices) :=
    match color_palettes_header this with
    | CpalVersion0 header =>
        (cpal_header0_entry_count header, cpal_header0_color_count header, cpal_header0_color_indices header)
    | CpalVersion1 header =>
        (cpal_header1_entry_count header, cpal_header1_color_count header, cpal_header1_color_indices header)
    end in
  map (fun palette_index =>
    map (fun entry_index =>
      iter_color debug_assertions color_count (color_palettes_colors this)
        (palette_index + N.of_nat entry_index))
      (seq 0 (N.to_nat entry_count))) color_indices.
