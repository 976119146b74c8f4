(** Where the cursor is after a read. *)

From Verif Require Export Api Writer ModelFont.

(** A value is followed by the next one: the cursor moves by the size of its encoding. *)
Definition consumes {A} (e : env) (m : M A) (enc : A -> list byte) : Prop :=
  forall p v q, m e p = Ok (v, q) -> q = p + size (enc v).

(** Where the last part of a table ends that is read. *)
Definition color_end (v : ColorPalettes) : N :=
  match color_palettes_header v with
  | CpalVersion0 h => cpal_header0_color_offset h + 4 * cpal_header0_color_count h
  | CpalVersion1 h => cpal_header1_color_offset h + 4 * cpal_header1_color_count h
  end.

Definition variation_end (v : FontVariations) : N :=
  let h := font_variations_header v in
  let n := fvar_header_axis_count h in
  let m := fvar_header_instance_count h in
  if 0 <? m then
    fvar_header_axis_offset h + n * fvar_header_axis_size h + (m - 1) * fvar_header_instance_size h + 6 + 4 * n
  else if 0 <? n then fvar_header_axis_offset h + (n - 1) * fvar_header_axis_size h + 20
  else 16.

(** Values written one after another are read one after another, each where the
    one before it ends. *)
Definition reads_runs {A} (m : M A) (enc : A -> list byte) (good : A -> Prop) : Prop :=
  forall o f p vs, bounded f -> Forall good vs -> bytes_at f p (flat_map enc vs) ->
  take_vec (N.of_nat (length vs)) m (mkEnv f o) p = Ok (vs, p + size (flat_map enc vs)).
