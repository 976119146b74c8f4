(** Model of src/tables/font_variations/mod.rs. *)

From Verif Require Export Tape.

(** [AxisFlags] and [InstanceFlags], src/tables/font_variations/mod.rs:57-70. *)
Definition take_axis_flags : M N := take_flags 0xFFFE.
Definition take_instance_flags : M N := take_flags 0xFFFF.

(** [Header::read], src/tables/font_variations/mod.rs:18-31. *)
Definition read_fvar_header : M FvarHeader :=
  major_version <- take_u16;;
  minor_version <- take_u16;;
  axis_offset <- take_u16;;
  reserved <- take_const take_u16 2;;
  axis_count <- take_u16;;
  axis_size <- take_u16;;
  instance_count <- take_u16;;
  instance_size <- take_u16;;
  ret (mkFvarHeader major_version minor_version axis_offset reserved axis_count axis_size
    instance_count instance_size).

(** [AxisRecord::read], src/tables/font_variations/mod.rs:33-44. *)
Definition read_axis_record : M AxisRecord :=
  tag <- take_tag;;
  min_value <- take_q32;;
  default_value <- take_q32;;
  max_value <- take_q32;;
  flags <- take_axis_flags;;
  name_id <- take_u16;;
  ret (mkAxisRecord tag min_value default_value max_value flags name_id).

(** [InstanceRecord::read], src/tables/font_variations/mod.rs:98-109. *)
Definition read_instance_record (axis_count : N) : M InstanceRecord :=
  subfamily_name_id <- take_u16;;
  flags <- take_instance_flags;;
  coordinates <- take_vec axis_count take_q32;;
  postscript_name_id <- take_u16;;
  ret (mkInstanceRecord subfamily_name_id flags coordinates postscript_name_id).

(** [FontVariations::read], src/tables/font_variations/mod.rs:72-96.  The products
    are of 16-bit numbers taken in [u64] and cannot overflow. *)
Definition read_font_variations : M FontVariations :=
  position <- get_position;;
  header <- read_fvar_header;;
  position <- add_u64 position (fvar_header_axis_offset header);;
  axis_records <- for_n (fvar_header_axis_count header) (fun i =>
    jump_take position (N.of_nat i * fvar_header_axis_size header) read_axis_record);;
  position <- add_u64 position (fvar_header_axis_count header * fvar_header_axis_size header);;
  instance_records <- for_n (fvar_header_instance_count header) (fun i =>
    jump_take position (N.of_nat i * fvar_header_instance_size header)
      (read_instance_record (fvar_header_axis_count header)));;
  ret (mkFontVariations header axis_records instance_records).
