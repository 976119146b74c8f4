(** Builds that differ in one Cargo feature, and the values for which it matters. *)

From Verif Require Export Options Bytes Types.

(** The same build with overflow checks on or off. *)
Definition with_overflow (checks : bool) (o : options) : options :=
  mkOptions checks (ignore_incomplete_directories o) (ignore_incomplete_marks o)
    (ignore_invalid_checksums o) (checked_flags o).

(** The same build with [ignore-incomplete-directories] on or off. *)
Definition with_directories (ignore : bool) (o : options) : options :=
  mkOptions (overflow_checks o) ignore (ignore_incomplete_marks o) (ignore_invalid_checksums o)
    (checked_flags o).

(** The same build with [ignore-incomplete-marks] on or off. *)
Definition with_marks (ignore : bool) (o : options) : options :=
  mkOptions (overflow_checks o) (ignore_incomplete_directories o) ignore (ignore_invalid_checksums o)
    (checked_flags o).

(** A directory in which no list is missing. *)
Definition complete_directory {T} (v : Directory T) : Prop :=
  directory_script_offset v <> 0 /\ directory_feature_offset v <> 0 /\ directory_lookup_offset v <> 0.

(** The offsets of the three lists are not zero in the file. *)
Definition offsets_present (f : file) (p : N) : Prop :=
  ~ u16_at f (p + 4) 0 /\ ~ u16_at f (p + 6) 0 /\ ~ u16_at f (p + 8) 0.

(** The mark records of a subtable. *)
Definition marks_of (v : GposType) : list Mark1 :=
  match v with
  | GposMarkToBaseAttachment t => mark1s_records (mark_to_base_attachment_marks t)
  | GposMarkToLigatureAttachment t => mark1s_records (mark_to_ligature_attachment_marks t)
  | GposMarkToMarkAttachment t => mark1s_records (mark_to_mark_attachment_mark1s t)
  | _ => []
  end.

(** A mark record somewhere in a table. *)
Definition has_mark (v : GlyphPositioning) (m : Mark1) : Prop :=
  exists l t, In l (lookups_records (directory_lookups v)) /\ In t (lookup_record_tables l) /\
    In m (marks_of t).
