(** What subtables that extensions lead to say, once in terms of the bytes and once in terms of the values that a caller
    has who reads those subtables too; see SpecMeaning.v and SpecExtensions.v. *)

From Verif Require Export SpecMeaning SpecRules SpecExtensions.

(** Where the subtable [j] of the lookup [k] of a table at [p] is, which is the caller's to work out. *)
Definition subtable_place {T} (v : Directory T) (p k j : N) (q : N) : Prop :=
  exists l r s, entry (lookups_offsets (directory_lookups v)) k = Some l /\
    entry (lookups_records (directory_lookups v)) k = Some r /\ entry (lookup_record_table_offsets r) j = Some s /\
    q = p + directory_lookup_offset v + l + s.

(** The subtable [j] of the lookup [k], or the one it leads to if it is an extension. *)
Definition subtable_for {T} (o : options) (kind : family T) (f : file) (p : N) (v : Directory T) (k j : N) (u : T) : Prop :=
  exists t, in_lookup v k j t /\
  match extension kind t with
  | None => u = t
  | Some (type_, offset) => exists q, subtable_place v p k j q /\ reads o (subtable kind type_) f (q + offset) u
  end.

(** In the bytes, it is at [q] and is of a type. *)
Definition subtable_for_at {T} (o : options) (kind : family T) (f : file) (p k j q type_ : N) : Prop :=
  exists r t, in_lookup_at o f p k j r t /\
  ((t <> extension_type kind /\ q = r /\ type_ = t) \/
   (t = extension_type kind /\ exists offset, u16_at f (r + 2) type_ /\ u32_at f (r + 4) offset /\ q = r + offset)).

(** A subtable can be read there. *)
Definition readable {T} (o : options) (kind : family T) (f : file) (q type_ : N) : Prop :=
  exists u, reads o (subtable kind type_) f q u.
