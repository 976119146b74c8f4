(** Where the parts of a table are: the address of a part is the sum of the offsets that
    lead to it, from the start of the list (of scripts, features or lookups) it is in. *)

From Verif Require Export Types.

(** Entries of two lists at the same index. *)
Definition paired {A B} (xs : list A) (ys : list B) (x : A) (y : B) : Prop :=
  exists i, nth_error xs i = Some x /\ nth_error ys i = Some y.

Definition script_in (v : Scripts) (a : N) (r : ScriptRecord) : Prop :=
  exists h, paired (scripts_headers v) (scripts_records v) h r /\ a = script_header_offset h.

(** The languages of a script, the default one among them. *)
Definition language_of (s : ScriptRecord) (a : N) (r : LanguageRecord) : Prop :=
  (script_record_default_language s = Some r /\ a = script_record_default_language_offset s) \/
  (exists h, paired (script_record_language_headers s) (script_record_language_records s) h r /\
    a = language_header_offset h).

Definition language_in (v : Scripts) (a : N) (r : LanguageRecord) : Prop :=
  exists s b c, script_in v b s /\ language_of s c r /\ a = b + c.

Definition feature_in (v : Features) (a : N) (r : FeatureRecord) : Prop :=
  exists h, paired (features_headers v) (features_records v) h r /\ a = feature_header_offset h.

Definition lookup_in {T} (v : Lookups T) (a : N) (r : LookupRecord T) : Prop :=
  paired (lookups_offsets v) (lookups_records v) a r.

(** The subtables of the lookups of one type. *)
Definition subtable_in {T} (v : Lookups T) (type_ a : N) (t : T) : Prop :=
  exists r b c, lookup_in v b r /\ lookup_record_type r = type_ /\
    paired (lookup_record_table_offsets r) (lookup_record_tables r) c t /\ a = b + c.

(** Parts at the same address are equal. *)
Definition shared {A} (part : N -> A -> Prop) : Prop := forall a x y, part a x -> part a y -> x = y.

Definition shared_directory {T} (v : Directory T) : Prop :=
  shared (script_in (directory_scripts v)) /\ shared (language_in (directory_scripts v)) /\
  shared (feature_in (directory_features v)) /\ shared (lookup_in (directory_lookups v)) /\
  forall type_, shared (subtable_in (directory_lookups v) type_).
