(** What a well-formed font satisfies beyond the shape of its tables: references between the
    parts of a table lead somewhere, and arrays meant for binary search are sorted. *)

From Verif Require Export SpecFlags Requests.

(** Every feature a language refers to and every lookup a feature refers to is there. *)
Definition language_of (r : ScriptRecord) (l : LanguageRecord) : Prop :=
  script_record_default_language r = Some l \/ In l (script_record_language_records r).

Definition features_resolve {T} (v : Directory T) : Prop :=
  forall r l i, In r (scripts_records (directory_scripts v)) -> language_of r l ->
    In i (language_record_feature_indices l) -> i < features_count (directory_features v).

Definition lookups_resolve {T} (v : Directory T) : Prop :=
  forall r i, In r (features_records (directory_features v)) -> In i (feature_record_lookup_indices r) ->
    i < lookups_count (directory_lookups v).

(** Every lookup a contextual rule of the third format refers to is there, and the position it
    is to be applied at is one of the positions of the rule. *)
Definition actions_resolve (v : GlyphSubstitution) : Prop :=
  forall c a, has_subtable v (GsubContextualSubstitution (ContextFormat3 c)) -> In a (context3_actions c) ->
    action_position_index a < context3_glyph_count c /\ action_lookup_index a < lookups_count (directory_lookups v).

(** Sorted arrays. *)
Fixpoint increasing (l : list N) : Prop :=
  match l with
  | a :: ((b :: _) as l') => a < b /\ increasing l'
  | _ => True
  end.

Definition coverage_sorted (v : Coverage) : Prop :=
  match v with
  | CoverageFormat1 t => increasing (coverage1_glyph_ids t)
  | CoverageFormat2 t => increasing (map coverage_record_start_glyph_id (coverage2_records t)) /\
      Forall (fun r => coverage_record_start_glyph_id r <= coverage_record_end_glyph_id r) (coverage2_records t)
  end.

Definition class_sorted (v : Class) : Prop :=
  match v with
  | ClassFormat1 _ => True
  | ClassFormat2 t => increasing (map class_record_start_glyph_id (class2_records t)) /\
      Forall (fun r => class_record_start_glyph_id r <= class_record_end_glyph_id r) (class2_records t)
  end.

(** The default of an axis is between the limits. *)
Definition axis_ordered (v : AxisRecord) : Prop :=
  (axis_record_min_value v <= axis_record_default_value v <= axis_record_max_value v)%Z.
