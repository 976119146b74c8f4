(** When subtables leave no doubt about what they do: glyphs have at most one index in a coverage and at most one class, and
    there is no choice of alternates. *)

From Verif Require Export SpecKerning.

(** ** Coverages and classes *)

Definition clear_coverage (v : Coverage) : Prop := forall g i j, covers v g i -> covers v g j -> i = j.

Definition clear_class (v : Class) : Prop := forall g c d, classifies v g c -> classifies v g d -> c = d.

(** The glyphs, or the ranges of them, are in ascending order, as the specification has it. *)
Definition ascending_coverage_at (f : file) (p : N) : Prop :=
  exists n, u16_at f (p + 2) n /\
    ((u16_at f p 1 /\
      forall i j g h, i < j < n -> u16_at f (p + 4 + 2 * i) g -> u16_at f (p + 4 + 2 * j) h -> g < h) \/
     (u16_at f p 2 /\
      forall i j last first, i < j < n -> u16_at f (p + 6 + 6 * i) last -> u16_at f (p + 4 + 6 * j) first -> last < first)).

Definition ascending_class_at (f : file) (p : N) : Prop :=
  u16_at f p 1 \/
  (u16_at f p 2 /\ exists n, u16_at f (p + 2) n /\
    forall i j last first, i < j < n -> u16_at f (p + 6 + 6 * i) last -> u16_at f (p + 4 + 6 * j) first -> last < first).

(** ** Subtables *)

Definition clear_context (v : Context) : Prop :=
  match v with
  | ContextFormat1 t => clear_coverage (context1_coverage t)
  | ContextFormat2 t => clear_class (context2_class t)
  | ContextFormat3 _ => True
  end.

Definition clear_chained_context (v : ChainedContext) : Prop :=
  match v with
  | ChainedContextFormat1 t => clear_coverage (chained_context1_coverage t)
  | ChainedContextFormat2 t => clear_class (chained_context2_class t)
  | ChainedContextFormat3 _ => True
  end.

Definition clear_substitution (v : GsubType) : Prop :=
  match v with
  | GsubSingleSubstitution (SingleSubstitutionFormat1 _) => True
  | GsubSingleSubstitution (SingleSubstitutionFormat2 t) => clear_coverage (single_substitution2_coverage t)
  | GsubMultipleSubstitution t => clear_coverage (multiple_substitution_coverage t)
  | GsubAlternateSubstitution t => clear_coverage (alternate_substitution_coverage t) /\
      forall r, In r (alternate_substitution_records t) -> (length (alternates_glyph_ids r) <= 1)%nat
  | GsubLigatureSubstitution t => clear_coverage (ligature_substitution_coverage t)
  | GsubContextualSubstitution t => clear_context t
  | GsubChainedContextualSubstitution t => clear_chained_context t
  | GsubExtensionSubstitution _ => True
  | GsubReverseChainedContextualSubstibution t => clear_coverage (reverse_chained_contextual_substibution_coverage t)
  end.

Definition clear_substitutions (v : Directory GsubType) : Prop :=
  forall k j t, in_lookup v k j t -> clear_substitution t.

Definition clear_positioning (v : GposType) : Prop :=
  match v with
  | GposSingleAdjustment (SingleAdjustmentFormat2 t) => clear_coverage (single_adjustment2_coverage t)
  | GposPairAdjustment (PairAdjustmentFormat1 t) => clear_coverage (pair_adjustment1_coverage t) /\
      forall r, In r (pair_adjustment1_records t) -> NoDup (map pair1_glyph2_id (pair1s_records r))
  | GposPairAdjustment (PairAdjustmentFormat2 t) =>
      clear_class (pair_adjustment2_class1 t) /\ clear_class (pair_adjustment2_class2 t)
  | GposContextualPositioning t => clear_context t
  | GposChainedContextualPositioning t => clear_chained_context t
  | _ => True
  end.

Definition clear_positionings (v : Directory GposType) : Prop :=
  forall k j t, in_lookup v k j t -> clear_positioning t.

(** Where extensions are followed, it is the subtables they lead to that count. *)
Definition clear_substitutions_beyond (o : options) (f : file) (p : N) (v : Directory GsubType) : Prop :=
  forall k j u, subtable_for o Substitution f p v k j u -> clear_substitution u.

Definition clear_positionings_beyond (o : options) (f : file) (p : N) (v : Directory GposType) : Prop :=
  forall k j u, subtable_for o Positioning f p v k j u -> clear_positioning u.

(** ** Order in the file *)

(** The coverage, or the class definition, of a table at [p] whose offset is at [q] is in order. *)
Definition covered_in_order_at (f : file) (p q : N) : Prop := exists c, u16_at f q c /\ ascending_coverage_at f (p + c).
Definition classes_in_order_at (f : file) (p q : N) : Prop := exists d, u16_at f q d /\ ascending_class_at f (p + d).

(** A context at [p] is in order, or a chained context, whose class definition for the input is the second of three. *)
Definition context_in_order_at (f : file) (p classes : N) : Prop :=
  (u16_at f p 1 /\ covered_in_order_at f p (p + 2)) \/ (u16_at f p 2 /\ classes_in_order_at f p classes) \/ u16_at f p 3.

Definition substitution_in_order_at (f : file) (p type_ : N) : Prop :=
  (type_ = 1 \/ type_ = 2 \/ type_ = 3 \/ type_ = 4 \/ type_ = 8 -> covered_in_order_at f p (p + 2)) /\
  (type_ = 3 -> forall n i offset m, u16_at f (p + 4) n -> i < n -> u16_at f (p + 6 + 2 * i) offset ->
    u16_at f (p + offset) m -> m <= 1) /\
  (type_ = 5 -> context_in_order_at f p (p + 4)) /\ (type_ = 6 -> context_in_order_at f p (p + 6)).

Definition positioning_in_order_at (f : file) (p type_ : N) : Prop :=
  (type_ = 1 \/ type_ = 2 -> covered_in_order_at f p (p + 2)) /\
  (type_ = 2 -> u16_at f p 1 -> forall flags1 flags2 n i offset m j k g h,
    u16_at f (p + 4) flags1 -> u16_at f (p + 6) flags2 -> u16_at f (p + 8) n -> i < n ->
    u16_at f (p + 10 + 2 * i) offset -> u16_at f (p + offset) m -> j < k < m ->
    u16_at f (p + offset + 2 + (2 + value_size flags1 + value_size flags2) * j) g ->
    u16_at f (p + offset + 2 + (2 + value_size flags1 + value_size flags2) * k) h -> g < h) /\
  (type_ = 2 -> u16_at f p 2 -> classes_in_order_at f p (p + 8) /\ classes_in_order_at f p (p + 10)) /\
  (type_ = 7 -> context_in_order_at f p (p + 4)) /\ (type_ = 8 -> context_in_order_at f p (p + 6)).
