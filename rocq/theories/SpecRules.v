(** Which glyphs the rules of contexts apply to, and what they ask for, once in terms of the bytes and once in terms of
    the value; see SpecMeaning.v. *)

From Verif Require Export SpecMeaning.

(** ** In terms of the bytes *)

(** Each of the [n] words from [q] on admits a glyph of a text. *)
Definition run_at (f : file) (q n : N) (admits : N -> N -> Prop) (xs : list N) : Prop :=
  exists words, u16s_at f q n words /\ Forall2 admits words xs.

(** Words are glyphs themselves, classes of a class definition at [p], or offsets from [p] to coverages. *)
Definition by_class_at (f : file) (p class g : N) : Prop := or_zero (classified_at f p) g class.
Definition by_coverage_at (f : file) (p offset g : N) : Prop := exists i, covered_at f (p + offset) g i.

Definition actions_at (f : file) (q n : N) (actions : list Action) : Prop := vec_at (action_at f) 4 q n actions.

(** A rule: its first glyph is not a part of it. *)
Definition rule_at (f : file) (q : N) (admits : N -> N -> Prop) (rest : list N) (actions : list Action) : Prop :=
  exists n m, u16_at f q n /\ u16_at f (q + 2) m /\ run_at f (q + 4) (n - 1) admits rest /\
    actions_at f (q + 4 + 2 * (n - 1)) m actions.

(** A rule with glyphs before, in reverse order, and after. *)
Definition chained_rule_at (f : file) (q : N) (before_admits admits after_admits : N -> N -> Prop)
    (before rest after : list N) (actions : list Action) : Prop :=
  exists a b c d, u16_at f q a /\ run_at f (q + 2) a before_admits before /\
    u16_at f (q + 2 + 2 * a) b /\ run_at f (q + 4 + 2 * a) (b - 1) admits rest /\
    u16_at f (q + 4 + 2 * a + 2 * (b - 1)) c /\ run_at f (q + 6 + 2 * a + 2 * (b - 1)) c after_admits after /\
    u16_at f (q + 6 + 2 * a + 2 * (b - 1) + 2 * c) d /\ actions_at f (q + 8 + 2 * a + 2 * (b - 1) + 2 * c) d actions.

(** One of the rules of the set at [s]. *)
Definition one_rule_at (f : file) (s : N) (rule : N -> Prop) : Prop :=
  exists m j link, u16_at f s m /\ j < m /\ u16_at f (s + 2 + 2 * j) link /\ rule (s + link).

(** The context at [p] applies to the glyphs [xs] and asks for actions. *)
Definition applies_at (f : file) (p : N) (xs : list N) (actions : list Action) : Prop :=
  (u16_at f p 1 /\ exists g rest c i n set, xs = g :: rest /\
    u16_at f (p + 2) c /\ covered_at f (p + c) g i /\ u16_at f (p + 4) n /\ i < n /\ u16_at f (p + 6 + 2 * i) set /\
    one_rule_at f (p + set) (fun q => rule_at f q eq rest actions)) \/
  (u16_at f p 2 /\ exists g rest c i d class n set, xs = g :: rest /\
    u16_at f (p + 2) c /\ covered_at f (p + c) g i /\ u16_at f (p + 4) d /\ by_class_at f (p + d) class g /\
    u16_at f (p + 6) n /\ class < n /\ u16_at f (p + 8 + 2 * class) set /\ set <> 0 /\
    one_rule_at f (p + set) (fun q => rule_at f q (by_class_at f (p + d)) rest actions)) \/
  (u16_at f p 3 /\ exists n m, u16_at f (p + 2) n /\ u16_at f (p + 4) m /\
    run_at f (p + 6) n (by_coverage_at f p) xs /\ actions_at f (p + 6 + 2 * n) m actions).

(** The chained context at [p] applies to the glyphs [xs] between others and asks for actions. *)
Definition applies_between_at (f : file) (p : N) (before xs after : list N) (actions : list Action) : Prop :=
  (u16_at f p 1 /\ exists g rest c i n set, xs = g :: rest /\
    u16_at f (p + 2) c /\ covered_at f (p + c) g i /\ u16_at f (p + 4) n /\ i < n /\ u16_at f (p + 6 + 2 * i) set /\
    one_rule_at f (p + set) (fun q => chained_rule_at f q eq eq eq before rest after actions)) \/
  (u16_at f p 2 /\ exists g rest c i d1 d2 d3 class n set, xs = g :: rest /\
    u16_at f (p + 2) c /\ covered_at f (p + c) g i /\
    u16_at f (p + 4) d1 /\ u16_at f (p + 6) d2 /\ u16_at f (p + 8) d3 /\ by_class_at f (p + d2) class g /\
    u16_at f (p + 10) n /\ class < n /\ u16_at f (p + 12 + 2 * class) set /\ set <> 0 /\
    one_rule_at f (p + set) (fun q => chained_rule_at f q (by_class_at f (p + d1)) (by_class_at f (p + d2))
      (by_class_at f (p + d3)) before rest after actions)) \/
  (u16_at f p 3 /\ exists a b c d,
    u16_at f (p + 2) a /\ run_at f (p + 4) a (by_coverage_at f p) before /\
    u16_at f (p + 4 + 2 * a) b /\ run_at f (p + 6 + 2 * a) b (by_coverage_at f p) xs /\
    u16_at f (p + 6 + 2 * a + 2 * b) c /\ run_at f (p + 8 + 2 * a + 2 * b) c (by_coverage_at f p) after /\
    u16_at f (p + 8 + 2 * a + 2 * b + 2 * c) d /\ actions_at f (p + 10 + 2 * a + 2 * b + 2 * c) d actions).

(** The reverse chained substitution at [p] replaces [x] by [y] between others. *)
Definition replaces_between_at (f : file) (p : N) (before : list N) (x : N) (after : list N) (y : N) : Prop :=
  exists c i a b n, u16_at f (p + 2) c /\ covered_at f (p + c) x i /\
    u16_at f (p + 4) a /\ run_at f (p + 6) a (by_coverage_at f p) before /\
    u16_at f (p + 6 + 2 * a) b /\ run_at f (p + 8 + 2 * a) b (by_coverage_at f p) after /\
    u16_at f (p + 8 + 2 * a + 2 * b) n /\ i < n /\ u16_at f (p + 10 + 2 * a + 2 * b + 2 * i) y.

(** ** In terms of the value *)

Definition by_class (v : Class) (class g : N) : Prop := or_zero (classifies v) g class.
Definition by_coverage (v : Coverage) (g : N) : Prop := exists i, covers v g i.

Definition applies (v : Context) (xs : list N) (actions : list Action) : Prop :=
  match v with
  | ContextFormat1 t => exists g i set r, covers (context1_coverage t) g i /\
      entry (context1_records t) i = Some set /\ In r (context_records_records set) /\
      xs = g :: context_record_glyph_ids r /\ actions = context_record_actions r
  | ContextFormat2 t => exists g rest i class set r, covers (context2_coverage t) g i /\
      by_class (context2_class t) class g /\ entry (context2_records t) class = Some (Some set) /\
      In r (context_class_records_records set) /\ xs = g :: rest /\
      Forall2 (by_class (context2_class t)) (context_class_record_indices r) rest /\
      actions = context_class_record_actions r
  | ContextFormat3 t => Forall2 by_coverage (context3_coverages t) xs /\ actions = context3_actions t
  end.

Definition applies_between (v : ChainedContext) (before xs after : list N) (actions : list Action) : Prop :=
  match v with
  | ChainedContextFormat1 t => exists g i set r, covers (chained_context1_coverage t) g i /\
      entry (chained_context1_records t) i = Some set /\ In r (chained_records_records set) /\
      before = chained_record_backward_glyph_ids r /\ xs = g :: chained_record_glyph_ids r /\
      after = chained_record_forward_glyph_ids r /\ actions = chained_record_actions r
  | ChainedContextFormat2 t => exists g rest i class set r, covers (chained_context2_coverage t) g i /\
      by_class (chained_context2_class t) class g /\ entry (chained_context2_records t) class = Some (Some set) /\
      In r (chained_class_records_records set) /\ xs = g :: rest /\
      Forall2 (by_class (chained_context2_backward_class t)) (chained_class_record_backward_indices r) before /\
      Forall2 (by_class (chained_context2_class t)) (chained_class_record_indices r) rest /\
      Forall2 (by_class (chained_context2_forward_class t)) (chained_class_record_forward_indices r) after /\
      actions = chained_class_record_actions r
  | ChainedContextFormat3 t =>
      Forall2 by_coverage (chained_context3_backward_coverages t) before /\
      Forall2 by_coverage (chained_context3_coverages t) xs /\
      Forall2 by_coverage (chained_context3_forward_coverages t) after /\ actions = chained_context3_actions t
  end.

Definition replaces_between (v : ReverseChainedContextualSubstibution) (before : list N) (x : N) (after : list N)
    (y : N) : Prop :=
  exists i, covers (reverse_chained_contextual_substibution_coverage v) x i /\
    Forall2 by_coverage (reverse_chained_contextual_substibution_backward_coverages v) before /\
    Forall2 by_coverage (reverse_chained_contextual_substibution_forward_coverages v) after /\
    entry (reverse_chained_contextual_substibution_glyph_ids v) i = Some y.

(** ** Subtables *)

(** The number of the type of contexts is 5 in [GSUB] and 7 in [GPOS]; that of chained contexts is one more. *)
Definition rule_of_at (f : file) (q context type_ : N) (before xs after : list N) (actions : list Action) : Prop :=
  (type_ = context /\ before = [] /\ after = [] /\ applies_at f q xs actions) \/
  (type_ = context + 1 /\ applies_between_at f q before xs after actions).

Definition gsub_rule (v : GsubType) (before xs after : list N) (actions : list Action) : Prop :=
  match v with
  | GsubContextualSubstitution t => before = [] /\ after = [] /\ applies t xs actions
  | GsubChainedContextualSubstitution t => applies_between t before xs after actions
  | _ => False
  end.

Definition gpos_rule (v : GposType) (before xs after : list N) (actions : list Action) : Prop :=
  match v with
  | GposContextualPositioning t => before = [] /\ after = [] /\ applies t xs actions
  | GposChainedContextualPositioning t => applies_between t before xs after actions
  | _ => False
  end.

Definition gsub_reverse (v : GsubType) (before : list N) (x : N) (after : list N) (y : N) : Prop :=
  match v with
  | GsubReverseChainedContextualSubstibution t => replaces_between t before x after y
  | _ => False
  end.
