(** Where several ligatures or rules begin with the same glyph, or class of glyphs, those that come first in their set are
    preferred.  Here are the notions of SpecMeaning.v and SpecRules.v once more, with the rank of the ligature or of the
    rule: its index in the set, or zero where there is no set. *)

From Verif Require Export SpecRules.

(** ** Ligatures *)

Definition replaces_as_at (f : file) (p type_ rank : N) (xs ys : list N) : Prop :=
  (type_ <> 4 /\ rank = 0 /\ replaces_at f p type_ xs ys) \/
  (type_ = 4 /\ exists g rest c i n offset m link y k, xs = g :: rest /\ u16_at f (p + 2) c /\ covered_at f (p + c) g i /\
    u16_at f (p + 4) n /\ i < n /\ u16_at f (p + 6 + 2 * i) offset /\ u16_at f (p + offset) m /\ rank < m /\
    u16_at f (p + offset + 2 + 2 * rank) link /\ u16_at f (p + offset + link) y /\ u16_at f (p + offset + link + 2) k /\
    u16s_at f (p + offset + link + 4) (k - 1) rest /\ ys = [y]).

Definition replaces_as (v : GsubType) (rank : N) (xs ys : list N) : Prop :=
  match v with
  | GsubLigatureSubstitution t =>
      exists g i r l, covers (ligature_substitution_coverage t) g i /\
        entry (ligature_substitution_records t) i = Some r /\ entry (ligatures_records r) rank = Some l /\
        xs = g :: ligature_glyph_ids l /\ ys = [ligature_glyph_id l]
  | _ => rank = 0 /\ replaces v xs ys
  end.

(** ** Rules in terms of the bytes *)

Definition ranked_rule_at (f : file) (s rank : N) (rule : N -> Prop) : Prop :=
  exists m link, u16_at f s m /\ rank < m /\ u16_at f (s + 2 + 2 * rank) link /\ rule (s + link).

(** The context at [p] applies to the glyphs [xs] and asks for actions by the rule with the rank [rank]. *)
Definition applies_as_at (f : file) (p rank : N) (xs : list N) (actions : list Action) : Prop :=
  (u16_at f p 1 /\ exists g rest c i n set, xs = g :: rest /\
    u16_at f (p + 2) c /\ covered_at f (p + c) g i /\ u16_at f (p + 4) n /\ i < n /\ u16_at f (p + 6 + 2 * i) set /\
    ranked_rule_at f (p + set) rank (fun q => rule_at f q eq rest actions)) \/
  (u16_at f p 2 /\ exists g rest c i d class n set, xs = g :: rest /\
    u16_at f (p + 2) c /\ covered_at f (p + c) g i /\ u16_at f (p + 4) d /\ by_class_at f (p + d) class g /\
    u16_at f (p + 6) n /\ class < n /\ u16_at f (p + 8 + 2 * class) set /\ set <> 0 /\
    ranked_rule_at f (p + set) rank (fun q => rule_at f q (by_class_at f (p + d)) rest actions)) \/
  (u16_at f p 3 /\ rank = 0 /\ exists n m, u16_at f (p + 2) n /\ u16_at f (p + 4) m /\
    run_at f (p + 6) n (by_coverage_at f p) xs /\ actions_at f (p + 6 + 2 * n) m actions).

(** The chained context at [p] applies to the glyphs [xs] between others and asks for actions by the rule with the rank [rank]. *)
Definition applies_between_as_at (f : file) (p rank : N) (before xs after : list N) (actions : list Action) : Prop :=
  (u16_at f p 1 /\ exists g rest c i n set, xs = g :: rest /\
    u16_at f (p + 2) c /\ covered_at f (p + c) g i /\ u16_at f (p + 4) n /\ i < n /\ u16_at f (p + 6 + 2 * i) set /\
    ranked_rule_at f (p + set) rank (fun q => chained_rule_at f q eq eq eq before rest after actions)) \/
  (u16_at f p 2 /\ exists g rest c i d1 d2 d3 class n set, xs = g :: rest /\
    u16_at f (p + 2) c /\ covered_at f (p + c) g i /\
    u16_at f (p + 4) d1 /\ u16_at f (p + 6) d2 /\ u16_at f (p + 8) d3 /\ by_class_at f (p + d2) class g /\
    u16_at f (p + 10) n /\ class < n /\ u16_at f (p + 12 + 2 * class) set /\ set <> 0 /\
    ranked_rule_at f (p + set) rank (fun q => chained_rule_at f q (by_class_at f (p + d1)) (by_class_at f (p + d2))
      (by_class_at f (p + d3)) before rest after actions)) \/
  (u16_at f p 3 /\ rank = 0 /\ exists a b c d,
    u16_at f (p + 2) a /\ run_at f (p + 4) a (by_coverage_at f p) before /\
    u16_at f (p + 4 + 2 * a) b /\ run_at f (p + 6 + 2 * a) b (by_coverage_at f p) xs /\
    u16_at f (p + 6 + 2 * a + 2 * b) c /\ run_at f (p + 8 + 2 * a + 2 * b) c (by_coverage_at f p) after /\
    u16_at f (p + 8 + 2 * a + 2 * b + 2 * c) d /\ actions_at f (p + 10 + 2 * a + 2 * b + 2 * c) d actions).

(** ** Rules in terms of the value *)

Definition applies_as (v : Context) (rank : N) (xs : list N) (actions : list Action) : Prop :=
  match v with
  | ContextFormat1 t => exists g i set r, covers (context1_coverage t) g i /\
      entry (context1_records t) i = Some set /\ entry (context_records_records set) rank = Some r /\
      xs = g :: context_record_glyph_ids r /\ actions = context_record_actions r
  | ContextFormat2 t => exists g rest i class set r, covers (context2_coverage t) g i /\
      by_class (context2_class t) class g /\ entry (context2_records t) class = Some (Some set) /\
      entry (context_class_records_records set) rank = Some r /\ xs = g :: rest /\
      Forall2 (by_class (context2_class t)) (context_class_record_indices r) rest /\
      actions = context_class_record_actions r
  | ContextFormat3 t => rank = 0 /\ Forall2 by_coverage (context3_coverages t) xs /\ actions = context3_actions t
  end.

Definition applies_between_as (v : ChainedContext) (rank : N) (before xs after : list N) (actions : list Action) : Prop :=
  match v with
  | ChainedContextFormat1 t => exists g i set r, covers (chained_context1_coverage t) g i /\
      entry (chained_context1_records t) i = Some set /\ entry (chained_records_records set) rank = Some r /\
      before = chained_record_backward_glyph_ids r /\ xs = g :: chained_record_glyph_ids r /\
      after = chained_record_forward_glyph_ids r /\ actions = chained_record_actions r
  | ChainedContextFormat2 t => exists g rest i class set r, covers (chained_context2_coverage t) g i /\
      by_class (chained_context2_class t) class g /\ entry (chained_context2_records t) class = Some (Some set) /\
      entry (chained_class_records_records set) rank = Some r /\ xs = g :: rest /\
      Forall2 (by_class (chained_context2_backward_class t)) (chained_class_record_backward_indices r) before /\
      Forall2 (by_class (chained_context2_class t)) (chained_class_record_indices r) rest /\
      Forall2 (by_class (chained_context2_forward_class t)) (chained_class_record_forward_indices r) after /\
      actions = chained_class_record_actions r
  | ChainedContextFormat3 t =>
      rank = 0 /\ Forall2 by_coverage (chained_context3_backward_coverages t) before /\
      Forall2 by_coverage (chained_context3_coverages t) xs /\
      Forall2 by_coverage (chained_context3_forward_coverages t) after /\ actions = chained_context3_actions t
  end.

(** ** Rules of subtables *)

Definition rule_as_at (f : file) (q context type_ rank : N) (before xs after : list N) (actions : list Action) : Prop :=
  (type_ = context /\ before = [] /\ after = [] /\ applies_as_at f q rank xs actions) \/
  (type_ = context + 1 /\ applies_between_as_at f q rank before xs after actions).

Definition gsub_rule_as (v : GsubType) (rank : N) (before xs after : list N) (actions : list Action) : Prop :=
  match v with
  | GsubContextualSubstitution t => before = [] /\ after = [] /\ applies_as t rank xs actions
  | GsubChainedContextualSubstitution t => applies_between_as t rank before xs after actions
  | _ => False
  end.

Definition gpos_rule_as (v : GposType) (rank : N) (before xs after : list N) (actions : list Action) : Prop :=
  match v with
  | GposContextualPositioning t => before = [] /\ after = [] /\ applies_as t rank xs actions
  | GposChainedContextualPositioning t => applies_between_as t rank before xs after actions
  | _ => False
  end.
