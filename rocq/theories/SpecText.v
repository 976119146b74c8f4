(** What becomes of a text, a sequence of glyphs, by the substitutions of a font (of all types): once in
    terms of the bytes and once in terms of the values. *)

From Verif Require Export SpecSkips SpecThrough SpecBeyond SpecRanks.

(** ** Texts *)

(** A text begins with the glyphs [xs], with skipped glyphs, [kept], between them, and goes on with [rest]. *)
Inductive begins (skipped : N -> Prop) : list N -> list N -> list N -> list N -> Prop :=
  | begins_end rest : begins skipped [] [] rest rest
  | begins_glyph x xs kept rest text : ~ skipped x -> begins skipped xs kept rest text ->
      begins skipped (x :: xs) kept rest (x :: text)
  | begins_skipped y x xs kept rest text : skipped y -> begins skipped (x :: xs) kept rest text ->
      begins skipped (x :: xs) (y :: kept) rest (y :: text).

(** Subtables have their turn in their order, and in each of them ligatures and rules with the same first glyph, or class of
    it, have theirs by their ranks. *)
Definition earlier (i s j r : N) : Prop := i < j \/ (i = j /\ s < r).

(** The subtable [j] of a lookup replaces, by what has the rank [r] in it, the first glyphs of a text: these do not begin
    with a skipped one. *)
Definition fires (skipped : N -> Prop) (replaced : N -> N -> list N -> list N -> Prop) (j r : N)
    (text : list N) (ys kept rest : list N) : Prop :=
  exists x xs tail, text = x :: tail /\ ~ skipped x /\ begins skipped (x :: xs) kept rest text /\ replaced j r (x :: xs) ys.

(** The rule with the rank [r] of the subtable [j] applies to the first glyphs of a text, in view of what is before
    them, the nearest glyph first, and after them. *)
Definition ruled_by (skipped : N -> Prop) (ruled : N -> N -> list N -> list N -> list N -> list Action -> Prop) (j r : N)
    (left text : list N) (actions : list Action) (rest : list N) : Prop :=
  exists x xs tail before after kept kept' rest' kept'' rest'', text = x :: tail /\ ~ skipped x /\
    begins skipped (x :: xs) kept rest text /\ begins skipped before kept' rest' left /\
    begins skipped after kept'' rest'' rest /\ ruled j r before (x :: xs) after actions.

(** The glyph with the index [i] among those that are not skipped is the first one of [here]. *)
Inductive reaches (skipped : N -> Prop) : N -> list N -> list N -> Prop :=
  | reaches_here x here : ~ skipped x -> reaches skipped 0 [] (x :: here)
  | reaches_glyph x i before here : ~ skipped x -> reaches skipped i before here ->
      reaches skipped (i + 1) (x :: before) here
  | reaches_skipped y i before here : skipped y -> reaches skipped i before here -> reaches skipped i (y :: before) here.

(** The place that an action of a rule is for: among the first [n] glyphs of a text, to which the rule applies. *)
Definition placed (skipped : N -> Prop) (n : nat) (text : list N) (a : Action) (before here : list N) : Prop :=
  text = before ++ here /\ reaches skipped (action_position_index a) before here /\ (length before < n)%nat.

(** The actions of a rule are taken one after the other.  [does] says what a lookup makes of a text at its beginning: it
    puts glyphs in there and leaves the rest.  The part to which the rule applies becomes longer or shorter with the text,
    but goes on at least to the place of the action. *)
Inductive acted (skipped : N -> Prop) (does : N -> list N -> list N -> list N -> list N -> Prop) (left : list N) :
    list Action -> nat -> list N -> nat -> list N -> Prop :=
  | acted_none n text : acted skipped does left [] n text n text
  | acted_done a actions n text before here ys rest n' text' :
      placed skipped n text a before here -> does (action_lookup_index a) (rev before ++ left) here ys rest ->
      acted skipped does left actions
        (Nat.max (length before) (n + length (before ++ ys ++ rest) - length text)) (before ++ ys ++ rest) n' text' ->
      acted skipped does left (a :: actions) n text n' text'
  | acted_not a actions n text n' text' :
      (forall before here ys rest, placed skipped n text a before here ->
        ~ does (action_lookup_index a) (rev before ++ left) here ys rest) ->
      acted skipped does left actions n text n' text' -> acted skipped does left (a :: actions) n text n' text'.

(** A subtable has something to do at the beginning of a text. *)
Definition ready (skipped : N -> Prop) (replaced : N -> N -> list N -> list N -> Prop)
    (ruled : N -> N -> list N -> list N -> list N -> list Action -> Prop) (j r : N) (left text : list N) : Prop :=
  (exists ys kept rest, fires skipped replaced j r text ys kept rest) \/
  (exists actions rest, ruled_by skipped ruled j r left text actions rest).

(** What the lookup [k] makes of a text at its beginning: the first of its subtables that has something to do puts in
    glyphs for others, or takes the actions of a rule.  The lookups that these ask for may have rules too, and so on, up
    to a depth. *)
Fixpoint does (depth : nat) (skipped : N -> N -> Prop) (replaced : N -> N -> N -> list N -> list N -> Prop)
    (ruled : N -> N -> N -> list N -> list N -> list N -> list Action -> Prop) (k : N) (left text ys rest : list N) : Prop :=
  match depth with
  | O => False
  | S depth => exists j r,
      (forall i s, earlier i s j r -> ~ ready (skipped k) (replaced k) (ruled k) i s left text) /\
      ((exists kept behind, fires (skipped k) (replaced k) j r text ys kept behind /\ rest = kept ++ behind) \/
       (exists actions behind n text', ruled_by (skipped k) (ruled k) j r left text actions behind /\
         acted (skipped k) (does depth skipped replaced ruled) left actions (length text - length behind) text n text' /\
         ys = firstn n text' /\ rest = skipn n text'))
  end.

(** A lookup goes through a text from its beginning to its end, on after what has been put in; [left] is what it has gone
    through, the nearest glyph first. *)
Inductive goes_through (does : list N -> list N -> list N -> list N -> Prop) : list N -> list N -> list N -> Prop :=
  | goes_end left : goes_through does left [] (rev left)
  | goes_does left text ys rest out : does left text ys rest ->
      goes_through does (rev ys ++ left) rest out -> goes_through does left text out
  | goes_on left x text out : (forall ys rest, ~ does left (x :: text) ys rest) ->
      goes_through does (x :: left) text out -> goes_through does left (x :: text) out.

(** Reverse substitutions replace a glyph [x] by another one, in view of what is before it, the nearest glyph first, and
    after it. *)
Definition turns (skipped : N -> Prop) (turned : N -> list N -> N -> list N -> N -> Prop) (j : N) (left : list N) (x : N)
    (right : list N) (y : N) : Prop :=
  exists before after kept rest kept' rest', ~ skipped x /\ begins skipped before kept rest left /\
    begins skipped after kept' rest' right /\ turned j before x after y.

(** They go through a text from its end to its beginning: [left] is what they have not come to, the nearest glyph first. *)
Inductive goes_back (skipped : N -> Prop) (turned : N -> list N -> N -> list N -> N -> Prop) :
    list N -> list N -> list N -> Prop :=
  | back_end right : goes_back skipped turned [] right right
  | back_turns j x left right y out :
      turns skipped turned j left x right y -> (forall i z, i < j -> ~ turns skipped turned i left x right z) ->
      goes_back skipped turned left (y :: right) out -> goes_back skipped turned (x :: left) right out
  | back_on x left right out :
      (forall i z, ~ turns skipped turned i left x right z) ->
      goes_back skipped turned left (x :: right) out -> goes_back skipped turned (x :: left) right out.

(** The lookups before the one with the index [n] go through a text in the order of their indices, if they are on. *)
Inductive shaped (depth : nat) (on : N -> Prop) (skipped : N -> N -> Prop)
    (replaced : N -> N -> N -> list N -> list N -> Prop)
    (ruled : N -> N -> N -> list N -> list N -> list N -> list Action -> Prop)
    (turned : N -> N -> list N -> N -> list N -> N -> Prop) : N -> list N -> list N -> Prop :=
  | shaped_none text : shaped depth on skipped replaced ruled turned 0 text text
  | shaped_on n text mid mid' out : shaped depth on skipped replaced ruled turned n text mid -> on n ->
      goes_through (does (S depth) skipped replaced ruled n) [] mid mid' ->
      goes_back (skipped n) (turned n) (rev mid') [] out -> shaped depth on skipped replaced ruled turned (n + 1) text out
  | shaped_off n text out : shaped depth on skipped replaced ruled turned n text out -> ~ on n ->
      shaped depth on skipped replaced ruled turned (n + 1) text out.

(** ** In terms of the bytes *)

(** The lookups of a language that are on: those of the feature it requires, and those of the features it lists that are
    wanted. *)
Definition turned_on_at (o : options) (f : file) (p : N) (script : tag) (language : option tag) (wanted : tag -> Prop)
    (k : N) : Prop :=
  exists feature, enables_at o f p script language true feature k \/
    (wanted feature /\ enables_at o f p script language false feature k).

Definition shaped_at (o : options) (f : file) (p d : N) (script : tag) (language : option tag) (wanted : tag -> Prop)
    (depth : nat) (n : N) (text out : list N) : Prop :=
  shaped depth (turned_on_at o f p script language wanted) (skips_at o f p d)
    (fun k j r xs ys => exists q ty, in_lookup_at o f p k j q ty /\ replaces_as_at f q ty r xs ys)
    (fun k j r before xs after actions => exists q ty, in_lookup_at o f p k j q ty /\
      rule_as_at f q 5 ty r before xs after actions)
    (fun k j before x after y => exists q, in_lookup_at o f p k j q 8 /\ replaces_between_at f q before x after y)
    n text out.

(** ** In terms of the values *)

Definition turned_on {T} (v : Directory T) (script : tag) (language : option tag) (wanted : tag -> Prop) (k : N) : Prop :=
  exists feature, enables v script language true feature k \/
    (wanted feature /\ enables v script language false feature k).

Definition shaped_by (v : Directory GsubType) (d : GlyphDefinition) (script : tag) (language : option tag)
    (wanted : tag -> Prop) (depth : nat) (n : N) (text out : list N) : Prop :=
  shaped depth (turned_on v script language wanted) (skips v d)
    (fun k j r xs ys => exists t, in_lookup v k j t /\ replaces_as t r xs ys)
    (fun k j r before xs after actions => exists t, in_lookup v k j t /\ gsub_rule_as t r before xs after actions)
    (fun k j before x after y => exists t, in_lookup v k j t /\ gsub_reverse t before x after y) n text out.

(** ** With extensions followed *)

Definition shaped_beyond_at (o : options) (f : file) (p d : N) (script : tag) (language : option tag)
    (wanted : tag -> Prop) (depth : nat) (n : N) (text out : list N) : Prop :=
  shaped depth (turned_on_at o f p script language wanted) (skips_at o f p d)
    (fun k j r xs ys => exists q ty, subtable_for_at o Substitution f p k j q ty /\ readable o Substitution f q ty /\
      replaces_as_at f q ty r xs ys)
    (fun k j r before xs after actions => exists q ty, subtable_for_at o Substitution f p k j q ty /\
      readable o Substitution f q ty /\ rule_as_at f q 5 ty r before xs after actions)
    (fun k j before x after y => exists q ty, subtable_for_at o Substitution f p k j q ty /\
      readable o Substitution f q ty /\ ty = 8 /\ replaces_between_at f q before x after y) n text out.

(** The caller knows where the table is and reads from the file what extensions lead to. *)
Definition shaped_beyond (o : options) (f : file) (p : N) (v : Directory GsubType) (d : GlyphDefinition) (script : tag)
    (language : option tag) (wanted : tag -> Prop) (depth : nat) (n : N) (text out : list N) : Prop :=
  shaped depth (turned_on v script language wanted) (skips v d)
    (fun k j r xs ys => exists u, subtable_for o Substitution f p v k j u /\ replaces_as u r xs ys)
    (fun k j r before xs after actions => exists u, subtable_for o Substitution f p v k j u /\
      gsub_rule_as u r before xs after actions)
    (fun k j before x after y => exists u, subtable_for o Substitution f p v k j u /\ gsub_reverse u before x after y)
    n text out.
