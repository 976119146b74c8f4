(** Where the glyphs of a text come from when its lookups have gone through it, and when they leave it alone. *)

From Verif Require Export SpecKerning.

(** A subtable puts in a glyph, for whatever others. *)
Definition puts (v : GsubType) (y : N) : Prop :=
  (exists xs ys, replaces v xs ys /\ In y ys) \/ (exists before x after, gsub_reverse v before x after y).

(** A subtable is about texts that begin with a glyph. *)
Definition takes_up (v : GsubType) (x : N) : Prop :=
  (exists xs ys, replaces v (x :: xs) ys) \/ (exists before xs after actions, gsub_rule v before (x :: xs) after actions) \/
  (exists before after y, gsub_reverse v before x after y).

Definition takes_up_to_move (v : GposType) (x : N) : Prop :=
  (exists xs past, minds v (x :: xs) past) \/ (exists before xs after actions, gpos_rule v before (x :: xs) after actions).

(** The lookups that are on, before the one with the index [n], and those that rules of such lookups ask for, and so on.
    [sub] gives the subtables of lookups. *)
Inductive asked (sub : N -> N -> GsubType -> Prop) (on : N -> Prop) (n : N) : N -> Prop :=
  | asked_on k : on k -> k < n -> asked sub on n k
  | asked_by k j t before xs after actions a : asked sub on n k -> sub k j t -> gsub_rule t before xs after actions ->
      In a actions -> asked sub on n (action_lookup_index a).
