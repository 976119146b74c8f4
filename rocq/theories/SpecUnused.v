(** The lookups that matter for a text. *)

From Verif Require Export SpecDepth.

(** The lookups that are on, before the one with the index [n], and those that lead on from them. *)
Inductive reached (asks : N -> N -> Prop) (on : N -> Prop) (n : N) : N -> Prop :=
  | reached_on k : on k -> k < n -> reached asks on n k
  | reached_by k l : reached asks on n k -> asks k l -> reached asks on n l.

(** Two tables have the same lookup, or none, at an index. *)
Definition same_lookup {T} (v w : Directory T) (k : N) : Prop :=
  entry (lookups_records (directory_lookups v)) k = entry (lookups_records (directory_lookups w)) k.
