(** What a font file says, once in terms of its bytes and once in terms of a table that was taken from it. *)

From Verif Require Export SpecRules SpecCorrections.

(** The first table with a tag of the font at [p] is at [q]. *)
Definition found_at (f : file) (p : N) (t : tag) (q : N) : Prop :=
  exists n i, u16_at f (p + 4) n /\ i < n /\ tag_at f (p + 12 + 16 * i) t /\
    (forall j, j < i -> ~ tag_at f (p + 12 + 16 * j) t) /\ u32_at f (p + 20 + 16 * i) q.

(** The font has a table, of which [Q] holds. *)
Definition font_says (f : file) (p : N) (t : tag) (Q : N -> Prop) : Prop := exists q, found_at f p t q /\ Q q.

(** A table was taken, of which [P] holds. *)
Definition taken_says {A} (w : option A) (P : A -> Prop) : Prop := exists v, w = Some v /\ P v.
