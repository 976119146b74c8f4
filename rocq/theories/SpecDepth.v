(** How deep the rules of lookups are nested: lookups ask for others by the actions of their rules. *)

From Verif Require Export SpecKerning.

(** A rule of the lookup [k] asks for the lookup [l].  [sub] gives the subtables of lookups. *)
Definition gsub_asks (sub : N -> N -> GsubType -> Prop) (k l : N) : Prop :=
  exists j t before xs after actions a, sub k j t /\ gsub_rule t before xs after actions /\ In a actions /\
    action_lookup_index a = l.

Definition gpos_asks (sub : N -> N -> GposType -> Prop) (k l : N) : Prop :=
  exists j t before xs after actions a, sub k j t /\ gpos_rule t before xs after actions /\ In a actions /\
    action_lookup_index a = l.

(** From the lookup [k] at most [d] steps are possible to a lookup that is asked for. *)
Fixpoint nests (asks : N -> N -> Prop) (d : nat) (k : N) : Prop :=
  forall l, asks k l -> match d with O => False | S d => nests asks d l end.
