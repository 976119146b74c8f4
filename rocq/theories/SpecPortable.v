(** Values that do not depend on the handling of incomplete tables. *)

From Verif Require Export SpecBuilds Requests.

(** No list is missing, and no anchor of a mark. *)
Definition complete {A} (r : request A) : A -> Prop :=
  match r in request A return A -> Prop with
  | RequestGsub => complete_directory
  | RequestGpos => fun v => complete_directory v /\ forall m, has_mark v m -> mark1_anchor_offset m <> 0
  | _ => fun _ => True
  end.
