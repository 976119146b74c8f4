(** How much work a read is (C79). *)

From Verif Require Export SpecSteps.
From Verif Require Import Steps.

(** The steps that are performed, whatever comes of them: operations of the tape, and turns of
    loops. *)
Fixpoint work {A} (m : steps A) (e : env) (p : N) : N :=
  match m with
  | Return _ | Raise _ | Abort => 0
  | Build k => work (k (opts e)) e p
  | Loop k => 1 + work k e p
  | Tell k => 1 + work (k p) e p
  | Seek q k => 1 + work k e q
  | Take k =>
      match content e p with
      | Some b => 1 + work (k b) e (p + 1)
      | None => 1
      end
  end.

(** The most work that a file of [n] bytes can cause. *)
Definition effort {A} (r : request A) (n : N) : N :=
  let m := n + 16 in
  match r with
  | RequestFile _ | RequestFont _ => 4 * m
  | RequestCpal => 6 * m
  | RequestFvar => 2 ^ 18 * m
  | RequestGdef => 8 * m ^ 3
  | RequestGsub => 14 * m ^ 5
  | RequestGpos => 14 * m ^ 5 + 6 * 2 ^ 32 * m ^ 2
  end.
