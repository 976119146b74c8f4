(** Where a read leaves the tape, and what it gives, in a file with more bytes in front. *)

From Verif Require Export Api.

(** The same value or error, and a cursor that is [k] further on. *)
Definition moved {A} (k : N) (x : res (A * N)) : res (A * N) :=
  match x with
  | Ok (v, q) => Ok (v, k + q)
  | Err e => Err e
  | Panic => Panic
  end.
