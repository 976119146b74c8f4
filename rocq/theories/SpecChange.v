(** A file that changes while it is read (C80). *)

From Verif Require Export SpecSteps.
From Verif Require Import Steps.

(** The file whose content is [versions i] at the time of operation [i] of the tape. *)
Definition changing (versions : nat -> file) : tape := {|
  state := N * nat;
  tell s := let (p, i) := s in (Answer p, (p, S i));
  seek q s := let (_, i) := s in (Answer tt, (q, S i));
  take s := let (p, i) := s in
    match versions i p with
    | Some b => (Answer b, (p + 1, S i))
    | None => (Over, (p, S i))
    end |}.

(** What is looked at, from operation [i] on: positions, and what is found there at the time. *)
Fixpoint looks {A} (m : steps A) (versions : nat -> file) (o : options) (p : N) (i : nat) : list (N * option byte) :=
  match m with
  | Return _ | Raise _ | Abort => []
  | Build k => looks (k o) versions o p i
  | Loop k => looks k versions o p i
  | Tell k => looks (k p) versions o p (S i)
  | Seek q k => looks k versions o q (S i)
  | Take k =>
      (p, versions i p) ::
      match versions i p with
      | Some b => looks (k b) versions o (p + 1) (S i)
      | None => []
      end
  end.

(** Nothing is found changed: whatever is looked at more than once is the same each time. *)
Definition steady (seen : list (N * option byte)) : Prop :=
  forall q x y, In (q, x) seen -> In (q, y) seen -> x = y.

(** [g] is patched together: each of its bytes is that of some version. *)
Definition patchwork (versions : nat -> file) (g : file) : Prop := forall q, exists i, g q = versions i q.
