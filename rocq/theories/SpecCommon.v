(** Which bytes a value comes from, for property C72. *)

From Verif Require Export Api.

(** The bytes that two contents have in common. *)
Definition common (f g : file) : file := fun p =>
  match f p, g p with
  | Some a, Some b => if Byte.eqb a b then Some a else None
  | _, _ => None
  end.

(** The content without the byte at [i]. *)
Definition without (i : N) (f : file) : file := fun p => if p =? i then None else f p.

(** The bytes without which [v] would not be read. *)
Definition needed {A} (o : options) (m : M A) (f : file) (p : N) (v : A) (i : N) : Prop :=
  ~ reads o m (without i f) p v.
