(** What can be done with an opened file over time. *)

From Verif Require Export Api ModelFont.

(** A call and what it returned: a seek, [Font::position], [Font::take] and
    [Font::take_given], or any other reader. *)
Inductive event :=
| Seek (position : N)
| Position (this : Font) (t : table) (result : res (option unit))
| Take {A : Type} (this : Font) (t : table) (m : M A) (result : res (option A))
| Read {A : Type} (m : M A) (result : res A).

(** Where the cursor may be after a call: where the call says if it succeeds, and
    anywhere if it fails. *)
Definition left_at {A} (r : res (A * N)) (q : N) : Prop :=
  match r with
  | Ok (_, p) => q = p
  | Err _ => True
  | Panic => False
  end.

(** [session d e p l]: with the cursor at [p], the calls and results in [l] can be
    observed one after another. *)
Inductive session (d : deps) (e : env) : N -> list event -> Prop :=
| session_nil p : session d e p []
| session_seek p q l : session d e q l -> session d e p (Seek q :: l)
| session_position p this t q l :
    left_at (font_position d this t e p) q -> session d e q l ->
    session d e p (Position this t (outcome (font_position d this t e p)) :: l)
| session_take A p this t (m : M A) q l :
    left_at (font_take d this t m e p) q -> session d e q l ->
    session d e p (Take this t m (outcome (font_take d this t m e p)) :: l)
| session_read A p (m : M A) q l :
    left_at (m e p) q -> session d e q l ->
    session d e p (Read m (outcome (m e p)) :: l).

(** The result is the one the call gives on a freshly opened file. *)
Definition as_fresh (d : deps) (e : env) (x : event) : Prop :=
  match x with
  | Position this t result => result = outcome (font_position d this t e 0)
  | Take this t m result => result = outcome (font_take d this t m e 0)
  | _ => True
  end.
