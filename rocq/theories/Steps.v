(** Reading step by step: what is asked of the tape, in which order.

    Tape.v gives a reader as a function of the whole file.  Here it is a tree of
    steps instead, so that a tape that breaks down (C78) and the work that is
    done (C79) can be spoken of.  The readers are in StepsReaders.v, and
    ProofSteps.v shows that on a file they do what those of the model do. *)

From Verif Require Export Tape.

(** What a reader does next. *)
Inductive steps (A : Type) :=
| Return (a : A)                       (* [Ok(value)], src/font.rs:46 *)
| Raise (x : error)                    (* [raise!], src/file.rs:16 *)
| Abort                                (* a panic *)
| Build (k : options -> steps A)       (* [cfg(feature = ..)], src/font.rs:38 *)
| Loop (k : steps A)                   (* one turn of a loop, src/tables/glyph_positioning/element.rs:137 *)
| Tell (k : N -> steps A)              (* [tape.position()?], src/layout/directory.rs:27 *)
| Seek (q : N) (k : steps A)           (* [tape.jump(q)?], src/font.rs:42 *)
| Take (k : byte -> steps A).          (* one byte of [tape.take()?], src/font.rs:77 *)
Arguments Return {A}.
Arguments Raise {A}.
Arguments Abort {A}.
Arguments Build {A}.
Arguments Loop {A}.
Arguments Tell {A}.
Arguments Seek {A}.
Arguments Take {A}.

(** Rust's [?], as in src/font.rs:42: nothing follows an error. *)
Fixpoint bind {A B} (m : steps A) (k : A -> steps B) : steps B :=
  match m with
  | Return a => k a
  | Raise x => Raise x
  | Abort => Abort
  | Build m => Build (fun o => bind (m o) k)
  | Loop m => Loop (bind m k)
  | Tell m => Tell (fun p => bind (m p) k)
  | Seek q m => Seek q (bind m k)
  | Take m => Take (fun b => bind (m b) k)
  end.

Declare Scope steps_scope.
Notation "x <- m ;; k" := (bind m (fun x => k))
  (at level 61, m at next level, right associativity) : steps_scope.
Local Open Scope steps_scope.

(** The operations of Tape.v. *)
Definition ret {A} (a : A) : steps A := Return a.
Definition raise {A} (x : error) : steps A := Raise x.
Definition panic {A} : steps A := Abort.
Definition ask : steps options := Build Return.
Definition get_position : steps N := Tell Return.
Definition jump (q : N) : steps unit := Seek q (Return tt).
Definition take_byte : steps byte := Take Return.

(** [tape.stay], src/tables/glyph_positioning/element.rs:259: the position is asked for,
    and sought again afterwards. *)
Definition stay {A} (m : steps A) : steps A :=
  position <- get_position;;
  a <- m;;
  _ <- jump position;;
  ret a.

(** [tape.peek], src/file.rs:15. *)
Definition peek {A} (m : steps A) : steps A := stay m.

(** [(0..count).map(|i| f(i)).collect::<Result<Vec<_>>>()] from index [i] on,
    as in src/tables/glyph_positioning/element.rs:137. *)
Fixpoint for_range {A} (i count : nat) (f : nat -> steps A) : steps (list A) :=
  match count with
  | O => ret []
  | S count' =>
      Loop (
        v <- f i;;
        vs <- for_range (S i) count' f;;
        ret (v :: vs))
  end.
