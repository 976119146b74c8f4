(** What a caller observes of a read: the vocabulary of the property theorems.

    A read is done with a reader, in a build, on the content of a file, with the
    tape's cursor at a position. *)

From Verif Require Export Tape.

(** The read returns [Ok] with this value. *)
Definition reads {A} (o : options) (m : M A) (f : file) (p : N) (v : A) : Prop :=
  exists q, m (mkEnv f o) p = Ok (v, q).

(** The read returns an error. *)
Definition fails {A} (o : options) (m : M A) (f : file) (p : N) : Prop :=
  exists x, m (mkEnv f o) p = Err x.

(** The read panics. *)
Definition panics {A} (o : options) (m : M A) (f : file) (p : N) : Prop :=
  m (mkEnv f o) p = Panic.

(** What the caller gets, without the final position of the cursor. *)
Definition outcome {A} (r : res (A * N)) : res A :=
  match r with
  | Ok (v, _) => Ok v
  | Err x => Err x
  | Panic => Panic
  end.

(** An actual file, of at most 2^63 bytes. *)
Lemma file_of_bounded l : N.of_nat (length l) <= 2 ^ 63 -> bounded (file_of l).
Proof.
  intros H p Hp. unfold file_of. apply nth_error_None. lia.
Qed.

(** The usual builds: no Cargo feature, with and without overflow checks. *)
Definition debug_build : options := mkOptions true false false false true.
Definition release_build : options := mkOptions false false false false true.

(** The read returns a value exactly when that value has the format [P], returns an
    error when no value has, and does not panic. *)
Definition reads_exactly {A} (o : options) (m : M A) (f : file) (p : N) (P : A -> Prop) : Prop :=
  (forall v, reads o m f p v <-> P v) /\
  (fails o m f p <-> forall v, ~ P v) /\
  ~ panics o m f p.

(** The same result with a function applied to the value. *)
Definition res_map {A B} (g : A -> B) (r : res A) : res B :=
  match r with
  | Ok v => Ok (g v)
  | Err x => Err x
  | Panic => Panic
  end.
