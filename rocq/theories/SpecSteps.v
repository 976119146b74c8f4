(** What a sequence of steps does: on a file, and on any tape. *)

From Verif Require Export Requests.
From Verif Require Import StepsReaders.

(** ** On a file *)

(** The cursor of Tape.v, moved step by step. *)
Fixpoint run {A} (m : steps A) (e : env) (p : N) : res (A * N) :=
  match m with
  | Return a => Ok (a, p)
  | Raise x => Err x
  | Abort => Panic
  | Build k => run (k (opts e)) e p
  | Loop k => run k e p
  | Tell k => run (k p) e p
  | Seek q k => run k e q
  | Take k =>
      match content e p with
      | Some b => run (k b) e (p + 1)
      | None => Err UnexpectedEnd
      end
  end.

(** How many times the tape is used. *)
Fixpoint uses {A} (m : steps A) (e : env) (p : N) : nat :=
  match m with
  | Return _ | Raise _ | Abort => 0
  | Build k => uses (k (opts e)) e p
  | Loop k => uses k e p
  | Tell k => S (uses (k p) e p)
  | Seek q k => S (uses k e q)
  | Take k =>
      match content e p with
      | Some b => S (uses (k b) e (p + 1))
      | None => 1
      end
  end.

(** ** On any tape *)

(** What an operation of a tape answers: a value, that there is no more, or that it failed. *)
Inductive reply (A : Type) :=
| Answer (a : A)
| Over
| Broken.
Arguments Answer {A}.
Arguments Over {A}.
Arguments Broken {A}.

(** An implementation of [std::io::Read] and [std::io::Seek], on which [tape::Read] is built
    (src/lib.rs:54), with whatever it keeps in its state. *)
Record tape := mkTape {
  state : Type;
  tell : state -> reply N * state;
  seek : N -> state -> reply unit * state;
  take : state -> reply byte * state }.

(** How reading from a tape ends: with a value, with an error of the reader, with a panic, or
    with the error of the tape. *)
Inductive ending (S A : Type) :=
| Gives (a : A) (s : S)
| Refuses (x : error)
| Crashes
| Breaks.
Arguments Gives {S A}.
Arguments Refuses {S A}.
Arguments Crashes {S A}.
Arguments Breaks {S A}.

Fixpoint exec (T : tape) {A} (m : steps A) (o : options) (s : state T) : ending (state T) A :=
  match m with
  | Return a => Gives a s
  | Raise x => Refuses x
  | Abort => Crashes
  | Build k => exec T (k o) o s
  | Loop k => exec T k o s
  | Tell k =>
      match tell T s with
      | (Answer p, s') => exec T (k p) o s'
      | (Over, _) => Refuses UnexpectedEnd
      | (Broken, _) => Breaks
      end
  | Seek q k =>
      match seek T q s with
      | (Answer _, s') => exec T k o s'
      | (Over, _) => Refuses UnexpectedEnd
      | (Broken, _) => Breaks
      end
  | Take k =>
      match take T s with
      | (Answer b, s') => exec T (k b) o s'
      | (Over, _) => Refuses UnexpectedEnd
      | (Broken, _) => Breaks
      end
  end.

(** [T] is a tape for the file [f]: it may fail at any time, but what it answers is true.
    [at_ s p] says that in state [s] the tape is at position [p]. *)
Record serves (T : tape) (f : file) (at_ : state T -> N -> Prop) : Prop := mkServes {
  serves_tell : forall s p, at_ s p ->
    match tell T s with
    | (Answer q, s') => q = p /\ at_ s' p
    | (Over, _) => False
    | (Broken, _) => True
    end;
  serves_seek : forall s p q, at_ s p ->
    match seek T q s with
    | (Answer _, s') => at_ s' q
    | (Over, _) => False
    | (Broken, _) => True
    end;
  serves_take : forall s p, at_ s p ->
    match take T s with
    | (Answer b, s') => f p = Some b /\ at_ s' (p + 1)
    | (Over, _) => f p = None
    | (Broken, _) => True
    end }.

(** It never fails. *)
Record sound (T : tape) : Prop := mkSound {
  sound_tell : forall s, fst (tell T s) <> Broken;
  sound_seek : forall q s, fst (seek T q s) <> Broken;
  sound_take : forall s, fst (take T s) <> Broken }.

(** ** Tapes *)

(** A file with a cursor, of which the operations with the numbers [faults] fail. *)
Definition flaky (f : file) (faults : nat -> bool) : tape := {|
  state := N * nat;
  tell s := let (p, i) := s in if faults i then (Broken, s) else (Answer p, (p, S i));
  seek q s := let (_, i) := s in if faults i then (Broken, s) else (Answer tt, (q, S i));
  take s := let (p, i) := s in
    if faults i then (Broken, s) else
    match f p with
    | Some b => (Answer b, (p + 1, S i))
    | None => (Over, (p, S i))
    end |}.

(** A file behind a buffer that is filled with [size] bytes at a time, as
    [std::io::BufReader] does: the cursor, the position of the buffer, and what is in it. *)
Definition fill (f : file) (size : nat) (p : N) : list byte :=
  (fix go size p :=
    match size with
    | O => []
    | S size => match f p with Some b => b :: go size (p + 1) | None => [] end
    end) size p.

Definition buffered (f : file) (size : nat) : tape := {|
  state := N * (N * list byte);
  tell s := (Answer (fst s), s);
  seek q s := (Answer tt, (q, snd s));
  take s :=
    let '(p, (start, bytes)) := s in
    let inside := (start <=? p) && (p - start <? N.of_nat (length bytes)) in
    let '(start, bytes) := if inside then (start, bytes) else (p, fill f (S size) p) in
    match nth_error bytes (N.to_nat (p - start)) with
    | Some b => (Answer b, (p + 1, (start, bytes)))
    | None => (Over, (p, (start, bytes)))
    end |}.

(** ** The readers *)

(** What is asked of the tape for a request. *)
Definition steps_of {A} (r : request A) : steps A :=
  match r with
  | RequestFile d => StepsReaders.read_file d
  | RequestFont d => StepsReaders.read_font d
  | RequestGdef => StepsReaders.read_glyph_definition
  | RequestGpos => StepsReaders.read_glyph_positioning
  | RequestGsub => StepsReaders.read_glyph_substitution
  | RequestCpal => StepsReaders.read_color_palettes
  | RequestFvar => StepsReaders.read_font_variations
  end.

(** [checksum_of] are the steps of [record.checksum(tape)?] (src/font.rs:39), of which only the
    outcome is known. *)
Definition computes (checksum_of : OffsetRecord -> steps N) (d : deps) : Prop :=
  forall r e p, outcome (run (checksum_of r) e p) = record_checksum d (content e) r.
