(** How reading can go wrong: the errors and panics that are possible, and no others (C54, C80, C82). *)

From Verif Require Import ProofReported ProofChange Samples Encode.

(** C54: the errors that a build can report for a table, exactly: each of them is reported for
    some file. *)
Theorem C54_exact {A} (r : request A) o x :
  (exists f p, bounded f /\ refuses o (reader r) f p x) <-> errors_of_files o r x.
Proof. exact (request_file_errors r o x). Qed.
Print Assumptions C54_exact.

(** C80: whatever the tape answers, the errors are these, and each is reported on some tape. *)
Theorem C80_errors {A} (r : request A) o x :
  (exists T s, exec T (steps_of r) o s = Refuses x) <-> errors_of_tapes o r x.
Proof. exact (request_reports r o x). Qed.
Print Assumptions C80_errors.

(** C80: a panic is possible only where positions are added to offsets, in a build that checks. *)
Theorem C80_crashes {A} (r : request A) o :
  (exists T s, exec T (steps_of r) o s = Crashes) <-> overflow_checks o = true /\ request_sums r = true.
Proof. exact (request_crashes r o). Qed.
Print Assumptions C80_crashes.

(** C82: the same for parts of tables. *)
Theorem C82_errors {A} (r : piece A) o x : piece_base r < 2 ^ 63 ->
  ((exists T s, exec T (piece_steps r) o s = Refuses x) <-> In x (piece_errors o r)).
Proof. exact (piece_reports r o x). Qed.
Print Assumptions C82_errors.

Theorem C82_crashes {A} (r : piece A) o : piece_base r < 2 ^ 63 ->
  ((exists T s, exec T (piece_steps r) o s = Crashes) <-> overflow_checks o = true /\ piece_sums r = true).
Proof. exact (piece_crashes r o). Qed.
Print Assumptions C82_crashes.

(** An [fvar] table can be refused for its flags, but not by a build that does not look at them,
    and never for a format. *)
Example C54_example_exact :
  (exists f p, bounded f /\ refuses debug_build (reader RequestFvar) f p InvalidFlags) /\
  ~ (exists f p, bounded f /\ refuses (mkOptions true false false false false) (reader RequestFvar)
    f p InvalidFlags) /\
  ~ (exists f p, bounded f /\ refuses debug_build (reader RequestFvar) f p UnknownFormat).
Proof.
  rewrite !C54_exact. split; [|split]; cbn; intuition discriminate.
Qed.

(** Palettes of which the version is 0 at first and 1 then: no file is refused so. *)
Example C80_example_errors :
  exec (liar 0) (steps_of RequestCpal) debug_build (flat_map be16 [0; 1]) = Refuses UnexpectedValue /\
  ~ (exists f p, bounded f /\ refuses debug_build (reader RequestCpal) f p UnexpectedValue) /\
  ~ (exists T s, exec T (steps_of RequestCpal) debug_build s = Refuses Malformed).
Proof.
  split; [vm_compute; reflexivity|]. rewrite C54_exact, C80_errors. split; cbn; intuition discriminate.
Qed.

(** A table of fonts is read without sums, and palettes are not. *)
Example C80_example_crashes d :
  exec (liar (2 ^ 64 - 1)) (steps_of RequestCpal) debug_build (flat_map be16 [0; 0; 0; 0; 0; 0; 1]) = Crashes /\
  ~ (exists T s, exec T (steps_of RequestCpal) release_build s = Crashes) /\
  ~ (exists T s, exec T (steps_of (RequestFile d)) debug_build s = Crashes).
Proof.
  split; [vm_compute; reflexivity|]. rewrite !C80_crashes. split; cbn; intuition discriminate.
Qed.

(** A value without corrections is only refused if it is cut off; with one it may be malformed.
    Two values without flags are nothing at all. *)
Example C82_example_errors :
  ~ (exists T s, exec T (piece_steps (PieceSingle 1000 0x000F)) debug_build s = Refuses Malformed) /\
  (exists T s, exec T (piece_steps (PieceSingle 1000 0x004F)) debug_build s = Refuses Malformed) /\
  ~ (exists T s, exec T (piece_steps (PiecePair2 1000 0 0)) debug_build s = Refuses UnexpectedEnd) /\
  (exists T s, exec T (piece_steps (PiecePair2 1000 0 1)) debug_build s = Refuses UnexpectedEnd).
Proof.
  rewrite !C82_errors by reflexivity. split; [|split; [|split]]; cbn; intuition discriminate.
Qed.

(** Reading such a value never panics, if it is not at the end of all positions; an anchor
    behind the offset of a base can. *)
Example C82_example_crashes :
  ~ (exists T s, exec T (piece_steps (PieceSingle 1000 0x004F)) debug_build s = Crashes) /\
  (exists T s, exec T (piece_steps (PieceBase 1000 1)) debug_build s = Crashes) /\
  ~ (exists T s, exec T (piece_steps (PieceBase 1000 0)) debug_build s = Crashes).
Proof.
  rewrite !C82_crashes by reflexivity. split; [|split]; cbn; intuition discriminate.
Qed.
