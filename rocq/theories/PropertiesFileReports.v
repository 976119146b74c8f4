(** How reading can go wrong for files: the errors and panics that are possible, and no others
    (C33, C82). *)

From Verif Require Import ProofFileReports Samples Encode.

(** C82: the errors that a build can report for a part of a table, exactly: each of them is
    reported for some file. *)
Theorem C82_file_errors {A} (r : piece A) o x : piece_modest r ->
  ((exists f p, bounded f /\ refuses o (piece_reader r) f p x) <-> In x (piece_file_errors o r)).
Proof. exact (piece_file_reports r o x). Qed.
Print Assumptions C82_file_errors.

(** C82: a panic is possible only where counts are added, in a build that checks. *)
Theorem C82_file_crashes {A} (r : piece A) o : piece_base r < 2 ^ 63 ->
  ((exists f p, bounded f /\ panics o (piece_reader r) f p) <-> overflow_checks o = true /\ has_store r = true).
Proof. exact (piece_file_crashes r o). Qed.
Print Assumptions C82_file_crashes.

(** C33: of the tables, only [GDEF] can make a build panic, and only one that checks. *)
Theorem C33_tables {A} (r : request A) o :
  (exists f p, bounded f /\ panics o (reader r) f p) <-> overflow_checks o = true /\ is_gdef r = true.
Proof. exact (request_file_crashes r o). Qed.
Print Assumptions C33_tables.

(** A base with no classes of marks is read from any file, and one with many may be malformed,
    cut off or have an anchor of no known format.  The header of [GDEF] is never refused for an
    unexpected version, because the version has been looked at before; on a tape that
    changes it is. *)
Example C82_example_file_errors :
  piece_modest (PieceBase 1000 0) /\ piece_modest (PieceBase 1000 65535) /\
  (forall x, ~ exists f p, bounded f /\ refuses debug_build (piece_reader (PieceBase 1000 0)) f p x) /\
  (exists f p, bounded f /\ refuses debug_build (piece_reader (PieceBase 1000 65535)) f p Malformed) /\
  (exists f p, bounded f /\ refuses debug_build (piece_reader (PieceSingle 1000 0x0040)) f p Malformed) /\
  ~ (exists f p, bounded f /\ refuses debug_build (piece_reader (PieceSingle 1000 0xFF00)) f p UnexpectedEnd) /\
  ~ (exists f p, bounded f /\ refuses debug_build (piece_reader PieceGdefHeader) f p UnexpectedValue).
Proof.
  split; [split; reflexivity|]. split; [split; reflexivity|].
  split; [intros x|]; rewrite !C82_file_errors by (split; try reflexivity; exact I).
  - cbn. tauto.
  - split; [|split; [|split]]; cbn; intuition discriminate.
Qed.

(** Item variations with too many regions and deltas, and the same in another build. *)
Example C82_example_file_crashes :
  panics debug_build (piece_reader PieceStoreRecord) (file_of (flat_map be16 [0; 65535; 1; 0])) 0 /\
  ~ (exists f p, bounded f /\ panics release_build (piece_reader PieceStoreRecord) f p) /\
  ~ (exists f p, bounded f /\ panics debug_build (piece_reader (PieceBase 1000 7)) f p).
Proof.
  split; [vm_compute; reflexivity|]. rewrite !C82_file_crashes by reflexivity.
  split; cbn; intuition discriminate.
Qed.

Example C33_example_tables :
  panics debug_build (reader RequestGdef) (file_of overflowing_gdef) 0 /\
  ~ (exists f p, bounded f /\ panics release_build (reader RequestGdef) f p) /\
  ~ (exists f p, bounded f /\ panics debug_build (reader RequestGpos) f p).
Proof.
  split; [vm_compute; reflexivity|]. rewrite !C33_tables. split; cbn; intuition discriminate.
Qed.
