(** Bytes in front of a table change neither its errors nor where the tape is left. *)

From Verif Require Import ProofShift ProofPieces ProofRequests Samples.

(** C36: [f] is [g] with [k] bytes in front, either with holes or not.  The value is the same, the error
    is the same, and the cursor is [k] further on. *)
Theorem C36_outcome {A} (r : request A) o k f g p :
  bounded f -> (forall q, g q = f (k + q)) ->
  reader r (mkEnv f o) (k + p) = moved k (reader r (mkEnv g o) p).
Proof. exact (request_shifted r o k f g p). Qed.
Print Assumptions C36_outcome.

(** C82: and so for every type; the position that is a parameter is moved too. *)
Theorem C82_outcome {A} (r : piece A) o k f g p :
  bounded f -> (forall q, g q = f (k + q)) -> piece_base (shifted k r) < 2 ^ 63 ->
  piece_reader (shifted k r) (mkEnv f o) (k + p) = moved k (piece_reader r (mkEnv g o) p).
Proof. exact (piece_shifted r o k f g p). Qed.
Print Assumptions C82_outcome.

(** Color palettes with seven in two bytes in front; the same cut short; and version 2, which is refused. *)
Example C36_example_outcome :
  (forall l, N.of_nat (length l) <= 100 -> bounded (file_of (be16 7 ++ l))) /\
  (forall l q, file_of l q = file_of (be16 7 ++ l) (2 + q)) /\
  reader RequestCpal (mkEnv (file_of sample_cpal) debug_build) 0 = Ok (sample_colors, 26) /\
  reader RequestCpal (mkEnv (file_of (be16 7 ++ sample_cpal)) debug_build) 2 = Ok (sample_colors, 28) /\
  reader RequestCpal (mkEnv (file_of (be16 7 ++ firstn 25 sample_cpal)) debug_build) 2 = Err UnexpectedEnd /\
  reader RequestCpal (mkEnv (file_of (be16 7 ++ be16 2)) debug_build) 2 = Err UnknownVersion.
Proof.
  split; [|split; [|repeat split; vm_compute; reflexivity]].
  - intros l H. apply file_of_bounded. rewrite app_length. change (length (be16 7)) with 2%nat.
    change (2 ^ 63) with 9223372036854775808. lia.
  - intros l q. exact (drops_prefix (be16 7) l q).
Qed.

(** A base record whose anchor is counted from 10: two bytes further, from 12.  Counted from 10 it is
    another anchor, or none. *)
Example C82_example_outcome :
  piece_base (shifted 2 (PieceBase 10 1)) < 2 ^ 63 /\
  piece_reader (PieceBase 10 1) (mkEnv (file_of base_bytes) debug_build) 6 = Ok (base_value, 8) /\
  piece_reader (shifted 2 (PieceBase 10 1)) (mkEnv (file_of (be16 7 ++ base_bytes)) debug_build) 8 =
    Ok (base_value, 10) /\
  piece_reader (PieceBase 10 1) (mkEnv (file_of (be16 7 ++ base_bytes)) debug_build) 8 = Err UnknownFormat /\
  piece_reader (shifted 2 (PieceBase 10 1)) (mkEnv (file_of (be16 7 ++ firstn 19 base_bytes)) debug_build) 8 =
    Err UnexpectedEnd.
Proof. repeat split; vm_compute; reflexivity. Qed.
