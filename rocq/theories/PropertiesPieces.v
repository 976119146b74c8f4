(** Every part of a table that can be asked for by itself (C82, C83). *)

From Verif Require Import ProofPieces ProofTapes Samples Fixtures.

(** C82: a part is read exactly if it is there. *)
Theorem C82_exactly {A} (r : piece A) o f p :
  bounded f -> piece_base r < 2 ^ 63 -> has_store r = false \/ overflow_checks o = false ->
  reads_exactly o (piece_reader r) f p (piece_conforms o r f p).
Proof. exact (piece_exactly r o f p). Qed.
Print Assumptions C82_exactly.

(** What is read is right even where a panic is possible, and there is one such value at most. *)
Theorem C82_reads {A} (r : piece A) o f p v :
  bounded f -> piece_base r < 2 ^ 63 -> (reads o (piece_reader r) f p v <-> piece_conforms o r f p v).
Proof. exact (piece_reads r o f p v). Qed.
Print Assumptions C82_reads.

Theorem C82_unique {A} (r : piece A) o f p v w :
  bounded f -> piece_base r < 2 ^ 63 -> piece_conforms o r f p v -> piece_conforms o r f p w -> v = w.
Proof. exact (piece_unique r o f p v w). Qed.
Print Assumptions C82_unique.

(** As C35: bytes that are missing can only cause the error that the file ends. *)
Theorem C82_holes {A} (r : piece A) o f g p :
  (forall q b, f q = Some b -> g q = Some b) ->
  piece_reader r (mkEnv f o) p = piece_reader r (mkEnv g o) p \/
  piece_reader r (mkEnv f o) p = Err UnexpectedEnd.
Proof. exact (piece_holes r o f g p). Qed.
Print Assumptions C82_holes.

(** As C36: with more bytes in front, and the position that is a parameter moved too. *)
Theorem C82_relocatable {A} (r : piece A) o prefix l p v :
  N.of_nat (length (prefix ++ l)) <= 2 ^ 63 ->
  piece_base (shifted (N.of_nat (length prefix)) r) < 2 ^ 63 ->
  (reads o (piece_reader (shifted (N.of_nat (length prefix)) r)) (file_of (prefix ++ l))
     (N.of_nat (length prefix) + p) v <->
   reads o (piece_reader r) (file_of l) p v).
Proof. exact (piece_relocate r o prefix l p v). Qed.
Print Assumptions C82_relocatable.

(** As C78: from any tape that answers truly. *)
Theorem C82_any_tape {A} (r : piece A) T f at_ o s p :
  serves T f at_ -> at_ s p ->
  match exec T (piece_steps r) o s with
  | Gives v s' => exists q, piece_reader r (mkEnv f o) p = Ok (v, q) /\ at_ s' q
  | Refuses x => piece_reader r (mkEnv f o) p = Err x
  | Crashes => piece_reader r (mkEnv f o) p = Panic
  | Breaks => True
  end.
Proof. exact (piece_tape r T f at_ o s p). Qed.
Print Assumptions C82_any_tape.

(** As C80: whatever the tape answers, there is no panic. *)
Theorem C82_no_panic {A} (r : piece A) T o :
  (overflow_checks o = true -> has_store r = false /\ piece_base r <= 2 ^ 63 /\
    forall s, match tell T s with (Answer q, _) => q <= 2 ^ 63 | _ => True end) ->
  forall s, exec T (piece_steps r) o s <> Crashes.
Proof. exact (piece_any r T o). Qed.
Print Assumptions C82_no_panic.

(** Lists of lookups and directories with tables of a type of the user's own. *)
Theorem C82_own_tables {T} (read_table : N -> M T) table_at o f :
  bounded f -> (forall n p, reads_exactly o (read_table n) f p (table_at n f p)) ->
  (forall p, reads_exactly o (read_lookup_record read_table) f p (lookup_record_at o table_at f p)) /\
  (forall p, reads_exactly o (read_lookups read_table) f p (lookups_at o table_at f p)) /\
  (forall p, reads_exactly o (read_directory read_table) f p (directory_at o table_at f p)).
Proof. exact (tables_exactly read_table table_at o f). Qed.
Print Assumptions C82_own_tables.

(** A base record at 6 whose offset 4 is counted from 10, with an anchor at 14; the same two
    bytes further; and too short a file. *)
Example C82_example :
  bounded (file_of base_bytes) /\
  reads debug_build (piece_reader (PieceBase 10 1)) (file_of base_bytes) 6 base_value /\
  piece_conforms debug_build (PieceBase 10 1) (file_of base_bytes) 6 base_value /\
  reads debug_build (piece_reader (PieceBase 12 1)) (file_of (be16 7 ++ base_bytes)) 8 base_value /\
  fails debug_build (piece_reader (PieceBase 10 1)) (file_of (firstn 19 base_bytes)) 6 /\
  (exists s, exec (buffered (file_of base_bytes) 6) (piece_steps (PieceBase 10 1)) debug_build (6, (0, [])) =
    Gives base_value s).
Proof.
  assert (B : bounded (file_of base_bytes)) by (apply file_of_bounded; vm_compute; discriminate).
  assert (R : reads debug_build (piece_reader (PieceBase 10 1)) (file_of base_bytes) 6 base_value)
    by (eexists; vm_compute; reflexivity).
  split; [exact B|]. split; [exact R|]. split; [|split; [|split]].
  - apply (C82_reads (PieceBase 10 1) debug_build _ _ _ B); [vm_compute; reflexivity|exact R].
  - eexists. vm_compute. reflexivity.
  - eexists. vm_compute. reflexivity.
  - eexists. vm_compute. reflexivity.
Qed.

(** Tables that are two bytes with the type of the lookup in front: [C82_own_tables] applies. *)
Example C82_example_own_tables :
  (forall f p, reads_exactly debug_build take_u16 f p (u16_at f p)) /\
  reads debug_build (read_lookups (fun _ => take_u16)) (words [1; 4; 3; 0; 1; 8; 77]) 0
    (mkLookups 1 [4] [mkLookupRecord 3 0 1 [8] None [77]]).
Proof.
  split.
  - intros f p. apply ProofFormats.finds_exactly. eapply Reads.takes_finds. apply Reads.take_u16_takes.
  - eexists. vm_compute. reflexivity.
Qed.

(** C83: without the bound on the position that is a parameter, a sum of two [u64] overflows. *)
Theorem C83_no_panic_refuted :
  ~ (forall A (r : piece A) o f p, bounded f -> has_store r = false -> ~ panics o (piece_reader r) f p).
Proof. exact far_refuted. Qed.
Print Assumptions C83_no_panic_refuted.

(** Nine types have such a parameter, and each of them panics. *)
Theorem C83_far_panics :
  let far := 2 ^ 64 - 1 in
  let f := file_of (repeat Byte.x01 20) in
  panics debug_build (piece_reader (PieceBase far 1)) f 0 /\
  panics debug_build (piece_reader (PieceComponent far 1)) f 0 /\
  panics debug_build (piece_reader (PieceMark1 far)) f 0 /\
  panics debug_build (piece_reader (PieceMark2 far 1)) f 0 /\
  panics debug_build (piece_reader (PieceConnection far)) f 0 /\
  panics debug_build (piece_reader (PieceSingle far 16)) f 0 /\
  panics debug_build (piece_reader (PiecePair1 far 16 0)) f 0 /\
  panics debug_build (piece_reader (PiecePair2 far 16 0)) f 0 /\
  panics debug_build (piece_reader (PiecePair2s far 1 16 0)) f 0.
Proof. exact far_panics. Qed.
Print Assumptions C83_far_panics.

(** When exactly, for a mark. *)
Theorem C83_mark o f p base : bounded f -> overflow_checks o = true ->
  (panics o (piece_reader (PieceMark1 base)) f p <->
   exists class_id offset, u16_at f p class_id /\ u16_at f (p + 2) offset /\
     (offset <> 0 \/ ignore_incomplete_marks o = false) /\ 2 ^ 64 <= base + offset).
Proof. exact (mark1_panics o f p base). Qed.
Print Assumptions C83_mark.

(** The last position that is not too far, and the next. *)
Example C83_example :
  let f p := if p <? 4 then words [7; 1] p else None in
  bounded f /\ overflow_checks debug_build = true /\
  panics debug_build (piece_reader (PieceMark1 (2 ^ 64 - 1))) f 0 /\
  fails debug_build (piece_reader (PieceMark1 (2 ^ 64 - 2))) f 0.
Proof.
  intros f. split; [|split; [reflexivity|split; [vm_compute; reflexivity|eexists; vm_compute; reflexivity]]].
  intros p H. unfold f. destruct (N.ltb_spec p 4) as [X|X]; [|reflexivity].
  exfalso. apply (N.lt_irrefl 4). apply (N.lt_trans _ (2 ^ 63)); [reflexivity|].
  apply (N.le_lt_trans _ p); assumption.
Qed.
