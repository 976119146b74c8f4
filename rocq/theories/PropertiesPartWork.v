(** How much work it is to read a part by itself (C79). *)

From Verif Require Import ProofPartWork ProofPartWeight Samples Fixtures.

(** C79: the same for every type that can be read by itself, with any parameters. *)
Theorem C79_parts {A} (r : piece A) o l p :
  work (piece_steps r) (mkEnv (file_of l) o) p <= piece_effort r (N.of_nat (length l)).
Proof. exact (piece_work r o l p). Qed.
Print Assumptions C79_parts.

(** The scripts and the lookups of an actual table of 1160 bytes; and a row of pairs without
    values, for which nothing is read, but which takes a step for each class. *)
Example C79_example_parts :
  work (piece_steps PieceScripts) (mkEnv (file_of adobe_vf_gsub) debug_build) 14 = 99 /\
  work (piece_steps PieceGsubLookups) (mkEnv (file_of adobe_vf_gsub) debug_build) 166 = 1566 /\
  (forall f p, work (piece_steps (PiecePair2s 0 300 0 0)) (mkEnv f debug_build) p = 300) /\
  piece_effort (PiecePair2s 0 300 0 0) 0 = 3804.
Proof.
  do 2 (split; [vm_compute; reflexivity|]). split; [|vm_compute; reflexivity].
  intros f p. vm_compute. reflexivity.
Qed.

(** If a part is read, the work is in proportion to what it holds. *)
Theorem C79_parts_proportion {A} (r : piece A) o f p v : reads o (piece_reader r) f p v ->
  piece_weight r v <= work (piece_steps r) (mkEnv f o) p /\
  work (piece_steps r) (mkEnv f o) p <= 256 * (piece_weight r v + 1).
Proof. exact (piece_proportion r o f p v). Qed.
Print Assumptions C79_parts_proportion.

(** C76: so that it holds no more than such a file can cause work. *)
Theorem C76_parts {A} (r : piece A) o l p v : reads o (piece_reader r) (file_of l) p v ->
  piece_weight r v <= piece_effort r (N.of_nat (length l)).
Proof. exact (piece_holds r o l p v). Qed.
Print Assumptions C76_parts.

(** The same scripts, lookups and pairs. *)
Example C76_example_parts :
  (exists v, reads debug_build (piece_reader PieceScripts) (file_of adobe_vf_gsub) 14 v /\
    piece_weight PieceScripts v = 22) /\
  (exists v, reads debug_build (piece_reader PieceGsubLookups) (file_of adobe_vf_gsub) 166 v /\
    piece_weight PieceGsubLookups v = 410) /\
  (forall f p, exists v, reads debug_build (piece_reader (PiecePair2s 0 300 0 0)) f p v /\
    piece_weight (PiecePair2s 0 300 0 0) v = 300).
Proof.
  do 2 (split; [eexists; split; [eexists; vm_compute; reflexivity|vm_compute; reflexivity]|]).
  intros f p. eexists. split; [eexists; vm_compute; reflexivity|vm_compute; reflexivity].
Qed.
