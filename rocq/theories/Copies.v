(** Tables of the fonts of /repo/tests, read, written and read again. *)

From Verif Require Export Fixtures ProofWritten.

Definition copy_of {A} (o : options) (r : request A) (l : list byte) : list byte :=
  match table_of o r l with
  | Ok v => written r v
  | _ => []
  end.

(** The bytes [l] are a table that can be written, and its copy holds the same data. *)
Definition copied {A} (o : options) (r : request A) (l : list byte) : Prop :=
  exists v, reads o (reader r) (file_of l) 0 v /\
    in_range o r v /\ well_formed o r v /\ writable r v /\
    exists w, reads o (reader r) (file_of (copy_of o r l)) 0 w /\ erased r w = erased r v.

Lemma copied_check {A} o (r : request A) l :
  size l <= 2 ^ 63 -> holds (table_of o r l) (writable r) -> copied o r l.
Proof.
  intros L H. unfold copied, copy_of. destruct (table_of o r l) as [v| |] eqn:E; try contradiction.
  apply table_of_reads in E. pose proof (file_of_bounded l L) as B. cbn [holds] in H.
  pose proof (read_in_range r o _ 0 v B E) as R. pose proof (request_shape r o _ 0 v B E) as W.
  exists v. repeat (split; [assumption|]). exact (rewritten_reads r o _ 0 v B E H).
Qed.
