(** How much a part holds that is read by itself, and the work that this takes (C76, C79). *)

From Verif Require Export SpecPartWeight.
From Verif Require Import ProofTally ProofPartWork ProofPieces Steps StepsReaders.
From Coq Require Import NArith Lia List.
Local Open Scope N_scope.

Lemma piece_tally {A} (r : piece A) : tally (piece_steps r) 0 256 (piece_weight r).
Proof.
  destruct r; cbn [piece_steps piece_weight];
    first [eapply tally_weaken; [solve [eauto with tally]|lia]|idtac].
  all: eapply tally_weaken; [|].
  1: apply (read_lookup_record_tally _ _ 64); [lia|apply read_gsub_type_tally].
  2: apply (read_lookups_tally _ _ 64); [lia|apply read_gsub_type_tally].
  3: apply (read_lookup_record_tally _ _ 104); [lia|apply read_gpos_type_tally].
  4: apply (read_lookups_tally _ _ 104); [lia|apply read_gpos_type_tally].
  all: lia.
Qed.

Lemma piece_proportion {A} (r : piece A) o f p v : reads o (piece_reader r) f p v ->
  piece_weight r v <= work (piece_steps r) (mkEnv f o) p /\
  work (piece_steps r) (mkEnv f o) p <= 256 * (piece_weight r v + 1).
Proof.
  intros [q R]. rewrite <- (piece_same r) in R. destruct (piece_tally r _ _ _ _ R). lia.
Qed.

Lemma piece_holds {A} (r : piece A) o l p v : reads o (piece_reader r) (file_of l) p v ->
  piece_weight r v <= piece_effort r (N.of_nat (length l)).
Proof.
  intros R. eapply N.le_trans; [apply (piece_proportion r o _ p v R)|apply piece_work].
Qed.
