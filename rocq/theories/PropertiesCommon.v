(** Property C72: reading loses nothing. *)

From Verif Require Import SpecExtent ProofCommon ProofDepartures Samples.

(** C72: two contents from which the same value is read have all in common that it takes to read it. *)
Theorem C72_common {A} (r : request A) o f g p v :
  bounded f -> bounded g -> reads o (reader r) f p v -> reads o (reader r) g p v ->
  reads o (reader r) (common f g) p v.
Proof. exact (request_common r o f g p v). Qed.
Print Assumptions C72_common.

(** C72: a content gives the value exactly if it has the same bytes where they are needed. *)
Theorem C72_exact {A} (r : request A) o f g p v :
  bounded f -> bounded g -> reads o (reader r) f p v ->
  reads o (reader r) g p v <-> forall i, needed o (reader r) f p v i -> g i = f i.
Proof. exact (needed_exactly r o f g p v). Qed.
Print Assumptions C72_exact.

(** C72: when a byte is missing, either it is needed and that is reported, or it makes no difference. *)
Theorem C72_needed {A} (r : request A) o f p v q i :
  reader r (mkEnv f o) p = Ok (v, q) ->
  (needed o (reader r) f p v i -> reader r (mkEnv (without i f) o) p = Err UnexpectedEnd) /\
  (~ needed o (reader r) f p v i -> reader r (mkEnv (without i f) o) p = Ok (v, q)).
Proof. exact (needed_or_not r o f p v q i). Qed.
Print Assumptions C72_needed.

(** C72: the bytes that are needed are within the extent of the value. *)
Theorem C72_within {A} (r : request A) o f p v i :
  bounded f -> reads o (reader r) f p v -> needed o (reader r) f p v i -> p <= i < p + extent o r v.
Proof. exact (needed_within r o f p v i). Qed.
Print Assumptions C72_within.

(** Two bytes between the header and the only color. *)
Example C72_example :
  bounded (words (gap 5)) /\ bounded (words (gap 6)) /\
  reads debug_build (reader RequestCpal) (words (gap 5)) 0 gap_value /\
  reads debug_build (reader RequestCpal) (words (gap 6)) 0 gap_value /\
  needed debug_build (reader RequestCpal) (words (gap 5)) 0 gap_value 13 /\
  ~ needed debug_build (reader RequestCpal) (words (gap 5)) 0 gap_value 14 /\
  needed debug_build (reader RequestCpal) (words (gap 5)) 0 gap_value 16.
Proof.
  repeat (apply conj; [first [by_size | eexists; vm_compute; reflexivity | intros [q H];
    vm_compute in H; discriminate
    | intros H; apply H; eexists; vm_compute; reflexivity]|]).
  intros [q H]. vm_compute in H. discriminate.
Qed.
