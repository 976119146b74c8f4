(** Property C84: the parts of what was read can be read by themselves. *)

From Verif Require Import ProofPlaces Samples ProofDepartures.

(** C84: every part of a table that was read is what its own reader reads at its own position, *)
Theorem C84_again o f {A} (r : request A) v p x :
  bounded f -> reads o (reader r) f p v -> inside o r v p x ->
  reads o (piece_reader (place_piece x)) f (place_position x) (place_value x).
Proof. exact (inside_again o f r v p x). Qed.
Print Assumptions C84_again.

(** and so is every part of a part that was read by itself; *)
Theorem C84_parts o f {A} (r : piece A) v p x :
  bounded f -> piece_base r < 2 ^ 63 -> reads o (piece_reader r) f p v -> In x (places o r v p) ->
  reads o (piece_reader (place_piece x)) f (place_position x) (place_value x).
Proof. exact (parts_again o f r v p x). Qed.
Print Assumptions C84_parts.

(** parts of one type at one position are equal, whichever tables they are in and however they
    are reached. *)
Theorem C84_shared o f {A B} (r : request A) (s : request B) v w p q C (t : piece C) x y a :
  bounded f -> reads o (reader r) f p v -> reads o (reader s) f q w ->
  inside o r v p (Place t x a) -> inside o s w q (Place t y a) -> x = y.
Proof. exact (inside_shared o f r s v w p q C t x y a). Qed.
Print Assumptions C84_shared.

(** So are the flags of a record, which are two bytes of the record itself. *)
Theorem C84_flags o f p n : bounded f ->
  (forall v, reads o (piece_reader PieceGsubLookupRecord) f p v ->
    reads o (piece_reader PieceLookupFlags) f (p + 2) (lookup_record_flags v)) /\
  (forall v, reads o (piece_reader PieceGposLookupRecord) f p v ->
    reads o (piece_reader PieceLookupFlags) f (p + 2) (lookup_record_flags v)) /\
  (forall v, reads o (piece_reader PieceSingleAdjustment1) f p v ->
    reads o (piece_reader PieceValueFlags) f (p + 4) (single_adjustment1_value_flags v)) /\
  (forall v, reads o (piece_reader PieceSingleAdjustment2) f p v ->
    reads o (piece_reader PieceValueFlags) f (p + 4) (single_adjustment2_value_flags v)) /\
  (forall v, reads o (piece_reader PiecePairAdjustment1) f p v ->
    reads o (piece_reader PieceValueFlags) f (p + 4) (pair_adjustment1_value1_flags v)) /\
  (forall v, reads o (piece_reader PiecePairAdjustment1) f p v ->
    reads o (piece_reader PieceValueFlags) f (p + 6) (pair_adjustment1_value2_flags v)) /\
  (forall v, reads o (piece_reader PiecePairAdjustment2) f p v ->
    reads o (piece_reader PieceValueFlags) f (p + 4) (pair_adjustment2_value1_flags v)) /\
  (forall v, reads o (piece_reader PiecePairAdjustment2) f p v ->
    reads o (piece_reader PieceValueFlags) f (p + 6) (pair_adjustment2_value2_flags v)) /\
  (forall v, reads o (piece_reader PieceAxisRecord) f p v ->
    reads o (piece_reader PieceAxisFlags) f (p + 16) (axis_record_flags v)) /\
  (forall v, reads o (piece_reader (PieceInstanceRecord n)) f p v ->
    reads o (piece_reader PieceInstanceFlags) f (p + 2) (instance_record_flags v)).
Proof. exact (flags_again o f p n). Qed.
Print Assumptions C84_flags.

(** A coverage that a [GDEF] and a [GSUB] have in common. *)
Example C84_example :
  bounded (words common_coverage) /\
  reads debug_build (reader RequestGdef) (words common_coverage) 0 common_definition /\
  reads debug_build (reader RequestGsub) (words common_coverage) 16 common_substitution /\
  (exists x, inside debug_build RequestGdef common_definition 0 (Place PieceCoverage x 48)) /\
  (exists x, inside debug_build RequestGsub common_substitution 16 (Place PieceCoverage x 48)).
Proof.
  refine (conj _ (conj _ (conj _ (conj common_first common_second)))).
  - by_size.
  - eexists. vm_compute. reflexivity.
  - eexists. vm_compute. reflexivity.
Qed.

(** The two value records of a pair, and the correction of the second. *)
Example C84_example_parts :
  let v := mkPair1 9 (Some (mkSingle (Some 3%Z) None None None None None None None None None None None))
    (Some (mkSingle None None None None (Some 12) None None None
      (Some (CorrectionVariation (mkVariation 1 2 32768))) None None None)) in
  bounded (words [0; 9; 3; 12; 0; 0; 1; 2; 32768]) /\
  reads debug_build (piece_reader (PiecePair1 0 1 16)) (words [0; 9; 3; 12; 0; 0; 1; 2; 32768]) 2 v /\
  map place_position (places debug_build (PiecePair1 0 1 16) v 2) = [4; 6].
Proof.
  refine (conj _ (conj _ _)); [by_size|eexists; vm_compute; reflexivity|reflexivity].
Qed.

(** The record of an axis that is hidden. *)
Example C84_example_flags :
  let f := words [0x7767; 0x6874; 1; 0; 2; 0; 3; 0; 1; 256] in
  let v := mkAxisRecord (Tag "w" "g" "h" "t") 65536 131072 196608 1 256 in
  bounded f /\ reads debug_build (piece_reader PieceAxisRecord) f 0 v /\
  reads debug_build (piece_reader PieceAxisFlags) f 16 1.
Proof.
  refine (conj _ (conj _ _)); [by_size|eexists; vm_compute; reflexivity..].
Qed.
