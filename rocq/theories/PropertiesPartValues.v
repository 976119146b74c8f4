(** What a part of a table can be that is asked for by itself (C82). *)

From Verif Require Import ProofValues Samples.

(** C82: as C80, whatever the tape answers, a part has the shape of its type and its fields have
    the ranges of theirs, and every such value is given by some tape. *)
Theorem C82_values {A} (r : piece A) o v : piece_base r < 2 ^ 63 ->
  ((exists T s s', exec T (piece_steps r) o s = Gives v s') <-> may_be o r v).
Proof. exact (piece_values r o v). Qed.
Print Assumptions C82_values.

(** In particular what is read from a file, wherever the parameters point. *)
Theorem C82_read_values {A} (r : piece A) o f p v : reads o (piece_reader r) f p v -> may_be o r v.
Proof. exact (piece_read_values r o f p v). Qed.
Print Assumptions C82_read_values.

(** A coverage of format 1 that is asked for as such may have any number as its format, but its
    count is right; an anchor may be missing, but not if there is an offset; a color has bytes. *)
Example C82_example_values :
  (exists T s s', exec T (piece_steps PieceCoverage1) debug_build s = Gives (mkCoverage1 7 2 [3; 5]) s') /\
  ~ (exists T s s', exec T (piece_steps PieceCoverage1) debug_build s = Gives (mkCoverage1 1 3 [3; 5]) s') /\
  (exists T s s', exec T (piece_steps (PieceBase 1000 2)) debug_build s =
    Gives (mkBase [0; 12] [None; Some (AnchorFormat1 (mkAnchor1 1 (-4) 9))]) s') /\
  ~ (exists T s s', exec T (piece_steps (PieceBase 1000 2)) debug_build s =
    Gives (mkBase [8; 12] [None; Some (AnchorFormat1 (mkAnchor1 1 (-4) 9))]) s') /\
  (exists T s s', exec T (piece_steps PieceColor) debug_build s = Gives (mkColor 255 0 7 255) s') /\
  ~ (exists T s s', exec T (piece_steps PieceColor) debug_build s = Gives (mkColor 256 0 7 255) s').
Proof.
  rewrite !C82_values by reflexivity. split; [|split; [|split; [|split; [|split]]]].
  - cbn. unfold counts, u16. repeat split; repeat constructor; lia.
  - intros [H _]. discriminate H.
  - cbn. unfold anchors_loose, anchors_ranges, presence_wf, counts, u16, i16.
    repeat split; repeat constructor; cbn; discriminate || lia.
  - intros ((_ & _ & H & _) & _). inversion H as [|? ? ? ? X]. destruct X as [X _].
    specialize (X eq_refl). discriminate X.
  - cbn. unfold u8. lia.
  - cbn. unfold u8. lia.
Qed.
