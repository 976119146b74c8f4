(** A device whose deltas fill their last word (C77). *)

From Verif Require Export ProofTrim ProofStandard.
From Verif Require Import ProofRequests ProofFindings.

(** The words of a [GPOS] table that ends with such a device. *)
Definition device_words : list N :=
  [1; 0; 10; 12; 14; 0; 0; 1; 4; 1; 0; 1; 8; 1; 10; 17; 5; 16; 1; 1; 7; 9; 12; 2; 4660].

Definition device_bytes : list byte :=
  flat_map (fun w => match Byte.of_N (w / 256), Byte.of_N (w mod 256) with
    | Some a, Some b => [a; b]
    | _, _ => []
    end) device_words.

Definition device_value (deltas : list N) : GlyphPositioning :=
  mkDirectory 1 0 10 12 14 0 (mkScripts 0 [] []) (mkFeatures 0 [] [])
    (mkLookups 1 [4] [mkLookupRecord 1 0 1 [8] None
      [GposSingleAdjustment (SingleAdjustmentFormat1 (mkSingleAdjustment1 1 10 17
        (mkSingle (Some 5%Z) None None None (Some 16) None None None
          (Some (CorrectionDevice (mkDevice 9 12 2 deltas))) None None None)
        (CoverageFormat1 (mkCoverage1 1 1 [7]))))]]) None.

Lemma device_bytes_laid : std_glyph_positioning_at (file_of device_bytes) 0 (device_value [4660]).
Proof.
  repeat match goal with
  | |- u16_at _ _ _ => word
  | |- i16_at _ _ _ => eexists; split; [word|vm_compute; reflexivity]
  | |- vec_at _ _ _ _ [_] => apply vec_one
  | |- u16s_at _ _ _ [_] => apply vec_one
  | |- links_at _ _ _ _ => constructor
  | |- Forall2 _ _ _ => constructor
  | |- _ /\ _ => split
  | |- _ \/ _ => left; reflexivity
  | |- _ <> _ => discriminate
  | |- link_at _ _ _ _ => split
  | |- reserved_at _ _ _ _ => split
  | |- _ = _ => reflexivity
  | |- _ -> _ => intros
  | |- _ => progress (hnf)
  end.
  all: try lia; try discriminate.
  all: match goal with H : nth_error [] ?i = Some _ |- _ => destruct i; discriminate H end.
Qed.

Lemma device_bytes_read :
  std_glyph_positioning_at (file_of device_bytes) 0 (device_value [4660]) /\
  (forall o, refuses o read_glyph_positioning (file_of device_bytes) 0 UnexpectedEnd) /\
  (forall o, reads o read_glyph_positioning (file_of (device_bytes ++ ["001"; "002"]%byte)) 0
    (device_value [4660; 258])) /\
  trim_directory trim_gpos_type (device_value [4660; 258]) = blank_directory (device_value [4660]).
Proof.
  split; [exact device_bytes_laid|]. split; [|split; [|reflexivity]].
  - intros [[] [] [] [] []]; vm_compute; reflexivity.
  - intros [[] [] [] [] []]; eexists; vm_compute; reflexivity.
Qed.
