(** Properties C50-C53: what is written is read back. *)

From Verif Require Import ProofWritten Copies Samples.

(** C50. *)
Theorem C50_read_back {A} (r : request A) o f p v :
  bounded f -> in_range o r v -> well_formed o r v -> writable r v -> bytes_at f p (written r v) ->
  exists w, reads o (reader r) f p w /\ erased r w = erased r v.
Proof. exact (written_reads r o f p v). Qed.
Print Assumptions C50_read_back.

(** The glyph substitutions of a font, written anew: longer than the original, in which
    some structures are shared. *)
Example C50_example :
  size source_serif_gsub = 2762 /\
  size (copy_of debug_build RequestGsub source_serif_gsub) = 2838 /\
  copied debug_build RequestGsub source_serif_gsub.
Proof.
  split; [vm_compute; reflexivity|]. split; [vm_compute; reflexivity|].
  apply copied_check; vm_compute; repeat split; discriminate.
Qed.

(** C51. *)
Theorem C51_in_range {A} (r : request A) o f p v :
  bounded f -> reads o (reader r) f p v -> in_range o r v.
Proof. exact (read_in_range r o f p v). Qed.
Print Assumptions C51_in_range.

(** A lookup with reserved flags, in a build that does not check them. *)
Example C51_example :
  let f := words [1; 0; 10; 12; 14; 0; 0; 1; 4; 1; 0xE0; 0] in
  let v := mkDirectory 1 0 10 12 14 0 (mkScripts 0 [] []) (mkFeatures 0 [] [])
    (mkLookups 1 [4] [mkLookupRecord 1 0xE0 0 [] None []]) None in
  reads (mkOptions true false false false false) read_glyph_substitution f 0 v /\
  fails debug_build read_glyph_substitution f 0 /\
  in_range (mkOptions true false false false false) RequestGsub v /\
  ~ in_range debug_build RequestGsub v.
Proof.
  cbn zeta. split; [eexists; vm_compute; reflexivity|]. split; [eexists; vm_compute; reflexivity|].
  split.
  - repeat (constructor || discriminate).
  - intros (_ & _ & (_ & H) & _). apply Forall_inv in H.
    destruct H as (_ & (_ & C) & _). discriminate (C eq_refl).
Qed.

(** C52. *)
Theorem C52_rewritten {A} (r : request A) o f p v :
  bounded f -> reads o (reader r) f p v -> writable r v ->
  exists w, reads o (reader r) (file_of (written r v)) 0 w /\ erased r w = erased r v.
Proof. exact (rewritten_reads r o f p v). Qed.
Print Assumptions C52_rewritten.

Example C52_example :
  copied debug_build RequestGpos source_serif_gpos /\
  copied debug_build RequestFvar adobe_vf_fvar /\
  copied debug_build RequestCpal kalnia_glaze_cpal /\
  copied debug_build RequestGdef open_sans_gdef.
Proof. repeat split; apply copied_check; vm_compute; repeat split; discriminate. Qed.

(** C53. *)
Theorem C53_canonical {A} (r : request A) o v w :
  in_range o r v -> well_formed o r v -> writable r v ->
  in_range o r w -> well_formed o r w -> writable r w ->
  (written r v = written r w <-> erased r v = erased r w).
Proof. exact (written_canonical r o v w). Qed.
Print Assumptions C53_canonical.

(** Writing what was read from a copy gives the same copy. *)
Example C53_example :
  source_serif_gsub <> copy_of debug_build RequestGsub source_serif_gsub /\
  copy_of debug_build RequestGsub (copy_of debug_build RequestGsub source_serif_gsub) =
    copy_of debug_build RequestGsub source_serif_gsub.
Proof.
  split; [|vm_compute; reflexivity]. intros H. apply (f_equal size) in H. vm_compute in H.
  discriminate H.
Qed.
