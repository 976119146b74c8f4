(** Property C67: how much of the file a value needs. *)

From Verif Require Import ProofExtentUse Samples Fixtures.

(** C67: a value is read as before when the file is cut at the end of its extent or
    later; when it is cut earlier, the read fails at the end of the file. *)
Theorem C67_extent {A} (r : request A) o f p v q n :
  bounded f -> reader r (mkEnv f o) p = Ok (v, q) ->
  (p + extent o r v <= n -> reader r (mkEnv (cut n f) o) p = Ok (v, q)) /\
  (n < p + extent o r v -> reader r (mkEnv (cut n f) o) p = Err UnexpectedEnd).
Proof. exact (request_extent r o f p v q n). Qed.
Print Assumptions C67_extent.

(** C67: every file with the same bytes there gives the same value. *)
Theorem C67_enough {A} (r : request A) o f g p v q :
  bounded f -> bounded g -> reader r (mkEnv f o) p = Ok (v, q) -> agree p (p + extent o r v) f g ->
  reader r (mkEnv g o) p = Ok (v, q).
Proof. exact (extent_enough r o f g p v q). Qed.
Print Assumptions C67_enough.

Theorem C67_reach {A} (r : request A) o f p v q :
  bounded f -> reader r (mkEnv f o) p = Ok (v, q) -> extent o r v <= reach r.
Proof. exact (extent_within_reach r o f p v q). Qed.
Print Assumptions C67_reach.

(** C67: of a table whose extent is within the length in the directory, nothing after
    the declared end matters. *)
Theorem C67_declared {A} (r : request A) d o this t f g record p v q :
  bounded f -> bounded g ->
  first_record (offsets_records (font_offsets this)) (table_tag t) record ->
  record_checksum d f record = record_checksum d g record ->
  agree (offset_record_offset record) (offset_record_offset record + offset_record_length record) f g ->
  font_take d this t (reader r) (mkEnv f o) p = Ok (Some v, q) -> extent o r v <= offset_record_length record ->
  font_take d this t (reader r) (mkEnv g o) p = Ok (Some v, q).
Proof. exact (take_declared r d o this t f g record p v q). Qed.
Print Assumptions C67_declared.

(** The tables of actual fonts. Those of Open Sans and Adobe VF Prototype are needed to the
    last byte, except for the substitutions of the latter: they end with the records of the
    feature variations, of which only the header is read. *)
Example C67_example :
  match reader RequestGdef (mkEnv (file_of open_sans_gdef) debug_build) 0 with
  | Ok (v, _) => extent debug_build RequestGdef v = 30 /\ length open_sans_gdef = 30%nat
  | _ => False
  end /\
  match reader RequestFvar (mkEnv (file_of adobe_vf_fvar) debug_build) 0 with
  | Ok (v, _) => extent debug_build RequestFvar v = 168 /\ length adobe_vf_fvar = 168%nat
  | _ => False
  end /\
  match reader RequestGsub (mkEnv (file_of adobe_vf_gsub) debug_build) 0 with
  | Ok (v, _) => extent debug_build RequestGsub v = 1108 /\ length adobe_vf_gsub = 1160%nat /\
      reader RequestGsub (mkEnv (cut 1107 (file_of adobe_vf_gsub)) debug_build) 0 = Err UnexpectedEnd
  | _ => False
  end.
Proof. vm_compute. repeat split. Qed.

(** The colors of the sample font end where the directory says; the file goes on, with two
    bytes that the checksum covers. *)
Example C67_example_declared :
  extent debug_build RequestCpal sample_colors = 26 /\
  reads debug_build (font_take sample_deps sample_font TableColorPalettes (reader RequestCpal)) sample_file 0
    (Some sample_colors) /\
  record_checksum sample_deps sample_file (mkOffsetRecord (Tag "C" "P" "A" "L") 352259106 60 26) =
    record_checksum sample_deps (cut 88 sample_file) (mkOffsetRecord (Tag "C" "P" "A" "L") 352259106 60 26) /\
  sample_file 88 <> cut 88 sample_file 88 /\
  reads debug_build (font_take sample_deps sample_font TableColorPalettes (reader RequestCpal))
    (cut 88 sample_file) 0 (Some sample_colors).
Proof. repeat apply conj; try (eexists; vm_compute; reflexivity); vm_compute; try reflexivity;
  discriminate. Qed.
