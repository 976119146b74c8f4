(** Property C66: how far from its beginning a table is looked at. *)

From Verif Require Import SpecCommon ProofReach ProofFarthest Samples.

(** C66: what a read returns, a value, an error or a panic, and where it leaves the
    cursor, is decided by the bytes from its beginning to its reach. *)
Theorem C66_local {A} (r : request A) o f g p :
  bounded f -> bounded g -> agree p (p + reach r) f g -> reader r (mkEnv f o) p = reader r (mkEnv g o) p.
Proof. exact (request_local r o f g p). Qed.
Print Assumptions C66_local.

Theorem C66_take {A} (r : request A) d o this t f g record p :
  bounded f -> bounded g ->
  first_record (offsets_records (font_offsets this)) (table_tag t) record ->
  record_checksum d f record = record_checksum d g record ->
  agree (offset_record_offset record) (offset_record_offset record + reach r) f g ->
  font_take d this t (reader r) (mkEnv f o) p = font_take d this t (reader r) (mkEnv g o) p.
Proof. exact (take_local r d o this t f g record p). Qed.
Print Assumptions C66_take.

(** C66: the reach of a read that ever succeeds cannot be shortened: some value is
    read with the last byte of the reach and not without. *)
Theorem C66_exact {A} (r : request A) o :
  (exists f p v, bounded f /\ reads o (reader r) f p v) ->
  exists f v, bounded f /\ reads o (reader r) f 0 v /\ needed o (reader r) f 0 v (reach r - 1).
Proof. exact (farthest r o). Qed.
Print Assumptions C66_exact.

(** Color palettes in the middle of a file: what is before them and far after them
    makes no difference; the variation data of a glyph definition may be more than
    four gigabytes away. *)
Example C66_example :
  let f := file_of (be16 7 ++ sample_cpal) in
  let g p := if p <? 2 then None else if p =? 2 ^ 33 then Some "007"%byte else f p in
  bounded f /\ bounded g /\ agree 2 (2 + reach RequestCpal) f g /\ f 0 <> g 0 /\ g (2 ^ 33) = Some "007"%byte /\
  reads debug_build (reader RequestCpal) g 2 sample_colors /\
  succeeds (reader RequestGdef (mkEnv (sparse far_gdef (65535 + (2 ^ 32 - 1) + 6)) debug_build) 0) = true /\
  succeeds (reader RequestGdef (mkEnv (sparse far_gdef (65535 + (2 ^ 32 - 1) + 5)) debug_build) 0) = false.
Proof.
  intros f g. assert (B : bounded f) by (apply file_of_bounded; vm_compute; discriminate).
  split; [exact B|]. split.
  { intros p L. unfold g. destruct (N.ltb_spec p 2); [reflexivity|]. destruct (N.eqb_spec p (2 ^ 33)) as [->|_].
    - exfalso. apply L. reflexivity.
    - apply B, L. }
  split.
  { intros p [L G]. unfold g. destruct (N.ltb_spec p 2); [lia|]. destruct (N.eqb_spec p (2 ^ 33)) as [->|_].
    - vm_compute in G. discriminate G.
    - reflexivity. }
  split; [discriminate|]. split; [reflexivity|].
  split; [eexists; vm_compute; reflexivity|]. split; vm_compute; reflexivity.
Qed.

(** Every table is read from some file, and so is a font if any is accepted; the
    last byte that may matter to glyph positioning is 137 gigabytes away. *)
Example C66_exact_example :
  (exists f p v, bounded f /\ reads release_build (reader (RequestFont sample_deps)) f p v) /\
  (exists f p v, bounded f /\ reads release_build (reader RequestGpos) f p v) /\
  reach RequestGpos - 1 = 137434955820.
Proof.
  split; [|split; [|reflexivity]].
  - exists (file_of sample_font_bytes). eexists 0, _.
    split; [apply file_of_bounded; vm_compute; discriminate|]. eexists. vm_compute. reflexivity.
  - exists (file_of (flat_map be16 [1; 0; 10; 10; 10; 0])). eexists 0, _.
    split; [apply file_of_bounded; vm_compute; discriminate|]. eexists. vm_compute. reflexivity.
Qed.
