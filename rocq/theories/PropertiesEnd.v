(** Properties: running out of bytes. *)

From Verif Require Import ProofEnd ProofReach ProofExtend SpecCommon.

(** C73: a read that runs out of bytes lacks a certain byte, not farther away than the
    table reaches: as long as that byte is missing, nothing else that is supplied helps. *)
Theorem C73_missing {A} (r : request A) o f p :
  bounded f -> refuses o (reader r) f p UnexpectedEnd ->
  exists i, p <= i < p + reach r /\ f i = None /\
    forall g, bounded g -> supplies p (p + reach r) f g -> g i = None -> refuses o (reader r) g p UnexpectedEnd.
Proof. exact (request_missing r o f p). Qed.
Print Assumptions C73_missing.

Theorem C73_provided {A} (r : request A) o f p :
  bounded f -> (forall i, p <= i < p + reach r -> f i <> None) -> ~ refuses o (reader r) f p UnexpectedEnd.
Proof. exact (request_provided r o f p). Qed.
Print Assumptions C73_provided.

(** C73: this is reported exactly if more bytes would make a difference. *)
Theorem C73_exact {A} (r : request A) o f p :
  bounded f -> p + reach r <= 2 ^ 63 ->
  refuses o (reader r) f p UnexpectedEnd <->
  exists g, bounded g /\ (forall q b, f q = Some b -> g q = Some b) /\
    reader r (mkEnv g o) p <> reader r (mkEnv f o) p.
Proof. exact (request_end r o f p). Qed.
Print Assumptions C73_exact.

(** C73: at the end of a file there is a least length it has to have. *)
Theorem C73_short {A} (r : request A) o l p :
  N.of_nat (length l) <= 2 ^ 63 -> refuses o (reader r) (file_of l) p UnexpectedEnd ->
  exists n, N.of_nat (length l) < n <= p + reach r /\
    forall more, N.of_nat (length (l ++ more)) < n -> N.of_nat (length (l ++ more)) <= 2 ^ 63 ->
    refuses o (reader r) (file_of (l ++ more)) p UnexpectedEnd.
Proof. exact (request_short r o l p). Qed.
Print Assumptions C73_short.

(** C73: taking a table, once its checksum has been computed. *)
Theorem C73_take {A} (r : request A) d o this t f record p c :
  bounded f -> first_record (offsets_records (font_offsets this)) (table_tag t) record ->
  record_checksum d f record = Ok c -> refuses o (font_take d this t (reader r)) f p UnexpectedEnd ->
  exists i, offset_record_offset record <= i < offset_record_offset record + reach r /\ f i = None.
Proof. exact (take_missing r d o this t f record p c). Qed.
Print Assumptions C73_take.

(** Color palettes without their last byte, or without one in the middle, whatever
    follows; with zeros everywhere there is nothing to run out of. *)
Example C73_example :
  let f := file_of (firstn 25 sample_cpal) in
  let g := without 20 (file_of (sample_cpal ++ be16 7)) in
  bounded f /\ bounded g /\ 0 + reach RequestCpal <= 2 ^ 63 /\
  refuses debug_build (reader RequestCpal) f 0 UnexpectedEnd /\
  refuses debug_build (reader RequestCpal) g 0 UnexpectedEnd /\
  (exists h, bounded h /\ (forall q b, f q = Some b -> h q = Some b) /\
    reads debug_build (reader RequestCpal) h 0 sample_colors) /\
  (forall i, 0 <= i < 0 + reach RequestCpal -> sparse [] (2 ^ 33) i <> None) /\
  refuses (mkOptions true false false true true)
    (font_take sample_deps sample_font TableColorPalettes (reader RequestCpal))
    (file_of (firstn 80 sample_font_bytes)) 0 UnexpectedEnd.
Proof.
  intros f g. assert (B : bounded (file_of (sample_cpal ++ be16 7))) by (apply file_of_bounded;
    vm_compute; discriminate).
  split; [apply file_of_bounded; vm_compute; discriminate|].
  split; [intros i L; unfold g, without; destruct (i =? 20); [reflexivity|exact (B i L)]|].
  split; [vm_compute; discriminate|]. split; [vm_compute; reflexivity|].
  split; [vm_compute; reflexivity|]. split.
  { exists (file_of (firstn 25 sample_cpal ++ skipn 25 sample_cpal)). rewrite firstn_skipn.
    split; [apply file_of_bounded; vm_compute; discriminate|].
    split; [exact (extends_truncate 25 sample_cpal)|].
    eexists. vm_compute. reflexivity. }
  split; [|vm_compute; reflexivity].
  intros i L. change (0 + reach RequestCpal) with 4295229435 in L. unfold sparse.
  change (2 ^ 33) with 8589934592.
  destruct (N.ltb_spec i 8589934592); [discriminate|lia].
Qed.
