(** C87: a table is refused exactly if, going down each time to the first part that cannot be
    read, one gets to a part that is itself at fault. *)

From Verif Require Import Reads ProofTraced Samples.

(** C87.  The error is the one of the part that is at fault, *)
Theorem C87_error o f d A (m : M A) p x : bounded f -> whole d m ->
  (refuses o m f p x <-> exists B (n : M B) q, blamed o f (Part m p) (Part n q) /\ fault o f q n x).
Proof. exact (fun Hb Hm => whole_refused o f d A m p Hb Hm x). Qed.
Print Assumptions C87_error.

(** a panic comes from item variations with counts that are too large, *)
Theorem C87_panic o f d A (m : M A) p : bounded f -> whole d m ->
  (panics o m f p <-> overflow_checks o = true /\
    exists q, blamed o f (Part m p) (Part read_store_record q) /\ store_record_overflows f q).
Proof. exact (whole_panics o f d A m p). Qed.
Print Assumptions C87_panic.

(** and without either the table is read. *)
Theorem C87_value o f d A (m : M A) p : bounded f -> whole d m ->
  ((exists v, reads o m f p v) <->
   (forall B (n : M B) q x, blamed o f (Part m p) (Part n q) -> ~ fault o f q n x) /\
   (overflow_checks o = true ->
    forall q, blamed o f (Part m p) (Part read_store_record q) -> ~ store_record_overflows f q)).
Proof. exact (whole_read o f d A m p). Qed.
Print Assumptions C87_value.

(** What is at fault is refused, whether it is part of a table or read by itself. *)
Theorem C87_part o f p A (m : M A) x : fault o f p m x -> refuses o m f p x.
Proof. exact (fault_refused o f p A m x). Qed.
Print Assumptions C87_part.

(** The same for parts of tables that are read by themselves, *)
Theorem C87_piece_error {A} o f p (r : piece A) x : bounded f -> piece_base r < 2 ^ 63 ->
  (refuses o (piece_reader r) f p x <->
   exists B (n : M B) q, blamed o f (Part (piece_reader r) p) (Part n q) /\ fault o f q n x).
Proof. exact (fun Hb Hp => piece_refused o f p Hb r Hp x). Qed.
Print Assumptions C87_piece_error.

(** which panic for the same reason, *)
Theorem C87_piece_panic {A} o f p (r : piece A) : bounded f -> piece_base r < 2 ^ 63 ->
  (panics o (piece_reader r) f p <-> overflow_checks o = true /\
    exists q, blamed o f (Part (piece_reader r) p) (Part read_store_record q) /\ store_record_overflows f q).
Proof. exact (fun Hb => piece_panics o f p Hb r). Qed.
Print Assumptions C87_piece_panic.

(** and are read otherwise. *)
Theorem C87_piece_value {A} o f p (r : piece A) : bounded f -> piece_base r < 2 ^ 63 ->
  ((exists v, reads o (piece_reader r) f p v) <->
   (forall B (n : M B) q x, blamed o f (Part (piece_reader r) p) (Part n q) -> ~ fault o f q n x) /\
   (overflow_checks o = true -> forall q, blamed o f (Part (piece_reader r) p) (Part read_store_record q) ->
    ~ store_record_overflows f q)).
Proof. exact (fun Hb => piece_read o f p Hb r). Qed.
Print Assumptions C87_piece_value.

(** A row of two anchors, the first one missing, the second one with a format that is not known. *)
Example C87_piece_example :
  let f := words [0; 8; 1; 1; 1; 1; 7] in
  bounded f /\ piece_base (PieceBase 4 2) < 2 ^ 63 /\
  blamed debug_build f (Part (piece_reader (PieceBase 4 2)) 0) (Part read_anchor 12) /\
  fault debug_build f 12 read_anchor UnknownFormat.
Proof.
  cbv zeta. split; [apply file_of_bounded; discriminate|]. split; [reflexivity|]. split.
  - refine (BlamedBelow _ _ _ _ 0 [] (Part read_anchor 12) [] _ (PartsBase _ _ 0 4 2 [0; 8] _ _) _ _);
      [reflexivity| |constructor..].
    assert (H : take_vec 2 take_u16 (mkEnv (words [0; 8; 1; 1; 1; 1; 7]) debug_build) 0 = Ok ([0; 8], 4))
      by reflexivity.
    apply (take_u16s_takes True (mkEnv (words [0; 8; 1; 1; 1; 1; 7]) debug_build) 2 0) in H. apply H.
  - eapply FaultFormat; [constructor|]. exists 7. split; [|cbn; lia].
    assert (H : take_u16 (mkEnv (words [0; 8; 1; 1; 1; 1; 7]) debug_build) 12 = Ok (7, 14)) by reflexivity.
    apply (take_u16_takes True (mkEnv (words [0; 8; 1; 1; 1; 1; 7]) debug_build) 12) in H. apply H.
Qed.

(** Two sizes in the wrong order and nothing else: a device table is malformed, but what is read as a
    correction, which can be a device table, is cut off. *)
Example C87_device_example :
  let f := words [9; 3] in
  bounded f /\ fault debug_build f 0 read_device Malformed /\ fault debug_build f 0 read_correction UnexpectedEnd.
Proof.
  cbv zeta. split; [apply file_of_bounded; discriminate|].
  assert (word : forall p n, take_u16 (mkEnv (words [9; 3]) debug_build) p = Ok (n, p + 2) ->
    u16_at (words [9; 3]) p n)
    by (intros p n H; apply (take_u16_takes True (mkEnv (words [9; 3]) debug_build) p) in H; apply H).
  split.
  - apply (FaultOnlyDevice _ _ _ 9 3); [apply word; reflexivity..|reflexivity].
  - eapply FaultFields; [constructor|]. exists 4. split; reflexivity.
Qed.

(** A coverage with an unknown format, colors after the end of the file, and counts of item variations. *)
Example C87_example :
  fault debug_build (words bad_coverage) 40 read_coverage UnknownFormat /\
  (blamed debug_build (file_of (firstn 20 sample_cpal)) (Part read_color_palettes 0) (Part read_color 18) /\
   fault debug_build (file_of (firstn 20 sample_cpal)) 18 read_color UnexpectedEnd) /\
  (blamed debug_build (file_of overflowing_gdef) (Part read_glyph_definition 0) (Part read_store_record 30) /\
   store_record_overflows (file_of overflowing_gdef) 30).
Proof.
  assert (word : forall f p n, take_u16 (mkEnv f debug_build) p = Ok (n, p + 2) -> u16_at f p n) by
    (intros f p n H; apply (take_u16_takes True (mkEnv f debug_build) p) in H; apply H).
  assert (long : forall f p n, take_u32 (mkEnv f debug_build) p = Ok (n, p + 4) -> u32_at f p n) by
    (intros f p n H; apply (take_u32_takes True (mkEnv f debug_build) p) in H; apply H).
  assert (words_of : forall f p n l, take_vec n take_u16 (mkEnv f debug_build) p = Ok (l, p + 2 * n) ->
    u16s_at f p n l) by
    (intros f p n l H; apply (take_u16s_takes True (mkEnv f debug_build) n p) in H; apply H).
  assert (longs_of : forall f p n l, take_vec n take_u32 (mkEnv f debug_build) p = Ok (l, p + 4 * n) ->
    u32s_at f p n l) by
    (intros f p n l H; apply (take_u32s_takes True (mkEnv f debug_build) n p) in H; apply H).
  split; [|split; split].
  - eapply FaultFormat; [constructor|]. eexists. split; [apply word; reflexivity|]. cbn. lia.
  - refine (BlamedBelow _ _ _ _ 0 [Part read_color 14] (Part read_color 18) [Part read_color 22] _
      (PartsCpal0 _ _ 0 (mkCpalHeader0 0 2 1 3 14 [1]) _) _ _).
    + unfold cpal_header_at, cpal_header0_at.
      do 6 (split; [first [apply word; reflexivity | apply long; reflexivity | reflexivity]|]).
      apply words_of. reflexivity.
    + repeat constructor. eexists. vm_compute. eexists. reflexivity.
    + constructor.
  - eapply FaultFields; [constructor|]. exists 2. split; reflexivity.
  - refine (BlamedBelow _ _ _ _ 0 [Part read_marks 18] (Part read_store 18) [] _
      (PartsGdef _ _ 0 (GdefVersion13 (mkGdefHeader13 1 3 0 0 0 0 18 0)) 0 0 0 0 18 0 _ eq_refl) _ _).
    + unfold gdef_header_at, gdef_header13_at.
      repeat (split; [first [apply word; reflexivity | reflexivity]|]). apply long. reflexivity.
    + repeat constructor. eexists. vm_compute. eexists. reflexivity.
    + refine (BlamedBelow _ _ _ _ 18 [] (Part read_store_record 30) [] _
        (PartsStore _ _ 18 0 1 [12] _ _ _ _) _ _);
      [apply word; reflexivity|apply long; reflexivity|apply word; reflexivity|apply longs_of; reflexivity
      |constructor|constructor].
  - exists 0, 65535, 1, [0].
    split; [apply word; reflexivity|]. split; [apply word; reflexivity|]. split; [apply word; reflexivity|].
    split; [apply words_of; reflexivity|]. vm_compute. discriminate.
Qed.
