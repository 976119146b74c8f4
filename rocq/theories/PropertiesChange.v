(** Reading a file that changes while it is read (C80). *)

From Verif Require Import ProofChange ProofRangesCan Samples Fixtures.

(** C80: whatever a tape answers, there is no panic, and what is given has the shape of a table
    but for the numbers of formats.  If additions are checked for overflow, the positions that
    are told have to be those of a file, and [GDEF] is excepted (C33). *)
Theorem C80_any_answers {A} (r : request A) T o :
  (overflow_checks o = true -> is_gdef r = false /\
    forall s, match tell T s with (Answer q, _) => q <= 2 ^ 63 | _ => True end) ->
  forall s, match exec T (steps_of r) o s with Gives v _ => loose r v | Crashes => False | _ => True end.
Proof. exact (request_any r T o). Qed.
Print Assumptions C80_any_answers.

(** The same for [take], if the checksum does not panic. *)
Theorem C80_any_answers_take {A} checksum_of this t (r : request A) T o :
  (overflow_checks o = true -> is_gdef r = false /\
    forall s, match tell T s with (Answer q, _) => q <= 2 ^ 63 | _ => True end) ->
  (forall record s, exec T (checksum_of record) o s <> Crashes) ->
  forall s, match exec T (StepsReaders.font_take checksum_of this t (steps_of r)) o s with
    | Gives (Some v) _ => loose r v
    | Crashes => False
    | _ => True
    end.
Proof. exact (take_any checksum_of this t r T o). Qed.
Print Assumptions C80_any_answers_take.

(** No more is known: exactly the values of that shape whose fields are in range may be given. *)
Theorem C80_exact {A} (r : request A) o v :
  (exists T s s', exec T (steps_of r) o s = Gives v s') <-> loose r v /\ ranges o r v.
Proof. exact (request_exact r o v). Qed.
Print Assumptions C80_exact.

(** What is read is the content of a file each byte of which was there at some time, unless the
    same byte was found to be different when it was read again. *)
Theorem C80_patchwork {A} (r : request A) versions o p i :
  steady (looks (steps_of r) versions o p i) ->
  exists g, patchwork versions g /\
  match exec (changing versions) (steps_of r) o (p, i) with
  | Gives v s => reader r (mkEnv g o) p = Ok (v, fst s)
  | Refuses x => reader r (mkEnv g o) p = Err x
  | Crashes => reader r (mkEnv g o) p = Panic
  | Breaks => False
  end.
Proof. exact (request_patched r versions o p i). Qed.
Print Assumptions C80_patchwork.

(** Otherwise it may be the content of no file at all. *)
Theorem C80_torn : exists versions v s, (forall i, bounded (versions i)) /\
  exec (changing versions) (steps_of RequestGdef) debug_build (0, 0%nat) = Gives v s /\
  forall o f p, bounded f -> ~ reads o (reader RequestGdef) f p v.
Proof. exact torn. Qed.
Print Assumptions C80_torn.

(** Changes elsewhere have no effect: [f] may hold no more than the bytes that are read. *)
Theorem C80_elsewhere {A} (r : request A) versions f o p i v :
  (forall i q b, f q = Some b -> versions i q = Some b) -> reads o (reader r) f p v ->
  exists s, exec (changing versions) (steps_of r) o (p, i) = Gives v s.
Proof. exact (request_kept r versions f o p i v). Qed.
Print Assumptions C80_elsewhere.

Theorem C80_elsewhere_take {A} checksum_of d this t (r : request A) versions f o p i v :
  computes checksum_of d -> (forall i q b, f q = Some b -> versions i q = Some b) ->
  reads o (font_take d this t (reader r)) f p v ->
  exists s, exec (changing versions) (StepsReaders.font_take checksum_of this t (steps_of r)) o
    (p, i) = Gives v s.
Proof. exact (take_kept checksum_of d this t r versions f o p i v). Qed.
Print Assumptions C80_elsewhere_take.

(** A class definition whose format changes from 1 to 2 at operation 24: the variant is that of
    format 1, the number is 2.  At operation 20 or 30 the change does no harm. *)
Example C80_example :
  (exists v s, exec (changing (edited 24)) (steps_of RequestGdef) debug_build (0, 0%nat) = Gives v s /\
    glyph_definition_glyph_class v = Some (ClassFormat1 (mkClass1 2 0 0 []))) /\
  (exists v s, exec (changing (edited 20)) (steps_of RequestGdef) debug_build (0, 0%nat) = Gives v s /\
    reads debug_build (reader RequestGdef) (classy 2) 0 v) /\
  (exists v s, exec (changing (edited 30)) (steps_of RequestGdef) debug_build (0, 0%nat) = Gives v s /\
    reads debug_build (reader RequestGdef) (classy 1) 0 v).
Proof.
  split; [|split].
  - eexists. eexists. split; vm_compute; reflexivity.
  - eexists. eexists. split; [vm_compute; reflexivity|]. eexists. vm_compute. reflexivity.
  - eexists. eexists. split; [vm_compute; reflexivity|]. eexists. vm_compute. reflexivity.
Qed.

(** An [fvar] table that is overwritten with zeros while its second axis is read: no byte is
    read twice. *)
Example C80_example_patchwork :
  steady (looks (steps_of RequestFvar) (erased adobe_vf_fvar 50) debug_build 0 0) /\
  exists v s, exec (changing (erased adobe_vf_fvar 50)) (steps_of RequestFvar) debug_build
    (0, 0%nat) = Gives v s /\
    map axis_record_max_value (font_variations_axis_records v) = [58982400%Z; 0%Z].
Proof.
  split; [apply steady_checked; vm_compute; reflexivity|].
  eexists. eexists. split; [vm_compute; reflexivity|]. vm_compute. reflexivity.
Qed.

(** A file that grows by a byte with every operation. *)
Example C80_example_elsewhere :
  let versions i := file_of (adobe_vf_fvar ++ repeat xff i) in
  (forall i q b, file_of adobe_vf_fvar q = Some b -> versions i q = Some b) /\
  exists v, reads debug_build (reader RequestFvar) (file_of adobe_vf_fvar) 0 v.
Proof.
  split; [|eexists; eexists; vm_compute; reflexivity].
  intros i q b. unfold file_of. intros H. rewrite nth_error_app1; [exact H|]. apply nth_error_Some. congruence.
Qed.

(** A tape that lies: told that it is at the end of all positions, the reader overflows.  With
    another lie there is a script list whatever is asked for. *)
Example C80_example_liar :
  exec (liar (2 ^ 64 - 1)) (steps_of RequestGsub) debug_build
    (flat_map be16 [1; 0; 10; 10; 10; 0; 0; 0]) = Crashes /\
  (exists v s, exec (liar 0) (steps_of RequestGsub) debug_build
    (flat_map be16 [1; 0; 10; 10; 10; 0; 0; 0]) = Gives v s /\
    loose RequestGsub v) /\
  (exists v s, exec (liar (2 ^ 64 - 1)) (steps_of RequestGsub) release_build
    (flat_map be16 [1; 0; 10; 10; 10; 0; 0; 0]) = Gives v s /\ loose RequestGsub v).
Proof.
  split; [vm_compute; reflexivity|].
  split; (eexists; eexists; split; [vm_compute; reflexivity|]; cbn; repeat split; auto; discriminate).
Qed.

(** A class definition of format 1 that says that its format is 7, which no file has, may be given;
    the same with one index too many may not. *)
Example C80_example_exact :
  let torn indices := mkGlyphDefinition (GdefVersion1 (mkGdefHeader1 1 0 12 0 0 0))
    (Some (ClassFormat1 (mkClass1 7 3 2 indices))) None None None None None in
  (exists T s s', exec T (steps_of RequestGdef) debug_build s = Gives (torn [5; 6]) s') /\
  ~ exists T s s', exec T (steps_of RequestGdef) debug_build s = Gives (torn [5; 6; 7]) s'.
Proof.
  split.
  - apply C80_exact. split; cbn; unfold presence_wf; repeat split; auto; try discriminate; repeat constructor.
  - intros H. apply C80_exact in H as [H _]. cbn in H. unfold counts in H. cbn in H.
    decompose [and] H. discriminate.
Qed.
