(** Reading from tapes other than files (C78). *)

From Verif Require Import ProofTapes Samples Fixtures.

(** C78: whatever a tape gives that answers truly about a file is what is in the file. *)
Theorem C78_any_tape {A} (r : request A) T f at_ o s p :
  serves T f at_ -> at_ s p ->
  match exec T (steps_of r) o s with
  | Gives v s' => exists q, reader r (mkEnv f o) p = Ok (v, q) /\ at_ s' q
  | Refuses x => reader r (mkEnv f o) p = Err x
  | Crashes => reader r (mkEnv f o) p = Panic
  | Breaks => True
  end.
Proof. exact (request_tape r T f at_ o s p). Qed.
Print Assumptions C78_any_tape.

(** The same for [take], with any steps for the checksum. *)
Theorem C78_any_take {A} checksum_of d this t (r : request A) T f at_ o s p :
  computes checksum_of d -> serves T f at_ -> at_ s p ->
  match exec T (StepsReaders.font_take checksum_of this t (steps_of r)) o s with
  | Gives v s' => exists q, font_take d this t (reader r) (mkEnv f o) p = Ok (v, q) /\ at_ s' q
  | Refuses x => font_take d this t (reader r) (mkEnv f o) p = Err x
  | Crashes => font_take d this t (reader r) (mkEnv f o) p = Panic
  | Breaks => True
  end.
Proof. exact (take_tape checksum_of d this t r T f at_ o s p). Qed.
Print Assumptions C78_any_take.

(** A tape that does not fail is as good as the file. *)
Theorem C78_sound_tape {A} (r : request A) T f at_ o s p v :
  serves T f at_ -> sound T -> at_ s p ->
  (reads o (reader r) f p v <-> exists s', exec T (steps_of r) o s = Gives v s') /\
  (fails o (reader r) f p <-> exists x, exec T (steps_of r) o s = Refuses x).
Proof. exact (request_sound r T f at_ o s p v). Qed.
Print Assumptions C78_sound_tape.

(** A failure is reported exactly if it hits an operation that is performed. *)
Theorem C78_failures {A} (r : request A) f faults o p i :
  exec (flaky f faults) (steps_of r) o (p, i) = Breaks <->
  exists k, (k < uses (steps_of r) (mkEnv f o) p)%nat /\ faults (i + k)%nat = true.
Proof. exact (flaky_breaks (steps_of r) f faults o p i). Qed.
Print Assumptions C78_failures.

(** Tapes of both kinds: with failures, and with a buffer of any size. *)
Theorem C78_flaky f faults : serves (flaky f faults) f (fun s p => fst s = p).
Proof. exact (flaky_serves f faults). Qed.
Print Assumptions C78_flaky.

Theorem C78_buffered f size : serves (buffered f size) f (buffered_at f) /\ sound (buffered f size).
Proof. exact (conj (buffered_serves f size) (buffered_sound f size)). Qed.
Print Assumptions C78_buffered.

(** The [fvar] table of an actual font takes 179 operations.  A failure of one of them is
    reported, one after them is not met; with a buffer of seven bytes the table is read. *)
Example C78_example :
  uses (steps_of RequestFvar) (mkEnv (file_of adobe_vf_fvar) debug_build) 0 = 179%nat /\
  exec (flaky (file_of adobe_vf_fvar) (Nat.eqb 178)) (steps_of RequestFvar) debug_build (0, 0%nat) = Breaks /\
  (exists v, exec (flaky (file_of adobe_vf_fvar) (Nat.eqb 179)) (steps_of RequestFvar) debug_build (0, 0%nat) =
      Gives v (168, 179%nat) /\ reads debug_build (reader RequestFvar) (file_of adobe_vf_fvar) 0 v) /\
  (exists v s, exec (buffered (file_of adobe_vf_fvar) 6) (steps_of RequestFvar) debug_build (0, (0, [])) =
      Gives v s /\ reads debug_build (reader RequestFvar) (file_of adobe_vf_fvar) 0 v).
Proof.
  split; [vm_compute; reflexivity|]. split; [vm_compute; reflexivity|]. split.
  - eexists. split; [vm_compute; reflexivity|]. eexists. vm_compute. reflexivity.
  - eexists. eexists. split; [vm_compute; reflexivity|]. eexists. vm_compute. reflexivity.
Qed.

(** A table taken from a font with its checksum, which is computed step by step. *)
Example C78_example_take :
  computes sum_of summing /\
  exec (flaky sample_file (fun _ => false)) (StepsReaders.font_take sum_of sample_font TableColorPalettes
    (steps_of RequestCpal)) debug_build (0, 0%nat) = Gives (Some sample_colors) (86, 60%nat) /\
  exec (flaky sample_file (fun _ => false)) (StepsReaders.font_take sum_of sample_font TableGlyphSubstitution
    (steps_of RequestGsub)) debug_build (0, 0%nat) = Refuses Malformed.
Proof. split; [exact sum_of_computes|]. split; vm_compute; reflexivity. Qed.
