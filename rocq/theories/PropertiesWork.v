(** How much work a read is (C79). *)

From Verif Require Import ProofToil Samples Fixtures.

(** C79: whatever is in the file and whatever comes of it. *)
Theorem C79_work {A} (r : request A) o l p :
  work (steps_of r) (mkEnv (file_of l) o) p <= effort r (N.of_nat (length l)).
Proof. exact (request_work r o l p). Qed.
Print Assumptions C79_work.

(** The same for [take], besides the checksum. *)
Theorem C79_take {A} checksum_of this t (r : request A) o l p c :
  (forall record q, work (checksum_of record) (mkEnv (file_of l) o) q <= c) ->
  work (StepsReaders.font_take checksum_of this t (steps_of r)) (mkEnv (file_of l) o) p <=
    c + 1 + effort r (N.of_nat (length l)).
Proof. exact (take_work checksum_of this t r o l p c). Qed.
Print Assumptions C79_take.

(** If it succeeds, the work is in proportion to what is given: at least one step for every
    element of every vector, and at most 256 for each. *)
Theorem C79_proportion {A} (r : request A) o f p v : reads o (reader r) f p v ->
  weight r v <= work (steps_of r) (mkEnv f o) p /\ work (steps_of r) (mkEnv f o) p <= 256 * (weight r v + 1).
Proof. exact (request_proportion r o f p v). Qed.
Print Assumptions C79_proportion.

(** The degrees are attained: files of so many bytes that take so many steps. *)
Theorem C79_degree_gsub a b c d k : a < 32763 -> b < 32763 -> c < 32763 -> d < 32763 -> k < 65535 ->
  exists l, N.of_nat (length l) = 36 + 2 * (a + b + c + d + k) /\
    forall o, a * b * c * d * k <= work (steps_of RequestGsub) (mkEnv (file_of l) o) 0.
Proof. exact (heap_toil a b c d k). Qed.
Print Assumptions C79_degree_gsub.

Theorem C79_degree_gpos a b n m : a < 32763 -> b < 32763 -> n < 65536 -> m < 65536 ->
  exists l, N.of_nat (length l) = 40 + 2 * (a + b) /\
    forall o, a * b * n * m <= work (steps_of RequestGpos) (mkEnv (file_of l) o) 0.
Proof. exact (cloud_toil a b n m). Qed.
Print Assumptions C79_degree_gpos.

Theorem C79_degree_gdef a b k : a < 32763 -> b < 32763 -> k < 8192 ->
  exists l, N.of_nat (length l) = 36 + 2 * (a + b + k) /\
    forall o, a * b * k <= work (steps_of RequestGdef) (mkEnv (file_of l) o) 0.
Proof. exact (pile_toil a b k). Qed.
Print Assumptions C79_degree_gdef.

Theorem C79_degree_fvar a n : a < 65536 -> n < 65536 ->
  exists l, N.of_nat (length l) = 36 + 4 * a /\
    forall o, n * a <= work (steps_of RequestFvar) (mkEnv (file_of l) o) 0.
Proof. exact (stack_toil a n). Qed.
Print Assumptions C79_degree_fvar.

(** Tables of actual fonts, files made to be heavy, and one of 43 bytes that is refused after
    90370 steps. *)
Example C79_example :
  work (steps_of RequestGsub) (mkEnv (file_of adobe_vf_gsub) debug_build) 0 = 1848 /\
  work (steps_of RequestFvar) (mkEnv (file_of adobe_vf_fvar) debug_build) 0 = 205 /\
  work (steps_of RequestGsub) (mkEnv (file_of (heap 5 5 5 5 5)) debug_build) 0 = 16608 /\
  work (steps_of RequestGpos) (mkEnv (file_of (cloud 5 5 20 20)) debug_build) 0 = 11908 /\
  work (steps_of RequestGdef) (mkEnv (file_of (pile 20 20 20)) debug_build) 0 = 38594 /\
  length (removelast (cloud 1 1 300 300)) = 43%nat /\
  reader RequestGpos (mkEnv (file_of (removelast (cloud 1 1 300 300))) debug_build) 0 = Err UnexpectedEnd /\
  work (steps_of RequestGpos) (mkEnv (file_of (removelast (cloud 1 1 300 300))) debug_build) 0 = 90370.
Proof. do 7 (split; [vm_compute; reflexivity|]). vm_compute. reflexivity. Qed.

(** 44 bytes that take 4294836225 steps. *)
Example C79_example_degree : exists l, length l = 44%nat /\
  forall o, 65535 * 65535 <= work (steps_of RequestGpos) (mkEnv (file_of l) o) 0.
Proof.
  destruct (C79_degree_gpos 1 1 65535 65535) as [l [L W]]; try reflexivity. exists l. split; [lia|].
  intros o. specialize (W o). lia.
Qed.

(** The same [GSUB] table: 459 elements, 1848 steps. *)
Example C79_example_proportion : exists v, reads debug_build (reader RequestGsub) (file_of adobe_vf_gsub) 0 v /\
  weight RequestGsub v = 459.
Proof. eexists. split; [eexists; vm_compute; reflexivity|]. vm_compute. reflexivity. Qed.
