(** How much a result can hold (C76). *)

From Verif Require Import ProofHeavy Samples Fixtures.

(** C76. *)
Theorem C76_weight {A} (r : request A) o l p v :
  N.of_nat (length l) <= 2 ^ 63 -> reads o (reader r) (file_of l) p v ->
  weight r v <= capacity r (N.of_nat (length l)).
Proof. exact (weight_by_file r o l p v). Qed.
Print Assumptions C76_weight.

(** The same by the extent of the value (C67), wherever the bytes come from. *)
Theorem C76_extent {A} (r : request A) o f p v :
  bounded f -> reads o (reader r) f p v -> weight r v <= capacity r (extent o r v).
Proof. exact (weight_by_extent r o f p v). Qed.
Print Assumptions C76_extent.

(** The degrees are attained. *)
Theorem C76_degree_gsub a b c d k : a < 32763 -> b < 32763 -> c < 32763 -> d < 32763 -> k < 65535 ->
  exists l v, N.of_nat (length l) = 36 + 2 * (a + b + c + d + k) /\
    (forall o, reads o (reader RequestGsub) (file_of l) 0 v) /\
    weight RequestGsub v = a * (2 + b * (2 + c * (2 + d * (2 + k)))).
Proof. exact (heap_grows a b c d k). Qed.
Print Assumptions C76_degree_gsub.

Theorem C76_degree_gpos a b n m : a < 32763 -> b < 32763 -> n < 65536 -> m < 65536 ->
  exists l v, N.of_nat (length l) = 40 + 2 * (a + b) /\
    (forall o, reads o (reader RequestGpos) (file_of l) 0 v) /\
    weight RequestGpos v = a * (2 + b * (2 + n * (1 + m))).
Proof. exact (cloud_grows a b n m). Qed.
Print Assumptions C76_degree_gpos.

Theorem C76_degree_gdef a b k : a < 32763 -> b < 32763 -> k < 8192 ->
  exists l v, N.of_nat (length l) = 36 + 2 * (a + b + k) /\
    (forall o, reads o (reader RequestGdef) (file_of l) 0 v) /\ weight RequestGdef v = a * (2 + b * (3 + k)).
Proof. exact (pile_grows a b k). Qed.
Print Assumptions C76_degree_gdef.

Theorem C76_degree_fvar a n : a < 65536 -> n < 65536 ->
  exists l v, N.of_nat (length l) = 36 + 4 * a /\
    (forall o, reads o (reader RequestFvar) (file_of l) 0 v) /\ weight RequestFvar v = a + n * (1 + a).
Proof. exact (stack_grows a n). Qed.
Print Assumptions C76_degree_fvar.

(** Tables of actual fonts, and files made to be heavy: 86 bytes hold 4685 elements. *)
Example C76_example :
  match reader RequestGsub (mkEnv (file_of adobe_vf_gsub) debug_build) 0 with
  | Ok (v, _) => weight RequestGsub v = 459 /\ length adobe_vf_gsub = 1160%nat
  | _ => False
  end /\
  match reader RequestFvar (mkEnv (file_of adobe_vf_fvar) debug_build) 0 with
  | Ok (v, _) => weight RequestFvar v = 26 /\ length adobe_vf_fvar = 168%nat
  | _ => False
  end /\
  match reader RequestGsub (mkEnv (file_of (heap 5 5 5 5 5)) debug_build) 0 with
  | Ok (v, _) => weight RequestGsub v = 4685 /\ length (heap 5 5 5 5 5) = 86%nat
  | _ => False
  end /\
  match reader RequestGpos (mkEnv (file_of (cloud 5 5 20 20)) debug_build) 0 with
  | Ok (v, _) => weight RequestGpos v = 10560 /\ length (cloud 5 5 20 20) = 60%nat
  | _ => False
  end /\
  match reader RequestGdef (mkEnv (file_of (pile 20 20 20)) debug_build) 0 with
  | Ok (v, _) => weight RequestGdef v = 9240 /\ length (pile 20 20 20) = 156%nat
  | _ => False
  end /\
  match reader RequestFvar (mkEnv (file_of (stack 9 700)) debug_build) 0 with
  | Ok (v, _) => weight RequestFvar v = 7009 /\ length (stack 9 700) = 72%nat
  | _ => False
  end.
Proof. vm_compute. repeat split. Qed.
