(** Files that take much work (C79). *)

From Verif Require Export ProofTally ProofHeavy.

Lemma heap_toil a b c d k : a < 32763 -> b < 32763 -> c < 32763 -> d < 32763 -> k < 65535 ->
  exists l, N.of_nat (length l) = 36 + 2 * (a + b + c + d + k) /\
    forall o, a * b * c * d * k <= work (steps_of RequestGsub) (mkEnv (file_of l) o) 0.
Proof.
  intros A B C D K. destruct (heap_grows a b c d k A B C D K) as [l [v [L [R W]]]].
  exists l. split; [exact L|]. intros o. destruct (request_proportion RequestGsub o _ _ _ (R o)) as [X _].
  rewrite W in X. etransitivity; [|exact X].
  assert (d * k <= d * (2 + k)) by nia. assert (c * (d * k) <= c * (2 + d * (2 + k))) by nia.
  assert (b * (c * (d * k)) <= b * (2 + c * (2 + d * (2 + k)))) by nia. nia.
Qed.

Lemma cloud_toil a b n m : a < 32763 -> b < 32763 -> n < 65536 -> m < 65536 ->
  exists l, N.of_nat (length l) = 40 + 2 * (a + b) /\
    forall o, a * b * n * m <= work (steps_of RequestGpos) (mkEnv (file_of l) o) 0.
Proof.
  intros A B C D. destruct (cloud_grows a b n m A B C D) as [l [v [L [R W]]]].
  exists l. split; [exact L|]. intros o. destruct (request_proportion RequestGpos o _ _ _ (R o)) as [X _].
  rewrite W in X. etransitivity; [|exact X].
  assert (n * m <= n * (1 + m)) by nia. assert (b * (n * m) <= b * (2 + n * (1 + m))) by nia. nia.
Qed.

Lemma pile_toil a b k : a < 32763 -> b < 32763 -> k < 8192 ->
  exists l, N.of_nat (length l) = 36 + 2 * (a + b + k) /\
    forall o, a * b * k <= work (steps_of RequestGdef) (mkEnv (file_of l) o) 0.
Proof.
  intros A B C. destruct (pile_grows a b k A B C) as [l [v [L [R W]]]].
  exists l. split; [exact L|]. intros o. destruct (request_proportion RequestGdef o _ _ _ (R o)) as [X _].
  rewrite W in X. etransitivity; [|exact X]. assert (b * k <= b * (3 + k)) by nia. nia.
Qed.

Lemma stack_toil a n : a < 65536 -> n < 65536 ->
  exists l, N.of_nat (length l) = 36 + 4 * a /\
    forall o, n * a <= work (steps_of RequestFvar) (mkEnv (file_of l) o) 0.
Proof.
  intros A B. destruct (stack_grows a n A B) as [l [v [L [R W]]]].
  exists l. split; [exact L|]. intros o. destruct (request_proportion RequestFvar o _ _ _ (R o)) as [X _].
  rewrite W in X. etransitivity; [|exact X]. nia.
Qed.
