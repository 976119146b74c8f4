(** Reading from any tape gives what is in the file, unless the tape fails (C78). *)

From Verif Require Export SpecSteps ProofSteps.
From Verif Require Import Samples Steps StepsReaders.

(** ** Any tape *)

Definition faithful {S A} (at_ : S -> N -> Prop) (x : ending S A) (y : res (A * N)) : Prop :=
  match x with
  | Gives v s => exists q, y = Ok (v, q) /\ at_ s q
  | Refuses x => y = Err x
  | Crashes => y = Panic
  | Breaks => True
  end.

Lemma exec_run T f at_ {A} (m : steps A) o : serves T f at_ ->
  forall s p, at_ s p -> faithful at_ (exec T m o s) (run m (mkEnv f o) p).
Proof.
  intros H. induction m as [a|x| |k IH|k IH|k IH|q k IH|k IH]; intros s p Hs; cbn; auto.
  - exists p. auto.
  - pose proof (serves_tell _ _ _ H s p Hs) as E.
    destruct (tell T s) as [[q| |] s']; cbn; auto; [|contradiction].
    destruct E as [-> E]. auto.
  - pose proof (serves_seek _ _ _ H s p q Hs) as E.
    destruct (seek T q s) as [[[]| |] s']; cbn; auto. contradiction.
  - pose proof (serves_take _ _ _ H s p Hs) as E. destruct (take T s) as [[b| |] s']; cbn; auto.
    + destruct E as [-> E]. apply IH, E.
    + rewrite E. reflexivity.
Qed.

Lemma exec_sound T {A} (m : steps A) o s : sound T -> exec T m o s <> Breaks.
Proof.
  intros H. revert s. induction m as [a|x| |k IH|k IH|k IH|q k IH|k IH]; intros s; cbn; auto; try discriminate.
  - pose proof (sound_tell _ H s) as E. destruct (tell T s) as [[|  |] s']; auto; discriminate.
  - pose proof (sound_seek _ H q s) as E. destruct (seek T q s) as [[|  |] s']; auto; discriminate.
  - pose proof (sound_take _ H s) as E. destruct (take T s) as [[|  |] s']; auto; discriminate.
Qed.

Lemma same_exec T f at_ {A} (m : steps A) m' o s p :
  same m m' -> serves T f at_ -> at_ s p -> faithful at_ (exec T m o s) (m' (mkEnv f o) p).
Proof. intros E H Hs. rewrite <- (E (mkEnv f o) p). apply (exec_run T f at_); assumption. Qed.

(** ** A tape that fails at given times *)

Lemma flaky_serves f faults : serves (flaky f faults) f (fun s p => fst s = p).
Proof.
  split; intros [p' i] p; cbn; intros; subst; destruct (faults i); cbn; auto. destruct (f p); auto.
Qed.

Lemma flaky_breaks {A} (m : steps A) f faults o : forall p i,
  exec (flaky f faults) m o (p, i) = Breaks <->
  exists k, (k < uses m (mkEnv f o) p)%nat /\ faults (i + k)%nat = true.
Proof.
  assert (Z : forall i (P : nat -> Prop) n, P i -> exists k, (k < S n)%nat /\ P (i + k)%nat).
  { intros i P n H. exists 0%nat. rewrite Nat.add_0_r. split; [lia|exact H]. }
  assert (N : forall {B} (x : ending (N * nat) B) i n, faults i = false ->
    (x = Breaks <-> exists k, (k < n)%nat /\ faults (S i + k)%nat = true) ->
    (x = Breaks <-> exists k, (k < S n)%nat /\ faults (i + k)%nat = true)).
  { intros B x i n F E. rewrite E. split.
    - intros [k [L K]]. exists (S k). split; [lia|]. rewrite <- K. f_equal. lia.
    - intros [[|k] [L K]]; [rewrite Nat.add_0_r, F in K; discriminate|].
      exists k. split; [lia|]. rewrite <- K. f_equal. lia. }
  induction m as [a|x| |k IH|k IH|k IH|q k IH|k IH]; intros p i; cbn;
    try (split; [discriminate|intros [j [L _]]; lia]); auto.
  - destruct (faults i) eqn:F; [split; [intros _; apply (Z i (fun j => faults j = true)), F|reflexivity]|].
    apply N; auto.
  - destruct (faults i) eqn:F; [split; [intros _; apply (Z i (fun j => faults j = true)), F|reflexivity]|].
    apply N; auto.
  - destruct (faults i) eqn:F.
    + split; [|reflexivity]. intros _. destruct (f p); apply (Z i (fun j => faults j = true)), F.
    + destruct (f p); [apply N; auto|]. split; [discriminate|]. intros [[|j] [L K]]; [|lia].
      rewrite Nat.add_0_r, F in K. discriminate.
Qed.

(** ** A tape with a buffer *)

Lemma fill_nth f size : forall p i b, nth_error (fill f size p) i = Some b -> f (p + N.of_nat i) = Some b.
Proof.
  induction size as [|size IH]; intros p i b H; [destruct i; discriminate H|]. unfold fill in H.
  fold (fill f) in H.
  cbn in H. destruct (f p) eqn:E; [|destruct i; discriminate H]. destruct i as [|i]; cbn in H.
  - rewrite N.add_0_r. congruence.
  - apply IH in H. rewrite <- H. f_equal. lia.
Qed.

(** What is in the buffer is what is in the file there. *)
Definition buffered_at (f : file) (s : N * (N * list byte)) (p : N) : Prop :=
  fst s = p /\ forall i b, nth_error (snd (snd s)) i = Some b -> f (fst (snd s) + N.of_nat i) = Some b.

Lemma buffered_serves f size : serves (buffered f size) f (buffered_at f).
Proof.
  split.
  - intros s p [<- H]. cbn. repeat split; auto.
  - intros s p q [_ H]. cbn. split; auto.
  - intros [p' [start bytes]] p [E H]. cbn in E, H. subst p'. cbn -[fill].
    destruct ((start <=? p) && (p - start <? N.of_nat (length bytes))) eqn:I.
    + apply andb_prop in I as [I1 I2]. apply N.leb_le in I1. apply N.ltb_lt in I2.
      destruct (nth_error bytes (N.to_nat (p - start))) as [b|] eqn:K.
      * split; [|split; [reflexivity|exact H]]. apply H in K. rewrite <- K. f_equal. lia.
      * apply nth_error_None in K. lia.
    + rewrite N.sub_diag. change (N.to_nat 0) with 0%nat.
      destruct (nth_error (fill f (S size) p) 0) as [b|] eqn:K.
      * split; [|split; [reflexivity|]].
        -- apply fill_nth in K. rewrite <- K. f_equal. lia.
        -- intros i c C. apply fill_nth in C. exact C.
      * cbn in K. destruct (f p); [discriminate K|reflexivity].
Qed.

Lemma buffered_sound f size : sound (buffered f size).
Proof.
  split; cbn -[fill]; try discriminate. intros [p [start bytes]].
  destruct (_ && _); destruct (nth_error _ _); discriminate.
Qed.

(** ** The requests *)

Lemma request_tape {A} (r : request A) T f at_ o s p :
  serves T f at_ -> at_ s p -> faithful at_ (exec T (steps_of r) o s) (reader r (mkEnv f o) p).
Proof. apply same_exec, steps_of_same. Qed.

Lemma take_tape {A} checksum_of d this t (r : request A) T f at_ o s p :
  computes checksum_of d -> serves T f at_ -> at_ s p ->
  faithful at_ (exec T (font_take checksum_of this t (steps_of r)) o s)
    (ModelFont.font_take d this t (reader r) (mkEnv f o) p).
Proof. intros C. apply same_exec, font_take_same, steps_of_same. exact C. Qed.

Lemma request_sound {A} (r : request A) T f at_ o s p v :
  serves T f at_ -> sound T -> at_ s p ->
  (reads o (reader r) f p v <-> exists s', exec T (steps_of r) o s = Gives v s') /\
  (fails o (reader r) f p <-> exists x, exec T (steps_of r) o s = Refuses x).
Proof.
  intros H B Hs. pose proof (request_tape r T f at_ o s p H Hs) as F.
  pose proof (exec_sound T (steps_of r) o s B) as N.
  unfold reads, fails. destruct (exec T (steps_of r) o s) as [w s'|x| |]; cbn in F;
    [destruct F as [q [-> _]]|rewrite F|rewrite F|congruence].
  - split; split.
    + intros [? E]. inversion E. eauto.
    + intros [? E]. inversion E. eauto.
    + intros [? E]. discriminate E.
    + intros [? E]. discriminate E.
  - split; split.
    + intros [? E]. discriminate E.
    + intros [? E]. discriminate E.
    + intros [? E]. eauto.
    + intros [? E]. eauto.
  - split; split; intros [? E]; discriminate E.
Qed.

(** ** A checksum, step by step *)

(** The sum of the words of [n] bytes, the last of them filled up with zeros. *)
Fixpoint sum_steps (n : nat) : steps N :=
  match n with
  | S (S (S (S n))) => bind take_u32 (fun w => bind (sum_steps n) (fun s => ret (w + s)))
  | 3%nat => bind take_u16 (fun w => bind take_u8 (fun b => ret (w * 2 ^ 16 + b * 2 ^ 8)))
  | 2%nat => bind take_u16 (fun w => ret (w * 2 ^ 16))
  | 1%nat => bind take_u8 (fun b => ret (b * 2 ^ 24))
  | 0%nat => ret 0
  end.

Definition sum_of (r : OffsetRecord) : steps N :=
  Seek (offset_record_offset r)
    (bind (sum_steps (N.to_nat (offset_record_length r))) (fun s => ret (s mod 2 ^ 32))).

Definition summing : deps :=
  mkDeps (truetype_accept sample_deps) (fun f r => outcome (run (sum_of r) (mkEnv f debug_build) 0)).

Lemma sum_steps_build f o : forall n p,
  run (sum_steps n) (mkEnv f o) p = run (sum_steps n) (mkEnv f debug_build) p.
Proof.
  fix IH 1. intros [|[|[|[|n]]]] p; try reflexivity. cbn [sum_steps]. rewrite !run_bind.
  change (run take_u32 (mkEnv f o) p) with (run take_u32 (mkEnv f debug_build) p).
  destruct (run take_u32 (mkEnv f debug_build) p) as [[w q]| |]; try reflexivity.
  rewrite !run_bind, (IH n). reflexivity.
Qed.

Lemma sum_of_computes : computes sum_of summing.
Proof.
  intros r [f o] p. unfold summing, sum_of. cbn [record_checksum run content].
  rewrite !run_bind, sum_steps_build.
  destruct (run (sum_steps _) _ _) as [[]| |]; reflexivity.
Qed.
