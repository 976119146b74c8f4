(** The values that the parts of tables can have (C82). *)

From Verif Require Export SpecValues ProofPieces ProofRangesCan.
From Verif Require Import Steps StepsReaders.

Lemma lookup_flags_only o : only o take_lookup_flags (flags16 (checked_flags o) 0x00E0).
Proof. unfold take_lookup_flags. part. Qed.

Lemma value_flags_only o : only o take_value_flags (flags16 (checked_flags o) 0xFF00).
Proof. unfold take_value_flags. part. Qed.

Lemma axis_flags_only o : only o take_axis_flags (flags16 (checked_flags o) 0xFFFE).
Proof. unfold take_axis_flags. part. Qed.

Lemma instance_flags_only o : only o take_instance_flags (flags16 (checked_flags o) 0xFFFF).
Proof. unfold take_instance_flags. part. Qed.
#[global] Hint Resolve lookup_flags_only value_flags_only axis_flags_only instance_flags_only : only.

Lemma piece_only {A} (r : piece A) o : only o (piece_steps r) (may_be o r).
Proof.
  destruct r; cbn [piece_steps may_be]; eauto with only; apply lookups_only; auto with only.
Qed.

#[global] Hint Resolve gsub_type_can gpos_type_can device_can : can.

(** A [table!] that stands for a variant. *)
Ltac variant m :=
  match goal with V : _ |- can _ _ ?v => destruct v; cbn in V end; given; unfold value_flags_fits in *;
  unfold m, take_value_flags; whole.

Lemma piece_can {A} (r : piece A) o v : piece_base r < 2 ^ 63 -> may_be o r v -> can o (piece_steps r) v.
Proof.
  destruct r; cbn [piece_steps may_be piece_base]; change (?p < 2 ^ 63) with (low p); intros W V;
    try solve [given; eauto with can];
    lazymatch goal with
    | |- can _ (read_lookup_record _) _ => destruct V; eapply lookup_record_can; [|eassumption..]; auto with can
    | |- can _ (read_lookups _) _ => destruct V; eapply lookups_can; [|eassumption..]; auto with can
    | |- can _ read_cpal_header _ => idtac
    | |- can _ read_single_adjustment _ => idtac
    | |- can _ read_pair_adjustment _ => idtac
    | |- can _ take_lookup_flags _ => apply can_flags, V
    | |- can _ take_value_flags _ => apply can_flags, V
    | |- can _ take_axis_flags _ => apply can_flags, V
    | |- can _ take_instance_flags _ => apply can_flags, V
    | |- can _ ?m _ => try solve [variant m]
    end.
  - unfold value_flags_fits in *. unfold read_single_adjustment.
    destruct v as [[]|[]]; cbn in V; given.
    + eapply can_peek; [apply (can_u16 o 1); reflexivity|]. eapply can_next; [reflexivity|].
      unfold read_single_adjustment1, take_value_flags. whole.
    + eapply can_peek; [apply (can_u16 o 2); reflexivity|]. eapply can_next; [reflexivity|].
      unfold read_single_adjustment2, take_value_flags. whole.
  - unfold value_flags_fits in *. unfold read_pair_adjustment.
    destruct v as [[]|[]]; cbn in V; given.
    + eapply can_peek; [apply (can_u16 o 1); reflexivity|]. eapply can_next; [reflexivity|].
      unfold read_pair_adjustment1, take_value_flags. whole.
    + eapply can_peek; [apply (can_u16 o 2); reflexivity|]. eapply can_next; [reflexivity|].
      unfold read_pair_adjustment2, take_value_flags. whole.
  - unfold read_cpal_header. destruct v as [[]|[]]; cbn in V; given.
    + eapply can_peek; [apply (can_u16 o 0); reflexivity|]. eapply can_next; [reflexivity|].
      unfold read_cpal_header0. whole.
    + eapply can_peek; [apply (can_u16 o 1); reflexivity|]. eapply can_next; [reflexivity|].
      unfold read_cpal_header1. whole.
Qed.

Lemma piece_values {A} (r : piece A) o v : piece_base r < 2 ^ 63 ->
  ((exists T s s', exec T (piece_steps r) o s = Gives v s') <-> may_be o r v).
Proof.
  intros B. split.
  - intros (T & s & s' & E). exact (piece_only r o v (exec_can T _ o s v s' E)).
  - intros V. destruct (can_exec _ o v (piece_can r o v B V)) as [s E]. exists scripted, s, []. exact E.
Qed.

Lemma run_can {A} (m : steps A) e : forall p v q, run m e p = Ok (v, q) -> can (opts e) m v.
Proof.
  induction m as [a|x| |m IH|m IH|m IH|q m IH|m IH]; cbn [run can]; intros p v q' E.
  - injection E as -> _. reflexivity.
  - discriminate.
  - discriminate.
  - exact (IH (opts e) _ _ _ E).
  - exact (IH _ _ _ E).
  - exists p. exact (IH p _ _ _ E).
  - exact (IH _ _ _ E).
  - destruct (content e p) as [b|]; [|discriminate]. exists b. exact (IH b _ _ _ E).
Qed.

Lemma piece_read_values {A} (r : piece A) o f p v : reads o (piece_reader r) f p v -> may_be o r v.
Proof.
  intros [q E]. rewrite <- (piece_same r) in E. exact (piece_only r o v (run_can _ (mkEnv f o) p v q E)).
Qed.
