(** What follows from the extents. *)

From Verif Require Export ProofExtentTables SpecReach.
From Verif Require Import ProofRequests ProofAccess.
From Verif Require ProofReach ProofExtend.

Lemma cut_bounded n f : bounded f -> bounded (cut n f).
Proof. intros H p L. unfold cut. rewrite (H p L). destruct (p <? n); reflexivity. Qed.

Lemma cut_extends n f : extends (cut n f) f.
Proof. intros p b. unfold cut. destruct (p <? n); [auto|discriminate]. Qed.

Lemma cut_agree lo n f : agree lo n f (cut n f).
Proof. intros p L. unfold cut. destruct (N.ltb_spec p n); [reflexivity|lia]. Qed.

(** The bytes of the extent are enough. *)
Theorem extent_enough {A} (r : request A) o f g p v q :
  bounded f -> bounded g -> reader r (mkEnv f o) p = Ok (v, q) -> agree p (p + extent o r v) f g ->
  reader r (mkEnv g o) p = Ok (v, q).
Proof.
  intros Hf Hg H G. set (n := p + extent o r v) in *.
  assert (X : reader r (mkEnv (cut n g) o) p = Ok (v, q)).
  { rewrite <- (proj1 (request_extent r o f p v q n Hf H) (N.le_refl _)). symmetry.
    apply ProofReach.request_local; [apply cut_bounded, Hf|apply cut_bounded, Hg|].
    intros x [L _]. unfold cut. destruct (N.ltb_spec x n); [apply G; lia|reflexivity]. }
  pose proof (request_mono r o o (cut n g) g p (or_introl eq_refl) (cut_extends n g)) as K.
  rewrite X in K. exact K.
Qed.

Theorem extent_within_reach {A} (r : request A) o f p v q :
  bounded f -> reader r (mkEnv f o) p = Ok (v, q) -> extent o r v <= reach r.
Proof.
  intros Hf H. destruct (N.le_gt_cases (extent o r v) (reach r)) as [L|L]; [exact L|].
  pose proof (proj2 (request_extent r o f p v q (p + reach r) Hf H) ltac:(lia)) as X.
  rewrite <- (ProofReach.request_local r o f (cut (p + reach r) f) p Hf (cut_bounded _ _ Hf)
    (cut_agree _ _ _)), H in X.
  discriminate X.
Qed.

(** Taking a table whose extent is within its declared length. *)
Theorem take_declared {A} (r : request A) d o this t f g record p v q :
  bounded f -> bounded g ->
  first_record (offsets_records (font_offsets this)) (table_tag t) record ->
  record_checksum d f record = record_checksum d g record ->
  agree (offset_record_offset record) (offset_record_offset record + offset_record_length record) f g ->
  font_take d this t (reader r) (mkEnv f o) p = Ok (Some v, q) -> extent o r v <= offset_record_length record ->
  font_take d this t (reader r) (mkEnv g o) p = Ok (Some v, q).
Proof.
  intros Hf Hg Hr Hc G H L. rewrite (take_present _ _ _ _ _ _ _ Hr) in H.
  rewrite (take_present _ _ _ _ _ _ _ Hr). unfold checksum_test in *. cbn [content opts] in *.
  rewrite <- Hc. match goal with |- match ?x with _ => _ end = _ => destruct x end; try discriminate H.
  destruct (reader r (mkEnv f o) (offset_record_offset record)) as [[w s]| |] eqn:X; try discriminate H.
  injection H as -> ->. rewrite (extent_enough r o f g _ v q Hf Hg X); [reflexivity|].
  intros x K. apply G. lia.
Qed.
