(** A part that is at fault is refused. *)

From Verif Require Export ProofFaults.
From Verif Require Import Reads ReadsTactics ProofLayout ProofGsub ProofGpos ProofGdef ProofCpal
  ProofFvar ProofFont ProofErrors ProofShape ProofParts.

(** ** What is there, or is missing *)

Section Either.
Context (o : options) (f : file).
Notation e := (mkEnv f o).

Lemma either_of {A} (m : M A) p P n : takes True m e p P n -> solid e m p n -> (exists v, P v) \/ misses f p n.
Proof.
  intros [_ H] [(v & E & _)|[L _]]; [left; exists v; apply (H v (p + n)), E|right; exact L].
Qed.

Lemma u16_or p : (exists n, u16_at f p n) \/ misses f p 2.
Proof. eapply either_of; [apply take_u16_takes|apply u16_solid]. Qed.

Lemma u32_or p : (exists n, u32_at f p n) \/ misses f p 4.
Proof. eapply either_of; [apply take_u32_takes|apply u32_solid]. Qed.

Lemma i16_or p : (exists n, i16_at f p n) \/ misses f p 2.
Proof. eapply either_of; [apply take_i16_takes|apply i16_solid]. Qed.

Lemma tag_or p : (exists t, tag_at f p t) \/ misses f p 4.
Proof. eapply either_of; [apply take_tag_takes|apply tag_solid]. Qed.

Lemma vec_or {A} (m : M A) (P : N -> A -> Prop) size p n :
  (forall q, takes True m e q (P q) size) -> (forall q, solid e m q size) ->
  (exists l, vec_at P size p n l) \/ misses f p (size * n).
Proof. intros T S. eapply either_of; [apply take_vec_takes, T|apply solid_vec, S]. Qed.

Lemma u16s_or p n : (exists l, u16s_at f p n l) \/ misses f p (2 * n).
Proof. apply (vec_or take_u16); [apply take_u16_takes|intros; apply u16_solid]. Qed.

Lemma u32s_or p n : (exists l, u32s_at f p n l) \/ misses f p (4 * n).
Proof. apply (vec_or take_u32); [apply take_u32_takes|intros; apply u32_solid]. Qed.

Lemma u8s_or p n : (exists l, u8s_at f p n l) \/ misses f p (1 * n).
Proof. apply (vec_or take_u8); [apply take_u8_takes|intros; apply u8_solid]. Qed.

Lemma intact_u16 p : intact f p 2 -> exists n, u16_at f p n.
Proof. intros I. destruct (u16_or p) as [H|H]; [exact H|destruct (misses_intact _ _ _ H I)]. Qed.

Lemma intact_u32 p : intact f p 4 -> exists n, u32_at f p n.
Proof. intros I. destruct (u32_or p) as [H|H]; [exact H|destruct (misses_intact _ _ _ H I)]. Qed.

Lemma intact_u16s p n : intact f p (2 * n) -> exists l, u16s_at f p n l.
Proof. intros I. destruct (u16s_or p n) as [H|H]; [exact H|destruct (misses_intact _ _ _ H I)]. Qed.

Lemma flags_or mask p : (exists v, flags_at (checked_flags o) mask f p v) \/ misses f p 2 \/
  (checked_flags o = true /\ exists v, u16_at f p v /\ N.land v mask <> 0).
Proof.
  destruct (u16_or p) as [[v Hv]|L]; [|auto]. destruct (checked_flags o) eqn:C.
  - destruct (N.eq_dec (N.land v mask) 0) as [E|E]; [left; exists v; split; auto|].
    right. right. split; [reflexivity|]. exists v. auto.
  - left. exists v. split; [exact Hv|discriminate].
Qed.

End Either.

(** ** A part at fault is refused *)

Section Refused.
Context (o : options) (f : file) (p : N).
Notation e := (mkEnv f o).

Lemma formatted_refused A (m : M A) known : formatted m known -> other_format f p known ->
  refuses o m f p UnknownFormat.
Proof.
  intros []; first [apply coverage_format | apply class_format | apply context_format
    | apply chained_context_format | apply single_substitution_format | apply single_adjustment_format
    | apply pair_adjustment_format | apply anchor_format].
Qed.

Lemma intact_sub a k b : intact f p k -> a + b <= k -> intact f (p + a) b.
Proof. intros I L i Hi. rewrite <- N.add_assoc. apply I. lia. Qed.

Lemma fixed_refused A (m : M A) k c n : fixed f p m k c -> intact f p k -> u16_at f (p + k) n -> n <> c ->
  refuses o m f p UnexpectedValue.
Proof.
  intros H. destruct H; intros I Hn N; rewrite ?N.add_0_r in Hn;
    try solve [exact (const_error _ _ _ _ _ _ Hn N)].
  - eapply variations_constants; [eassumption|exact Hn|tauto].
  - destruct (intact_u16 o f p (fun i Hi => I i ltac:(lia))) as [a Ha].
    destruct (intact_u16 o f _ (intact_sub 2 6 2 I ltac:(lia))) as [b Hb].
    destruct (intact_u16 o f _ (intact_sub 4 6 2 I ltac:(lia))) as [c Hc].
    eapply fvar_constant; eassumption.
  - destruct (intact_u16 o f p (fun i Hi => I i ltac:(lia))) as [a Ha].
    destruct (intact_u16 o f _ (intact_sub 2 6 2 I ltac:(lia))) as [b Hb].
    destruct (intact_u16 o f _ (intact_sub 4 6 2 I ltac:(lia))) as [c Hc].
    unfold refuses, read_fvar_header.
    rewrite (run_bind _ _ _ _ _ _ (u16_run e _ _ Ha)), (run_bind _ _ _ _ _ _ (u16_run e _ _ Hb)).
    replace (p + 2 + 2) with (p + 4) by lia. rewrite (run_bind _ _ _ _ _ _ (u16_run e _ _ Hc)).
    replace (p + 4 + 2) with (p + 6) by lia. exact (const_error _ _ _ _ _ _ Hn N).
  - unfold refuses, read_gdef_header1. rewrite (run_bind _ _ _ _ _ _ (const_run e _ _ H)).
    exact (const_error _ _ _ _ _ _ Hn N).
  - unfold refuses, read_gdef_header12. rewrite (run_bind _ _ _ _ _ _ (const_run e _ _ H)).
    exact (const_error _ _ _ _ _ _ Hn N).
  - unfold refuses, read_gdef_header13. rewrite (run_bind _ _ _ _ _ _ (const_run e _ _ H)).
    exact (const_error _ _ _ _ _ _ Hn N).
Qed.

Lemma flags_refused {A} mask (k : N -> M A) q v : checked_flags o = true -> u16_at f q v ->
  N.land v mask <> 0 ->
  bind (take_flags mask) k e q = Err InvalidFlags.
Proof.
  intros C Hv N. apply run_stop. unfold take_flags. rewrite (run_bind _ _ _ _ _ _ (u16_run e _ _ Hv)).
  unfold bind, ask. cbn [opts]. rewrite C. apply N.eqb_neq in N. rewrite N. reflexivity.
Qed.

Lemma solid_run {A} (m : M A) q a : solid e m q a -> intact f q a -> exists v, m e q = Ok (v, q + a).
Proof. intros [(v & E & _)|[L _]] I; [eauto|destruct (misses_intact _ _ _ L I)]. Qed.

Lemma only_flags_refused mask v : checked_flags o = true -> u16_at f (p + 0) v -> N.land v mask <> 0 ->
  take_flags mask e p = Err InvalidFlags.
Proof.
  intros C Hv N. rewrite N.add_0_r in Hv. pose proof (flags_refused mask ret p v C Hv N) as E.
  unfold bind, ret in E. destruct (take_flags mask e p) as [[]| |]; congruence.
Qed.

(** Flags after two numbers, and after two numbers and other flags. *)
Lemma flags_third {A} (k : N -> N -> N -> N -> M A) v : checked_flags o = true -> intact f p 4 ->
  u16_at f (p + 4) v -> N.land v 0xFF00 <> 0 ->
  (position <- get_position;; a <- take_u16;; b <- take_u16;; flags <- take_value_flags;;
   k position a b flags) e p = Err InvalidFlags.
Proof.
  intros C I Hv N. rewrite bind_position. destruct (intact_u16 o f p (fun i Hi => I i ltac:(lia))) as [a Ha].
  destruct (intact_u16 o f _ (intact_sub 2 4 2 I ltac:(lia))) as [b Hb].
  rewrite (run_bind _ _ _ _ _ _ (u16_run e _ _ Ha)), (run_bind _ _ _ _ _ _ (u16_run e _ _ Hb)).
  replace (p + 2 + 2) with (p + 4) by lia. exact (flags_refused _ _ _ _ C Hv N).
Qed.

Lemma flags_fourth {A} (k : N -> N -> N -> N -> N -> M A) flags v : checked_flags o = true -> intact f p 6 ->
  flags_at (checked_flags o) 0xFF00 f (p + 4) flags -> u16_at f (p + 6) v -> N.land v 0xFF00 <> 0 ->
  (position <- get_position;; a <- take_u16;; b <- take_u16;; flags1 <- take_value_flags;;
   flags2 <- take_value_flags;; k position a b flags1 flags2) e p = Err InvalidFlags.
Proof.
  intros C I Hf Hv N. rewrite bind_position. destruct (intact_u16 o f p (fun i Hi => I i ltac:(lia))) as [a Ha].
  destruct (intact_u16 o f _ (intact_sub 2 6 2 I ltac:(lia))) as [b Hb].
  rewrite (run_bind _ _ _ _ _ _ (u16_run e _ _ Ha)), (run_bind _ _ _ _ _ _ (u16_run e _ _ Hb)).
  replace (p + 2 + 2) with (p + 4) by lia. unfold take_value_flags at 1.
  rewrite (run_bind _ _ _ _ _ _ (flags_run e _ _ _ Hf)).
  replace (p + 4 + 2) with (p + 6) by lia. exact (flags_refused _ _ _ _ C Hv N).
Qed.

Lemma flagged_refused A (m : M A) k mask v : flagged o f p m k mask -> checked_flags o = true ->
  intact f p k -> u16_at f (p + k) v -> N.land v mask <> 0 -> refuses o m f p InvalidFlags.
Proof.
  intros H C I Hv N. unfold refuses. destruct H.
  - unfold read_lookup_record. rewrite bind_position.
    destruct (intact_u16 o f p (fun i Hi => I i ltac:(lia))) as [a Ha].
    rewrite (run_bind _ _ _ _ _ _ (u16_run e _ _ Ha)). exact (flags_refused _ _ _ _ C Hv N).
  - unfold read_single_adjustment. rewrite (run_peek _ _ _ _ _ _ (u16_run e _ _ H)).
    destruct (intact_u16 o f _ (intact_sub 2 4 2 I ltac:(lia))) as [b Hb].
    destruct H0 as [<-|[<-|[]]]; apply run_stop.
    + unfold read_single_adjustment1. rewrite bind_position.
      rewrite (run_bind _ _ _ _ _ _ (u16_run e _ _ H)), (run_bind _ _ _ _ _ _ (u16_run e _ _ Hb)).
      replace (p + 2 + 2) with (p + 4) by lia. exact (flags_refused _ _ _ _ C Hv N).
    + unfold read_single_adjustment2. rewrite bind_position.
      rewrite (run_bind _ _ _ _ _ _ (u16_run e _ _ H)), (run_bind _ _ _ _ _ _ (u16_run e _ _ Hb)).
      replace (p + 2 + 2) with (p + 4) by lia. exact (flags_refused _ _ _ _ C Hv N).
  - unfold read_pair_adjustment. rewrite (run_peek _ _ _ _ _ _ (u16_run e _ _ H)).
    destruct (intact_u16 o f _ (intact_sub 2 4 2 I ltac:(lia))) as [b Hb].
    destruct H0 as [<-|[<-|[]]]; apply run_stop.
    + unfold read_pair_adjustment1. rewrite bind_position.
      rewrite (run_bind _ _ _ _ _ _ (u16_run e _ _ H)), (run_bind _ _ _ _ _ _ (u16_run e _ _ Hb)).
      replace (p + 2 + 2) with (p + 4) by lia. exact (flags_refused _ _ _ _ C Hv N).
    + unfold read_pair_adjustment2. rewrite bind_position.
      rewrite (run_bind _ _ _ _ _ _ (u16_run e _ _ H)), (run_bind _ _ _ _ _ _ (u16_run e _ _ Hb)).
      replace (p + 2 + 2) with (p + 4) by lia. exact (flags_refused _ _ _ _ C Hv N).
  - unfold read_pair_adjustment. rewrite (run_peek _ _ _ _ _ _ (u16_run e _ _ H)).
    destruct (intact_u16 o f _ (intact_sub 2 6 2 I ltac:(lia))) as [b Hb].
    destruct H0 as [<-|[<-|[]]]; apply run_stop.
    + unfold read_pair_adjustment1. rewrite bind_position.
      rewrite (run_bind _ _ _ _ _ _ (u16_run e _ _ H)), (run_bind _ _ _ _ _ _ (u16_run e _ _ Hb)).
      replace (p + 2 + 2) with (p + 4) by lia. unfold take_value_flags at 1.
      rewrite (run_bind _ _ _ _ _ _ (flags_run e _ _ _ H1)).
      replace (p + 4 + 2) with (p + 6) by lia. exact (flags_refused _ _ _ _ C Hv N).
    + unfold read_pair_adjustment2. rewrite bind_position.
      rewrite (run_bind _ _ _ _ _ _ (u16_run e _ _ H)), (run_bind _ _ _ _ _ _ (u16_run e _ _ Hb)).
      replace (p + 2 + 2) with (p + 4) by lia. unfold take_value_flags at 1.
      rewrite (run_bind _ _ _ _ _ _ (flags_run e _ _ _ H1)).
      replace (p + 4 + 2) with (p + 6) by lia. exact (flags_refused _ _ _ _ C Hv N).
  - unfold read_axis_record.
    destruct (solid_run take_tag p 4 (tag_solid _ _) (fun i Hi => I i ltac:(lia))) as [a Ea].
    destruct (solid_run take_q32 (p + 4) 4 (q32_solid _ _) (intact_sub 4 16 4 I ltac:(lia))) as [b Eb].
    destruct (solid_run take_q32 (p + 8) 4 (q32_solid _ _) (intact_sub 8 16 4 I ltac:(lia))) as [c Ec].
    destruct (solid_run take_q32 (p + 12) 4 (q32_solid _ _) (intact_sub 12 16 4 I ltac:(lia))) as [d Ed].
    rewrite (run_bind _ _ _ _ _ _ Ea), (run_bind _ _ _ _ _ _ Eb).
    replace (p + 4 + 4) with (p + 8) by lia. rewrite (run_bind _ _ _ _ _ _ Ec).
    replace (p + 8 + 4) with (p + 12) by lia. rewrite (run_bind _ _ _ _ _ _ Ed).
    replace (p + 12 + 4) with (p + 16) by lia. exact (flags_refused _ _ _ _ C Hv N).
  - unfold read_instance_record.
    destruct (intact_u16 o f p (fun i Hi => I i ltac:(lia))) as [a Ha].
    rewrite (run_bind _ _ _ _ _ _ (u16_run e _ _ Ha)). exact (flags_refused _ _ _ _ C Hv N).
  - exact (only_flags_refused _ _ C Hv N).
  - exact (only_flags_refused _ _ C Hv N).
  - exact (only_flags_refused _ _ C Hv N).
  - exact (only_flags_refused _ _ C Hv N).
  - exact (flags_third _ _ C I Hv N).
  - exact (flags_third _ _ C I Hv N).
  - exact (flags_third _ _ C I Hv N).
  - exact (flags_fourth _ _ _ C I H Hv N).
  - exact (flags_third _ _ C I Hv N).
  - exact (flags_fourth _ _ _ C I H Hv N).
Qed.

Lemma gdef_header_refused n : u32_at f p n -> ~ In n [0x00010000; 0x00010002; 0x00010003] ->
  refuses o read_gdef_header f p UnknownFormat.
Proof.
  intros Hn H. unfold refuses, read_gdef_header. rewrite (run_peek _ _ _ _ _ _ (u32_run e _ _ Hn)).
  repeat match goal with
  | |- (match ?x with _ => _ end) _ _ = _ => destruct x; try reflexivity
  end; destruct H; cbn; tauto.
Qed.

Lemma cpal_header_refused : other_format f p [0; 1] -> refuses o read_cpal_header f p UnknownVersion.
Proof.
  intros (n & Hn & H). unfold refuses, read_cpal_header. rewrite (run_peek _ _ _ _ _ _ (u16_run e _ _ Hn)).
  repeat match goal with
  | |- (match ?x with _ => _ end) _ _ = _ => destruct x; try reflexivity
  end; destruct H; cbn; tauto.
Qed.

Lemma only_device_sizes s t : u16_at f p s -> u16_at f (p + 2) t -> t < s ->
  refuses o read_device f p Malformed.
Proof.
  intros Hs Ht L. unfold refuses, read_device.
  rewrite (run_bind _ _ _ _ _ _ (u16_run e _ _ Hs)), (run_bind _ _ _ _ _ _ (u16_run e _ _ Ht)).
  apply N.ltb_lt in L. rewrite L. reflexivity.
Qed.

Lemma only_device_format s t : u16_at f p s -> u16_at f (p + 2) t -> s <= t ->
  other_format f (p + 4) [1; 2; 3] -> refuses o read_device f p UnknownFormat.
Proof.
  intros Hs Ht L (n & Hn & H). unfold refuses, read_device.
  rewrite (run_bind _ _ _ _ _ _ (u16_run e _ _ Hs)), (run_bind _ _ _ _ _ _ (u16_run e _ _ Ht)).
  apply N.ltb_ge in L. rewrite L. replace (p + 2 + 2) with (p + 4) by lia.
  rewrite (run_bind _ _ _ _ _ _ (u16_run e _ _ Hn)).
  replace ((n =? 0) || (3 <? n)) with true; [reflexivity|]. symmetry.
  apply orb_true_iff. rewrite N.eqb_eq, N.ltb_lt. cbn in H. lia.
Qed.

Lemma fault_refused A (m : M A) x : fault o f p m x -> refuses o m f p x.
Proof.
  intros []; unfold refuses.
  - eapply begins_stops; [eassumption|auto].
  - eapply begins_stops; [eassumption|auto].
  - eapply formatted_refused; eassumption.
  - apply correction_format. split; [|assumption]. apply (intact_u32 o). assumption.
  - eapply caret_format; eassumption.
  - eapply gdef_version; eassumption.
  - destruct H as (a & b & Ha & Hb & N). unfold read_directory. rewrite bind_position.
    rewrite (run_bind _ _ _ _ _ _ (u16_run e _ _ Ha)), (run_bind _ _ _ _ _ _ (u16_run e _ _ Hb)).
    destruct ((a =? 1) && ((b =? 0) || (b =? 1))) eqn:C; [|reflexivity]. exfalso. apply N.
    rewrite andb_true_iff, orb_true_iff, !N.eqb_eq in C. exact C.
  - apply cpal_version. assumption.
  - apply gsub_type_error. assumption.
  - apply gpos_type_error. assumption.
  - eapply fixed_refused; eassumption.
  - eapply flagged_refused; eassumption.
  - eapply device_sizes; eassumption.
  - destruct (intact_u16 o _ _ H0) as [a Ha]. eapply empty_context_rules; eassumption.
  - destruct (intact_u16 o _ _ H0) as [a Ha]. eapply empty_context_rules; eassumption.
  - destruct (intact_u16s o _ _ _ H0) as [a Ha]. eapply empty_chained_rules; eassumption.
  - destruct (intact_u16s o _ _ _ H0) as [a Ha]. eapply empty_chained_rules; eassumption.
  - destruct (intact_u16 o _ _ H) as [a Ha]. eapply empty_ligature; eassumption.
  - apply file_tag. auto.
  - apply font_tag. assumption.
  - eapply gdef_header_refused; eassumption.
  - apply cpal_header_refused. assumption.
  - eapply only_device_sizes; eassumption.
  - eapply only_device_format; eassumption.
Qed.
End Refused.
