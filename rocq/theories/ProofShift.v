(** Readers do the same wherever in the file their bytes are. *)

From Verif Require Export SpecShift Requests Pieces.

Section Shift.
Context (k : N) (f g : file) (o : options) (Bf : bounded f) (D : drops k f g).

(** [m], with [k] bytes in front, does the same at [k + p] as [n] does at [p]; [Q] holds of what is
    read and of the position after it. *)
Definition both {A} (m n : M A) (p : N) (Q : A -> N -> Prop) : Prop :=
  m (mkEnv f o) (k + p) = moved k (n (mkEnv g o) p) /\
  match n (mkEnv g o) p with Ok (v, q) => Q v q | _ => True end.

Definition any {A} (_ : A) (_ : N) : Prop := True.

Definition same {A} (m : M A) : Prop := forall p, both m m p any.

(** ** The operations *)

Lemma both_post {A} (m n : M A) p (Q R : A -> N -> Prop) :
  both m n p Q -> (forall v q, Q v q -> R v q) -> both m n p R.
Proof. intros [E H] W. split; [exact E|]. destruct (n _ p) as [[v q]|x|]; auto. Qed.

Lemma both_ret {A} (v : A) p (Q : A -> N -> Prop) : Q v p -> both (ret v) (ret v) p Q.
Proof. intros H. split; [reflexivity|exact H]. Qed.

Lemma both_bind {A B} (m n : M A) (h l : A -> M B) p Q R :
  both m n p Q -> (forall v q, Q v q -> both (h v) (l v) q R) -> both (bind m h) (bind n l) p R.
Proof.
  intros [E H] K. unfold both, bind. rewrite E. destruct (n _ p) as [[v q]|x|]; cbn [moved].
  - exact (K v q H).
  - auto.
  - auto.
Qed.

Lemma both_end {A B} (m n : M A) (c : A -> B) p Q :
  both m n p Q -> both (v <- m;; ret (c v)) (v <- n;; ret (c v)) p any.
Proof. intros H. eapply both_bind; [exact H|]. intros v q _. apply both_ret. exact I. Qed.

Lemma both_raise {A} x p (Q : A -> N -> Prop) : both (raise x) (raise x) p Q.
Proof. split; [reflexivity|exact I]. Qed.

Lemma both_panic {A} p (Q : A -> N -> Prop) : both panic panic p Q.
Proof. split; [reflexivity|exact I]. Qed.

Lemma both_ask p : both ask ask p (fun _ q => q = p).
Proof. split; reflexivity. Qed.

(** The position is the only thing that differs. *)
Lemma both_position {B} (h l : N -> M B) p R :
  both (h (k + p)) (l p) p R -> both (bind get_position h) (bind get_position l) p R.
Proof. intros H. exact H. Qed.

Lemma both_stay {A} (m n : M A) p Q :
  both m n p Q -> both (stay m) (stay n) p (fun v q => q = p /\ exists r, Q v r).
Proof.
  intros [E H]. unfold both, stay. rewrite E. destruct (n _ p) as [[v q]|x|]; cbn [moved]; eauto.
Qed.

Definition from (p n q : N) : Prop := q = p + n /\ k + p < 9223372036854775808.

Lemma both_byte p : both take_byte take_byte p (fun _ q => from p 1 q).
Proof.
  unfold both, take_byte. cbn [content]. rewrite (D p). destruct (f (k + p)) eqn:X; cbn [moved].
  - split; [rewrite N.add_assoc; reflexivity|]. split; [reflexivity|].
    destruct (N.lt_ge_cases (k + p) (2 ^ 63)) as [Y|Y]; [exact Y|]. rewrite (Bf _ Y) in X. discriminate X.
  - auto.
Qed.

Lemma byte_below b : Byte.to_N b < 256.
Proof. pose proof (Byte.to_N_bounded b). lia. Qed.

Ltac bytes :=
  repeat (eapply both_bind; [apply both_byte|intros ? ? [-> ?]]);
  apply both_ret;
  repeat match goal with b : byte |- _ => lazymatch goal with
    | _ : Byte.to_N b < 256 |- _ => fail
    | _ => pose proof (byte_below b) end end.

Lemma both_u8 p : both take_u8 take_u8 p (fun v q => v < 256 /\ from p 1 q).
Proof. unfold take_u8. bytes. unfold from. lia. Qed.

Lemma both_u16 p : both take_u16 take_u16 p (fun v q => v < 65536 /\ from p 2 q).
Proof. unfold take_u16. bytes. unfold from. lia. Qed.

Lemma both_u32 p : both take_u32 take_u32 p (fun v q => v < 4294967296 /\ from p 4 q).
Proof. unfold take_u32. bytes. unfold from. lia. Qed.

Lemma both_tag p : both take_tag take_tag p (fun _ q => from p 4 q).
Proof. unfold take_tag. bytes. unfold from. lia. Qed.

Lemma both_i16 p : both take_i16 take_i16 p (fun _ q => from p 2 q).
Proof. eapply both_bind; [apply both_u16|]. intros v q [_ H]. apply both_ret. exact H. Qed.

Lemma both_q32 p : both take_q32 take_q32 p (fun _ q => from p 4 q).
Proof. eapply both_bind; [apply both_u32|]. intros v q [_ H]. apply both_ret. exact H. Qed.

Lemma both_const c p :
  both (take_const take_u16 c) (take_const take_u16 c) p (fun v q => v < 65536 /\ from p 2 q).
Proof.
  eapply both_bind; [apply both_u16|]. intros v q H. destruct (v =? c); [|apply both_raise].
  apply both_ret. exact H.
Qed.

Lemma both_flags mask p :
  both (take_flags mask) (take_flags mask) p (fun v q => v < 65536 /\ from p 2 q).
Proof.
  eapply both_bind; [apply both_u16|]. intros v q H. eapply both_bind; [apply both_ask|].
  intros x r ->. destruct (_ && _); [apply both_raise|]. apply both_ret. exact H.
Qed.

(** ** Loops *)

Lemma both_for {A} count (h l : nat -> M A) (P : A -> Prop) p :
  (forall i q, (i < N.to_nat count)%nat -> both (h i) (l i) q (fun v _ => P v)) ->
  both (for_n count h) (for_n count l) p (fun v _ => Forall P v).
Proof.
  unfold for_n. generalize (N.to_nat count) as c. intros c.
  assert (G : forall d i q, (forall j q, (j < i + d)%nat -> both (h j) (l j) q (fun v _ => P v)) ->
    both (for_range i d h) (for_range i d l) q (fun v _ => Forall P v)).
  { induction d as [|d IH]; intros i r H; cbn [for_range].
    - apply both_ret. constructor.
    - eapply both_bind; [apply H; lia|]. intros v s Hv.
      eapply both_bind; [apply IH; intros j t Hj; apply H; lia|]. intros vs t Hvs.
      apply both_ret. constructor; assumption. }
  intros H. apply G. exact H.
Qed.

Lemma both_loop {A} count (h l : nat -> M A) p :
  (forall i q, both (h i) (l i) q any) -> both (for_n count h) (for_n count l) p any.
Proof.
  intros H. eapply both_post; [apply (both_for count h l (fun _ => True)); intros i q _; apply H|].
  exact (fun _ _ _ => I).
Qed.

(** Elements, with something that holds of each. *)
Definition element {A} (m : M A) (P : A -> Prop) : Prop := forall p, both m m p (fun v _ => P v).

Lemma both_vec {A} count (m : M A) P p :
  element m P -> both (take_vec count m) (take_vec count m) p (fun v _ => Forall P v).
Proof. intros H. apply both_for. intros i q _. apply H. Qed.

(** ** Jumps *)

Lemma both_sum {B} a b (h l : N -> M B) p R :
  k + a + b < 18446744073709551616 ->
  both (h (k + (a + b))) (l (a + b)) p R ->
  both (q <- add_u64 (k + a) b;; h q) (q <- add_u64 a b;; l q) p R.
Proof.
  intros S H. unfold both, add_u64, add_wrapping, bind, ask, ret in *. cbn [opts].
  rewrite !(proj2 (N.ltb_lt _ _)) by (change (2 ^ 64) with 18446744073709551616; lia).
  rewrite <- N.add_assoc. exact H.
Qed.

Lemma both_leap {A} (m : M A) base offset p :
  same m -> k + base + offset < 18446744073709551616 ->
  both (jump_take (k + base) offset m) (jump_take base offset m) p any.
Proof. intros Hm S. apply both_sum; [exact S|]. apply Hm. Qed.

Lemma both_jump {A} (m : M A) base offset p :
  same m -> k + base < 9223372036854775808 -> offset < 9223372036854775808 ->
  both (jump_take (k + base) offset m) (jump_take base offset m) p any.
Proof. intros Hm Ha Hb. apply both_leap; [exact Hm|lia]. Qed.

Lemma both_maybe {A} (m : M A) base offset p :
  same m -> k + base < 9223372036854775808 -> offset < 9223372036854775808 ->
  both (jump_take_maybe (k + base) offset m) (jump_take_maybe base offset m) p any.
Proof.
  intros Hm Ha Hb. unfold jump_take_maybe. destruct (0 <? offset); [|apply both_ret; exact I].
  eapply both_end, both_jump; assumption.
Qed.

Lemma both_index {A} (l : list A) P i p : Forall P l -> both (index l i) (index l i) p (fun v _ => P v).
Proof.
  intros H. unfold index. destruct (nth_error l i) eqn:X; [|apply both_panic].
  apply both_ret. eapply Forall_forall; [exact H|]. eapply nth_error_In, X.
Qed.

Lemma both_n {A} (m : M A) base count offsets p :
  same m -> k + base < 9223372036854775808 ->
  Forall (fun offset => offset < 4294967296) offsets ->
  both (jump_take_n (k + base) count offsets m) (jump_take_n base count offsets m) p any.
Proof.
  intros Hm Ha Ho. apply both_loop. intros i q. eapply both_bind; [apply both_index, Ho|].
  intros v r H. cbv beta in H. apply both_jump; [assumption..|lia].
Qed.

Lemma both_maybe_n {A} (m : M A) base count offsets p :
  same m -> k + base < 9223372036854775808 ->
  Forall (fun offset => offset < 4294967296) offsets ->
  both (jump_take_maybe_n (k + base) count offsets m) (jump_take_maybe_n base count offsets m) p any.
Proof.
  intros Hm Ha Ho. apply both_loop. intros i q. eapply both_bind; [apply both_index, Ho|].
  intros v r H. cbv beta in H. apply both_maybe; [assumption..|lia].
Qed.

Lemma both_headers {A H} (m : M A) (offset : H -> N) base count headers p :
  same m -> k + base < 9223372036854775808 ->
  Forall (fun header => offset header < 65536) headers ->
  both (jump_take_each (k + base) count (fun i => h <- index headers i;; ret (offset h)) m)
    (jump_take_each base count (fun i => h <- index headers i;; ret (offset h)) m) p any.
Proof.
  intros Hm Ha Ho. apply both_loop. intros i q.
  eapply both_bind with (Q := fun v _ => v < 65536).
  - eapply both_bind; [apply both_index, Ho|]. intros v r X. apply both_ret. exact X.
  - intros v r X. cbv beta in X. apply both_jump; [assumption..|lia].
Qed.

Lemma both_list {A} (m : M A) base offset default p :
  same m -> k + base < 9223372036854775808 -> offset < 9223372036854775808 ->
  both (jump_take_list (k + base) offset m default) (jump_take_list base offset m default) p any.
Proof.
  intros Hm Ha Hb. eapply both_bind; [apply both_ask|]. intros x r ->.
  destruct (ignore_incomplete_directories x); [eapply both_end, both_maybe|apply both_jump]; assumption.
Qed.

(** ** Walking through a reader *)

Lemma small_offsets l : Forall (fun offset => offset < 65536) l -> Forall (fun offset => offset < 4294967296) l.
Proof. apply Forall_impl. intros x H. lia. Qed.

Lemma u8_element : element take_u8 (fun v => v < 256).
Proof. intros p. eapply both_post; [apply both_u8|]. cbv beta. tauto. Qed.
Lemma u16_element : element take_u16 (fun v => v < 65536).
Proof. intros p. eapply both_post; [apply both_u16|]. cbv beta. tauto. Qed.
Lemma u32_element : element take_u32 (fun v => v < 4294967296).
Proof. intros p. eapply both_post; [apply both_u32|]. cbv beta. tauto. Qed.
Lemma q32_element : element take_q32 (fun _ => True).
Proof. intros p. eapply both_post; [apply both_q32|]. cbv beta. tauto. Qed.
Lemma same_element {A} (m : M A) : same m -> element m (fun _ => True).
Proof. intros H p. exact (H p). Qed.

Ltac offsets := solve [eassumption | apply small_offsets; eassumption].
Ltac part := solve [eauto with shift].

Ltac leaf :=
  cbv beta;
  lazymatch goal with
  | |- both ask ask _ _ => apply both_ask
  | |- both take_u8 _ _ _ => apply both_u8
  | |- both take_u16 _ _ _ => apply both_u16
  | |- both take_u32 _ _ _ => apply both_u32
  | |- both take_tag _ _ _ => apply both_tag
  | |- both take_i16 _ _ _ => apply both_i16
  | |- both take_q32 _ _ _ => apply both_q32
  | |- both (take_const take_u16 _) _ _ _ => apply both_const
  | |- both (take_flags _) _ _ _ => apply both_flags
  | |- both take_lookup_flags _ _ _ => apply both_flags
  | |- both take_value_flags _ _ _ => apply both_flags
  | |- both take_axis_flags _ _ _ => apply both_flags
  | |- both take_instance_flags _ _ _ => apply both_flags
  | |- both (take_vec _ take_u8) _ _ _ => eapply both_vec, u8_element
  | |- both (take_vec _ take_u16) _ _ _ => eapply both_vec, u16_element
  | |- both (take_vec _ take_u32) _ _ _ => eapply both_vec, u32_element
  | |- both (take_vec _ take_q32) _ _ _ => eapply both_vec, q32_element
  | |- both (take_vec _ _) _ _ _ => eapply both_vec; part
  | |- both (jump_take _ _ _) _ _ _ => apply both_jump; [part|lia|lia]
  | |- both (jump_take_maybe _ _ _) _ _ _ => apply both_maybe; [part|lia|lia]
  | |- both (jump_take_list _ _ _ _) _ _ _ => apply both_list; [part|lia|lia]
  | |- both (jump_take_n _ _ _ _) _ _ _ => apply both_n; [part|lia|offsets]
  | |- both (jump_take_maybe_n _ _ _ _) _ _ _ => apply both_maybe_n; [part|lia|offsets]
  | |- both (jump_take_each _ _ _ _) _ _ _ => apply both_headers; [part|lia|eassumption]
  | |- both (if ?b then raise _ else _) _ _ _ => destruct b; [apply both_raise|leaf]
  | |- both (peek _) _ _ _ => apply both_stay; leaf
  end.

Ltac facts :=
  let H := fresh "F" in intros ? ? H; cbv beta in H; unfold from in H;
  repeat match goal with
  | H : _ /\ _ |- _ => destruct H
  | H : exists _, _ |- _ => destruct H
  end; subst.

Ltac on :=
  lazymatch goal with
  | |- both (bind get_position _) _ _ _ => apply both_position
  | |- both (bind _ _) _ _ _ => eapply both_bind; [leaf|facts]
  end.
Ltac done := apply both_ret; solve [exact I | assumption].
Ltac head_of m := lazymatch m with ?h _ => head_of h | ?h => h end.
Ltac open := match goal with |- both ?m _ _ _ => let h := head_of m in unfold h end.
Ltac walked := let p := fresh "p" in intros p; open; repeat on; done.

(** Formats: each branch is read from where the format was looked at. *)
Ltac branch := eapply both_end; part.
Ltac pick x :=
  repeat match goal with |- both (match ?y with _ => _ end) _ _ _ => is_var y; destruct y;
    try apply both_raise end.
Ltac formats :=
  let p := fresh "p" in intros p; open; eapply both_bind; [leaf|]; intros x r F; destruct F as [-> _];
  pick x; branch.

Create HintDb shift.
#[local] Hint Resolve same_element : shift.

Lemma coverage_record_same : same read_coverage_record.
Proof. walked. Qed.
#[local] Hint Resolve coverage_record_same : shift.
Lemma coverage1_same : same read_coverage1.
Proof. walked. Qed.
#[local] Hint Resolve coverage1_same : shift.
Lemma coverage2_same : same read_coverage2.
Proof. walked. Qed.
#[local] Hint Resolve coverage2_same : shift.
Lemma coverage_same : same read_coverage.
Proof. formats. Qed.
#[local] Hint Resolve coverage_same : shift.
Lemma class_record_same : same read_class_record.
Proof. walked. Qed.
#[local] Hint Resolve class_record_same : shift.
Lemma class1_same : same read_class1.
Proof. walked. Qed.
#[local] Hint Resolve class1_same : shift.
Lemma class2_same : same read_class2.
Proof. walked. Qed.
#[local] Hint Resolve class2_same : shift.
Lemma class_same : same read_class.
Proof. formats. Qed.
#[local] Hint Resolve class_same : shift.
Lemma device_same : same read_device.
Proof.
  intros p. unfold read_device. on. on. destruct (_ <? _); [apply both_raise|]. on.
  destruct (_ || _); [apply both_raise|]. cbv zeta. on. done.
Qed.
#[local] Hint Resolve device_same : shift.
Lemma variation_same : same read_variation.
Proof. walked. Qed.
#[local] Hint Resolve variation_same : shift.
Lemma correction_same : same read_correction.
Proof.
  intros p. unfold read_correction. eapply both_bind; [apply both_stay; on; leaf|]. intros x r F.
  destruct F as [-> _]. destruct (_ && _); [branch|]. destruct (_ =? _); [branch|apply both_raise].
Qed.
#[local] Hint Resolve correction_same : shift.
Lemma action_same : same read_action.
Proof. walked. Qed.
#[local] Hint Resolve action_same : shift.
Lemma context_record_same : same read_context_record.
Proof. walked. Qed.
#[local] Hint Resolve context_record_same : shift.
Lemma context_records_same : same read_context_records.
Proof. walked. Qed.
#[local] Hint Resolve context_records_same : shift.
Lemma context_class_record_same : same read_context_class_record.
Proof. walked. Qed.
#[local] Hint Resolve context_class_record_same : shift.
Lemma context_class_records_same : same read_context_class_records.
Proof. walked. Qed.
#[local] Hint Resolve context_class_records_same : shift.
Lemma chained_record_same : same read_chained_record.
Proof. walked. Qed.
#[local] Hint Resolve chained_record_same : shift.
Lemma chained_records_same : same read_chained_records.
Proof. walked. Qed.
#[local] Hint Resolve chained_records_same : shift.
Lemma chained_class_record_same : same read_chained_class_record.
Proof. walked. Qed.
#[local] Hint Resolve chained_class_record_same : shift.
Lemma chained_class_records_same : same read_chained_class_records.
Proof. walked. Qed.
#[local] Hint Resolve chained_class_records_same : shift.
Lemma context1_same : same read_context1.
Proof. walked. Qed.
#[local] Hint Resolve context1_same : shift.
Lemma context2_same : same read_context2.
Proof. walked. Qed.
#[local] Hint Resolve context2_same : shift.
Lemma context3_same : same read_context3.
Proof. walked. Qed.
#[local] Hint Resolve context3_same : shift.
Lemma context_same : same read_context.
Proof. formats. Qed.
#[local] Hint Resolve context_same : shift.
Lemma chained_context1_same : same read_chained_context1.
Proof. walked. Qed.
#[local] Hint Resolve chained_context1_same : shift.
Lemma chained_context2_same : same read_chained_context2.
Proof. walked. Qed.
#[local] Hint Resolve chained_context2_same : shift.
Lemma chained_context3_same : same read_chained_context3.
Proof. walked. Qed.
#[local] Hint Resolve chained_context3_same : shift.
Lemma chained_context_same : same read_chained_context.
Proof. formats. Qed.
#[local] Hint Resolve chained_context_same : shift.
Lemma language_header_element : element read_language_header (fun h => language_header_offset h < 65536).
Proof. walked. Qed.
Lemma language_header_same : same read_language_header.
Proof. walked. Qed.
#[local] Hint Resolve language_header_element language_header_same : shift.
Lemma script_header_element : element read_script_header (fun h => script_header_offset h < 65536).
Proof. walked. Qed.
Lemma script_header_same : same read_script_header.
Proof. walked. Qed.
#[local] Hint Resolve script_header_element script_header_same : shift.
Lemma feature_header_element : element read_feature_header (fun h => feature_header_offset h < 65536).
Proof. walked. Qed.
Lemma feature_header_same : same read_feature_header.
Proof. walked. Qed.
#[local] Hint Resolve feature_header_element feature_header_same : shift.
Lemma language_record_same : same read_language_record.
Proof. walked. Qed.
#[local] Hint Resolve language_record_same : shift.
Lemma script_record_same : same read_script_record.
Proof. walked. Qed.
#[local] Hint Resolve script_record_same : shift.
Lemma scripts_same : same read_scripts.
Proof. walked. Qed.
#[local] Hint Resolve scripts_same : shift.
Lemma feature_record_same : same read_feature_record.
Proof.
  intros p. unfold read_feature_record. do 4 on.
  eapply both_bind; [|intros; done]. destruct (_ <? _); [|apply (both_ret _ _ any); exact I].
  apply (both_jump (bytes <- take_vec 0 take_u8;; ret (Some bytes))); [|lia|lia].
  intros ?. on. done.
Qed.
#[local] Hint Resolve feature_record_same : shift.
Lemma features_same : same read_features.
Proof. walked. Qed.
#[local] Hint Resolve features_same : shift.
Lemma feature_variations_same : same read_feature_variations.
Proof. walked. Qed.
#[local] Hint Resolve feature_variations_same : shift.
Lemma lookup_record_same {T} (table : N -> M T) :
  (forall type_, same (table type_)) -> same (read_lookup_record table).
Proof.
  intros H p. unfold read_lookup_record. do 5 on.
  eapply both_bind with (Q := any).
  - destruct (has_mark_filtering _); [on; done|apply both_ret; exact I].
  - intros ? ? _. on. done.
Qed.
#[local] Hint Resolve lookup_record_same : shift.

Lemma lookups_same {T} (table : N -> M T) :
  (forall type_, same (table type_)) -> same (read_lookups table).
Proof. intros H. walked. Qed.
#[local] Hint Resolve lookups_same : shift.

Lemma directory_same {T} (table : N -> M T) :
  (forall type_, same (table type_)) -> same (read_directory table).
Proof.
  intros H p. unfold read_directory. do 3 on. eapply both_bind with (Q := any).
  - destruct (_ && _); [apply both_ret; exact I|apply both_raise].
  - intros _ ? _. do 3 on. eapply both_bind with (Q := fun v _ => v < 4294967296).
    + destruct (_ && _); [eapply both_post; [leaf|cbv beta; tauto]|apply both_ret; lia].
    + facts. do 4 on. done.
Qed.
#[local] Hint Resolve directory_same : shift.

(** ** GSUB *)

Lemma alternates_same : same read_alternates.
Proof. walked. Qed.
#[local] Hint Resolve alternates_same : shift.
Lemma ligature_same : same read_ligature.
Proof. walked. Qed.
#[local] Hint Resolve ligature_same : shift.
Lemma ligatures_same : same read_ligatures.
Proof. walked. Qed.
#[local] Hint Resolve ligatures_same : shift.
Lemma sequence_same : same read_sequence.
Proof. walked. Qed.
#[local] Hint Resolve sequence_same : shift.
Lemma single_substitution1_same : same read_single_substitution1.
Proof. walked. Qed.
#[local] Hint Resolve single_substitution1_same : shift.
Lemma single_substitution2_same : same read_single_substitution2.
Proof. walked. Qed.
#[local] Hint Resolve single_substitution2_same : shift.
Lemma single_substitution_same : same read_single_substitution.
Proof. formats. Qed.
#[local] Hint Resolve single_substitution_same : shift.
Lemma multiple_substitution_same : same read_multiple_substitution.
Proof. walked. Qed.
#[local] Hint Resolve multiple_substitution_same : shift.
Lemma alternate_substitution_same : same read_alternate_substitution.
Proof. walked. Qed.
#[local] Hint Resolve alternate_substitution_same : shift.
Lemma ligature_substitution_same : same read_ligature_substitution.
Proof. walked. Qed.
#[local] Hint Resolve ligature_substitution_same : shift.
Lemma extension_substitution_same : same read_extension_substitution.
Proof. walked. Qed.
#[local] Hint Resolve extension_substitution_same : shift.
Lemma reverse_chained_contextual_substibution_same : same read_reverse_chained_contextual_substibution.
Proof. walked. Qed.
#[local] Hint Resolve reverse_chained_contextual_substibution_same : shift.
Lemma gsub_type_same type_ : same (read_gsub_type type_).
Proof. intros p. unfold read_gsub_type. pick type_; branch. Qed.
#[local] Hint Resolve gsub_type_same : shift.

(** ** GPOS *)

Lemma anchor1_same : same read_anchor1.
Proof. walked. Qed.
#[local] Hint Resolve anchor1_same : shift.
Lemma anchor2_same : same read_anchor2.
Proof. walked. Qed.
#[local] Hint Resolve anchor2_same : shift.
Lemma anchor3_same : same read_anchor3.
Proof. walked. Qed.
#[local] Hint Resolve anchor3_same : shift.
Lemma anchor_same : same read_anchor.
Proof. formats. Qed.
#[local] Hint Resolve anchor_same : shift.
Ltac rest := eapply both_bind with (Q := any); [|intros ? ? _].
Ltac tuple := repeat match goal with v : _ * _ |- _ => destruct v end.
Ltac rows := rest; [apply both_loop; intros _ ?|].

(** Parts whose offsets are counted from a given position. *)
Section Base.
Context (b : N) (Hb : k + b < 9223372036854775808).

Lemma base_both n p : both (read_base (k + b) n) (read_base b n) p any.
Proof. unfold read_base. on. eapply both_bind; [apply both_stay; leaf|]. intros. done. Qed.

Lemma component_both n p : both (read_component (k + b) n) (read_component b n) p any.
Proof. unfold read_component. on. eapply both_bind; [apply both_stay; leaf|]. intros. done. Qed.

Lemma mark2_both n p : both (read_mark2 (k + b) n) (read_mark2 b n) p any.
Proof. unfold read_mark2. on. eapply both_bind; [apply both_stay; leaf|]. intros. done. Qed.

Lemma mark1_both p : both (read_mark1 (k + b)) (read_mark1 b) p any.
Proof.
  unfold read_mark1. do 3 on. rest; [|done]. destruct (ignore_incomplete_marks _).
  - eapply both_end, both_stay. leaf.
  - eapply both_post; [apply both_stay; leaf|exact (fun _ _ _ => I)].
Qed.

Lemma connection_both p : both (read_connection (k + b)) (read_connection b) p any.
Proof.
  unfold read_connection. do 2 on. rest; [|tuple; done].
  eapply both_post; [apply both_stay; do 2 on; apply (both_ret _ _ any); exact I|exact (fun _ _ _ => I)].
Qed.

Lemma take_if_both {A} flag (m : M A) P p :
  both m m p (fun v _ => P v) ->
  both (take_if flag m) (take_if flag m) p (fun v _ => match v with Some x => P x | None => True end).
Proof.
  intros H. unfold take_if. destruct flag; [|apply both_ret; exact I].
  eapply both_bind; [exact H|]. intros v q Hv. apply both_ret. exact Hv.
Qed.

Lemma take_linked_both offset p :
  match offset with Some x => x < 65536 | None => True end ->
  both (take_linked (k + b) offset) (take_linked b offset) p any.
Proof.
  intros H. unfold take_linked. destruct offset as [x|]; [|apply both_ret; exact I].
  apply both_maybe; [part|lia|lia].
Qed.

Lemma single_both flags p : both (read_single (k + b) flags) (read_single b flags) p any.
Proof.
  unfold read_single.
  do 4 (eapply both_bind; [apply (take_if_both _ take_i16 (fun _ => True));
    eapply both_post; [apply both_i16|exact (fun _ _ _ => I)]|intros ? ? _]).
  do 4 (eapply both_bind; [apply (take_if_both _ take_u16 (fun v => v < 65536)), u16_element|intros ? ? ?]).
  rest; [|tuple; done].
  eapply both_post; [apply both_stay|exact (fun _ _ _ => I)].
  do 4 (eapply both_bind; [apply take_linked_both; assumption|intros ? ? _]).
  apply (both_ret _ _ any). exact I.
Qed.

Lemma value_both flags p :
  both (if 0 <? flags then v <- read_single (k + b) flags;; ret (Some v) else ret None)
    (if 0 <? flags then v <- read_single b flags;; ret (Some v) else ret None) p any.
Proof.
  destruct (0 <? flags); [eapply both_end, single_both|apply both_ret; exact I].
Qed.

Lemma pair1_both x y p : both (read_pair1 (k + b) x y) (read_pair1 b x y) p any.
Proof. unfold read_pair1. on. do 2 (rest; [apply value_both|]). done. Qed.

Lemma pair2_both x y p : both (read_pair2 (k + b) x y) (read_pair2 b x y) p any.
Proof. unfold read_pair2. do 2 (rest; [apply value_both|]). done. Qed.

Lemma pair2s_both n x y p : both (read_pair2s (k + b) n x y) (read_pair2s b n x y) p any.
Proof. unfold read_pair2s. rows; [apply pair2_both|done]. Qed.
End Base.

Lemma bases_same n : same (read_bases n).
Proof. intros p. unfold read_bases. do 2 on. rows; [apply base_both; lia|done]. Qed.
Lemma gpos_ligature_same n : same (read_gpos_ligature n).
Proof. intros p. unfold read_gpos_ligature. do 2 on. rows; [apply component_both; lia|done]. Qed.
#[local] Hint Resolve bases_same gpos_ligature_same : shift.
Lemma gpos_ligatures_same n : same (read_gpos_ligatures n).
Proof.
  intros p. unfold read_gpos_ligatures. do 3 on. eapply both_bind; [apply both_stay; leaf|]. intros. done.
Qed.
Lemma mark1s_same : same read_mark1s.
Proof. intros p. unfold read_mark1s. do 2 on. rows; [apply mark1_both; lia|done]. Qed.
Lemma mark2s_same n : same (read_mark2s n).
Proof. intros p. unfold read_mark2s. do 2 on. rows; [apply mark2_both; lia|done]. Qed.
Lemma pair1s_same x y : same (read_pair1s x y).
Proof. intros p. unfold read_pair1s. do 2 on. rows; [apply pair1_both; lia|done]. Qed.
#[local] Hint Resolve gpos_ligatures_same mark1s_same mark2s_same pair1s_same : shift.

Lemma single_adjustment1_same : same read_single_adjustment1.
Proof.
  intros p. unfold read_single_adjustment1. do 4 on. rest; [apply single_both; lia|]. on. done.
Qed.
Lemma single_adjustment2_same : same read_single_adjustment2.
Proof.
  intros p. unfold read_single_adjustment2. do 5 on. rows; [apply single_both; lia|]. on. done.
Qed.
#[local] Hint Resolve single_adjustment1_same single_adjustment2_same : shift.
Lemma single_adjustment_same : same read_single_adjustment.
Proof. formats. Qed.
#[local] Hint Resolve single_adjustment_same : shift.
Lemma pair_adjustment1_same : same read_pair_adjustment1.
Proof. walked. Qed.
#[local] Hint Resolve pair_adjustment1_same : shift.
Lemma pair_adjustment2_same : same read_pair_adjustment2.
Proof.
  intros p. unfold read_pair_adjustment2. do 9 on. rows; [apply pair2s_both; lia|]. do 3 on. done.
Qed.
#[local] Hint Resolve pair_adjustment2_same : shift.
Lemma pair_adjustment_same : same read_pair_adjustment.
Proof. formats. Qed.
#[local] Hint Resolve pair_adjustment_same : shift.
Lemma cursive_attachment_same : same read_cursive_attachment.
Proof.
  intros p. unfold read_cursive_attachment. do 4 on. rows; [apply connection_both; lia|]. on. done.
Qed.
#[local] Hint Resolve cursive_attachment_same : shift.
Lemma mark_to_base_attachment_same : same read_mark_to_base_attachment.
Proof. walked. Qed.
#[local] Hint Resolve mark_to_base_attachment_same : shift.
Lemma mark_to_ligature_attachment_same : same read_mark_to_ligature_attachment.
Proof. walked. Qed.
#[local] Hint Resolve mark_to_ligature_attachment_same : shift.
Lemma mark_to_mark_attachment_same : same read_mark_to_mark_attachment.
Proof. walked. Qed.
#[local] Hint Resolve mark_to_mark_attachment_same : shift.
Lemma extension_positioning_same : same read_extension_positioning.
Proof. walked. Qed.
#[local] Hint Resolve extension_positioning_same : shift.
Lemma gpos_type_same type_ : same (read_gpos_type type_).
Proof. intros p. unfold read_gpos_type. pick type_; branch. Qed.
#[local] Hint Resolve gpos_type_same : shift.

(** ** GDEF *)

Lemma store_record_same : same read_store_record.
Proof.
  intros p. unfold read_store_record. do 4 on. rest; [|done].
  unfold add_u16, add_wrapping. eapply both_bind with (Q := any).
  - on. destruct (_ <? _); [apply both_ret; exact I|].
    destruct (overflow_checks _); [apply both_panic|apply both_ret; exact I].
  - intros ? ? _. eapply both_post; [leaf|exact (fun _ _ _ => I)].
Qed.
#[local] Hint Resolve store_record_same : shift.
Lemma store_same : same read_store.
Proof. walked. Qed.
#[local] Hint Resolve store_same : shift.
Lemma attachment_same : same read_attachment.
Proof. walked. Qed.
#[local] Hint Resolve attachment_same : shift.
Lemma attachments_same : same read_attachments.
Proof. walked. Qed.
#[local] Hint Resolve attachments_same : shift.
Lemma caret1_same : same read_caret1.
Proof. walked. Qed.
#[local] Hint Resolve caret1_same : shift.
Lemma caret2_same : same read_caret2.
Proof. walked. Qed.
#[local] Hint Resolve caret2_same : shift.
Lemma caret3_same : same read_caret3.
Proof. walked. Qed.
#[local] Hint Resolve caret3_same : shift.
Lemma caret_same : same read_caret.
Proof. formats. Qed.
#[local] Hint Resolve caret_same : shift.
Lemma gdef_ligature_same : same read_gdef_ligature.
Proof. walked. Qed.
#[local] Hint Resolve gdef_ligature_same : shift.
Lemma gdef_ligatures_same : same read_gdef_ligatures.
Proof. walked. Qed.
#[local] Hint Resolve gdef_ligatures_same : shift.
Lemma marks_same : same read_marks.
Proof. walked. Qed.
#[local] Hint Resolve marks_same : shift.
(** The offsets of a header. *)
Definition short (h : GdefHeader) : Prop :=
  gdef_glyph_class_offset h < 65536 /\ gdef_attachment_offset h < 65536 /\ gdef_ligature_offset h < 65536 /\
  gdef_mark_class_offset h < 65536 /\ gdef_mark_offset h < 65536 /\ gdef_mark_offset_of_version13 h < 65536.

Ltac header := let p := fresh "p" in intros p; open; repeat on; apply both_ret;
  split; [unfold short; cbn; repeat apply conj; lia|lia].

Definition placed {A} (P : A -> Prop) (p : N) (v : A) (_ : N) : Prop :=
  P v /\ k + p < 9223372036854775808.

Lemma gdef_header1_both p :
  both read_gdef_header1 read_gdef_header1 p (placed (fun h => short (GdefVersion1 h)) p).
Proof. revert p. header. Qed.
Lemma gdef_header12_both p :
  both read_gdef_header12 read_gdef_header12 p (placed (fun h => short (GdefVersion12 h)) p).
Proof. revert p. header. Qed.
Lemma gdef_header13_both p :
  both read_gdef_header13 read_gdef_header13 p (placed (fun h => short (GdefVersion13 h)) p).
Proof. revert p. header. Qed.

Lemma gdef_header_both p : both read_gdef_header read_gdef_header p (placed short p).
Proof.
  unfold read_gdef_header. eapply both_bind; [leaf|]. intros x r F. destruct F as [-> _]. pick x;
    (eapply both_bind; [first [apply gdef_header13_both|apply gdef_header12_both|apply gdef_header1_both]|];
     intros h q [H G]; apply both_ret; split; assumption).
Qed.

Lemma glyph_definition_same : same read_glyph_definition.
Proof.
  intros p. unfold read_glyph_definition. on. eapply both_bind; [apply gdef_header_both|].
  intros h q [(? & ? & ? & ? & ? & ?) ?]. repeat on. done.
Qed.
#[local] Hint Resolve glyph_definition_same : shift.

(** ** CPAL and fvar *)

Lemma color_same : same read_color.
Proof. walked. Qed.
#[local] Hint Resolve color_same : shift.
Lemma cpal_header0_same : same read_cpal_header0.
Proof. walked. Qed.
#[local] Hint Resolve cpal_header0_same : shift.
Lemma cpal_header1_same : same read_cpal_header1.
Proof. walked. Qed.
#[local] Hint Resolve cpal_header1_same : shift.
Lemma cpal_header_same : same read_cpal_header.
Proof. formats. Qed.
#[local] Hint Resolve cpal_header_same : shift.
Lemma axis_record_same : same read_axis_record.
Proof. walked. Qed.
#[local] Hint Resolve axis_record_same : shift.
Lemma color_element : element read_color (fun _ => True).
Proof. exact color_same. Qed.
#[local] Hint Resolve color_element : shift.
Lemma colors_same n : same (take_vec n read_color).
Proof. intros p. eapply both_post; [leaf|exact (fun _ _ _ => I)]. Qed.
#[local] Hint Resolve colors_same : shift.

Lemma cpal_header_both p : both read_cpal_header read_cpal_header p (placed (fun h =>
  match h with
  | CpalVersion0 h => cpal_header0_color_offset h < 4294967296
  | CpalVersion1 h => cpal_header1_color_offset h < 4294967296
  end) p).
Proof.
  unfold read_cpal_header. eapply both_bind; [leaf|]. intros x r F. destruct F as [-> _]. pick x.
  - eapply both_bind with (Q := placed (fun h => cpal_header0_color_offset h < 4294967296) p).
    + unfold read_cpal_header0. repeat on. apply both_ret. split; assumption.
    + intros h q H. apply both_ret. exact H.
  - eapply both_bind with (Q := placed (fun h => cpal_header1_color_offset h < 4294967296) p).
    + unfold read_cpal_header1. repeat on. apply both_ret. split; assumption.
    + intros h q H. apply both_ret. exact H.
Qed.

Lemma color_palettes_same : same read_color_palettes.
Proof.
  intros p. unfold read_color_palettes. on. eapply both_bind; [apply cpal_header_both|].
  intros h q [F ?]. destruct h; on; done.
Qed.

Lemma instance_record_same n : same (read_instance_record n).
Proof. walked. Qed.
#[local] Hint Resolve color_palettes_same instance_record_same : shift.

Definition fvar_short (h : FvarHeader) : Prop :=
  fvar_header_axis_offset h < 65536 /\ fvar_header_axis_count h < 65536 /\
  fvar_header_axis_size h < 65536 /\ fvar_header_instance_count h < 65536 /\
  fvar_header_instance_size h < 65536.

Lemma fvar_header_both p : both read_fvar_header read_fvar_header p (placed fvar_short p).
Proof.
  unfold read_fvar_header. repeat on. apply both_ret. unfold placed, fvar_short. cbn. repeat split; assumption.
Qed.
Lemma fvar_header_same : same read_fvar_header.
Proof. walked. Qed.

Lemma font_variations_same : same read_font_variations.
Proof.
  intros p. unfold read_font_variations. on. eapply both_bind; [apply fvar_header_both|].
  intros h r [(Ho & Hn & Hs & Hm & Ht) Hq]. apply both_sum; [lia|].
  assert (fvar_header_axis_count h * fvar_header_axis_size h <= 65535 * 65535) by (apply N.mul_le_mono; lia).
  eapply both_bind.
  { apply (both_for _ _ _ (fun _ => True)). intros i t Hi.
    assert (N.of_nat i * fvar_header_axis_size h <= 65535 * 65535) by (apply N.mul_le_mono; lia).
    apply both_leap; [part|lia]. }
  intros ? ? _. apply both_sum; [lia|]. eapply both_bind; [|intros; done].
  apply (both_for _ _ _ (fun _ => True)). intros i t Hi.
  assert (N.of_nat i * fvar_header_instance_size h <= 65535 * 65535) by (apply N.mul_le_mono; lia).
  apply both_leap; [part|lia].
Qed.
#[local] Hint Resolve font_variations_same : shift.

(** ** Fonts *)

Lemma offset_record_same : same read_offset_record.
Proof. walked. Qed.
#[local] Hint Resolve offset_record_same : shift.

Lemma offsets_header_same : same read_offsets_header.
Proof. walked. Qed.

Lemma font_same d : same (read_font d).
Proof.
  intros p. eapply both_end. eapply both_bind; [leaf|]. intros x r F. destruct F as [-> _].
  destruct (truetype_accept d x); [|apply (both_raise _ _ any)].
  eapply both_bind; [apply offsets_header_same|]. intros ? ? _. on. done.
Qed.

Lemma file_same d : same (read_file d).
Proof.
  intros p. eapply both_bind; [leaf|]. intros x r F. destruct F as [-> _].
  destruct (tag_eqb x ttcf); [apply both_raise|]. eapply both_end. exact (font_same d p).
Qed.

(** ** Everything that can be read *)

Lemma request_same {A} (r : request A) : same (reader r).
Proof.
  destruct r; cbn [reader]; [apply file_same|apply font_same|part|..|part|part];
    apply directory_same; [apply gpos_type_same|apply gsub_type_same].
Qed.

Lemma gdef_header_same : same read_gdef_header.
Proof. intros p. eapply both_post; [apply gdef_header_both|exact (fun _ _ _ => I)]. Qed.
Lemma gdef_headers_same : same read_gdef_header1 /\ same read_gdef_header12 /\ same read_gdef_header13.
Proof.
  repeat apply conj; intros p;
    (eapply both_post; [first [apply gdef_header1_both|apply gdef_header12_both|apply gdef_header13_both]|]);
    exact (fun _ _ _ => I).
Qed.

Lemma flags_same mask : same (take_flags mask).
Proof. intros p. eapply both_post; [apply both_flags|exact (fun _ _ _ => I)]. Qed.

Lemma piece_both {A} (r : piece A) p :
  piece_base (shifted k r) < 9223372036854775808 -> both (piece_reader (shifted k r)) (piece_reader r) p any.
Proof.
  intros H. revert p. change (forall p, both (piece_reader (shifted k r)) (piece_reader r) p any).
  destruct r; cbn [piece_base shifted piece_reader] in *;
    try (match goal with |- forall p, both ?m ?m p any => change (same m) end;
      first [part | apply fvar_header_same | apply gdef_header_same | apply gdef_headers_same | apply flags_same]);
    intros p;
    first [apply base_both|apply component_both|apply mark1_both|apply mark2_both|apply connection_both
      |apply single_both|apply pair1_both|apply pair2_both|apply pair2s_both]; exact H.
Qed.
End Shift.

Theorem request_shifted {A} (r : request A) o k f g p :
  bounded f -> drops k f g -> reader r (mkEnv f o) (k + p) = moved k (reader r (mkEnv g o) p).
Proof. intros Bf D. exact (proj1 (request_same k f g o Bf D r p)). Qed.

Theorem piece_shifted {A} (r : piece A) o k f g p :
  bounded f -> drops k f g -> piece_base (shifted k r) < 2 ^ 63 ->
  piece_reader (shifted k r) (mkEnv f o) (k + p) = moved k (piece_reader r (mkEnv g o) p).
Proof.
  intros Bf D H. change (2 ^ 63) with 9223372036854775808 in H.
  exact (proj1 (piece_both k f g o Bf D r p H)).
Qed.
