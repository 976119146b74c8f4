(** What may be given at all (C80): all values of the ranges of SpecRanges.v and the shape of
    SpecLoose.v. *)

From Verif Require Export ProofRangesOnly.
From Verif Require Import Steps StepsReaders.

(** ** Steps *)

(** What follows is settled first. *)
Lemma can_next {A B} o (m : steps A) (k : A -> steps B) a v : can o (k a) v -> can o m a -> can o (bind m k) v.
Proof. intros K H. apply can_bind. exists a. auto. Qed.

(** The tape always says that it is at the start. *)
Lemma can_position {A} o (k : N -> steps A) v : can o (k 0) v -> can o (bind get_position k) v.
Proof. intros H. exists 0. exact H. Qed.

Lemma can_ask {A} o (k : options -> steps A) v : can o (k o) v -> can o (bind ask k) v.
Proof. intros H. exact H. Qed.

(** ** Operations *)

Lemma some_byte n : n < 256 -> exists b, Byte.to_N b = n.
Proof.
  intros L. destruct (Byte.of_N n) as [b|] eqn:E.
  - exists b. apply Byte.to_of_N. exact E.
  - apply Byte.of_N_None_iff in E. lia.
Qed.

Lemma can_u8 o n : u8 n -> can o take_u8 n.
Proof. intros L. destruct (some_byte n L) as [b E]. exists b. exact E. Qed.

Lemma can_u16 o n : u16 n -> can o take_u16 n.
Proof.
  intros L. unfold u16 in L.
  destruct (some_byte (n / 256)) as [a A]; [apply N.div_lt_upper_bound; lia|].
  destruct (some_byte (n mod 256)) as [b B]; [apply N.mod_lt; discriminate|].
  exists a, b. change (256 * Byte.to_N a + Byte.to_N b = n). rewrite A, B. symmetry.
  apply N.div_mod. discriminate.
Qed.

Lemma can_u32 o n : u32 n -> can o take_u32 n.
Proof.
  intros L. unfold u32 in L.
  destruct (some_byte (n / 16777216)) as [a A]; [apply N.div_lt_upper_bound; lia|].
  destruct (some_byte (n / 65536 mod 256)) as [b B]; [apply N.mod_lt; discriminate|].
  destruct (some_byte (n / 256 mod 256)) as [c C]; [apply N.mod_lt; discriminate|].
  destruct (some_byte (n mod 256)) as [d D]; [apply N.mod_lt; discriminate|].
  exists a, b, c, d.
  change (16777216 * Byte.to_N a + 65536 * Byte.to_N b + 256 * Byte.to_N c + Byte.to_N d = n).
  rewrite A, B, C, D.
  pose proof (N.div_mod n 256). pose proof (N.div_mod (n / 256) 256). pose proof (N.div_mod (n / 65536) 256).
  rewrite (N.div_div n 256 256) in * by discriminate. rewrite (N.div_div n 65536 256) in * by discriminate.
  change (256 * 256) with 65536 in *. change (65536 * 256) with 16777216 in *. lia.
Qed.

Lemma can_i16 o z : i16 z -> can o take_i16 z.
Proof.
  intros L. unfold i16 in L. unfold take_i16. eapply can_next with (a := Z.to_N (z mod 65536)).
  - cbn [can ret]. unfold to_i16. rewrite Z2N.id by (apply Z.mod_pos_bound; reflexivity).
    rewrite Z.add_mod_idemp_l by discriminate. rewrite Z.mod_small by lia. lia.
  - apply can_u16. unfold u16. pose proof (Z.mod_pos_bound z 65536 eq_refl). lia.
Qed.

Lemma can_q32 o z : i32 z -> can o take_q32 z.
Proof.
  intros L. unfold i32 in L. unfold take_q32. eapply can_next with (a := Z.to_N (z mod 4294967296)).
  - cbn [can ret]. unfold to_i32. rewrite Z2N.id by (apply Z.mod_pos_bound; reflexivity).
    rewrite Z.add_mod_idemp_l by discriminate. rewrite Z.mod_small by lia. lia.
  - apply can_u32. unfold u32. pose proof (Z.mod_pos_bound z 4294967296 eq_refl). lia.
Qed.

Lemma can_tag o t : can o take_tag t.
Proof. destruct t as [a b c d]. exists a, b, c, d. reflexivity. Qed.

Lemma can_const o m c v : v = c -> can o m c -> can o (take_const m c) v.
Proof.
  intros -> H. unfold take_const. eapply can_next; [|exact H]. rewrite N.eqb_refl. reflexivity.
Qed.

Lemma can_flags o mask n : flags16 (checked_flags o) mask n -> can o (take_flags mask) n.
Proof.
  intros [L F]. unfold take_flags. eapply can_next; [|apply can_u16, L]. apply can_ask.
  destruct (checked_flags o); [|reflexivity]. rewrite (F eq_refl). reflexivity.
Qed.

Lemma can_range {A} o (f : nat -> steps A) : forall l i,
  (forall j v, nth_error l j = Some v -> can o (f (i + j)%nat) v) -> can o (for_range i (length l) f) l.
Proof.
  induction l as [|v l IH]; intros i H; cbn [for_range length]; [reflexivity|]. cbn [can].
  eapply can_next; [|rewrite <- (Nat.add_0_r i); exact (H 0%nat v eq_refl)].
  eapply can_next; [reflexivity|]. apply IH. intros j w E. rewrite Nat.add_succ_comm. exact (H (S j) w E).
Qed.

Lemma can_n {A} o n (f : nat -> steps A) l : counts n l ->
  (forall i v, nth_error l i = Some v -> can o (f i) v) -> can o (for_n n f) l.
Proof.
  intros C H. unfold for_n. rewrite C, Nat2N.id. apply can_range. exact H.
Qed.

Lemma can_all {A} o n (f : nat -> steps A) l : counts n l -> (forall i, Forall (can o (f i)) l) ->
  can o (for_n n f) l.
Proof.
  intros C F. apply can_n; [exact C|]. intros i v E. specialize (F i). rewrite Forall_forall in F.
  exact (F v (nth_error_In _ _ E)).
Qed.

Lemma can_vec {A} o n (m : steps A) l : counts n l -> Forall (can o m) l -> can o (take_vec n m) l.
Proof. intros C F. apply can_all; [exact C|]. intros _. exact F. Qed.

(** A distance within a file, and a position. *)
Definition short (q : N) : Prop := q < 2 ^ 34.
Definition low (p : N) : Prop := p < 2 ^ 63.

Lemma low0 : low 0.
Proof. reflexivity. Qed.

Lemma can_jump {A} o p q (m : steps A) v : low p -> short q -> can o m v -> can o (jump_take p q m) v.
Proof.
  intros P Q H. unfold jump_take, add_u64, add_wrapping, short, low in *. cbn [bind ask can].
  destruct (N.ltb_spec (p + q) (2 ^ 64)) as [L|L]; [exact H|]. lia.
Qed.

Lemma can_maybe {A} o p q (m : steps A) v : low p -> short q -> presence_wf q v ->
  (forall x, v = Some x -> can o m x) -> can o (jump_take_maybe p q m) v.
Proof.
  intros L0 Q P H. unfold jump_take_maybe. destruct v as [x|].
  - destruct (N.ltb_spec 0 q) as [L|L].
    + eapply can_next; [reflexivity|]. apply can_jump; auto.
    + assert (Z : q = 0) by lia. apply P in Z. discriminate.
  - replace q with 0 by (symmetry; apply P; reflexivity). reflexivity.
Qed.

Lemma can_index {A B} o (l : list A) i a (k : A -> steps B) v :
  nth_error l i = Some a -> can o (k a) v -> can o (bind (index l i) k) v.
Proof. intros E H. unfold index. rewrite E. exact H. Qed.

Lemma counted {A B} n (l : list A) (k : list B) i b : counts n l -> counts n k -> nth_error k i = Some b ->
  exists a, nth_error l i = Some a.
Proof.
  unfold counts. intros C D E. destruct (nth_error l i) as [a|] eqn:F; [eauto|].
  apply nth_error_None in F. assert (i < length k)%nat by (apply nth_error_Some; congruence). lia.
Qed.

Lemma nth_of {A} (P : A -> Prop) l i v : Forall P l -> nth_error l i = Some v -> P v.
Proof. intros F E. rewrite Forall_forall in F. exact (F v (nth_error_In _ _ E)). Qed.

Lemma can_jumps {A} o p n offsets (m : steps A) l : low p -> counts n offsets ->
  Forall short offsets -> counts n l -> Forall (can o m) l -> can o (jump_take_n p n offsets m) l.
Proof.
  intros L C S D F. unfold jump_take_n, jump_take_each. apply can_n; [exact D|]. intros i v E.
  destruct (counted n offsets l i v C D E) as [q Q]. eapply can_index; [exact Q|].
  apply can_jump; [exact L|exact (nth_of _ _ _ _ S Q)|exact (nth_of _ _ _ _ F E)].
Qed.

Lemma can_each {A B} o p n (l : list B) (g : B -> N) (m : steps A) k :
  low p -> counts n l -> Forall (fun b => short (g b)) l ->
  counts n k -> Forall (can o m) k ->
  can o (jump_take_each p n (fun i => bind (index l i) (fun h => ret (g h))) m) k.
Proof.
  intros L C S D F. unfold jump_take_each. apply can_n; [exact D|]. intros i v E.
  destruct (counted n l k i v C D E) as [b B1]. eapply can_next with (a := g b).
  - apply can_jump; [exact L|exact (nth_of _ _ _ _ S B1)|exact (nth_of _ _ _ _ F E)].
  - eapply can_index; [exact B1|reflexivity].
Qed.

Lemma can_maybes {A} o p n offsets (m : steps A) l : low p -> counts n offsets ->
  Forall short offsets -> counts n l -> Forall2 presence_wf offsets l -> Forall (fun v => forall x, v = Some x -> can o m x) l ->
  can o (jump_take_maybe_n p n offsets m) l.
Proof.
  intros L C S D P F. unfold jump_take_maybe_n. apply can_n; [exact D|]. intros i v E.
  destruct (counted n offsets l i v C D E) as [q Q]. eapply can_index; [exact Q|].
  apply can_maybe; [exact L|exact (nth_of _ _ _ _ S Q)| |exact (nth_of _ _ _ _ F E)].
  clear - P Q E. revert i E Q. induction P as [|a b offsets l H P IH]; intros [|i] E Q; try discriminate.
  - injection E as <-. injection Q as <-. exact H.
  - exact (IH i E Q).
Qed.

Lemma can_stay {A} o (m : steps A) v : can o m v -> can o (stay m) v.
Proof. intros H. unfold stay. apply can_position. eapply can_next; [|exact H]. reflexivity. Qed.

(** What is looked at first may be anything. *)
Lemma can_peek {A B} o (m : steps A) (k : A -> steps B) a v : can o m a -> can o (k a) v ->
  can o (bind (peek m) k) v.
Proof. intros H K. eapply can_next; [exact K|apply can_stay, H]. Qed.

(** ** Tactics *)

Lemma all1 {A} (P R : A -> Prop) l : (forall v, P v -> R v) -> Forall P l -> Forall R l.
Proof. intros H F. eapply Forall_impl; eauto. Qed.

Lemma all2 {A} (P Q R : A -> Prop) l : (forall v, P v -> Q v -> R v) -> Forall P l -> Forall Q l -> Forall R l.
Proof. intros H F G. rewrite Forall_forall in *. auto. Qed.

Lemma short16 n : u16 n -> short n.
Proof. unfold u16, short. lia. Qed.

Lemma short32 n : u32 n -> short n.
Proof. unfold u32, short. lia. Qed.

Create HintDb can.
#[global] Hint Resolve short16 short32 low0 : can.

Ltac lows := first [exact low0 | assumption].

Ltac near :=
  lazymatch goal with
  | |- short _ => first [apply short16; assumption | apply short32; assumption]
  | |- Forall _ ?l =>
      match goal with
      | H : Forall u16 l |- _ => exact (all1 _ _ _ short16 H)
      | H : Forall u32 l |- _ => exact (all1 _ _ _ short32 H)
      | H : Forall _ l |- _ => refine (all1 _ _ _ _ H); intros; near
      end
  end.

(** One field or part. *)
Ltac leaf :=
  cbv beta in *;
  lazymatch goal with
  | |- Forall (fun v => forall x, v = Some x -> _) ?l =>
      match goal with
      | P : Forall (maybe_wf ?A) l, Q : Forall (maybe_fits ?B) l |- _ =>
          refine (all2 _ _ _ _ _ P Q); intros ? ? ? ? ->; leaf
      end
  | |- Forall (can _ _) ?l =>
      match goal with
      | P : Forall ?A l, Q : Forall ?B l |- _ =>
          refine (all2 _ _ _ _ _ P Q); intros; leaf
      | P : Forall ?A l |- _ => refine (all1 _ _ _ _ P); intros; leaf
      end
  | |- can _ take_u8 _ => apply can_u8; assumption
  | |- can _ take_u16 _ => apply can_u16; assumption
  | |- can _ take_u32 _ => apply can_u32; assumption
  | |- can _ take_i16 _ => apply can_i16; assumption
  | |- can _ take_q32 _ => apply can_q32; assumption
  | |- can _ take_tag _ => apply can_tag
  | |- can _ (take_const _ _) _ => apply can_const; [assumption|apply can_u16; reflexivity]
  | |- can _ (take_flags _) _ => apply can_flags; assumption
  | |- can _ (take_vec _ _) _ => apply can_vec; [assumption|leaf]
  | |- can _ (for_n _ _) _ => apply can_all; [assumption|intros ?; leaf]
  | |- can _ (jump_take _ _ _) _ => apply can_jump; [lows|near|leaf]
  | |- can _ (jump_take_maybe _ _ _) _ => apply can_maybe; [lows|near|assumption|intros ? ->; leaf]
  | |- can _ (jump_take_n _ _ _ _) _ => apply can_jumps; [lows|assumption|near|assumption|leaf]
  | |- can _ (jump_take_maybe_n _ _ _ _) _ => apply can_maybes; [lows|assumption|near|assumption|assumption|leaf]
  | |- can _ (jump_take_each _ _ _ _) _ => apply can_each; [lows|assumption|near|assumption|leaf]
  | |- can _ (stay _) _ => apply can_stay; leaf
  | |- _ => solve [eauto with can]
  end.

Ltac given :=
  repeat match goal with
  | H : _ /\ _ |- _ => destruct H
  end.

(** A [table!]. *)
Ltac whole :=
  given;
  repeat lazymatch goal with
  | |- can _ (bind get_position _) _ => apply can_position
  | |- can _ (bind _ _) _ => eapply can_next
  | |- can _ (ret _) _ => reflexivity
  end; leaf.

(** ** Common structures *)

Lemma coverage_record_can o v : coverage_record_fits v -> can o read_coverage_record v.
Proof. destruct v. intros H. cbn in H. unfold read_coverage_record. whole. Qed.
#[global] Hint Resolve coverage_record_can : can.

Lemma coverage_can o v : coverage_loose v -> coverage_ranges v -> can o read_coverage v.
Proof.
  intros L R. destruct v as [[]|[]]; cbn in L, R; given; unfold read_coverage.
  - eapply can_peek; [apply (can_u16 o 1); reflexivity|]. eapply can_next; [reflexivity|].
    unfold read_coverage1. whole.
  - eapply can_peek; [apply (can_u16 o 2); reflexivity|]. eapply can_next; [reflexivity|].
    unfold read_coverage2. whole.
Qed.
#[global] Hint Resolve coverage_can : can.

Lemma class_record_can o v : class_record_fits v -> can o read_class_record v.
Proof. destruct v. intros R. cbn in R. unfold read_class_record. whole. Qed.
#[global] Hint Resolve class_record_can : can.

Lemma class_can o v : class_loose v -> class_ranges v -> can o read_class v.
Proof.
  intros L R. destruct v as [[]|[]]; cbn in L, R; given; unfold read_class.
  - eapply can_peek; [apply (can_u16 o 1); reflexivity|]. eapply can_next; [reflexivity|].
    unfold read_class1. whole.
  - eapply can_peek; [apply (can_u16 o 2); reflexivity|]. eapply can_next; [reflexivity|].
    unfold read_class2. whole.
Qed.
#[global] Hint Resolve class_can : can.

Lemma device_can o v : correction_loose (CorrectionDevice v) -> correction_ranges (CorrectionDevice v) ->
  can o read_device v.
Proof.
  destruct v as [a b c l]. cbn [correction_loose correction_wf correction_ranges].
  intros ((F & G) & L & C) (A & B & D).
  unfold read_device. eapply can_next with (a := a); [|leaf]. eapply can_next with (a := b); [|leaf].
  destruct (N.ltb_spec b a); [lia|]. eapply can_next with (a := c); [|apply can_u16; unfold u16; lia].
  destruct (N.eqb_spec c 0); [lia|]. destruct (N.ltb_spec 3 c); [lia|]. cbn [orb]. cbv zeta.
  eapply can_next; [reflexivity|]. rewrite ProofLayout.device_word_count, N.shiftl_1_l. leaf.
Qed.

Lemma correction_can o v : correction_loose v -> correction_ranges v -> can o read_correction v.
Proof.
  intros L R. unfold read_correction. destruct v as [v|v].
  - eapply can_peek with (a := 1); [eapply can_next with (a := 0); [apply can_u16|apply can_u32]; reflexivity|].
    eapply can_next; [reflexivity|]. apply device_can; assumption.
  - eapply can_peek with (a := 0x8000);
    [eapply can_next with (a := 0); [apply can_u16|apply can_u32]; reflexivity|].
    eapply can_next; [reflexivity|]. destruct v. cbn in R. unfold read_variation. whole.
Qed.
#[global] Hint Resolve correction_can : can.

Lemma rest_can {A} o n (m : steps A) l : counts_rest n l -> Forall (can o m) l ->
  can o (if n =? 0 then raise Malformed else take_vec (n - 1) m) l.
Proof.
  unfold counts_rest. intros C F. destruct (N.eqb_spec n 0); [lia|].
  apply can_vec; [unfold counts; lia|exact F].
Qed.

Lemma rest16_can o n l : counts_rest n l -> Forall u16 l ->
  can o (if n =? 0 then raise Malformed else take_vec (n - 1) take_u16) l.
Proof. intros C F. apply rest_can; [exact C|]. exact (all1 _ _ _ (can_u16 o) F). Qed.
#[global] Hint Resolve rest16_can : can.

Lemma action_can o v : action_fits v -> can o read_action v.
Proof. destruct v. intros R. cbn in R. unfold read_action. whole. Qed.
#[global] Hint Resolve action_can : can.

Lemma context_record_can o v : context_record_wf v -> context_record_fits v -> can o read_context_record v.
Proof. destruct v. intros L R. cbn in L, R. unfold read_context_record. whole. Qed.
#[global] Hint Resolve context_record_can : can.

Lemma context_records_can o v : context_records_wf v -> context_records_ranges v ->
  can o read_context_records v.
Proof. destruct v. intros L R. cbn in L, R. unfold read_context_records. whole. Qed.
#[global] Hint Resolve context_records_can : can.

Lemma context_class_record_can o v : context_class_record_wf v -> context_class_record_fits v ->
  can o read_context_class_record v.
Proof. destruct v. intros L R. cbn in L, R. unfold read_context_class_record. whole. Qed.
#[global] Hint Resolve context_class_record_can : can.

Lemma context_class_records_can o v : context_class_records_wf v ->
  context_class_records_ranges v -> can o read_context_class_records v.
Proof. destruct v. intros L R. cbn in L, R. unfold read_context_class_records. whole. Qed.
#[global] Hint Resolve context_class_records_can : can.

Lemma chained_record_can o v : chained_record_wf v -> chained_record_fits v -> can o read_chained_record v.
Proof. destruct v. intros L R. cbn in L, R. unfold read_chained_record. whole. Qed.
#[global] Hint Resolve chained_record_can : can.

Lemma chained_records_can o v : chained_records_wf v -> chained_records_ranges v ->
  can o read_chained_records v.
Proof. destruct v. intros L R. cbn in L, R. unfold read_chained_records. whole. Qed.
#[global] Hint Resolve chained_records_can : can.

Lemma chained_class_record_can o v : chained_class_record_wf v -> chained_class_record_fits v ->
  can o read_chained_class_record v.
Proof. destruct v. intros L R. cbn in L, R. unfold read_chained_class_record. whole. Qed.
#[global] Hint Resolve chained_class_record_can : can.

Lemma chained_class_records_can o v : chained_class_records_wf v ->
  chained_class_records_ranges v -> can o read_chained_class_records v.
Proof. destruct v. intros L R. cbn in L, R. unfold read_chained_class_records. whole. Qed.
#[global] Hint Resolve chained_class_records_can : can.

Lemma context_can o v : context_loose v -> context_ranges v -> can o read_context v.
Proof.
  intros L R. destruct v as [[]|[]|[]]; cbn in L, R; given; unfold read_context.
  - eapply can_peek; [apply (can_u16 o 1); reflexivity|]. eapply can_next; [reflexivity|].
    unfold read_context1. whole.
  - eapply can_peek; [apply (can_u16 o 2); reflexivity|]. eapply can_next; [reflexivity|].
    unfold read_context2. whole.
  - eapply can_peek; [apply (can_u16 o 3); reflexivity|]. eapply can_next; [reflexivity|].
    unfold read_context3. whole.
Qed.
#[global] Hint Resolve context_can : can.

Lemma chained_context_can o v : chained_context_loose v -> chained_context_ranges v ->
  can o read_chained_context v.
Proof.
  intros L R. destruct v as [[]|[]|[]]; cbn in L, R; given; unfold read_chained_context.
  - eapply can_peek; [apply (can_u16 o 1); reflexivity|]. eapply can_next; [reflexivity|].
    unfold read_chained_context1. whole.
  - eapply can_peek; [apply (can_u16 o 2); reflexivity|]. eapply can_next; [reflexivity|].
    unfold read_chained_context2. whole.
  - eapply can_peek; [apply (can_u16 o 3); reflexivity|]. eapply can_next; [reflexivity|].
    unfold read_chained_context3. whole.
Qed.
#[global] Hint Resolve chained_context_can : can.

(** ** The directory *)

Lemma language_header_can o v : u16 (language_header_offset v) -> can o read_language_header v.
Proof. destruct v. intros R. cbn in R. unfold read_language_header. whole. Qed.
#[global] Hint Resolve language_header_can : can.

Lemma script_header_can o v : u16 (script_header_offset v) -> can o read_script_header v.
Proof. destruct v. intros R. cbn in R. unfold read_script_header. whole. Qed.
#[global] Hint Resolve script_header_can : can.

Lemma feature_header_can o v : u16 (feature_header_offset v) -> can o read_feature_header v.
Proof. destruct v. intros R. cbn in R. unfold read_feature_header. whole. Qed.
#[global] Hint Resolve feature_header_can : can.

Lemma language_record_can o v : language_record_wf v -> language_record_fits v -> can o read_language_record v.
Proof. destruct v. intros L R. cbn in L, R. unfold read_language_record. whole. Qed.
#[global] Hint Resolve language_record_can : can.

Lemma script_record_can o v : script_record_wf v -> script_record_ranges v -> can o read_script_record v.
Proof. destruct v. intros L R. cbn in L, R. unfold read_script_record. whole. Qed.
#[global] Hint Resolve script_record_can : can.

Lemma scripts_can o v : scripts_wf v -> scripts_ranges v -> can o read_scripts v.
Proof. destruct v. intros L R. cbn in L, R. unfold read_scripts. whole. Qed.
#[global] Hint Resolve scripts_can : can.

Lemma feature_record_can o v : feature_record_wf v -> feature_record_ranges v -> can o read_feature_record v.
Proof.
  destruct v as [a n l p]. intros [C W] R. cbn in R. given. unfold read_feature_record.
  apply can_position. eapply can_next with (a := a); [|leaf]. eapply can_next with (a := n); [|leaf].
  eapply can_next with (a := l); [|leaf]. eapply can_next with (a := p); [reflexivity|].
  destruct p as [p|].
  - destruct (N.ltb_spec 0 a) as [Z|Z].
    + unfold add_u64, add_wrapping. cbn [bind ask can].
      destruct (N.ltb_spec (0 + a) (2 ^ 64)) as [_|B]; [|unfold u16 in *; lia].
      cbn [bind ask ret can jump]. eapply can_next; [reflexivity|]. cbn in *. subst p. reflexivity.
    + assert (Y : a = 0) by lia. apply W in Y. discriminate.
  - replace a with 0 by (symmetry; apply W; reflexivity). reflexivity.
Qed.
#[global] Hint Resolve feature_record_can : can.

Lemma features_can o v : features_wf v -> features_ranges v -> can o read_features v.
Proof. destruct v. intros L R. cbn in L, R. unfold read_features. whole. Qed.
#[global] Hint Resolve features_can : can.

Lemma feature_variations_can o v : feature_variations_wf v -> feature_variations_fits v ->
  can o read_feature_variations v.
Proof. destruct v. intros L R. cbn in L, R. unfold read_feature_variations. whole. Qed.
#[global] Hint Resolve feature_variations_can : can.

Lemma lookup_record_can {T} o (read_table : N -> steps T) (P : N -> T -> Prop) (Q : T -> Prop) v :
  (forall n t, P n t -> Q t -> can o (read_table n) t) ->
  lookup_record_wf P v -> lookup_record_ranges o Q v -> can o (read_lookup_record read_table) v.
Proof.
  intros H. destruct v as [t flags n offsets set tables]. intros L R. cbn in L, R. given.
  unfold read_lookup_record, take_lookup_flags. apply can_position. eapply can_next with (a := t); [|leaf].
  eapply can_next with (a := flags); [|leaf]. eapply can_next with (a := n); [|leaf].
  eapply can_next with (a := offsets); [|leaf]. eapply can_next with (a := set).
  - whole.
  - unfold has_mark_filtering. change 0x0010 with (2 ^ 4). rewrite ReadsTactics.has_flag_bit.
    destruct set as [set|]; destruct (N.testbit flags 4).
    + eapply can_next; [reflexivity|leaf].
    + assert (X : Some set = None) by tauto. discriminate.
    + assert (X : true = false) by tauto. discriminate.
    + reflexivity.
Qed.

Lemma lookups_can {T} o (read_table : N -> steps T) (P : N -> T -> Prop) (Q : T -> Prop) v :
  (forall n t, P n t -> Q t -> can o (read_table n) t) ->
  lookups_wf P v -> lookups_ranges o Q v -> can o (read_lookups read_table) v.
Proof.
  intros H. pose proof (fun v => lookup_record_can o read_table P Q v H) as K.
  destruct v. intros L R. cbn in L, R. unfold read_lookups. whole.
Qed.

Lemma list_can {A} o q (m : steps A) v default : u16 q ->
  stands_in (ignore_incomplete_directories o) q v default -> can o m v ->
    can o (jump_take_list 0 q m default) v.
Proof.
  intros U S H. unfold jump_take_list. apply can_ask. unfold stands_in in S.
  destruct (ignore_incomplete_directories o).
  - destruct (N.eqb_spec q 0) as [Z|Z].
    + rewrite (S eq_refl Z). subst q. reflexivity.
    + eapply can_next with (a := Some v); [reflexivity|]. apply can_maybe; [exact low0|near| |intros ? [= <-]; exact H].
      split; [discriminate|contradiction].
  - apply can_jump; [exact low0|near|exact H].
Qed.

Lemma directory_can {T} o (read_table : N -> steps T) (P : N -> T -> Prop) (Q : T -> Prop) v :
  (forall n t, P n t -> Q t -> can o (read_table n) t) ->
  directory_wf P v -> directory_ranges o Q v -> can o (read_directory read_table) v.
Proof.
  intros K. destruct v as [major minor a b c d scripts features lookups variations].
  intros (-> & M & L) R. cbn in R. given.
  unfold read_directory. apply can_position. eapply can_next with (a := 1); [|apply can_u16; reflexivity].
  eapply can_next with (a := minor); [|apply can_u16; destruct M; subst; reflexivity].
  eapply can_next with (a := tt); [|destruct M; subst; reflexivity].
  eapply can_next with (a := a); [|leaf]. eapply can_next with (a := b); [|leaf].
  eapply can_next with (a := c); [|leaf].
  eapply can_next with (a := d).
  - eapply can_next with (a := scripts); [|apply list_can; [assumption..|leaf]].
    eapply can_next with (a := features); [|apply list_can; [assumption..|leaf]].
    eapply can_next with (a := lookups); [|apply list_can; [assumption..|eapply lookups_can; eassumption]].
    whole.
  - destruct M as [Z|Z]; subst minor; cbn [N.eqb Pos.eqb andb]; [|leaf].
    match goal with X : presence_wf d variations, Y : _ -> variations = None |- _ =>
      rewrite (proj1 X (Y eq_refl)) end.
    reflexivity.
Qed.

(** ** [GSUB] *)

Lemma alternates_can o v : alternates_wf v -> alternates_fits v -> can o read_alternates v.
Proof. destruct v. intros L R. cbn in L, R. unfold read_alternates. whole. Qed.
#[global] Hint Resolve alternates_can : can.

Lemma ligature_can o v : ligature_wf v -> ligature_fits v -> can o read_ligature v.
Proof. destruct v. intros L R. cbn in L, R. unfold read_ligature. whole. Qed.
#[global] Hint Resolve ligature_can : can.

Lemma ligatures_can o v : ligatures_wf v -> ligatures_ranges v -> can o read_ligatures v.
Proof. destruct v. intros L R. cbn in L, R. unfold read_ligatures. whole. Qed.
#[global] Hint Resolve ligatures_can : can.

Lemma sequence_can o v : sequence_wf v -> sequence_fits v -> can o read_sequence v.
Proof. destruct v. intros L R. cbn in L, R. unfold read_sequence. whole. Qed.
#[global] Hint Resolve sequence_can : can.

Lemma single_substitution_can o v : single_substitution_loose v -> single_substitution_ranges v ->
  can o read_single_substitution v.
Proof.
  intros L R. destruct v as [[]|[]]; cbn in L, R; given; unfold read_single_substitution.
  - eapply can_peek; [apply (can_u16 o 1); reflexivity|]. eapply can_next; [reflexivity|].
    unfold read_single_substitution1. whole.
  - eapply can_peek; [apply (can_u16 o 2); reflexivity|]. eapply can_next; [reflexivity|].
    unfold read_single_substitution2. whole.
Qed.
#[global] Hint Resolve single_substitution_can : can.

Lemma gsub_type_can o n v : gsub_type_loose n v -> gsub_type_ranges v -> can o (read_gsub_type n) v.
Proof.
  destruct v as [v|[]|[]|[]|v|v|[]|[]]; intros L R; cbn in L, R; given; subst n; unfold read_gsub_type;
    (eapply can_next; [reflexivity|]).
  - apply single_substitution_can; assumption.
  - unfold read_multiple_substitution. whole.
  - unfold read_alternate_substitution. whole.
  - unfold read_ligature_substitution. whole.
  - apply context_can; assumption.
  - apply chained_context_can; assumption.
  - unfold read_extension_substitution. whole.
  - unfold read_reverse_chained_contextual_substibution. whole.
Qed.

(** ** [GPOS] *)

Lemma anchor_can o v : anchor_loose v -> anchor_ranges v -> can o read_anchor v.
Proof.
  intros L R. destruct v as [[]|[]|[]]; cbn in L, R; given; unfold read_anchor.
  - eapply can_peek; [apply (can_u16 o 1); reflexivity|]. eapply can_next; [reflexivity|].
    unfold read_anchor1. whole.
  - eapply can_peek; [apply (can_u16 o 2); reflexivity|]. eapply can_next; [reflexivity|].
    unfold read_anchor2. whole.
  - eapply can_peek; [apply (can_u16 o 3); reflexivity|]. eapply can_next; [reflexivity|].
    unfold read_anchor3. whole.
Qed.
#[global] Hint Resolve anchor_can : can.

Lemma base_can o p n v : low p -> base_loose n v -> base_ranges v -> can o (read_base p n) v.
Proof. destruct v. intros W L R. cbn in L, R. unfold read_base.
  unfold anchors_loose, anchors_ranges in *. whole. Qed.
#[global] Hint Resolve base_can : can.

Lemma component_can o p n v : low p -> component_loose n v -> component_ranges v -> can o (read_component p n) v.
Proof. destruct v. intros W L R. cbn in L, R. unfold read_component.
  unfold anchors_loose, anchors_ranges in *. whole. Qed.
#[global] Hint Resolve component_can : can.

Lemma mark2_can o p n v : low p -> mark2_loose n v -> mark2_ranges v -> can o (read_mark2 p n) v.
Proof. destruct v. intros W L R. cbn in L, R. unfold read_mark2.
  unfold anchors_loose, anchors_ranges in *. whole. Qed.
#[global] Hint Resolve mark2_can : can.

Lemma bases_can o n v : bases_loose n v -> bases_ranges v -> can o (read_bases n) v.
Proof. destruct v. intros L R. cbn in L, R. unfold read_bases. whole. Qed.
#[global] Hint Resolve bases_can : can.

Lemma gpos_ligature_can o n v : gpos_ligature_loose n v -> gpos_ligature_ranges v ->
  can o (read_gpos_ligature n) v.
Proof. destruct v. intros L R. cbn in L, R. unfold read_gpos_ligature. whole. Qed.
#[global] Hint Resolve gpos_ligature_can : can.

Lemma gpos_ligatures_can o n v : gpos_ligatures_loose n v -> gpos_ligatures_ranges v ->
  can o (read_gpos_ligatures n) v.
Proof. destruct v. intros L R. cbn in L, R. unfold read_gpos_ligatures. whole. Qed.
#[global] Hint Resolve gpos_ligatures_can : can.

Lemma mark2s_can o n v : mark2s_loose n v -> mark2s_ranges v -> can o (read_mark2s n) v.
Proof. destruct v. intros L R. cbn in L, R. unfold read_mark2s. whole. Qed.
#[global] Hint Resolve mark2s_can : can.

Lemma mark1_can o p v : low p -> mark1_loose v -> mark1_ranges o v -> can o (read_mark1 p) v.
Proof.
  destruct v as [a b v]. intros W L R. cbn in L, R. given. unfold read_mark1.
  eapply can_next with (a := a); [|leaf]. eapply can_next with (a := b); [|leaf]. apply can_ask.
  eapply can_next with (a := v); [reflexivity|]. unfold stands_in in *. destruct (ignore_incomplete_marks o).
  - destruct (N.eqb_spec b 0) as [Z|Z].
    + match goal with X : _ -> b = 0 -> _ |- _ => rewrite (X eq_refl Z) end. subst b. exists 0. reflexivity.
    + eapply can_next with (a := Some v); [reflexivity|].
      apply can_stay, can_maybe; [exact W|near| |intros ? [= <-]; leaf].
      split; [discriminate|contradiction].
  - leaf.
Qed.
#[global] Hint Resolve mark1_can : can.

Lemma mark1s_can o v : mark1s_loose v -> mark1s_ranges o v -> can o read_mark1s v.
Proof. destruct v. intros L R. cbn in L, R. unfold read_mark1s. whole. Qed.
#[global] Hint Resolve mark1s_can : can.

(** A part that may be missing. *)
Lemma some_can {A} o p q (m : steps A) (P Q : A -> Prop) v : (forall x, P x -> Q x -> can o m x) ->
  low p -> u16 q -> presence_wf q v -> maybe_wf P v -> maybe_fits Q v -> can o (jump_take_maybe p q m) v.
Proof. intros H L U W X Y. apply can_maybe; [exact L|near|exact W|]. intros x ->. apply H; assumption. Qed.

Lemma connection_can o p v : low p -> connection_loose v -> connection_ranges v -> can o (read_connection p) v.
Proof.
  destruct v as [a b x y]. intros W L R. cbn in L, R. given. unfold read_connection.
  eapply can_next with (a := a); [|leaf]. eapply can_next with (a := b); [|leaf].
  eapply can_next with (a := (x, y)); [reflexivity|]. apply can_stay.
  eapply can_next with (a := x); [eapply can_next with (a := y); [reflexivity|]|];
    (eapply some_can; [apply anchor_can|assumption..]).
Qed.
#[global] Hint Resolve connection_can : can.

Lemma if_can {A} o flags k (m : steps A) (P : A -> Prop) v : (forall x, P x -> can o m x) ->
  announced flags k v -> maybe_fits P v ->
  can o (take_if (has_flag flags (2 ^ k)) m) v.
Proof.
  intros H X F. rewrite ReadsTactics.has_flag_bit. unfold take_if, announced in *. destruct v as [x|].
  - destruct (N.testbit flags k); [|assert (Some x = None) by tauto; discriminate].
    eapply can_next; [reflexivity|]. apply H, F.
  - destruct (N.testbit flags k); [assert (true = false) by tauto; discriminate|reflexivity].
Qed.

Lemma linked_can o p offset v : low p -> maybe_fits u16 offset -> corrected_loose offset v ->
  maybe_fits correction_ranges v ->
  can o (take_linked p offset) v.
Proof.
  intros P U L R. unfold take_linked, corrected_loose in *. destruct offset as [offset|]; [|subst v; reflexivity].
  destruct L as [W L]. eapply some_can; [apply correction_can|assumption..].
Qed.

Lemma single_can o p flags v : low p -> single_loose flags v -> single_ranges v -> can o (read_single p flags) v.
Proof.
  destruct v as [x0 x1 x2 x3 x4 x5 x6 x7 c4 c5 c6 c7]. intros W L R. cbn in L, R. given. unfold read_single.
  eapply can_next; [|apply (if_can o flags 0 _ _ x0 (can_i16 o)); assumption].
  eapply can_next; [|apply (if_can o flags 1 _ _ x1 (can_i16 o)); assumption].
  eapply can_next; [|apply (if_can o flags 2 _ _ x2 (can_i16 o)); assumption].
  eapply can_next; [|apply (if_can o flags 3 _ _ x3 (can_i16 o)); assumption].
  eapply can_next; [|apply (if_can o flags 4 _ _ x4 (can_u16 o)); assumption].
  eapply can_next; [|apply (if_can o flags 5 _ _ x5 (can_u16 o)); assumption].
  eapply can_next; [|apply (if_can o flags 6 _ _ x6 (can_u16 o)); assumption].
  eapply can_next; [|apply (if_can o flags 7 _ _ x7 (can_u16 o)); assumption].
  eapply can_next with (a := (c4, c5, c6, c7)); [reflexivity|]. apply can_stay.
  eapply can_next with (a := c4); [|apply linked_can; assumption].
  eapply can_next with (a := c5); [|apply linked_can; assumption].
  eapply can_next with (a := c6); [|apply linked_can; assumption].
  eapply can_next with (a := c7); [reflexivity|apply linked_can; assumption].
Qed.
#[global] Hint Resolve single_can : can.

Lemma value_can o p flags v : low p -> value_loose flags v -> maybe_fits single_ranges v ->
  can o (if 0 <? flags then bind (read_single p flags) (fun v => ret (Some v)) else ret None) v.
Proof.
  intros P [W L] R. destruct v as [v|].
  - destruct (N.ltb_spec 0 flags) as [Z|Z].
    + eapply can_next; [reflexivity|]. apply single_can; assumption.
    + assert (Y : flags = 0) by lia. apply W in Y. discriminate.
  - rewrite (proj1 W eq_refl). reflexivity.
Qed.
#[global] Hint Resolve value_can : can.

Lemma pair1_can o p x y v : low p -> pair1_loose x y v -> pair1_ranges v -> can o (read_pair1 p x y) v.
Proof. destruct v. intros W L R. cbn in L, R. unfold read_pair1. whole. Qed.
#[global] Hint Resolve pair1_can : can.

Lemma pair2_can o p x y v : low p -> pair2_loose x y v -> pair2_ranges v -> can o (read_pair2 p x y) v.
Proof. destruct v. intros W L R. cbn in L, R. unfold read_pair2. whole. Qed.
#[global] Hint Resolve pair2_can : can.

Lemma pair1s_can o x y v : pair1s_loose x y v -> pair1s_ranges v -> can o (read_pair1s x y) v.
Proof. destruct v. intros L R. cbn in L, R. unfold read_pair1s. whole. Qed.
#[global] Hint Resolve pair1s_can : can.

Lemma pair2s_can o p n x y v : low p -> pair2s_loose n x y v -> pair2s_ranges v -> can o (read_pair2s p n x y) v.
Proof. destruct v. intros W L R. cbn in L, R. unfold read_pair2s. whole. Qed.
#[global] Hint Resolve pair2s_can : can.

Lemma gpos_type_can o n v : gpos_type_loose n v -> gpos_type_ranges o v -> can o (read_gpos_type n) v.
Proof.
  destruct v as [[[]|[]]|[[]|[]]|[]|[]|[]|[]|v|v|[]]; intros L R; cbn in L, R; given; subst n;
    unfold read_gpos_type;
    (eapply can_next; [reflexivity|]); unfold value_flags_fits in *.
  - unfold read_single_adjustment. eapply can_peek; [apply (can_u16 o 1); reflexivity|].
    eapply can_next; [reflexivity|]. unfold read_single_adjustment1, take_value_flags. whole.
  - unfold read_single_adjustment. eapply can_peek; [apply (can_u16 o 2); reflexivity|].
    eapply can_next; [reflexivity|]. unfold read_single_adjustment2, take_value_flags. whole.
  - unfold read_pair_adjustment. eapply can_peek; [apply (can_u16 o 1); reflexivity|].
    eapply can_next; [reflexivity|]. unfold read_pair_adjustment1, take_value_flags. whole.
  - unfold read_pair_adjustment. eapply can_peek; [apply (can_u16 o 2); reflexivity|].
    eapply can_next; [reflexivity|]. unfold read_pair_adjustment2, take_value_flags. whole.
  - unfold read_cursive_attachment. whole.
  - unfold read_mark_to_base_attachment. whole.
  - unfold read_mark_to_ligature_attachment. whole.
  - unfold read_mark_to_mark_attachment. whole.
  - apply context_can; assumption.
  - apply chained_context_can; assumption.
  - unfold read_extension_positioning. whole.
Qed.

(** ** [GDEF] *)

Lemma store_record_can o v : store_record_wf v -> store_record_fits o v -> can o read_store_record v.
Proof.
  destruct v as [n m k indices deltas]. intros L R. cbn [store_record_wf store_record_fits] in L, R. given.
  unfold read_store_record. eapply can_next with (a := n); [|leaf]. eapply can_next with (a := m); [|leaf].
  eapply can_next with (a := k); [|leaf]. eapply can_next with (a := indices); [|leaf].
  eapply can_next with (a := deltas); [reflexivity|].
  eapply can_next with (a := (m + k) mod 2 ^ 16); [leaf|].
  unfold add_u16, add_wrapping. apply can_ask. destruct (N.ltb_spec (m + k) (2 ^ 16)) as [B|B].
  - symmetry. apply N.mod_small. exact B.
  - destruct (overflow_checks o); [|reflexivity]. unfold u16 in *. assert (m + k < 65536) by auto. lia.
Qed.
#[global] Hint Resolve store_record_can : can.

Lemma store_can o v : store_wf v -> store_ranges o v -> can o read_store v.
Proof. destruct v. intros L R. cbn in L, R. unfold read_store. whole. Qed.
#[global] Hint Resolve store_can : can.

Lemma attachment_can o v : attachment_wf v -> attachment_fits v -> can o read_attachment v.
Proof. destruct v. intros L R. cbn in L, R. unfold read_attachment. whole. Qed.
#[global] Hint Resolve attachment_can : can.

Lemma attachments_can o v : attachments_loose v -> attachments_ranges v -> can o read_attachments v.
Proof. destruct v. intros L R. cbn in L, R. unfold read_attachments. whole. Qed.
#[global] Hint Resolve attachments_can : can.

Lemma caret_can o v : caret_loose v -> caret_ranges v -> can o read_caret v.
Proof.
  intros L R. destruct v as [[]|[]|[]]; cbn in L, R; given; unfold read_caret.
  - eapply can_peek; [apply (can_u32 o 1); reflexivity|]. eapply can_next; [reflexivity|].
    unfold read_caret1. whole.
  - eapply can_peek; [apply (can_u32 o 2); reflexivity|]. eapply can_next; [reflexivity|].
    unfold read_caret2. whole.
  - eapply can_peek; [apply (can_u32 o 3); reflexivity|]. eapply can_next; [reflexivity|].
    unfold read_caret3. whole.
Qed.
#[global] Hint Resolve caret_can : can.

Lemma gdef_ligature_can o v : gdef_ligature_loose v -> gdef_ligature_ranges v -> can o read_gdef_ligature v.
Proof. destruct v. intros L R. cbn in L, R. unfold read_gdef_ligature. whole. Qed.
#[global] Hint Resolve gdef_ligature_can : can.

Lemma gdef_ligatures_can o v : gdef_ligatures_loose v -> gdef_ligatures_ranges v -> can o read_gdef_ligatures v.
Proof. destruct v. intros L R. cbn in L, R. unfold read_gdef_ligatures. whole. Qed.
#[global] Hint Resolve gdef_ligatures_can : can.

Lemma marks_can o v : marks_loose v -> marks_ranges v -> can o read_marks v.
Proof. destruct v. intros L R. cbn in L, R. unfold read_marks. whole. Qed.
#[global] Hint Resolve marks_can : can.

Lemma gdef_header_can o v : gdef_header_wf v -> gdef_header_ranges v -> can o read_gdef_header v.
Proof.
  intros L R. destruct v as [[]|[]|[]]; cbn in L, R; given; unfold read_gdef_header.
  - eapply can_peek; [apply (can_u32 o 0x00010000); reflexivity|]. eapply can_next; [reflexivity|].
    unfold read_gdef_header1. whole.
  - eapply can_peek; [apply (can_u32 o 0x00010002); reflexivity|]. eapply can_next; [reflexivity|].
    unfold read_gdef_header12. whole.
  - eapply can_peek; [apply (can_u32 o 0x00010003); reflexivity|]. eapply can_next; [reflexivity|].
    unfold read_gdef_header13. whole.
Qed.
#[global] Hint Resolve gdef_header_can : can.

Lemma gdef_some_can {A} o q (m : steps A) (P Q : A -> Prop) v : (forall x, P x -> Q x -> can o m x) ->
  short q -> presence_wf q v -> maybe_wf P v -> maybe_fits Q v -> can o (jump_take_maybe 0 q m) v.
Proof. intros H U W X Y. apply can_maybe; [exact low0|exact U|exact W|]. intros x ->. apply H; assumption. Qed.

(** All offsets of a header. *)
Lemma gdef_header_short h : gdef_header_ranges h ->
  short (gdef_glyph_class_offset h) /\ short (gdef_attachment_offset h) /\ short (gdef_ligature_offset h) /\
  short (gdef_mark_class_offset h) /\ short (gdef_mark_offset h) /\ short (gdef_mark_offset_of_version13 h).
Proof. destruct h as [[]|[]|[]]; cbn; intros; given; repeat split; first [near|reflexivity]. Qed.

Lemma glyph_definition_can o v : glyph_definition_loose v -> glyph_definition_ranges o v ->
  can o read_glyph_definition v.
Proof.
  destruct v as [h v1 v2 v3 v4 v5 v6]. intros L R.
  unfold glyph_definition_loose, glyph_definition_ranges in L, R.
  destruct (gdef_offsets h) as [[[[[a b] c] d] m] q] eqn:E. given.
  destruct (gdef_header_short h) as (S1 & S2 & S3 & S4 & S5 & S6); [assumption|].
  assert (a = gdef_glyph_class_offset h /\ b = gdef_attachment_offset h /\ c = gdef_ligature_offset h /\
    d = gdef_mark_class_offset h /\ m = gdef_mark_offset h /\
    gdef_variation_offset h = gdef_mark_offset_of_version13 h) as (-> & -> & -> & -> & -> & Q)
    by (destruct h as [[]|[]|[]]; cbn in *; injection E; intros; subst; repeat split).
  rewrite Q in *. unfold read_glyph_definition. apply can_position.
  eapply can_next with (a := h); [|apply gdef_header_can; assumption].
  eapply can_next with (a := v1); [|eapply gdef_some_can; [apply class_can|assumption..]].
  eapply can_next with (a := v2); [|eapply gdef_some_can; [apply attachments_can|assumption..]].
  eapply can_next with (a := v3); [|eapply gdef_some_can; [apply gdef_ligatures_can|assumption..]].
  eapply can_next with (a := v4); [|eapply gdef_some_can; [apply class_can|assumption..]].
  eapply can_next with (a := v5); [|eapply gdef_some_can; [apply marks_can|assumption..]].
  eapply can_next with (a := v6); [|eapply gdef_some_can; [apply store_can|assumption..]].
  reflexivity.
Qed.

(** ** [CPAL], [fvar], and the directory of a font *)

Lemma color_can o v : color_fits v -> can o read_color v.
Proof. destruct v. intros R. cbn in R. unfold read_color. whole. Qed.
#[global] Hint Resolve color_can : can.

Lemma color_palettes_can o v : color_palettes_wf v -> color_palettes_ranges v -> can o read_color_palettes v.
Proof.
  intros L R. unfold read_color_palettes. destruct v as [[[]|[]] colors]; cbn in L, R; given;
    apply can_position.
  - eapply can_next with (a := CpalVersion0 (mkCpalHeader0 _ _ _ _ _ _)); [cbn iota beta; whole|].
    unfold read_cpal_header. eapply can_peek; [apply (can_u16 o 0); reflexivity|].
    eapply can_next; [reflexivity|]. unfold read_cpal_header0. whole.
  - eapply can_next with (a := CpalVersion1 (mkCpalHeader1 _ _ _ _ _ _)); [cbn iota beta; whole|].
    unfold read_cpal_header. eapply can_peek; [apply (can_u16 o 1); reflexivity|].
    eapply can_next; [reflexivity|]. unfold read_cpal_header1. whole.
Qed.

Lemma axis_record_can o v : axis_record_fits o v -> can o read_axis_record v.
Proof. destruct v. intros R. cbn in R. unfold read_axis_record, take_axis_flags. whole. Qed.
#[global] Hint Resolve axis_record_can : can.

Lemma instance_record_can o n v : counts n (instance_record_coordinates v) ->
  instance_record_fits o v -> can o (read_instance_record n) v.
Proof. destruct v. intros L R. cbn in L, R. unfold read_instance_record, take_instance_flags. whole. Qed.
#[global] Hint Resolve instance_record_can : can.

Lemma add_can o p q : p + q < 2 ^ 64 -> can o (add_u64 p q) (p + q).
Proof.
  intros L. unfold add_u64, add_wrapping. apply can_ask.
  destruct (N.ltb_spec (p + q) (2 ^ 64)); [reflexivity|lia].
Qed.

Lemma font_variations_can o v : font_variations_wf v -> font_variations_ranges o v ->
  can o read_font_variations v.
Proof.
  destruct v as [[major minor offset reserved n size1 m size2] axes instances]. intros L R. cbn in L, R. given.
  unfold read_font_variations. apply can_position.
  eapply can_next with (a := mkFvarHeader major minor offset reserved n size1 m size2);
    [|unfold read_fvar_header; whole].
  cbn [fvar_header_axis_offset fvar_header_axis_count fvar_header_axis_size
    fvar_header_instance_count fvar_header_instance_size].
  unfold u16 in *.
  eapply can_next; [|apply add_can; lia]. eapply can_next with (a := axes).
  - eapply can_next; [|apply add_can; nia]. eapply can_next with (a := instances); [reflexivity|].
    apply can_n; [assumption|]. intros i v E.
    assert (I : (i < length instances)%nat) by (apply nth_error_Some; congruence).
    unfold counts in *. apply can_jump; [unfold low; nia|unfold short; nia|].
    apply instance_record_can; [exact (nth_of (fun i => counts n (instance_record_coordinates i)) _
      _ _ ltac:(eassumption) E)|].
    exact (nth_of (instance_record_fits o) _ _ _ ltac:(eassumption) E).
  - apply can_n; [assumption|]. intros i v E.
    assert (I : (i < length axes)%nat) by (apply nth_error_Some; congruence).
    unfold counts in *. apply can_jump; [unfold low; nia|unfold short; nia|].
    apply axis_record_can. exact (nth_of (axis_record_fits o) _ _ _ ltac:(eassumption) E).
Qed.

Lemma offset_record_can o v : offset_record_fits v -> can o read_offset_record v.
Proof. destruct v. intros R. cbn in R. unfold read_offset_record. whole. Qed.
#[global] Hint Resolve offset_record_can : can.

Lemma offsets_can o d v : counts (offsets_header_table_count (offsets_header v)) (offsets_records v) ->
  (exists t, truetype_accept d t = true) -> offsets_fits v -> can o (read_offsets d) v.
Proof.
  destruct v as [[t n a b c] records]. intros C [u U] F. cbn in C, F. given. unfold read_offsets.
  eapply can_peek; [apply (can_tag o u)|]. rewrite U.
  eapply can_next with (a := mkOffsetsHeader t n a b c); [|unfold read_offsets_header; whole]. whole.
Qed.

(** ** All requests *)

Lemma request_can {A} (r : request A) o v : loose r v -> ranges o r v -> can o (steps_of r) v.
Proof.
  destruct r; cbn [steps_of loose ranges]; intros L R.
  - destruct v as [[|font [|]]]; cbn in L; try contradiction. destruct R as [T F]. cbn in F.
    apply Forall_inv in F.
    unfold read_file. eapply can_peek; [apply (can_tag o (Tag x00 x01 x00 x00))|].
    eapply can_next with (a := font); [reflexivity|]. unfold read_font. destruct font as [offsets].
    eapply can_next; [reflexivity|]. apply offsets_can; assumption.
  - destruct R as [T F]. unfold read_font. destruct v as [offsets].
    eapply can_next; [reflexivity|]. apply offsets_can; assumption.
  - apply glyph_definition_can; assumption.
  - eapply directory_can; [apply gpos_type_can|eassumption..].
  - eapply directory_can; [apply gsub_type_can|eassumption..].
  - apply color_palettes_can; assumption.
  - apply font_variations_can; assumption.
Qed.

(** A tape that gives one prepared answer after the other, wherever it is told to go. *)
Definition scripted : tape := {|
  state := list (N + byte);
  tell s := match s with inl q :: s => (Answer q, s) | _ => (Over, s) end;
  seek _ s := (Answer tt, s);
  take s := match s with inr b :: s => (Answer b, s) | _ => (Over, s) end |}.

Lemma can_exec {A} (m : steps A) o v : can o m v -> exists s, exec scripted m o s = Gives v [].
Proof.
  induction m as [a|x| |m IH|m IH|m IH|q m IH|m IH]; cbn [can exec]; intros H.
  - exists []. rewrite H. reflexivity.
  - contradiction.
  - contradiction.
  - exact (IH o H).
  - exact (IH H).
  - destruct H as [q H]. destruct (IH q H) as [s E]. exists (inl q :: s). exact E.
  - exact (IH H).
  - destruct H as [b H]. destruct (IH b H) as [s E]. exists (inr b :: s). exact E.
Qed.

Lemma request_exact {A} (r : request A) o v :
  (exists T s s', exec T (steps_of r) o s = Gives v s') <-> loose r v /\ ranges o r v.
Proof.
  split.
  - intros (T & s & s' & E). exact (request_only r o v (exec_can T _ o s v s' E)).
  - intros [L R]. destruct (can_exec _ o v (request_can r o v L R)) as [s E]. exists scripted, s, []. exact E.
Qed.
