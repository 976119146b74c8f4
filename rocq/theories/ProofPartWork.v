(** The work of reading parts by themselves (C79). *)

From Verif Require Export SpecPartWork.
From Verif Require Import ProofWork Steps StepsReaders.
From Coq Require Import NArith Lia List.
Local Open Scope N_scope.

(** *** Tables *)

Lemma read_coverage1_costs n : costs n read_coverage1 (3 * Y n 1) top.
Proof. unfold read_coverage1. table n. Qed.

Lemma read_coverage2_costs n : costs n read_coverage2 (3 * Y n 1) top.
Proof. unfold read_coverage2. table n. Qed.

Lemma read_class1_costs n : costs n read_class1 (3 * Y n 1) top.
Proof. unfold read_class1. table n. Qed.

Lemma read_class2_costs n : costs n read_class2 (3 * Y n 1) top.
Proof. unfold read_class2. table n. Qed.

Lemma read_context3_square n : costs n read_context3 (7 * Y n 2) top.
Proof. unfold read_context3. table n. Qed.

Lemma read_chained_context3_square n : costs n read_chained_context3 (14 * Y n 2) top.
Proof. unfold read_chained_context3. table n. Qed.

(** *** Parts of positionings *)

Lemma take_if_costs {A} n b (m : steps A) w Q : costs n m w Q -> costs n (take_if b m) w top.
Proof.
  intros H. unfold take_if. destruct b; [|apply ret_costs].
  eapply bind_costs; [exact H|apply N.le_refl|intros; apply ret_costs].
Qed.

Lemma take_linked_line n position o : costs n (take_linked position o) (1 + 3 * Y n 1) top.
Proof. eapply costs_top; [apply take_linked_costs|]. destruct o; cbn [credit]; lia. Qed.

Lemma read_single_costs n position flags : costs n (read_single position flags) (14 * Y n 1) top.
Proof.
  unfold read_single. grow n. eapply costs_top; [|].
  - do 4 (eapply costs_bind; [eapply take_if_costs, costs_of, take_i16_eats|intros]).
    do 4 (eapply costs_bind; [eapply take_if_costs, costs_of, take_u16_eats|intros]).
    eapply costs_bind; [eapply costs_of, stay_eats|intros [[[x y] z] t] _; apply (ret_costs _ _ 0)].
    do 4 (eapply costs_bind; [apply take_linked_line|intros]). apply (ret_costs _ _ 0).
  - lia.
Qed.

Lemma value_costs n position flags :
  costs n (if 0 <? flags then bind (read_single position flags) (fun v => ret (Some v)) else ret None)
    (14 * Y n 1) top.
Proof.
  destruct (0 <? flags); [|apply ret_costs].
  eapply bind_costs; [apply read_single_costs|apply N.le_refl|intros; apply ret_costs].
Qed.

Lemma read_pair1_costs n position f1 f2 : costs n (read_pair1 position f1 f2) (29 * Y n 1) top.
Proof.
  unfold read_pair1. grow n. eapply costs_top; [|].
  - eapply costs_bind; [field|intros]. do 2 (eapply costs_bind; [apply value_costs|intros]).
    apply (ret_costs _ _ 0).
  - lia.
Qed.

Lemma read_pair2_costs n position f1 f2 : costs n (read_pair2 position f1 f2) (29 * Y n 1) top.
Proof.
  unfold read_pair2. grow n. eapply costs_top; [|].
  - do 2 (eapply costs_bind; [apply value_costs|intros]). apply (ret_costs _ _ 0).
  - lia.
Qed.

Lemma read_pair2s_costs n position count f1 f2 :
  costs n (read_pair2s position count f1 f2) (9 * Y n 2 + 5 * count) top.
Proof.
  unfold read_pair2s. grow n. eapply bind_costs with (Q := top); [|apply N.le_refl|intros; apply ret_costs].
  unfold for_n. eapply pays_costs.
  - apply (for_range_pays n 4 _ none). intros i. apply read_pair2_pays.
  - rewrite N2Nat.id. lia.
Qed.

Lemma read_single_adjustment1_line n : costs n read_single_adjustment1 (18 * Y n 1) top.
Proof.
  unfold read_single_adjustment1. grow n. eapply costs_top; [|].
  - do 4 (eapply costs_bind; [field|intros]). eapply costs_bind; [apply read_single_costs|intros]. fields.
  - lia.
Qed.

#[export] Hint Resolve read_coverage1_costs read_coverage2_costs read_class1_costs read_class2_costs
  read_context3_square read_chained_context3_square read_single_costs read_pair1_costs read_pair2_costs
  read_pair2s_costs read_single_adjustment1_line read_gpos_ligature_costs read_pair1s_costs
  read_gsub_type_costs read_gpos_type_costs read_axis_record_costs read_instance_record_costs
  read_fvar_header_costs : costs.
#[export] Hint Resolve read_mark1_eats read_connection_eats : eats.

Lemma anchors_costs {B} n position count (g : list N -> list (option Anchor) -> B) :
  costs n (bind (take_vec count take_u16) (fun offsets =>
    bind (stay (jump_take_maybe_n position count offsets read_anchor))
      (fun anchors => ret (g offsets anchors)))) (9 * Y n 2) top.
Proof. grow n. eapply pays_costs; [apply anchors_pays|]. lia. Qed.

(** ** Parts *)

Lemma piece_costs {A} (r : piece A) n : costs n (piece_steps r) (piece_effort r n) top.
Proof.
  grow n. pose proof (Y_one n) as YM.
  destruct r; cbn [piece_steps piece_effort];
    change ((n + 16) ^ 2) with (Y n 2); change ((n + 16) ^ 3) with (Y n 3);
    change ((n + 16) ^ 4) with (Y n 4); change ((n + 16) ^ 5) with (Y n 5);
    try rewrite <- YM; try (eapply costs_top; [solve [field]|lia]).
  - eapply costs_top; [apply (read_lookup_record_costs n read_gsub_type 11 0), read_gsub_type_costs|]. lia.
  - eapply costs_top; [apply (read_lookups_costs n read_gsub_type 11 0), read_gsub_type_costs|]. lia.
  - apply (read_lookup_record_costs n read_gpos_type 11), read_gpos_type_costs.
  - apply (read_lookups_costs n read_gpos_type 11), read_gpos_type_costs.
  - apply anchors_costs.
  - apply anchors_costs.
  - apply anchors_costs.
Qed.

Lemma piece_work {A} (r : piece A) o l p :
  work (piece_steps r) (mkEnv (file_of l) o) p <= piece_effort r (N.of_nat (length l)).
Proof. apply (piece_costs r), file_of_ends. Qed.
