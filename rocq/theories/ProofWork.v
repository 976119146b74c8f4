(** The work of a read is bounded by the size of the file (C79). *)

From Verif Require Export SpecWork ProofSteps.
From Verif Require Import Steps StepsReaders.

(** ** Steps *)

Lemma work_bind {A B} (m : steps A) (k : A -> steps B) e p :
  work (bind m k) e p = work m e p + match run m e p with Ok (a, q) => work (k a) e q | _ => 0 end.
Proof.
  revert p. induction m as [a|x| |m IH|m IH|m IH|q m IH|m IH]; intros p; cbn -[N.add]; rewrite ?IH; try lia.
  destruct (content e p); [|lia]. rewrite IH. lia.
Qed.

(** The file has at most [n] bytes. *)
Definition ends (f : file) (n : N) : Prop := forall p, n <= p -> f p = None.

(** The work is at most [w], and what is read has the property [Q]. *)
Definition costs {A} (n : N) (m : steps A) (w : N) (Q : A -> Prop) : Prop := forall e p,
  ends (content e) n -> work m e p <= w /\ forall a q, run m e p = Ok (a, q) -> Q a.

(** Besides, the cursor goes forward by at least [k] bytes, and not beyond the end. *)
Definition eats {A} (n k : N) (m : steps A) (w : N) (Q : A -> Prop) : Prop := forall e p,
  ends (content e) n ->
  work m e p <= w /\ forall a q, run m e p = Ok (a, q) -> Q a /\ p + k <= q /\ q <= N.max p n.

Definition top {A} (a : A) : Prop := True.

Lemma costs_of {A} n k (m : steps A) w Q : eats n k m w Q -> costs n m w Q.
Proof. intros H e p E. destruct (H e p E) as [W S]. split; [exact W|]. intros a q R. apply (S a q R). Qed.

Lemma costs_weaken {A} n (m : steps A) w w' Q : costs n m w Q -> w <= w' -> costs n m w' top.
Proof. intros H L e p E. destruct (H e p E) as [W S]. split; [lia|]. intros a q R. exact I. Qed.

Lemma eats_weaken {A} n k (m : steps A) w w' Q : eats n k m w Q -> w <= w' -> eats n k m w' top.
Proof.
  intros H L e p E. destruct (H e p E) as [W S]. split; [lia|]. intros a q R. split; [exact I|apply (S a q R)].
Qed.

Lemma costs_bind {A B} n (m : steps A) (k : A -> steps B) w w' Q Q' :
  costs n m w Q -> (forall a, Q a -> costs n (k a) w' Q') -> costs n (bind m k) (w + w') Q'.
Proof.
  intros H K e p E. destruct (H e p E) as [W S]. rewrite work_bind, run_bind.
  destruct (run m e p) as [[a q]| |]; [|split; [lia|discriminate]..].
  destruct (K a (S a q eq_refl) e q E) as [W' S']. split; [lia|exact S'].
Qed.

Lemma eats_bind {A B} n k k' (m : steps A) (g : A -> steps B) w w' Q Q' :
  eats n k m w Q -> (forall a, Q a -> eats n k' (g a) w' Q') -> eats n (k + k') (bind m g) (w + w') Q'.
Proof.
  intros H K e p E. destruct (H e p E) as [W S]. rewrite work_bind, run_bind.
  destruct (run m e p) as [[a q]| |]; [|split; [lia|discriminate]..].
  destruct (S a q eq_refl) as [Qa [L U]].
  destruct (K a Qa e q E) as [W' S']. split; [lia|]. intros b r R. destruct (S' b r R) as [Qb [L' U']].
  split; [exact Qb|lia].
Qed.

Lemma costs_if {A} n (b : bool) (m m' : steps A) w w' Q :
  costs n m w Q -> costs n m' w' Q -> costs n (if b then m else m') (w + w') Q.
Proof. intros H H' e p E. destruct b; [destruct (H e p E)|destruct (H' e p E)]; split; auto; lia. Qed.

(** ** Leaves *)

Lemma ret_eats {A} n (a : A) : eats n 0 (ret a) 0 (eq a).
Proof. intros e p E. cbn. split; [lia|]. intros b q R. inversion R. split; [reflexivity|lia]. Qed.

Lemma raise_eats {A} n x : eats n 0 (@raise A x) 0 top.
Proof. intros e p E. cbn. split; [lia|discriminate]. Qed.

Lemma panic_eats {A} n : eats n 0 (@panic A) 0 top.
Proof. intros e p E. cbn. split; [lia|discriminate]. Qed.

Lemma ask_eats n : eats n 0 ask 0 top.
Proof. intros e p E. cbn. split; [lia|]. intros b q R. inversion R. split; [exact I|lia]. Qed.

Lemma get_position_eats n : eats n 0 get_position 1 top.
Proof. intros e p E. cbn. split; [lia|]. intros b q R. inversion R. split; [exact I|lia]. Qed.

Lemma take_byte_eats n : eats n 1 take_byte 1 top.
Proof.
  intros e p E. cbn. destruct (content e p) eqn:C; split; try lia; try discriminate.
  intros a q R. inversion R. split; [exact I|]. destruct (N.le_gt_cases n p) as [L|L]; [|lia].
  rewrite (E p L) in C. discriminate C.
Qed.

Lemma jump_costs n q : costs n (jump q) 1 top.
Proof. intros e p E. cbn. split; [lia|]. intros. exact I. Qed.

Lemma stay_eats {A} n (m : steps A) w Q : costs n m w Q -> eats n 0 (stay m) (2 + w) Q.
Proof.
  intros H e p E. destruct (H e p E) as [W S]. unfold stay, get_position, jump, ret.
  cbn -[N.add]. rewrite work_bind, run_bind. destruct (run m e p) as [[a q]| |]; cbn -[N.add];
    [|split; [lia|discriminate]..].
  split; [lia|]. intros b r R. inversion R. subst. split; [apply (S b q eq_refl)|lia].
Qed.

(** ** Loops *)

(** Elements that are next to each other. *)
Lemma for_range_eats {A} n k (f : nat -> steps A) w Q : 0 < k -> (forall i, eats n k (f i) w Q) ->
  forall e, ends (content e) n -> forall count i p,
  k * work (for_range i count f) e p <= (1 + w) * ((n - p) + k) /\
  forall l q, run (for_range i count f) e p = Ok (l, q) ->
    p + k * N.of_nat count <= q /\ q <= N.max p n /\ length l = count.
Proof.
  intros K H e E. induction count as [|count IH]; intros i p; cbn [for_range work run].
  - unfold ret. cbn [work run]. split; [rewrite N.mul_0_r; apply N.le_0_l|]. intros l q R.
    inversion R. split; [lia|split; [lia|reflexivity]].
  - rewrite work_bind, run_bind. destruct (H i e p E) as [W S].
    destruct (run (f i) e p) as [[a q]| |]; [|split; [|discriminate]; nia..].
    destruct (S a q eq_refl) as [_ [L U]]. rewrite work_bind, run_bind.
    destruct (IH (Datatypes.S i) q) as [W' S'].
    destruct (run (for_range (Datatypes.S i) count f) e q) as [[l r]| |]; cbn [work run ret].
    + split; [nia|]. intros l' q' R. inversion R. subst. destruct (S' l q' eq_refl) as [L' [U' <-]].
      cbn [length]. split; [lia|split; [lia|reflexivity]].
    + split; [nia|discriminate].
    + split; [nia|discriminate].
Qed.

(** Elements anywhere. *)
Lemma for_range_costs {A} n (f : nat -> steps A) w Q : (forall i, costs n (f i) w Q) ->
  forall e, ends (content e) n -> forall count i p,
  work (for_range i count f) e p <= N.of_nat count * (1 + w).
Proof.
  intros H e E. induction count as [|count IH]; intros i p; cbn [for_range work run].
  - unfold ret. cbn [work]. lia.
  - rewrite work_bind. destruct (H i e p E) as [W _].
    destruct (run (f i) e p) as [[a q]| |]; [|nia..]. rewrite work_bind.
    pose proof (IH (Datatypes.S i) q) as W'.
    destruct (run (for_range (Datatypes.S i) count f) e q) as [[l r]| |]; cbn [work ret]; nia.
Qed.

(** ** Bounds: powers of the size, a little enlarged *)

Definition Y (n : N) (d : nat) : N := (n + 16) ^ N.of_nat d.

Lemma Y_zero n : Y n 0 = 1.
Proof. reflexivity. Qed.

Lemma Y_succ n d : (n + 16) * Y n d = Y n (S d).
Proof. unfold Y. rewrite Nat2N.inj_succ, N.pow_succ_r'. reflexivity. Qed.

Lemma Y_one n : Y n 1 = n + 16.
Proof. rewrite <- Y_succ, Y_zero. lia. Qed.

Lemma Y_le n d : 16 * Y n d <= Y n (S d).
Proof. rewrite <- Y_succ. nia. Qed.

Lemma Y_grows n : 16 <= Y n 1 /\ 16 * Y n 1 <= Y n 2 /\ 16 * Y n 2 <= Y n 3 /\ 16 * Y n 3 <= Y n 4 /\
  16 * Y n 4 <= Y n 5.
Proof. rewrite Y_one at 1. repeat split; try apply Y_le. lia. Qed.

Lemma Y_mul n c d : Y n 1 * (c * Y n d) = c * Y n (S d).
Proof. rewrite <- (Y_succ n d), Y_one. lia. Qed.

(** ** Sequences of known cost *)

Lemma bind_costs {A B} n (m : steps A) (k : A -> steps B) w W Q Q' :
  costs n m w Q -> w <= W -> (forall a, Q a -> costs n (k a) (W - w) Q') -> costs n (bind m k) W Q'.
Proof.
  intros H L K e p E. destruct (costs_bind n m k w (W - w) Q Q' H K e p E) as [C S]. split; [lia|exact S].
Qed.

Lemma bind_eats {A B} n k K (m : steps A) (g : A -> steps B) w W Q Q' :
  eats n k m w Q -> w <= W -> k <= K -> (forall a, Q a -> eats n (K - k) (g a) (W - w) Q') ->
    eats n K (bind m g) W Q'.
Proof.
  intros H L LK G e p E. destruct (eats_bind n k (K - k) m g w (W - w) Q Q' H G e p E) as [C S].
  split; [lia|]. intros a q R. destruct (S a q R) as [Qa [L' U]]. split; [exact Qa|lia].
Qed.

Lemma ret_costs {A} n (a : A) W : costs n (ret a) W top.
Proof. intros e p E. cbn. split; [lia|]. intros. exact I. Qed.

Lemma raise_costs {A} n x W : costs n (@raise A x) W top.
Proof. intros e p E. cbn. split; [lia|]. intros. exact I. Qed.

Lemma ret_eats_all {A} n (a : A) K W : K = 0 -> eats n K (ret a) W top.
Proof. intros -> e p E. cbn. split; [lia|]. intros b q R. inversion R. split; [exact I|lia]. Qed.

(** ** Scalars *)

Lemma take_u8_eats n : eats n 1 take_u8 1 top.
Proof. unfold take_u8. eapply bind_eats; [apply take_byte_eats|lia|lia|intros]. apply ret_eats_all.
  reflexivity. Qed.

Lemma take_u16_eats n : eats n 2 take_u16 2 (fun v => v < 65536).
Proof.
  intros e p E. unfold take_u16.
  destruct (eats_bind n 1 1 take_byte (fun b0 => bind take_byte (fun b1 =>
    ret (256 * Byte.to_N b0 + Byte.to_N b1))) 1 1 top (fun v => v < 65536)
    (take_byte_eats n)) with (e := e) (p := p) as [W S]; [|exact E|split; [exact W|exact S]].
  intros b0 _. apply (eats_bind n 1 0 take_byte (fun b1 => ret (256 * Byte.to_N b0 + Byte.to_N b1)) 1 0 top
    (fun v => v < 65536) (take_byte_eats n)).
  intros b1 _ e' p' E'. cbn [work run ret]. split; [lia|]. intros v q R.
  assert (V : v = 256 * Byte.to_N b0 + Byte.to_N b1 /\ q = p') by (injection R; auto). destruct V as [-> ->].
  pose proof (Byte.to_N_bounded b0). pose proof (Byte.to_N_bounded b1). lia.
Qed.

Lemma take_u32_eats n : eats n 4 take_u32 4 top.
Proof.
  unfold take_u32. do 4 (eapply bind_eats; [apply take_byte_eats|lia|lia|intros]).
  apply ret_eats_all. reflexivity.
Qed.

Lemma take_tag_eats n : eats n 4 take_tag 4 top.
Proof.
  unfold take_tag. do 4 (eapply bind_eats; [apply take_byte_eats|lia|lia|intros]).
  apply ret_eats_all. reflexivity.
Qed.

Lemma take_i16_eats n : eats n 2 take_i16 2 top.
Proof. unfold take_i16. eapply bind_eats; [apply take_u16_eats|lia|lia|intros]. apply ret_eats_all.
  reflexivity. Qed.

Lemma take_q32_eats n : eats n 4 take_q32 4 top.
Proof. unfold take_q32. eapply bind_eats; [apply take_u32_eats|lia|lia|intros]. apply ret_eats_all.
  reflexivity. Qed.

Lemma take_const_eats n c : eats n 2 (take_const take_u16 c) 2 top.
Proof.
  unfold take_const. eapply bind_eats; [apply take_u16_eats|lia|lia|intros].
  destruct (a =? c); [apply ret_eats_all; reflexivity|]. intros e p E. cbn. split; [lia|discriminate].
Qed.

Lemma take_flags_eats n invalid : eats n 2 (take_flags invalid) 2 top.
Proof.
  unfold take_flags. eapply bind_eats; [apply take_u16_eats|lia|lia|intros].
  eapply bind_eats; [apply ask_eats|lia|lia|intros].
  destruct (_ && _); [|apply ret_eats_all; reflexivity]. intros e p E. cbn. split; [lia|discriminate].
Qed.

Lemma add_wrapping_eats n bits a b : eats n 0 (add_wrapping bits a b) 0 top.
Proof.
  unfold add_wrapping. eapply bind_eats; [apply ask_eats|lia|lia|intros].
  destruct (_ <? _); [apply ret_eats_all; reflexivity|].
  destruct (overflow_checks _); [|apply ret_eats_all; reflexivity].
  intros e p E. cbn. split; [lia|discriminate].
Qed.

Lemma add_u64_eats n a b : eats n 0 (add_u64 a b) 0 top.
Proof. apply add_wrapping_eats. Qed.

Lemma add_u16_eats n a b : eats n 0 (add_u16 a b) 0 top.
Proof. apply add_wrapping_eats. Qed.

Lemma index_eats {A} n (l : list A) i : eats n 0 (index l i) 0 top.
Proof.
  unfold index. destruct (nth_error l i); [apply ret_eats_all; reflexivity|]. intros e p E. cbn.
  split; [lia|discriminate].
Qed.

#[export] Hint Resolve take_u8_eats take_u16_eats take_u32_eats take_tag_eats take_i16_eats take_q32_eats
  take_const_eats take_flags_eats add_u64_eats add_u16_eats index_eats get_position_eats ask_eats : eats.

Lemma take_lookup_flags_eats n : eats n 2 take_lookup_flags 2 top.
Proof. apply take_flags_eats. Qed.

Lemma take_value_flags_eats n : eats n 2 take_value_flags 2 top.
Proof. apply take_flags_eats. Qed.

Lemma take_axis_flags_eats n : eats n 2 take_axis_flags 2 top.
Proof. apply take_flags_eats. Qed.

Lemma take_instance_flags_eats n : eats n 2 take_instance_flags 2 top.
Proof. apply take_flags_eats. Qed.

#[export] Hint Resolve take_lookup_flags_eats take_value_flags_eats take_axis_flags_eats
  take_instance_flags_eats : eats.

(** ** Vectors *)

Lemma take_vec_eats {A} n k (m : steps A) Q count : 0 < k -> k <= 16 -> eats n k m k Q ->
  eats n (k * count) (take_vec count m) (2 * Y n 1) (fun l => k * count <= n /\ N.of_nat (length l) = count).
Proof.
  intros K L H e p E. unfold take_vec, for_n.
  destruct (for_range_eats n k (fun _ => m) k Q K (fun _ => H) e E (N.to_nat count) 0 p) as [W S].
  rewrite Y_one. split; [nia|]. intros l q R. destruct (S l q R) as [S1 [S2 S3]]. rewrite N2Nat.id in S1.
  split; [split; [nia|lia]|]. lia.
Qed.

Lemma take_vec_costs {A} n k (m : steps A) Q count : 0 < k -> k <= 16 -> eats n k m k Q ->
  costs n (take_vec count m) (2 * Y n 1) (fun l => k * count <= n /\ N.of_nat (length l) = count).
Proof. intros K L H. eapply costs_of, take_vec_eats; eassumption. Qed.

(** Elements of some length that have parts elsewhere. *)
Lemma for_n_costs {A} n k (f : nat -> steps A) w Q count : 0 < k -> k <= 16 -> (forall i, eats n k (f i) w Q) ->
  costs n (for_n count f) (Y n 1 + Y n 1 * w) top.
Proof.
  intros K L H e p E. unfold for_n.
  destruct (for_range_eats n k f w Q K H e E (N.to_nat count) 0 p) as [W _].
  rewrite Y_one. split; [nia|]. intros. exact I.
Qed.

(** ** Parts *)

Lemma jump_take_costs {A} n position offset (m : steps A) w Q :
  costs n m w Q -> costs n (jump_take position offset m) (1 + w) Q.
Proof.
  intros H. unfold jump_take. eapply bind_costs; [apply costs_of with (k := 0), add_u64_eats|lia|intros q _].
  eapply bind_costs; [apply jump_costs|lia|intros _ _]. replace (1 + w - 0 - 1) with w by lia. exact H.
Qed.

Lemma jump_take_maybe_costs {A} n position offset (m : steps A) w Q :
  costs n m w Q -> costs n (jump_take_maybe position offset m) (1 + w) top.
Proof.
  intros H. unfold jump_take_maybe. destruct (0 <? offset); [|apply ret_costs].
  eapply bind_costs; [apply jump_take_costs, H|lia|intros]. apply ret_costs.
Qed.

Lemma parts_costs {A} n (f : nat -> steps A) w Q count :
  2 * count <= n -> (forall i, costs n (f i) (1 + w) Q) ->
  costs n (for_n count f) (Y n 1 + Y n 1 * w) top.
Proof.
  intros L H e p E. unfold for_n. pose proof (for_range_costs n f (1 + w) Q H e E (N.to_nat count) 0 p) as W.
  rewrite N2Nat.id in W. rewrite Y_one. split; [nia|]. intros. exact I.
Qed.

Lemma jump_take_each_costs {A} n position count offset (m : steps A) w Q Q' : 2 * count <= n ->
  (forall i, costs n (offset i) 0 Q') -> costs n m w Q ->
  costs n (jump_take_each position count offset m) (Y n 1 + Y n 1 * w) top.
Proof.
  intros L O H. unfold jump_take_each. apply (parts_costs n _ w Q count L). intros i.
  eapply bind_costs; [apply O|lia|intros]. replace (1 + w - 0) with (1 + w) by lia. apply jump_take_costs, H.
Qed.

Lemma jump_take_n_costs {A} n position count offsets (m : steps A) c d Q : 2 * count <= n ->
  costs n m (c * Y n d) Q ->
  costs n (jump_take_n position count offsets m) (Y n 1 + c * Y n (S d)) top.
Proof.
  intros L H. rewrite <- Y_mul. apply (jump_take_each_costs n position count _ m _ Q top); [exact L| |exact H].
  intros i. apply costs_of with (k := 0). apply index_eats.
Qed.

Lemma jump_take_headers_costs {A H} n position count (headers : list H) g (m : steps A) c d Q :
  2 * count <= n ->
  costs n m (c * Y n d) Q ->
  costs n (jump_take_each position count (fun i => bind (index headers i) (fun h => ret (g h))) m)
    (Y n 1 + c * Y n (S d)) top.
Proof.
  intros L K. rewrite <- Y_mul. apply (jump_take_each_costs n position count _ m _ Q top); [exact L| |exact K].
  intros i. eapply bind_costs; [eapply costs_of, index_eats|lia|intros; apply ret_costs].
Qed.

Lemma jump_take_maybe_n_costs {A} n position count offsets (m : steps A) c d Q : 2 * count <= n ->
  costs n m (c * Y n d) Q ->
  costs n (jump_take_maybe_n position count offsets m) (Y n 1 + c * Y n (S d)) top.
Proof.
  intros L H. rewrite <- Y_mul. unfold jump_take_maybe_n. apply (parts_costs n _ _ top count L). intros i.
  eapply bind_costs; [eapply costs_of, index_eats|lia|intros].
  replace (1 + c * Y n d - 0) with (1 + c * Y n d) by lia. eapply jump_take_maybe_costs, H.
Qed.

(** ** The readers, one after another *)

Lemma unless_costs {A} n (b : bool) x (m : steps A) w Q :
  costs n m w Q -> costs n (if b then raise x else m) w Q.
Proof. intros H. destruct b; [|exact H]. intros e p E. cbn. split; [lia|discriminate]. Qed.

Lemma peek_costs {A} n (m : steps A) w Q : costs n m w Q -> costs n (peek m) (2 + w) Q.
Proof. intros H. eapply costs_of, stay_eats, H. Qed.

Lemma costs_top {A} n (m : steps A) w w' Q : costs n m w Q -> w <= w' -> costs n m w' top.
Proof. apply costs_weaken. Qed.

Create HintDb costs.

(** The cost of one field. *)
Ltac field :=
  lazymatch goal with
  | |- costs _ (take_vec _ _) _ _ => eapply take_vec_costs; [ | |solve [eauto 1 with eats]]; lia
  | |- costs _ (if _ then raise _ else _) _ _ => eapply unless_costs; field
  | |- costs _ (peek _) _ _ => eapply peek_costs; field
  | |- costs _ (jump_take_maybe _ _ _) _ _ => eapply jump_take_maybe_costs; field
  | |- costs _ (jump_take _ _ _) _ _ => eapply jump_take_costs; field
  | |- costs _ (jump_take_n _ _ _ _) _ _ => eapply jump_take_n_costs; [lia|field]
  | |- costs _ (jump_take_maybe_n _ _ _ _) _ _ => eapply jump_take_maybe_n_costs; [lia|field]
  | |- costs _ (jump_take_each _ _ _ _) _ _ => eapply jump_take_headers_costs; [lia|field]
  | |- costs _ (ret _) _ _ => apply (ret_costs _ _ 0)
  | |- costs _ (bind _ _) _ _ => first [solve [eauto 1 with costs] | eapply costs_bind; [field|intros; field]]
  | |- _ => first [solve [eauto 1 with costs] | eapply costs_of; solve [eauto 1 with eats]]
  end.

(** The costs of the fields of a table. *)
Ltac fields :=
  lazymatch goal with
  | |- costs _ (bind _ _) _ _ =>
      eapply costs_bind; [field|]; let a := fresh "a" in let H := fresh "H" in intros a H; cbn beta in H; fields
  | |- costs _ (if _ then raise _ else _) _ _ => eapply unless_costs; fields
  | |- costs _ (ret _) _ _ => apply (ret_costs _ _ 0)
  | |- costs _ (raise _) _ _ => apply (raise_costs _ _ 0)
  | |- _ => field
  end.

Ltac grow n := destruct (Y_grows n) as [? [? [? [? ?]]]].

(** A table without a choice. *)
Ltac table n := grow n; eapply costs_top; [fields|lia].

(** One of a few formats. *)
Ltac formats n := grow n; eapply bind_costs; [field|lia|
  let v := fresh "v" in let H := fresh "H" in intros v H;
  repeat match goal with
  | |- costs _ (match ?v with _ => _ end) _ _ => destruct v
  end; (eapply costs_top; [fields|lia])].

Lemma read_coverage_record_eats n : eats n 6 read_coverage_record 6 top.
Proof. unfold read_coverage_record. do 3 (eapply bind_eats; [apply take_u16_eats|lia|lia|intros]).
  apply ret_eats_all. reflexivity. Qed.

Lemma read_class_record_eats n : eats n 6 read_class_record 6 top.
Proof. unfold read_class_record. do 3 (eapply bind_eats; [apply take_u16_eats|lia|lia|intros]).
  apply ret_eats_all. reflexivity. Qed.

Lemma read_action_eats n : eats n 4 read_action 4 top.
Proof. unfold read_action. do 2 (eapply bind_eats; [apply take_u16_eats|lia|lia|intros]).
  apply ret_eats_all. reflexivity. Qed.

#[export] Hint Resolve read_coverage_record_eats read_class_record_eats read_action_eats : eats.

Lemma read_coverage_costs n : costs n read_coverage (3 * Y n 1) top.
Proof. unfold read_coverage, read_coverage1, read_coverage2. formats n. Qed.

Lemma read_class_costs n : costs n read_class (3 * Y n 1) top.
Proof. unfold read_class, read_class1, read_class2. formats n. Qed.

Lemma read_device_costs n : costs n read_device (2 * Y n 1 + 6) top.
Proof. unfold read_device. cbv zeta. table n. Qed.

Lemma read_variation_costs n : costs n read_variation 6 top.
Proof. unfold read_variation. table n. Qed.

#[export] Hint Resolve read_coverage_costs read_class_costs read_device_costs read_variation_costs : costs.

Lemma read_correction_costs n : costs n read_correction (3 * Y n 1) top.
Proof. unfold read_correction. formats n. Qed.

#[export] Hint Resolve read_correction_costs : costs.

(** *** Contexts *)

Lemma read_context_record_costs n : costs n read_context_record (5 * Y n 1) top.
Proof. unfold read_context_record. table n. Qed.

Lemma read_context_class_record_costs n : costs n read_context_class_record (5 * Y n 1) top.
Proof. unfold read_context_class_record. table n. Qed.

Lemma read_chained_record_costs n : costs n read_chained_record (9 * Y n 1) top.
Proof. unfold read_chained_record. table n. Qed.

Lemma read_chained_class_record_costs n : costs n read_chained_class_record (9 * Y n 1) top.
Proof. unfold read_chained_class_record. table n. Qed.

#[export] Hint Resolve read_context_record_costs read_context_class_record_costs read_chained_record_costs
  read_chained_class_record_costs : costs.

Lemma read_context_records_costs n : costs n read_context_records (6 * Y n 2) top.
Proof. unfold read_context_records. table n. Qed.

Lemma read_context_class_records_costs n : costs n read_context_class_records (6 * Y n 2) top.
Proof. unfold read_context_class_records. table n. Qed.

Lemma read_chained_records_costs n : costs n read_chained_records (10 * Y n 2) top.
Proof. unfold read_chained_records. table n. Qed.

Lemma read_chained_class_records_costs n : costs n read_chained_class_records (10 * Y n 2) top.
Proof. unfold read_chained_class_records. table n. Qed.

#[export] Hint Resolve read_context_records_costs read_context_class_records_costs read_chained_records_costs
  read_chained_class_records_costs : costs.

Lemma read_context1_costs n : costs n read_context1 (7 * Y n 3 - 4) top.
Proof. unfold read_context1. table n. Qed.

Lemma read_context2_costs n : costs n read_context2 (7 * Y n 3 - 4) top.
Proof. unfold read_context2. table n. Qed.

Lemma read_context3_costs n : costs n read_context3 (7 * Y n 3 - 4) top.
Proof. unfold read_context3. table n. Qed.

Lemma read_chained_context1_costs n : costs n read_chained_context1 (11 * Y n 3 - 4) top.
Proof. unfold read_chained_context1. table n. Qed.

Lemma read_chained_context2_costs n : costs n read_chained_context2 (11 * Y n 3 - 4) top.
Proof. unfold read_chained_context2. table n. Qed.

Lemma read_chained_context3_costs n : costs n read_chained_context3 (11 * Y n 3 - 4) top.
Proof. unfold read_chained_context3. table n. Qed.

#[export] Hint Resolve read_context1_costs read_context2_costs read_context3_costs read_chained_context1_costs
  read_chained_context2_costs read_chained_context3_costs : costs.

Lemma read_context_costs n : costs n read_context (7 * Y n 3) top.
Proof. unfold read_context. formats n. Qed.

Lemma read_chained_context_costs n : costs n read_chained_context (11 * Y n 3) top.
Proof. unfold read_chained_context. formats n. Qed.

#[export] Hint Resolve read_context_costs read_chained_context_costs : costs.

(** *** Directories *)

Lemma read_tagged_eats {H} n (g : tag -> N -> H) :
  eats n 6 (bind take_tag (fun t => bind take_u16 (fun o => ret (g t o)))) 6 top.
Proof.
  eapply bind_eats; [apply take_tag_eats|lia|lia|intros].
  eapply bind_eats; [apply take_u16_eats|lia|lia|intros].
  apply ret_eats_all. reflexivity.
Qed.

Lemma read_language_header_eats n : eats n 6 read_language_header 6 top.
Proof. apply read_tagged_eats. Qed.

Lemma read_script_header_eats n : eats n 6 read_script_header 6 top.
Proof. apply read_tagged_eats. Qed.

Lemma read_feature_header_eats n : eats n 6 read_feature_header 6 top.
Proof. apply read_tagged_eats. Qed.

#[export] Hint Resolve read_language_header_eats read_script_header_eats read_feature_header_eats : eats.

Lemma read_language_record_costs n : costs n read_language_record (3 * Y n 1) top.
Proof. unfold read_language_record. table n. Qed.

#[export] Hint Resolve read_language_record_costs : costs.

Lemma read_script_record_costs n : costs n read_script_record (4 * Y n 2) top.
Proof. unfold read_script_record. table n. Qed.

#[export] Hint Resolve read_script_record_costs : costs.

Lemma read_scripts_costs n : costs n read_scripts (5 * Y n 3) top.
Proof. unfold read_scripts. table n. Qed.

Lemma read_parameters_costs n (b : bool) position offset : costs n
  (if b then bind (add_u64 position offset) (fun q => bind (jump q) (fun _ =>
     bind (take_vec 0 take_u8) (fun bytes => ret (Some bytes)))) else ret None) (1 + 2 * Y n 1) top.
Proof.
  destruct b; [|apply ret_costs]. grow n. eapply costs_top; [|].
  - eapply costs_bind; [field|intros]. eapply costs_bind; [apply jump_costs|intros]. fields.
  - lia.
Qed.

#[export] Hint Resolve read_parameters_costs : costs.

Lemma read_feature_record_costs n : costs n read_feature_record (5 * Y n 1) top.
Proof.
  unfold read_feature_record. grow n. eapply costs_top; [|].
  - do 4 (eapply costs_bind; [field|intros]). eapply costs_bind; [apply read_parameters_costs|intros; field].
  - lia.
Qed.

#[export] Hint Resolve read_feature_record_costs : costs.

Lemma read_features_costs n : costs n read_features (6 * Y n 2) top.
Proof. unfold read_features. table n. Qed.

Lemma read_feature_variations_costs n : costs n read_feature_variations 8 top.
Proof. unfold read_feature_variations. table n. Qed.

#[export] Hint Resolve read_scripts_costs read_features_costs read_feature_variations_costs : costs.

Lemma jump_take_list_costs {A} n position offset (m : steps A) default w Q :
  costs n m w Q -> costs n (jump_take_list position offset m default) (1 + w) top.
Proof.
  intros H. unfold jump_take_list. eapply bind_costs; [field|lia|intros o _].
  destruct (ignore_incomplete_directories o).
  - eapply bind_costs; [eapply jump_take_maybe_costs, H|lia|intros; apply ret_costs].
  - eapply costs_top; [eapply jump_take_costs, H|lia].
Qed.

Lemma jump_take_n_any {A} n position count offsets (m : steps A) w Q : 2 * count <= n ->
  costs n m w Q -> costs n (jump_take_n position count offsets m) (Y n 1 + Y n 1 * w) top.
Proof.
  intros L H. apply (jump_take_each_costs n position count _ m _ Q top); [exact L| |exact H].
  intros i. apply costs_of with (k := 0). apply index_eats.
Qed.

Section Directory.
Context {T : Type} (n : N) (read_table : N -> steps T) (c K : N).
Context (read_table_costs : forall t, costs n (read_table t) (c * Y n 3 + K) top).

Lemma read_lookup_record_costs : costs n (read_lookup_record read_table) ((c + 1) * Y n 4 + K * Y n 1) top.
Proof.
  unfold read_lookup_record. grow n. eapply costs_top; [|].
  - do 5 (eapply costs_bind; [field|intros]). eapply costs_bind; [|intros].
    + instantiate (2 := 2). instantiate (1 := top).
      destruct (has_mark_filtering _); [|apply ret_costs]. eapply costs_top; [fields|lia].
    + eapply costs_bind; [eapply jump_take_n_any; [cbn beta in *; lia|apply read_table_costs]|intros; field].
  - pose proof (Y_mul n c 3) as M. rewrite N.mul_add_distr_l, M. nia.
Qed.

Lemma read_lookups_costs : costs n (read_lookups read_table) ((c + 2) * Y n 5 + K * Y n 2) top.
Proof.
  unfold read_lookups. grow n. eapply costs_top; [|].
  - do 3 (eapply costs_bind; [field|intros]).
    eapply costs_bind; [eapply jump_take_n_any;
      [cbn beta in *; lia|apply read_lookup_record_costs]|intros; field].
  - pose proof (Y_mul n (c + 1) 4) as M. pose proof (Y_mul n K 1) as M'. rewrite N.mul_add_distr_l, M, M'. nia.
Qed.

Lemma read_directory_costs : costs n (read_directory read_table) ((c + 3) * Y n 5 + K * Y n 2) top.
Proof.
  unfold read_directory. grow n. eapply costs_top; [|].
  - do 3 (eapply costs_bind; [field|intros]). eapply costs_bind; [|intros].
    { instantiate (2 := 0). instantiate (1 := top). destruct (_ && _); [apply ret_costs|apply raise_costs]. }
    do 3 (eapply costs_bind; [field|intros]). eapply costs_bind; [|intros].
    { instantiate (2 := 4). instantiate (1 := top). destruct (_ && _); [field|apply ret_costs]. }
    do 2 (eapply costs_bind; [eapply jump_take_list_costs; field|intros]).
    eapply costs_bind; [eapply jump_take_list_costs, read_lookups_costs|intros].
    fields.
  - nia.
Qed.
End Directory.

(** *** Item variations *)

Lemma read_deltas_costs n a b c : costs n (bind (add_u16 a b) (fun k => take_vec (c * k) take_u8))
  (2 * Y n 1) top.
Proof.
  eapply bind_costs; [field|lia|intros k _]. eapply costs_top; [field|lia].
Qed.

#[export] Hint Resolve read_deltas_costs : costs.

Lemma read_store_record_costs n : costs n read_store_record (5 * Y n 1) top.
Proof. unfold read_store_record. table n. Qed.

#[export] Hint Resolve read_store_record_costs : costs.

Lemma read_store_costs n : costs n read_store (6 * Y n 2) top.
Proof. unfold read_store. table n. Qed.

(** *** Glyph definitions *)

Lemma read_attachment_costs n : costs n read_attachment (3 * Y n 1) top.
Proof. unfold read_attachment. table n. Qed.

#[export] Hint Resolve read_store_costs read_attachment_costs : costs.

Lemma read_attachments_costs n : costs n read_attachments (4 * Y n 2) top.
Proof. unfold read_attachments. table n. Qed.

Lemma read_caret1_costs n : costs n read_caret1 4 top.
Proof. unfold read_caret1. table n. Qed.

Lemma read_caret2_costs n : costs n read_caret2 4 top.
Proof. unfold read_caret2. table n. Qed.

Lemma read_caret3_costs n : costs n read_caret3 (3 * Y n 1 + 8) top.
Proof. unfold read_caret3. table n. Qed.

#[export] Hint Resolve read_attachments_costs read_caret1_costs read_caret2_costs read_caret3_costs : costs.

Lemma read_caret_costs n : costs n read_caret (4 * Y n 1) top.
Proof. unfold read_caret. formats n. Qed.

#[export] Hint Resolve read_caret_costs : costs.

Lemma read_gdef_ligature_costs n : costs n read_gdef_ligature (5 * Y n 2) top.
Proof. unfold read_gdef_ligature. table n. Qed.

#[export] Hint Resolve read_gdef_ligature_costs : costs.

Lemma read_gdef_ligatures_costs n : costs n read_gdef_ligatures (6 * Y n 3) top.
Proof. unfold read_gdef_ligatures. table n. Qed.

Lemma read_marks_costs n : costs n read_marks (4 * Y n 2) top.
Proof. unfold read_marks. table n. Qed.

Lemma read_gdef_header1_costs n : costs n read_gdef_header1 12 top.
Proof. unfold read_gdef_header1. table n. Qed.

Lemma read_gdef_header12_costs n : costs n read_gdef_header12 14 top.
Proof. unfold read_gdef_header12. table n. Qed.

Lemma read_gdef_header13_costs n : costs n read_gdef_header13 18 top.
Proof. unfold read_gdef_header13. table n. Qed.

#[export] Hint Resolve read_gdef_ligatures_costs read_marks_costs read_gdef_header1_costs
  read_gdef_header12_costs
  read_gdef_header13_costs : costs.

Lemma read_gdef_header_costs n : costs n read_gdef_header 24 top.
Proof. unfold read_gdef_header. formats n. Qed.

#[export] Hint Resolve read_gdef_header_costs : costs.

Lemma read_glyph_definition_costs n : costs n read_glyph_definition (8 * Y n 3) top.
Proof. unfold read_glyph_definition. table n. Qed.

(** *** Glyph substitution *)

Lemma read_alternates_costs n : costs n read_alternates (3 * Y n 1) top.
Proof. unfold read_alternates. table n. Qed.

Lemma read_ligature_costs n : costs n read_ligature (3 * Y n 1) top.
Proof. unfold read_ligature. table n. Qed.

Lemma read_sequence_costs n : costs n read_sequence (3 * Y n 1) top.
Proof. unfold read_sequence. table n. Qed.

#[export] Hint Resolve read_alternates_costs read_ligature_costs read_sequence_costs : costs.

Lemma read_ligatures_costs n : costs n read_ligatures (4 * Y n 2) top.
Proof. unfold read_ligatures. table n. Qed.

#[export] Hint Resolve read_ligatures_costs : costs.

Lemma read_single_substitution1_costs n : costs n read_single_substitution1 (6 * Y n 1) top.
Proof. unfold read_single_substitution1. table n. Qed.

Lemma read_single_substitution2_costs n : costs n read_single_substitution2 (6 * Y n 1) top.
Proof. unfold read_single_substitution2. table n. Qed.

#[export] Hint Resolve read_single_substitution1_costs read_single_substitution2_costs : costs.

Lemma read_single_substitution_costs n : costs n read_single_substitution (7 * Y n 1) top.
Proof. unfold read_single_substitution. formats n. Qed.

Lemma read_multiple_substitution_costs n : costs n read_multiple_substitution (4 * Y n 2) top.
Proof. unfold read_multiple_substitution. table n. Qed.

Lemma read_alternate_substitution_costs n : costs n read_alternate_substitution (4 * Y n 2) top.
Proof. unfold read_alternate_substitution. table n. Qed.

Lemma read_ligature_substitution_costs n : costs n read_ligature_substitution (5 * Y n 3) top.
Proof. unfold read_ligature_substitution. table n. Qed.

Lemma read_extension_substitution_costs n : costs n read_extension_substitution 8 top.
Proof. unfold read_extension_substitution. table n. Qed.

Lemma read_reverse_costs n : costs n read_reverse_chained_contextual_substibution (7 * Y n 2) top.
Proof. unfold read_reverse_chained_contextual_substibution. table n. Qed.

#[export] Hint Resolve read_single_substitution_costs read_multiple_substitution_costs
  read_alternate_substitution_costs read_ligature_substitution_costs read_extension_substitution_costs
  read_reverse_costs : costs.

Ltac cases n := grow n;
  repeat match goal with
  | |- costs _ (match ?v with _ => _ end) _ _ => destruct v
  end; (eapply costs_top; [fields|lia]).

Lemma read_gsub_type_costs n t : costs n (read_gsub_type t) (11 * Y n 3 + 0) top.
Proof. unfold read_gsub_type. cases n. Qed.

Lemma read_glyph_substitution_costs n : costs n read_glyph_substitution (14 * Y n 5) top.
Proof.
  eapply costs_top; [apply (read_directory_costs n read_gsub_type 11 0), read_gsub_type_costs|]. lia.
Qed.

(** *** Color palettes *)

Lemma read_color_eats n : eats n 4 read_color 4 top.
Proof.
  unfold read_color. do 4 (eapply bind_eats; [apply take_u8_eats|lia|lia|intros]).
  apply ret_eats_all. reflexivity.
Qed.

#[export] Hint Resolve read_color_eats : eats.

Lemma read_cpal_header0_costs n : costs n read_cpal_header0 (2 * Y n 1 + 12) top.
Proof. unfold read_cpal_header0. table n. Qed.

Lemma read_cpal_header1_costs n : costs n read_cpal_header1 (2 * Y n 1 + 12) top.
Proof. unfold read_cpal_header1. table n. Qed.

#[export] Hint Resolve read_cpal_header0_costs read_cpal_header1_costs : costs.

Lemma read_cpal_header_costs n : costs n read_cpal_header (3 * Y n 1) top.
Proof. unfold read_cpal_header. formats n. Qed.

#[export] Hint Resolve read_cpal_header_costs : costs.

Lemma read_color_palettes_costs n : costs n read_color_palettes (6 * Y n 1) top.
Proof.
  unfold read_color_palettes. grow n. eapply costs_top; [|].
  - eapply costs_bind; [field|intros]. eapply costs_bind with (w' := 1 + 2 * Y n 1) (Q' := top);
    [field|intros h _].
    destruct h; (eapply costs_top; [fields|lia]).
  - lia.
Qed.

(** *** Font variations *)

Lemma read_axis_record_costs n : costs n read_axis_record 20 top.
Proof. unfold read_axis_record. table n. Qed.

Lemma read_instance_record_costs n count : costs n (read_instance_record count) (2 * Y n 1 + 6) top.
Proof. unfold read_instance_record. table n. Qed.

Lemma read_fvar_header_costs n : costs n read_fvar_header 16
  (fun h => fvar_header_axis_count h < 65536 /\ fvar_header_instance_count h < 65536).
Proof.
  unfold read_fvar_header. do 4 (eapply bind_costs; [field|lia|intros]).
  do 4 (eapply bind_costs; [eapply costs_of, take_u16_eats|lia|intros]).
  intros e p E. cbn [work run ret]. split; [lia|]. intros h q R. inversion R. cbn. auto.
Qed.

Lemma anywhere_costs {A} n count (f : nat -> steps A) w : count < 65536 -> (forall i, costs n (f i) w top) ->
  costs n (for_n count f) (65536 * (1 + w)) top.
Proof.
  intros L H e p E. unfold for_n. pose proof (for_range_costs n f w top H e E (N.to_nat count) 0 p) as W.
  rewrite N2Nat.id in W. split; [nia|]. intros. exact I.
Qed.

Lemma read_font_variations_costs n : costs n read_font_variations (2 ^ 18 * Y n 1) top.
Proof.
  unfold read_font_variations. grow n. eapply costs_top; [|].
  - eapply costs_bind; [field|intros position _].
    eapply costs_bind; [apply read_fvar_header_costs|intros h [HA HI]].
    eapply costs_bind; [field|intros axes _].
    eapply costs_bind; [apply (anywhere_costs n _ _ 21 HA); intros i;
      apply (jump_take_costs n _ _ _ 20), read_axis_record_costs|intros].
    eapply costs_bind; [field|intros instances _].
    eapply costs_bind; [eapply (anywhere_costs n _ _ (1 + (2 * Y n 1 + 6)) HI); intros i;
      apply jump_take_costs, read_instance_record_costs|intros].
    field.
  - replace (2 ^ 18) with 262144 by reflexivity. lia.
Qed.

(** *** Fonts *)

Lemma read_offset_record_eats n : eats n 16 read_offset_record 16 top.
Proof.
  unfold read_offset_record. eapply bind_eats; [apply take_tag_eats|lia|lia|intros].
  do 3 (eapply bind_eats; [apply take_u32_eats|lia|lia|intros]). apply ret_eats_all. reflexivity.
Qed.

#[export] Hint Resolve read_offset_record_eats : eats.

Lemma read_offsets_header_costs n : costs n read_offsets_header 12 top.
Proof. unfold read_offsets_header. table n. Qed.

#[export] Hint Resolve read_offsets_header_costs : costs.

Lemma read_offsets_costs n d : costs n (read_offsets d) (2 * Y n 1 + 18) top.
Proof.
  unfold read_offsets. eapply bind_costs; [field|lia|intros t _].
  destruct (truetype_accept d t); [eapply costs_top; [fields|lia]|apply raise_costs].
Qed.

#[export] Hint Resolve read_offsets_costs : costs.

Lemma read_font_costs n d : costs n (read_font d) (2 * Y n 1 + 18) top.
Proof. unfold read_font. table n. Qed.

#[export] Hint Resolve read_font_costs : costs.

Lemma read_file_costs n d : costs n (read_file d) (2 * Y n 1 + 24) top.
Proof. unfold read_file. table n. Qed.

(** *** Glyph positioning *)

Lemma read_anchor1_costs n : costs n read_anchor1 6 top.
Proof. unfold read_anchor1. table n. Qed.

Lemma read_anchor2_costs n : costs n read_anchor2 8 top.
Proof. unfold read_anchor2. table n. Qed.

Lemma read_anchor3_costs n : costs n read_anchor3 (6 * Y n 1 + 13) top.
Proof. unfold read_anchor3. table n. Qed.

#[export] Hint Resolve read_anchor1_costs read_anchor2_costs read_anchor3_costs : costs.

Lemma read_anchor_costs n : costs n read_anchor (8 * Y n 1) top.
Proof. unfold read_anchor. formats n. Qed.

#[export] Hint Resolve read_anchor_costs : costs.

(** Every byte pays for [8 * Y n 1] steps and what is read may leave a credit [u] for what follows; besides,
    [b] steps are free.  *)
Definition pays {A} (n b : N) (m : steps A) (u : A -> N) : Prop := forall e p,
  ends (content e) n ->
  match run m e p with
  | Ok (a, q) => p <= q /\ q <= N.max p n /\ work m e p + u a <= 8 * Y n 1 * (q - p) + b
  | _ => work m e p <= 8 * Y n 1 * (n - p) + b + 16
  end.

Definition none {A} (a : A) : N := 0.

Lemma bind_pays {A B} n b W (m : steps A) (g : A -> steps B) u u' :
  pays n b m u -> b <= W -> (forall a, pays n (W - b + u a) (g a) u') -> pays n W (bind m g) u'.
Proof.
  intros H L G e p E. specialize (H e p E). rewrite work_bind, run_bind.
  destruct (run m e p) as [[a q]| |]; [|lia..].
  destruct H as [H1 [H2 H3]]. specialize (G a e q E). destruct (run (g a) e q) as [[a' r]| |].
  - destruct G as [G1 [G2 G3]]. split; [lia|]. split; [lia|]. nia.
  - nia.
  - nia.
Qed.

Lemma ret_pays {A} n b (a : A) : pays n b (ret a) none.
Proof. intros e p E. cbn [run work ret]. unfold none. lia. Qed.

Lemma stay_pays {A} n b (m : steps A) w Q : costs n m w Q -> 2 + w <= b -> pays n b (stay m) none.
Proof.
  intros H L e p E. destruct (stay_eats n m w Q H e p E) as [W S].
  assert (C : forall a q, run (stay m) e p = Ok (a, q) -> q = p).
  { intros a q R. unfold stay, get_position, jump, ret in R. cbn in R. rewrite run_bind in R.
    destruct (run m e p) as [[a' q']| |]; cbn in R; inversion R. reflexivity. }
  destruct (run (stay m) e p) as [[a q]| |]; [|nia..].
  rewrite (C a q eq_refl). unfold none. lia.
Qed.

Lemma field_pays {A} n (m : steps A) P Q : 2 + P <= 16 * Y n 1 -> eats n 2 m 2 Q -> pays n 0 m (fun _ => P).
Proof.
  intros L H e p E. destruct (H e p E) as [W S]. destruct (run m e p) as [[a q]| |]; [|nia..].
  destruct (S a q eq_refl) as [_ [S1 S2]]. split; [lia|]. split; [lia|]. nia.
Qed.

Lemma take_if_pays {A} n b (m : steps A) P Q : 2 + P <= 16 * Y n 1 -> eats n 2 m 2 Q ->
  pays n 0 (take_if b m) (fun o => match o with Some _ => P | None => 0 end).
Proof.
  intros L H. unfold take_if. destruct b.
  - eapply bind_pays; [eapply field_pays; [exact L|exact H]|lia|intros a].
    intros e p E. cbn [run work ret]. lia.
  - intros e p E. cbn [run work ret]. lia.
Qed.

(** Elements next to each other, some of which may be empty. *)
Lemma for_range_pays {A} n b (f : nat -> steps A) u : (forall i, pays n b (f i) u) ->
  forall count i, pays n (N.of_nat count * (1 + b)) (for_range i count f) none.
Proof.
  intros H count. induction count as [|count IH]; intros i.
  - apply ret_pays.
  - assert (M : pays n (N.of_nat (Datatypes.S count) * (1 + b) - 1)
        (bind (f i) (fun v => bind (for_range (Datatypes.S i) count f) (fun vs => ret (v :: vs)))) none).
    { rewrite Nat2N.inj_succ, N.mul_succ_l.
      eapply bind_pays; [apply H|lia|intros a]. eapply bind_pays; [apply IH|lia|intros; apply ret_pays]. }
    intros e p E. specialize (M e p E). cbn [for_range work run]. rewrite Nat2N.inj_succ, N.mul_succ_l in *.
    destruct (run (bind (f i) _) e p) as [[a q]| |]; lia.
Qed.

Lemma for_n_pays {A} n b W (f : nat -> steps A) u count : count < 65536 -> 65536 * (1 + b) <= W ->
  (forall i, pays n b (f i) u) -> pays n W (for_n count f) none.
Proof.
  intros L LW H e p E. pose proof (for_range_pays n b f u H (N.to_nat count) 0 e p E) as P.
  unfold for_n. rewrite N2Nat.id in P. assert (X : count * (1 + b) <= W) by nia.
  destruct (run (for_range 0 (N.to_nat count) f) e p) as [[a q]| |]; lia.
Qed.

(** Offsets with enough credit to follow them. *)
Lemma take_vec_pays n P count : 3 + P <= 16 * Y n 1 -> pays n 0 (take_vec count take_u16) (fun _ => count * P).
Proof.
  intros L e p E. unfold take_vec, for_n. revert p.
  assert (X : forall c i p, match run (for_range i c (fun _ => take_u16)) e p with
    | Ok (l, q) => p <= q /\ q <= N.max p n /\
        work (for_range i c (fun _ => take_u16)) e p + N.of_nat c * P <= 8 * Y n 1 * (q - p) + 0
    | _ => work (for_range i c (fun _ => take_u16)) e p <= 8 * Y n 1 * (n - p) + 0 + 16
    end).
  { induction c as [|c IH]; intros i p; cbn [for_range work run ret].
    - rewrite N.sub_diag, N.mul_0_r. lia.
    - rewrite work_bind, run_bind. destruct (take_u16_eats n e p E) as [W S].
      destruct (run take_u16 e p) as [[a q]| |]; [|nia..]. destruct (S a q eq_refl) as [_ [S1 S2]].
      rewrite work_bind, run_bind. specialize (IH (Datatypes.S i) q).
      destruct (run (for_range (Datatypes.S i) c (fun _ => take_u16)) e q) as [[l r]| |]; cbn [work run ret].
      + destruct IH as [H1 [H2 H3]]. split; [lia|]. split; [lia|]. nia.
      + nia.
      + nia. }
  intros p. specialize (X (N.to_nat count) 0%nat p). rewrite N2Nat.id in X. exact X.
Qed.

Lemma pays_costs {A} n b (m : steps A) u W : pays n b m u -> 8 * Y n 2 + b + 16 <= W -> costs n m W top.
Proof.
  intros H L e p E. specialize (H e p E). split; [|intros; exact I].
  assert (X : 8 * Y n 1 * n <= 8 * Y n 2) by (rewrite <- (Y_succ n 1); nia).
  destruct (run m e p) as [[a q]| |].
  - destruct H as [_ [H1 H2]]. assert (q - p <= n) by lia. nia.
  - assert (n - p <= n) by lia. nia.
  - assert (n - p <= n) by lia. nia.
Qed.

(** A matrix of anchors. *)
Lemma anchors_pays {B} n position count (g : list N -> list (option Anchor) -> B) :
  pays n 2 (bind (take_vec count take_u16) (fun offsets =>
    bind (stay (jump_take_maybe_n position count offsets read_anchor))
      (fun anchors => ret (g offsets anchors)))) none.
Proof.
  grow n. eapply bind_pays; [apply (take_vec_pays n (2 + 8 * Y n 1)); lia|lia|intros offsets].
  eapply bind_pays; [|apply N.le_refl|intros; apply ret_pays].
  apply (stay_pays n _ _ (count * (2 + 8 * Y n 1)) top); [|lia].
  intros e p E. unfold jump_take_maybe_n, for_n. split; [|intros; exact I].
  pose proof (for_range_costs n (fun i =>
    bind (index offsets i) (fun o => jump_take_maybe position o read_anchor))
    (1 + 8 * Y n 1) top) as W.
  rewrite <- (N2Nat.id count) at 2. etransitivity; [apply W; [|exact E]|lia].
  intros i. eapply bind_costs; [field|lia|intros]. eapply costs_top; [field|lia].
Qed.

Lemma matrix_costs {A B} n (f : N -> steps A) (g : N -> list A -> B) :
  (forall position, pays n 2 (f position) none) ->
  costs n (bind get_position (fun position => bind take_u16 (fun count =>
    bind (for_n count (fun _ => f position)) (fun records => ret (g count records))))) (8 * Y n 2 + 2 ^ 18) top.
Proof.
  intros H. grow n. eapply costs_top; [|].
  - eapply costs_bind; [field|intros position _].
    eapply costs_bind; [eapply costs_of, take_u16_eats|intros count L].
    eapply costs_bind; [|intros; field].
    apply (pays_costs n (65536 * 3) _ none (8 * Y n 2 + 65536 * 3 + 16)); [|lia].
    apply (for_n_pays n 2 _ _ none); [exact L|lia|intros; apply H].
  - replace (2 ^ 18) with 262144 by reflexivity. lia.
Qed.

Lemma read_bases_costs n k : costs n (read_bases k) (8 * Y n 2 + 2 ^ 18) top.
Proof. apply (matrix_costs n (fun position => read_base position k)). intros position. apply anchors_pays. Qed.

Lemma read_mark2s_costs n k : costs n (read_mark2s k) (8 * Y n 2 + 2 ^ 18) top.
Proof. apply (matrix_costs n (fun position => read_mark2 position k)). intros position. apply anchors_pays. Qed.

Lemma read_gpos_ligature_costs n k : costs n (read_gpos_ligature k) (8 * Y n 2 + 2 ^ 18) top.
Proof. apply (matrix_costs n (fun position => read_component position k)). intros position.
  apply anchors_pays. Qed.

#[export] Hint Resolve read_bases_costs read_mark2s_costs : costs.

(** Either the file is large, or this is not. *)
Lemma either n : 2 ^ 19 * Y n 1 <= Y n 3 + 2 ^ 29.
Proof.
  rewrite <- (Y_succ n 2), <- (Y_succ n 1), Y_one.
  replace (2 ^ 19) with 524288 by reflexivity. replace (2 ^ 29) with 536870912 by reflexivity.
  destruct (N.le_gt_cases 1024 (n + 16)) as [L|L]; nia.
Qed.

Lemma read_gpos_ligatures_costs n k : costs n (read_gpos_ligatures k) (10 * Y n 3 + 2 ^ 29) top.
Proof.
  unfold read_gpos_ligatures. grow n. eapply costs_top; [|].
  - do 3 (eapply costs_bind; [field|intros]). eapply costs_bind; [|intros; field].
    eapply costs_of, stay_eats, jump_take_n_any; [cbn beta in *; lia|]. apply read_gpos_ligature_costs.
  - rewrite N.mul_add_distr_l, (Y_mul n 8 2). pose proof (either n) as M.
    replace (2 ^ 19) with 524288 in M by reflexivity. replace (2 ^ 18) with 262144 by reflexivity. lia.
Qed.

#[export] Hint Resolve read_gpos_ligatures_costs : costs.

Lemma read_mark1_eats n position : eats n 4 (read_mark1 position) (8 * Y n 1 + 7) top.
Proof.
  unfold read_mark1. do 2 (eapply bind_eats; [apply take_u16_eats|lia|lia|intros]).
  eapply bind_eats; [apply ask_eats|lia|lia|intros o _].
  eapply bind_eats with (k := 0) (w := 8 * Y n 1 + 3) (Q := top);
    [|lia|lia|intros; apply ret_eats_all; reflexivity].
  destruct (ignore_incomplete_marks o).
  - eapply bind_eats; [eapply stay_eats, jump_take_maybe_costs, read_anchor_costs|lia|lia|intros].
    apply ret_eats_all. reflexivity.
  - eapply eats_weaken; [eapply stay_eats, jump_take_costs, read_anchor_costs|lia].
Qed.

Lemma read_mark1s_costs n : costs n read_mark1s (9 * Y n 2) top.
Proof.
  unfold read_mark1s. grow n. eapply costs_top; [|].
  - do 2 (eapply costs_bind; [field|intros]). eapply costs_bind; [|intros; field].
    eapply for_n_costs; [| |intros; apply read_mark1_eats]; lia.
  - rewrite N.mul_add_distr_l, (Y_mul n 8 1). lia.
Qed.

#[export] Hint Resolve read_mark1s_costs : costs.

Lemma read_connection_eats n position : eats n 4 (read_connection position) (16 * Y n 1 + 8) top.
Proof.
  unfold read_connection. do 2 (eapply bind_eats; [apply take_u16_eats|lia|lia|intros]).
  eapply bind_eats with (k := 0); [eapply stay_eats; fields|lia|lia|intros [x y] _].
  apply ret_eats_all. reflexivity.
Qed.

(** *** Values *)

Definition credit (n : N) (o : option N) : N := match o with Some _ => 1 + 3 * Y n 1 | None => 0 end.

Lemma take_linked_costs n position o : costs n (take_linked position o) (credit n o) top.
Proof. unfold take_linked. destruct o; cbn [credit]; [field|apply ret_costs]. Qed.

Lemma read_single_pays n position flags : pays n 2 (read_single position flags) none.
Proof.
  unfold read_single. grow n.
  do 4 (eapply bind_pays; [apply (take_if_pays n _ _ 0 top); [lia|apply take_i16_eats]|lia|intros]).
  do 4 (eapply bind_pays; [apply (take_if_pays n _ _ (1 + 3 * Y n 1) (fun v => v < 65536));
    [lia|apply take_u16_eats]|lia|intros]).
  cbv beta.
  change (match a3 with Some _ => 1 + 3 * Y n 1 | None => 0 end) with (credit n a3).
  change (match a4 with Some _ => 1 + 3 * Y n 1 | None => 0 end) with (credit n a4).
  change (match a5 with Some _ => 1 + 3 * Y n 1 | None => 0 end) with (credit n a5).
  change (match a6 with Some _ => 1 + 3 * Y n 1 | None => 0 end) with (credit n a6).
  eapply bind_pays; [|apply N.le_refl|intros [[[x y] z] t]; apply ret_pays].
  eapply stay_pays; [|].
  - do 4 (eapply costs_bind; [apply take_linked_costs|intros]). apply (ret_costs _ _ 0).
  - destruct a, a0, a1, a2; lia.
Qed.

Lemma value_pays n position flags b : 2 <= b ->
  pays n b (if 0 <? flags then bind (read_single position flags) (fun v => ret (Some v)) else ret None) none.
Proof.
  intros L. destruct (0 <? flags); [|apply ret_pays].
  eapply bind_pays; [apply read_single_pays|exact L|intros; apply ret_pays].
Qed.

Lemma read_pair1_pays n position f1 f2 : pays n 4 (read_pair1 position f1 f2) none.
Proof.
  unfold read_pair1. grow n.
  eapply bind_pays; [apply (field_pays n _ 0 (fun v => v < 65536)); [lia|apply take_u16_eats]|lia|intros].
  eapply bind_pays; [apply (value_pays n _ _ 2); lia|lia|intros].
  eapply bind_pays; [apply (value_pays n _ _ 2); lia|unfold none; lia|intros]. apply ret_pays.
Qed.

Lemma read_pair1s_costs n f1 f2 : costs n (read_pair1s f1 f2) (8 * Y n 2 + 2 ^ 19) top.
Proof.
  unfold read_pair1s. grow n. eapply costs_top; [|].
  - eapply costs_bind; [field|intros position _].
    eapply costs_bind; [eapply costs_of, take_u16_eats|intros count L].
    eapply costs_bind; [|intros; field].
    apply (pays_costs n (65536 * 5) _ none (8 * Y n 2 + 65536 * 5 + 16)); [|lia].
    apply (for_n_pays n 4 _ _ none); [exact L|lia|intros; apply read_pair1_pays].
  - replace (2 ^ 19) with 524288 by reflexivity. lia.
Qed.

Lemma read_pair2_pays n position f1 f2 : pays n 4 (read_pair2 position f1 f2) none.
Proof.
  unfold read_pair2. eapply bind_pays; [apply (value_pays n _ _ 2); lia|lia|intros].
  eapply bind_pays; [apply (value_pays n _ _ 2); lia|unfold none; lia|intros]. apply ret_pays.
Qed.

Lemma read_pair2s_pays n position count f1 f2 : count < 65536 ->
  pays n (65536 * 5) (read_pair2s position count f1 f2) none.
Proof.
  intros L. unfold read_pair2s. eapply bind_pays; [|apply N.le_refl|intros; apply ret_pays].
  apply (for_n_pays n 4 _ _ none); [exact L|lia|intros; apply read_pair2_pays].
Qed.

(** *** Subtables *)

Lemma read_single_adjustment1_costs n : costs n read_single_adjustment1 (9 * Y n 2) top.
Proof.
  unfold read_single_adjustment1. grow n. eapply costs_top; [|].
  - do 4 (eapply costs_bind; [field|intros]).
    eapply costs_bind; [eapply pays_costs; [apply read_single_pays|apply N.le_refl]|intros]. fields.
  - lia.
Qed.

Lemma read_single_adjustment2_costs n : costs n read_single_adjustment2 (9 * Y n 2 + 2 ^ 18) top.
Proof.
  unfold read_single_adjustment2. grow n. eapply costs_top; [|].
  - do 4 (eapply costs_bind; [field|intros]).
    eapply costs_bind; [eapply costs_of, take_u16_eats|intros count L].
    eapply costs_bind; [eapply pays_costs; [|apply N.le_refl]|intros; fields].
    apply (for_n_pays n 2 (65536 * 3) _ none); [exact L|lia|intros; apply read_single_pays].
  - replace (2 ^ 18) with 262144 by reflexivity. lia.
Qed.

#[export] Hint Resolve read_single_adjustment1_costs read_single_adjustment2_costs : costs.

Lemma read_single_adjustment_costs n : costs n read_single_adjustment (10 * Y n 2 + 2 ^ 18) top.
Proof. unfold read_single_adjustment. formats n. Qed.

Lemma read_pair_adjustment1_costs n : costs n read_pair_adjustment1 (10 * Y n 3 + 2 ^ 29) top.
Proof.
  unfold read_pair_adjustment1. grow n. eapply costs_top; [|].
  - do 8 (eapply costs_bind; [field|intros]). eapply costs_bind; [|intros; field].
    eapply jump_take_n_any; [cbn beta in *; lia|apply read_pair1s_costs].
  - rewrite N.mul_add_distr_l, (Y_mul n 8 2). pose proof (either n). rewrite (N.mul_comm (Y n 1) (2 ^ 19)). lia.
Qed.

Lemma read_pair_adjustment2_costs n : costs n read_pair_adjustment2 (9 * Y n 2 + 6 * 2 ^ 32 - 4) top.
Proof.
  unfold read_pair_adjustment2. grow n. eapply costs_top; [|].
  - do 7 (eapply costs_bind; [field|intros]).
    eapply costs_bind; [eapply costs_of, take_u16_eats|intros class1_count L1].
    eapply costs_bind; [eapply costs_of, take_u16_eats|intros class2_count L2].
    eapply costs_bind; [eapply pays_costs; [|apply N.le_refl]|intros; fields].
    apply (for_n_pays n (65536 * 5) (65536 * (1 + 65536 * 5)) _ none);
      [exact L1|lia|intros; apply read_pair2s_pays, L2].
  - replace (2 ^ 32) with 4294967296 by reflexivity. lia.
Qed.

#[export] Hint Resolve read_single_adjustment_costs read_pair_adjustment1_costs
  read_pair_adjustment2_costs : costs.

Lemma read_pair_adjustment_costs n : costs n read_pair_adjustment (11 * Y n 3 + 6 * 2 ^ 32) top.
Proof. unfold read_pair_adjustment. formats n. Qed.

Lemma read_cursive_attachment_costs n : costs n read_cursive_attachment (18 * Y n 2) top.
Proof.
  unfold read_cursive_attachment. grow n. eapply costs_top; [|].
  - do 4 (eapply costs_bind; [field|intros]). eapply costs_bind; [|intros; fields].
    eapply for_n_costs; [| |intros; apply read_connection_eats]; lia.
  - rewrite N.mul_add_distr_l, (Y_mul n 16 1). lia.
Qed.

Lemma read_mark_to_base_attachment_costs n : costs n read_mark_to_base_attachment (18 * Y n 2 + 2 ^ 18) top.
Proof. unfold read_mark_to_base_attachment. table n. Qed.

Lemma read_mark_to_ligature_attachment_costs n :
  costs n read_mark_to_ligature_attachment (11 * Y n 3 + 2 ^ 29) top.
Proof. unfold read_mark_to_ligature_attachment. table n. Qed.

Lemma read_mark_to_mark_attachment_costs n : costs n read_mark_to_mark_attachment (18 * Y n 2 + 2 ^ 18) top.
Proof. unfold read_mark_to_mark_attachment. table n. Qed.

Lemma read_extension_positioning_costs n : costs n read_extension_positioning 8 top.
Proof. unfold read_extension_positioning. table n. Qed.

#[export] Hint Resolve read_pair_adjustment_costs read_cursive_attachment_costs
  read_mark_to_base_attachment_costs
  read_mark_to_ligature_attachment_costs read_mark_to_mark_attachment_costs
    read_extension_positioning_costs : costs.

Lemma read_gpos_type_costs n t : costs n (read_gpos_type t) (11 * Y n 3 + 6 * 2 ^ 32) top.
Proof.
  unfold read_gpos_type. cases n.
Qed.

Lemma read_glyph_positioning_costs n : costs n read_glyph_positioning (14 * Y n 5 + 6 * 2 ^ 32 * Y n 2) top.
Proof. apply (read_directory_costs n read_gpos_type 11), read_gpos_type_costs. Qed.

(** ** Requests *)

Lemma request_costs {A} (r : request A) n : costs n (steps_of r) (effort r n) top.
Proof.
  grow n. pose proof (Y_one n).
  destruct r; cbn [steps_of effort].
  - eapply costs_top; [apply read_file_costs|]. lia.
  - eapply costs_top; [apply read_font_costs|]. lia.
  - apply read_glyph_definition_costs.
  - apply read_glyph_positioning_costs.
  - apply read_glyph_substitution_costs.
  - rewrite <- Y_one. apply read_color_palettes_costs.
  - rewrite <- Y_one. apply read_font_variations_costs.
Qed.

Lemma file_of_ends l : ends (file_of l) (N.of_nat (length l)).
Proof. intros p L. apply nth_error_None. lia. Qed.

Lemma request_work {A} (r : request A) o l p :
  work (steps_of r) (mkEnv (file_of l) o) p <= effort r (N.of_nat (length l)).
Proof. apply (request_costs r), file_of_ends. Qed.

Lemma position_work checksum_of records t e W p :
  (forall record q, work (checksum_of record) e q <= W) ->
  work (font_position_loop checksum_of records t) e p <= W + 1.
Proof.
  intros H. revert p. induction records as [|x records IH]; intros p; cbn [font_position_loop].
  - cbn. lia.
  - destruct (tag_eqb (offset_record_tag x) t); [|apply IH].
    cbn [bind ask work]. destruct (ignore_invalid_checksums (opts e)).
    + cbn [bind ret work jump]. lia.
    + rewrite work_bind, run_bind, work_bind. specialize (H x p).
      destruct (run (checksum_of x) e p) as [[s q]| |]; [|lia..].
      destruct (offset_record_checksum x =? s); cbn [run work ret raise bind jump]; lia.
Qed.

Lemma take_work {A} checksum_of this t (r : request A) o l p W :
  (forall record q, work (checksum_of record) (mkEnv (file_of l) o) q <= W) ->
  work (font_take checksum_of this t (steps_of r)) (mkEnv (file_of l) o) p <=
    W + 1 + effort r (N.of_nat (length l)).
Proof.
  intros H. unfold font_take. rewrite work_bind.
  pose proof (position_work checksum_of (offsets_records (font_offsets this)) (table_tag t)
    (mkEnv (file_of l) o) W p H) as X. unfold font_position.
  destruct (run _ _ _) as [[[u|] q]| |]; [|cbn [work ret]; lia..].
  rewrite work_bind. pose proof (request_work r o l q).
  destruct (run (steps_of r) _ q) as [[a q']| |]; cbn [work ret]; lia.
Qed.
