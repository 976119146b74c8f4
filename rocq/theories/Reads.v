(** A calculus for relating readers to formats.

    [takes S m e p P n]: run at [p], the reader [m] succeeds with [v] exactly when
    [P v] holds, and then leaves the cursor at [p + n].  [finds S m e p P] is the same
    without saying where the cursor ends.  Both add that [m] does not panic provided
    that [S] holds; [S] is [True] for all readers but those of item variations. *)

From Verif Require Import Tape.

Definition takes {A} (S : Prop) (m : M A) (e : env) (p : N) (P : A -> Prop) (n : N) : Prop :=
  (S -> m e p <> Panic) /\
  forall v q, m e p = Ok (v, q) <-> P v /\ q = p + n.

Definition finds {A} (S : Prop) (m : M A) (e : env) (p : N) (P : A -> Prop) : Prop :=
  (S -> m e p <> Panic) /\
  forall v, (exists q, m e p = Ok (v, q)) <-> P v.

Section Rules.
Context {A B : Type} (S : Prop) (e : env).

Lemma takes_finds (m : M A) p P n : takes S m e p P n -> finds S m e p P.
Proof.
  intros [H1 H2]; split; [exact H1|]. intros v; split.
  - intros [q Hq]. apply H2 in Hq. tauto.
  - intros Hv. exists (p + n). apply H2. tauto.
Qed.

Lemma takes_conv (m : M A) p P n P' n' :
  takes S m e p P n -> (forall v, P v <-> P' v) -> n = n' -> takes S m e p P' n'.
Proof. intros [H1 H2] HP ->; split; [exact H1|]. intros v q. rewrite H2, HP. tauto. Qed.

Lemma finds_conv (m : M A) p P P' :
  finds S m e p P -> (forall v, P v <-> P' v) -> finds S m e p P'.
Proof. intros [H1 H2] HP; split; [exact H1|]. intros v. rewrite H2. apply HP. Qed.

Lemma bind_ok (m : M A) (k : A -> M B) p w q :
  bind m k e p = Ok (w, q) <-> exists v r, m e p = Ok (v, r) /\ k v e r = Ok (w, q).
Proof.
  unfold bind; split.
  - destruct (m e p) as [[v r]|x|]; try discriminate. eauto.
  - intros (v & r & -> & H). exact H.
Qed.

Lemma bind_no_panic (m : M A) (k : A -> M B) p :
  m e p <> Panic -> (forall v q, m e p = Ok (v, q) -> k v e q <> Panic) -> bind m k e p <> Panic.
Proof.
  intros H1 H2. unfold bind. destruct (m e p) as [[v q]|x|]; [|discriminate|congruence].
  apply H2. reflexivity.
Qed.

Lemma takes_bind (m : M A) (k : A -> M B) p P n Q n' :
  takes S m e p P n ->
  (forall x, P x -> takes S (k x) e (p + n) (Q x) n') ->
  takes S (bind m k) e p (fun w => exists x, P x /\ Q x w) (n + n').
Proof.
  intros [H1 H2] Hk; split.
  - intros s. apply bind_no_panic; [exact (H1 s)|]. intros v q E.
    apply H2 in E as [HP ->]. apply (Hk v HP). exact s.
  - intros w q. rewrite bind_ok. split.
    + intros (v & r & Hm & Hv). apply H2 in Hm as [HP ->]. apply (Hk v HP) in Hv as [HQ ->].
      split; [eauto|]. rewrite N.add_assoc. reflexivity.
    + intros [(x & HP & HQ) ->]. exists x, (p + n). split; [apply H2; tauto|].
      apply (Hk x HP). split; [exact HQ|]. rewrite N.add_assoc. reflexivity.
Qed.

Lemma finds_bind_takes (m : M A) (k : A -> M B) p P n Q :
  takes S m e p P n ->
  (forall x, P x -> finds S (k x) e (p + n) (Q x)) ->
  finds S (bind m k) e p (fun w => exists x, P x /\ Q x w).
Proof.
  intros [H1 H2] Hk; split.
  - intros s. apply bind_no_panic; [exact (H1 s)|]. intros v q E.
    apply H2 in E as [HP ->]. apply (Hk v HP). exact s.
  - intros w. split.
    + intros [q Hq]. apply bind_ok in Hq as (v & r & Hm & Hv). apply H2 in Hm as [HP ->].
      exists v. split; [exact HP|]. apply (Hk v HP). eauto.
    + intros (x & HP & HQ). apply (Hk x HP) in HQ as [q Hq]. exists q. apply bind_ok.
      exists x, (p + n). split; [apply H2; tauto|exact Hq].
Qed.

Lemma finds_bind (m : M A) (k : A -> M B) p P Q :
  finds S m e p P ->
  (forall x, P x -> forall q, finds S (k x) e q (Q x)) ->
  finds S (bind m k) e p (fun w => exists x, P x /\ Q x w).
Proof.
  intros [H1 H2] Hk; split.
  - intros s. apply bind_no_panic; [exact (H1 s)|]. intros v q E.
    assert (HP : P v) by (apply H2; eauto). apply (Hk v HP). exact s.
  - intros w. split.
    + intros [q Hq]. apply bind_ok in Hq as (v & r & Hm & Hv).
      assert (HP : P v) by (apply H2; eauto).
      exists v. split; [exact HP|]. apply (Hk v HP r). eauto.
    + intros (x & HP & HQ). destruct (proj2 (H2 x) HP) as [r Hr].
      destruct (proj2 (proj2 (Hk x HP r) w) HQ) as [q Hq]. exists q. apply bind_ok. eauto.
Qed.

(** Looking ahead: [Q] holds of nothing unless [m] would succeed. *)
Lemma finds_bind_peek (m : M A) (k : A -> M B) p P (Q : B -> Prop) :
  finds S m e p P ->
  (forall w, Q w -> exists x, P x) ->
  (forall x, P x -> finds S (k x) e p Q) ->
  finds S (bind (peek m) k) e p Q.
Proof.
  intros [H1 H2] HQ Hk; split.
  - intros s. specialize (H1 s). apply bind_no_panic; unfold peek, stay.
    + destruct (m e p) as [[v q]|x|]; congruence.
    + intros v q Hv. assert (Hm : exists r, m e p = Ok (v, r) /\ q = p).
      { destruct (m e p) as [[v' q']|x|]; try discriminate. injection Hv as -> ->. eauto. }
      destruct Hm as (r & Hr & ->). apply Hk; [apply H2; eauto|exact s].
  - intros w. split.
    + intros [q Hq]. apply bind_ok in Hq as (v & r & Hm & Hv). unfold peek, stay in Hm.
      assert (Hr : exists r', m e p = Ok (v, r') /\ r = p).
      { destruct (m e p) as [[v' r']|x|]; try discriminate. injection Hm as -> ->. eauto. }
      destruct Hr as (r' & Hr & ->). apply (Hk v); [apply H2; eauto|]. eauto.
    + intros Hw. destruct (HQ w Hw) as [x Hx]. destruct (proj2 (H2 x) Hx) as [r Hr].
      destruct (proj2 (proj2 (Hk x Hx) w) Hw) as [q Hq]. exists q. unfold bind, peek, stay. rewrite Hr. exact Hq.
Qed.

Lemma takes_ret (a : A) p : takes S (ret a) e p (fun v => v = a) 0.
Proof.
  split; [discriminate|]. intros v q. unfold ret. rewrite N.add_0_r. split.
  - intros [= <- <-]. auto.
  - intros [-> ->]. reflexivity.
Qed.

Lemma finds_ret (a : A) p : finds S (ret a) e p (fun v => v = a).
Proof. eapply takes_finds, takes_ret. Qed.

Lemma takes_raise x p n : takes S (@raise A x) e p (fun _ => False) n.
Proof. split; [discriminate|]. intros; split; [discriminate|tauto]. Qed.

Lemma finds_raise x p : finds S (@raise A x) e p (fun _ => False).
Proof. eapply takes_finds, (takes_raise _ _ 0). Qed.

Lemma takes_stay (m : M A) p P : finds S m e p P -> takes S (stay m) e p P 0.
Proof.
  intros [H1 H2]; split; unfold stay.
  - intros s. specialize (H1 s). destruct (m e p) as [[v r]|x|]; congruence.
  - intros v q. rewrite <- (H2 v), N.add_0_r. destruct (m e p) as [[v' r]|x|]; split.
    + intros [= <- <-]. eauto.
    + intros [[q' [= -> ->]] ->]. reflexivity.
    + discriminate.
    + intros [[q' H] _]. discriminate.
    + discriminate.
    + intros [[q' H] _]. discriminate.
Qed.

Lemma finds_if (b : bool) (m1 m2 : M A) p P1 P2 :
  (b = true -> finds S m1 e p P1) -> (b = false -> finds S m2 e p P2) ->
  finds S (if b then m1 else m2) e p (fun v => b = true /\ P1 v \/ b = false /\ P2 v).
Proof.
  destruct b; intros H1 H2.
  - eapply finds_conv; [apply H1; reflexivity|]. intros v; cbn. intuition discriminate.
  - eapply finds_conv; [apply H2; reflexivity|]. intros v; cbn. intuition discriminate.
Qed.

Lemma takes_if (b : bool) (m1 m2 : M A) p P1 P2 n :
  (b = true -> takes S m1 e p P1 n) -> (b = false -> takes S m2 e p P2 n) ->
  takes S (if b then m1 else m2) e p (fun v => b = true /\ P1 v \/ b = false /\ P2 v) n.
Proof.
  destruct b; intros H1 H2.
  - eapply takes_conv; [apply H1; reflexivity| |reflexivity]. intros v; cbn. intuition discriminate.
  - eapply takes_conv; [apply H2; reflexivity| |reflexivity]. intros v; cbn. intuition discriminate.
Qed.

Lemma takes_position p : takes S get_position e p (fun v => v = p) 0.
Proof.
  split; [discriminate|]. intros v q. unfold get_position. rewrite N.add_0_r. split.
  - intros [= <- <-]. auto.
  - intros [-> ->]. reflexivity.
Qed.

Lemma takes_ask p : takes S ask e p (fun v => v = opts e) 0.
Proof.
  split; [discriminate|]. intros v q. unfold ask. rewrite N.add_0_r. split.
  - intros [= <- <-]. auto.
  - intros [-> ->]. reflexivity.
Qed.

(** [position <- get_position] and [o <- ask] do not need an existential each. *)
Lemma bind_position (k : N -> M A) p : bind get_position k e p = k p e p.
Proof. reflexivity. Qed.

Lemma bind_ask (k : options -> M A) p : bind ask k e p = k (opts e) e p.
Proof. reflexivity. Qed.

Lemma finds_bind_position (k : N -> M A) p P :
  finds S (k p) e p P -> finds S (bind get_position k) e p P.
Proof. intros H; exact H. Qed.

Lemma finds_bind_ask (k : options -> M A) p P :
  finds S (k (opts e)) e p P -> finds S (bind ask k) e p P.
Proof. intros H; exact H. Qed.

Lemma takes_bind_ask (k : options -> M A) p P n :
  takes S (k (opts e)) e p P n -> takes S (bind ask k) e p P n.
Proof. intros H; exact H. Qed.

End Rules.

(** A reader that does not panic fails exactly when nothing is found. *)
Lemma finds_fails {A} (m : M A) e p P :
  finds True m e p P -> ((exists x, m e p = Err x) <-> ~ exists v, P v).
Proof.
  intros [H1 H2]. specialize (H1 I). split.
  - intros [x Hx] [v Hv]. apply H2 in Hv as [q Hq]. congruence.
  - intros H. destruct (m e p) as [[v q]|x|] eqn:E; [|eauto|congruence].
    exfalso. apply H. exists v. apply H2. eauto.
Qed.

Lemma finds_functional {A} S (m : M A) e p P v w : finds S m e p P -> P v -> P w -> v = w.
Proof. intros [_ H] Hv Hw. apply H in Hv as [q Hq], Hw as [r Hr]. congruence. Qed.

(** ** Scalars *)

Section Scalars.
Context (S : Prop) (e : env).
Notation f := (content e).

Lemma take_byte_takes p : takes S take_byte e p (fun b => f p = Some b) 1.
Proof.
  unfold take_byte; split.
  - destruct (f p); discriminate.
  - intros v q. destruct (f p) as [b|]; split.
    + intros [= <- <-]. auto.
    + intros [[= ->] ->]. reflexivity.
    + discriminate.
    + intros [H _]. discriminate.
Qed.

Lemma take_u8_takes p : takes S take_u8 e p (u8_at f p) 1.
Proof.
  eapply takes_conv.
  - eapply takes_bind; [apply take_byte_takes|]. intros. apply takes_ret.
  - intros v. reflexivity.
  - reflexivity.
Qed.

Lemma take_u16_takes p : takes S take_u16 e p (u16_at f p) 2.
Proof.
  eapply takes_conv.
  - eapply takes_bind; [apply take_byte_takes|]. intros.
    eapply takes_bind; [apply take_byte_takes|]. intros. apply takes_ret.
  - intros v. unfold u16_at. firstorder.
  - reflexivity.
Qed.

Lemma take_u32_takes p : takes S take_u32 e p (u32_at f p) 4.
Proof.
  eapply takes_conv.
  - eapply takes_bind; [apply take_byte_takes|]. intros.
    eapply takes_bind; [apply take_byte_takes|]. intros.
    eapply takes_bind; [apply take_byte_takes|]. intros.
    eapply takes_bind; [apply take_byte_takes|]. intros. apply takes_ret.
  - intros v. unfold u32_at, u16_at. rewrite <- !N.add_assoc. cbn [N.add Pos.add Pos.succ]. split.
    + intros (b0 & H0 & b1 & H1 & b2 & H2 & b3 & H3 & ->).
      eexists _, _. split; [exists b0, b1; eauto|]. split; [exists b2, b3; eauto|]. lia.
    + intros (h & l & (b0 & b1 & H0 & H1 & ->) & (b2 & b3 & H2 & H3 & ->) & ->).
      exists b0. split; [exact H0|]. exists b1. split; [exact H1|]. exists b2. split; [exact H2|].
      exists b3. split; [exact H3|]. lia.
  - reflexivity.
Qed.

Lemma u16_bound p v : u16_at f p v -> v < 65536.
Proof.
  intros (b0 & b1 & _ & _ & ->).
  pose proof (Byte.to_N_bounded b0). pose proof (Byte.to_N_bounded b1). lia.
Qed.

Lemma u32_bound p v : u32_at f p v -> v < 4294967296.
Proof. intros (h & l & Hh & Hl & ->). apply u16_bound in Hh, Hl. lia. Qed.

Lemma to_i16_spec u : u < 65536 -> to_i16 u = if u <? 32768 then Z.of_N u else (Z.of_N u - 65536)%Z.
Proof.
  intros H. unfold to_i16. destruct (N.ltb_spec u 32768).
  - rewrite Z.mod_small; lia.
  - replace (Z.of_N u + 32768)%Z with ((Z.of_N u - 32768) + 1 * 65536)%Z by lia.
    rewrite Z.mod_add by lia. rewrite Z.mod_small; lia.
Qed.

Lemma to_i32_spec u : u < 4294967296 ->
  to_i32 u = if u <? 2147483648 then Z.of_N u else (Z.of_N u - 4294967296)%Z.
Proof.
  intros H. unfold to_i32. destruct (N.ltb_spec u 2147483648).
  - rewrite Z.mod_small; lia.
  - replace (Z.of_N u + 2147483648)%Z with ((Z.of_N u - 2147483648) + 1 * 4294967296)%Z by lia.
    rewrite Z.mod_add by lia. rewrite Z.mod_small; lia.
Qed.

Lemma take_i16_takes p : takes S take_i16 e p (i16_at f p) 2.
Proof.
  eapply takes_conv.
  - eapply takes_bind; [apply take_u16_takes|]. intros. apply takes_ret.
  - intros v. split; intros (u & Hu & ->); exists u; (split; [exact Hu|]).
    + apply to_i16_spec. eapply u16_bound, Hu.
    + symmetry. apply to_i16_spec. eapply u16_bound, Hu.
  - reflexivity.
Qed.

Lemma take_q32_takes p : takes S take_q32 e p (i32_at f p) 4.
Proof.
  eapply takes_conv.
  - eapply takes_bind; [apply take_u32_takes|]. intros. apply takes_ret.
  - intros v. split; intros (u & Hu & ->); exists u; (split; [exact Hu|]).
    + apply to_i32_spec. eapply u32_bound, Hu.
    + symmetry. apply to_i32_spec. eapply u32_bound, Hu.
  - reflexivity.
Qed.

Lemma take_tag_takes p : takes S take_tag e p (tag_at f p) 4.
Proof.
  eapply takes_conv.
  - eapply takes_bind; [apply take_byte_takes|]. intros.
    eapply takes_bind; [apply take_byte_takes|]. intros.
    eapply takes_bind; [apply take_byte_takes|]. intros.
    eapply takes_bind; [apply take_byte_takes|]. intros. apply takes_ret.
  - intros [a b c d]. unfold tag_at. rewrite <- !N.add_assoc. cbn [N.add Pos.add Pos.succ]. split.
    + intros (b0 & H0 & b1 & H1 & b2 & H2 & b3 & H3 & [= -> -> -> ->]). auto.
    + intros (H0 & H1 & H2 & H3). exists a. split; [exact H0|]. exists b. split; [exact H1|].
      exists c. split; [exact H2|]. exists d. auto.
  - reflexivity.
Qed.

Lemma take_const_takes (m : M N) p P n c :
  takes S m e p P n -> takes S (take_const m c) e p (fun v => P v /\ v = c) n.
Proof.
  intros H. eapply takes_conv.
  - eapply takes_bind; [exact H|]. intros x Hx.
    apply takes_if; intros; [apply takes_ret|apply takes_raise].
  - intros v; split.
    + intros (x & Hx & [[Hc ->]|[_ []]]). apply N.eqb_eq in Hc. auto.
    + intros [Hv ->]. exists c. split; [exact Hv|]. left. split; [apply N.eqb_refl|reflexivity].
  - lia.
Qed.

Lemma take_flags_takes p reserved :
  takes S (take_flags reserved) e p
    (fun v => u16_at f p v /\ (checked_flags (opts e) = true -> N.land v reserved = 0)) 2.
Proof.
  eapply takes_conv.
  - eapply takes_bind; [apply take_u16_takes|]. intros x Hx. apply takes_bind_ask.
    apply takes_if; intros; [apply takes_raise|apply takes_ret].
  - intros v; split.
    + intros (x & Hx & [[_ []]|[Hc ->]]). split; [exact Hx|]. intros E. rewrite E in Hc. cbn in Hc.
      apply N.eqb_eq. destruct (N.land x reserved =? 0); [reflexivity|discriminate].
    + intros [Hv Hc]. exists v. split; [exact Hv|]. right. split; [|reflexivity].
      destruct (checked_flags (opts e)); [|reflexivity]. cbn. rewrite Hc by reflexivity. reflexivity.
  - reflexivity.
Qed.

(** ** Arrays *)

Lemma for_range_takes {A} (m : nat -> M A) (P : N -> A -> Prop) n count :
  forall i p,
  (forall i q, takes S (m i) e q (P q) n) ->
  takes S (for_range i count m) e p (vec_at P n p (N.of_nat count)) (n * N.of_nat count).
Proof.
  induction count as [|count IH]; intros i p H; cbn [for_range].
  - eapply takes_conv; [apply takes_ret| |lia]. intros v; split.
    + intros ->. split; [reflexivity|]. intros [|j] w Hw; discriminate.
    + intros [Hl _]. destruct v; [reflexivity|]. discriminate Hl.
  - eapply takes_conv.
    + eapply takes_bind; [apply H|]. intros x Hx.
      eapply takes_bind; [apply IH, H|]. intros xs Hxs. apply takes_ret.
    + intros v; split.
      * intros (x & Hx & xs & [Hl Hxs] & ->). split; [cbn [length]; lia|].
        intros [|j] w Hw; cbn in Hw.
        -- injection Hw as <-. rewrite N.mul_0_r, N.add_0_r. exact Hx.
        -- apply Hxs in Hw. replace (p + n * N.of_nat (Datatypes.S j)) with (p + n + n * N.of_nat j) by lia.
           exact Hw.
      * intros [Hl Hv]. destruct v as [|x xs]; [discriminate Hl|].
        exists x. split; [specialize (Hv 0%nat x eq_refl); rewrite N.mul_0_r, N.add_0_r in Hv; exact Hv|].
        exists xs. split; [|reflexivity]. split; [cbn [length] in Hl; lia|].
        intros j w Hw. specialize (Hv (Datatypes.S j) w Hw).
        replace (p + n + n * N.of_nat j) with (p + n * N.of_nat (Datatypes.S j)) by lia. exact Hv.
    + lia.
Qed.

Lemma for_n_takes {A} (m : nat -> M A) (P : N -> A -> Prop) n count p :
  (forall i q, takes S (m i) e q (P q) n) ->
  takes S (for_n count m) e p (vec_at P n p count) (n * count).
Proof.
  intros H. unfold for_n. pose proof (for_range_takes m P n (N.to_nat count) 0%nat p H) as R.
  rewrite N2Nat.id in R. exact R.
Qed.

Lemma take_vec_takes {A} (m : M A) (P : N -> A -> Prop) n count p :
  (forall q, takes S m e q (P q) n) ->
  takes S (take_vec count m) e p (vec_at P n p count) (n * count).
Proof. intros H. apply for_n_takes. intros _. exact H. Qed.

Lemma take_u16s_takes count p : takes S (take_vec count take_u16) e p (u16s_at f p count) (2 * count).
Proof. apply take_vec_takes, take_u16_takes. Qed.

Lemma take_u8s_takes count p : takes S (take_vec count take_u8) e p (u8s_at f p count) (1 * count).
Proof. apply take_vec_takes, take_u8_takes. Qed.

Lemma take_u32s_takes count p : takes S (take_vec count take_u32) e p (u32s_at f p count) (4 * count).
Proof. apply take_vec_takes, take_u32_takes. Qed.

Lemma take_i32s_takes count p : takes S (take_vec count take_q32) e p (i32s_at f p count) (4 * count).
Proof. apply take_vec_takes, take_q32_takes. Qed.

(** ** Jumps *)

(** Where every jump starts and how far it goes: the sum fits in 64 bits. *)
Definition near (base offset : N) : Prop := base + offset < 2 ^ 64.

Lemma add_u64_takes a b p : near a b -> takes S (add_u64 a b) e p (fun v => v = a + b) 0.
Proof.
  intros H. unfold near in H. unfold add_u64, add_wrapping. apply takes_bind_ask.
  apply N.ltb_lt in H. rewrite H. apply takes_ret.
Qed.

Lemma jump_take_finds {A} (m : M A) p P base offset :
  near base offset -> finds S m e (base + offset) P -> finds S (jump_take base offset m) e p P.
Proof.
  intros H Hm. unfold near in H. unfold jump_take, add_u64, add_wrapping. apply N.ltb_lt in H.
  unfold bind at 1 2. unfold ask. rewrite H. exact Hm.
Qed.

Lemma jump_take_maybe_finds {A} (m : M A) p P base offset :
  near base offset -> finds S m e (base + offset) (P (base + offset)) ->
  finds S (jump_take_maybe base offset m) e p (maybe_at P base offset).
Proof.
  intros H Hm. unfold jump_take_maybe. eapply finds_conv.
  - apply finds_if; intros.
    + eapply finds_bind; [apply jump_take_finds; [exact H|exact Hm]|]. intros. apply finds_ret.
    + apply finds_ret.
  - intros v; split.
    + intros [[Ho (x & Hx & ->)]|[Ho ->]]; cbn.
      * apply N.ltb_lt in Ho. split; [lia|exact Hx].
      * apply N.ltb_ge in Ho. lia.
    + destruct v as [x|]; cbn.
      * intros [Ho Hx]. left. split; [apply N.ltb_lt; lia|]. eauto.
      * intros ->. right. auto.
Qed.

Lemma for_range_finds {A} (m : nat -> M A) (P : nat -> A -> Prop) count :
  forall i p,
  (forall j q, (i <= j < i + count)%nat -> finds S (m j) e q (P j)) ->
  finds S (for_range i count m) e p
    (fun vs => length vs = count /\ forall j v, nth_error vs j = Some v -> P (i + j)%nat v).
Proof.
  induction count as [|count IH]; intros i p H; cbn [for_range].
  - eapply finds_conv; [apply finds_ret|]. intros v; split.
    + intros ->. split; [reflexivity|]. intros [|j] w Hw; discriminate.
    + intros [Hl _]. destruct v; [reflexivity|]. discriminate Hl.
  - eapply finds_conv.
    + eapply finds_bind; [apply H; lia|]. intros x Hx q.
      eapply finds_bind; [apply IH; intros; apply H; lia|]. intros xs Hxs q'. apply finds_ret.
    + intros v; split.
      * intros (x & Hx & xs & [Hl Hxs] & ->). split; [cbn [length]; lia|].
        intros [|j] w Hw; cbn in Hw.
        -- injection Hw as <-. replace (i + 0)%nat with i by lia. exact Hx.
        -- apply Hxs in Hw. replace (i + Datatypes.S j)%nat with (Datatypes.S i + j)%nat by lia. exact Hw.
      * intros [Hl Hv]. destruct v as [|x xs]; [discriminate Hl|].
        exists x. split; [specialize (Hv 0%nat x eq_refl); replace (i + 0)%nat with i in Hv by lia; exact Hv|].
        exists xs. split; [|reflexivity]. split; [cbn [length] in Hl; lia|].
        intros j w Hw. specialize (Hv (Datatypes.S j) w Hw).
        replace (Datatypes.S i + j)%nat with (i + Datatypes.S j)%nat by lia. exact Hv.
Qed.

Lemma for_n_finds {A} (m : nat -> M A) (P : nat -> A -> Prop) count p :
  (forall i q, (i < N.to_nat count)%nat -> finds S (m i) e q (P i)) ->
  finds S (for_n count m) e p
    (fun vs => N.of_nat (length vs) = count /\ forall i v, nth_error vs i = Some v -> P i v).
Proof.
  intros H. eapply finds_conv.
  - apply (for_range_finds m P (N.to_nat count) 0 p). intros j q Hj. apply H. lia.
  - intros v. cbn. split; intros [Hl Hv]; (split; [lia|exact Hv]).
Qed.

Lemma Forall2_nth {A B} (R : A -> B -> Prop) xs ys :
  Forall2 R xs ys <->
  length ys = length xs /\
  forall i x y, nth_error xs i = Some x -> nth_error ys i = Some y -> R x y.
Proof.
  split.
  - induction 1 as [|x y xs ys HR HF [IHl IH]]; cbn.
    + split; [reflexivity|]. intros [|i] x y; discriminate.
    + split; [congruence|]. intros [|i] x' y'; cbn; [congruence|apply IH].
  - revert ys. induction xs as [|x xs IH]; intros [|y ys] [Hl H]; cbn in *; try discriminate.
    + constructor.
    + constructor; [apply (H 0%nat); reflexivity|]. apply IH. split; [congruence|].
      intros i. apply (H (Datatypes.S i)).
Qed.

Lemma each_finds {A} (m : nat -> M A) (P : N -> A -> Prop) offsets count p :
  N.of_nat (length offsets) = count ->
  (forall i o q, nth_error offsets i = Some o -> finds S (m i) e q (P o)) ->
  finds S (for_n count m) e p (Forall2 P offsets).
Proof.
  intros Hl H. eapply finds_conv.
  - apply (for_n_finds m (fun i v => forall o, nth_error offsets i = Some o -> P o v)).
    intros i q Hi. destruct (nth_error offsets i) as [o|] eqn:E.
    + eapply finds_conv; [apply (H i o q E)|]. intros v; split.
      * intros Hv o' [= <-]. exact Hv.
      * intros Hv. apply Hv. reflexivity.
    + apply nth_error_None in E. lia.
  - intros vs. rewrite Forall2_nth. split; intros [Hl' Hv].
    + split; [lia|]. intros i x y Hx Hy. apply (Hv i y Hy x Hx).
    + split; [lia|]. intros i v Hi o Ho. apply (Hv i o v Ho Hi).
Qed.

Definition nears (base : N) (offsets : list N) : Prop := Forall (near base) offsets.

Lemma nears_nth base offsets i o : nears base offsets -> nth_error offsets i = Some o -> near base o.
Proof. intros H Hi. apply nth_error_In in Hi. revert o Hi. apply Forall_forall. exact H. Qed.

Lemma jump_take_each_finds {A} (m : M A) (offset : nat -> M N) P base offsets count p :
  N.of_nat (length offsets) = count -> nears base offsets ->
  (forall i o q, nth_error offsets i = Some o -> takes S (offset i) e q (fun v => v = o) 0) ->
  (forall o, near base o -> finds S m e (base + o) (P (base + o))) ->
  finds S (jump_take_each base count offset m) e p (linked_at P base offsets).
Proof.
  intros Hl Hn Ho Hm. apply each_finds; [exact Hl|]. intros i o q Hi. eapply finds_conv.
  - eapply finds_bind_takes with (Q := fun o => P (base + o)); [apply Ho, Hi|]. intros x ->.
    apply jump_take_finds; [eapply nears_nth; eassumption|]. apply Hm. eapply nears_nth; eassumption.
  - intros v. split; [intros (x & -> & H); exact H|intros H; exists o; split; [reflexivity|exact H]].
Qed.

Lemma index_takes {A} (values : list A) i v p :
  nth_error values i = Some v -> takes S (index values i) e p (fun w => w = v) 0.
Proof. intros H. unfold index. rewrite H. apply takes_ret. Qed.

Lemma jump_take_n_finds {A} (m : M A) P base offsets count p :
  N.of_nat (length offsets) = count -> nears base offsets ->
  (forall o, near base o -> finds S m e (base + o) (P (base + o))) ->
  finds S (jump_take_n base count offsets m) e p (linked_at P base offsets).
Proof.
  intros Hl Hn Hm. apply jump_take_each_finds; try assumption.
  intros i o q Hi. apply index_takes, Hi.
Qed.

Lemma jump_take_headers_finds {A H} (g : H -> N) (m : M A) P base headers count p :
  N.of_nat (length headers) = count -> nears base (map g headers) ->
  (forall o, near base o -> finds S m e (base + o) (P (base + o))) ->
  finds S (jump_take_each base count (fun i => h <- index headers i;; ret (g h)) m) e p
    (linked_at P base (map g headers)).
Proof.
  intros Hl Hn Hm. apply jump_take_each_finds; try assumption.
  - rewrite map_length. exact Hl.
  - intros i o q Hi. rewrite nth_error_map in Hi.
    destruct (nth_error headers i) as [h|] eqn:E; [|discriminate Hi]. injection Hi as <-.
    unfold bind, index. rewrite E. apply takes_ret.
Qed.

Lemma jump_take_maybe_n_finds {A} (m : M A) P base offsets count p :
  N.of_nat (length offsets) = count -> nears base offsets ->
  (forall o, near base o -> finds S m e (base + o) (P (base + o))) ->
  finds S (jump_take_maybe_n base count offsets m) e p (maybes_at P base offsets).
Proof.
  intros Hl Hn Hm. apply each_finds; [exact Hl|]. intros i o q Hi. eapply finds_conv.
  - eapply finds_bind_takes with (Q := maybe_at P base); [apply index_takes, Hi|]. intros x ->.
    apply jump_take_maybe_finds; [eapply nears_nth; eassumption|]. apply Hm. eapply nears_nth; eassumption.
  - intros v. split; [intros (x & -> & H); exact H|intros H; exists o; split; [reflexivity|exact H]].
Qed.

End Scalars.
