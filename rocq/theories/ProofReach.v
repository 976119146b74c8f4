(** How far from its beginning a table is looked at. *)

From Verif Require Export SpecReach.
From Verif Require Import Reads ReadsTactics ProofFontProperties.
From Verif Require Export Samples.

(** Reading with [m] at [q] looks at [lo] to [hi] only, and runs out of bytes only if one
    is missing there; [Q] holds of what is read and of the position after it. *)
Definition safe {A} (lo hi : N) (m : M A) (q : N) (Q : A -> N -> Prop) : Prop :=
  forall o f, bounded f ->
  match m (mkEnv f o) q with
  | Ok (v, r) => Q v r /\ forall g, bounded g -> supplies lo hi f g -> m (mkEnv g o) q = Ok (v, r)
  | Err UnexpectedEnd => exists i, lo <= i < hi /\ f i = None /\
      forall g, bounded g -> supplies lo hi f g -> g i = None -> m (mkEnv g o) q = Err UnexpectedEnd
  | x => forall g, bounded g -> supplies lo hi f g -> m (mkEnv g o) q = x
  end.

Definition any {A} (_ : A) (_ : N) : Prop := True.

(** [m] looks at the [K] bytes from where it starts. *)
Definition reaches {A} (m : M A) (K : N) : Prop := forall q, safe q (q + K) m q any.

Lemma safe_ret {A} lo hi (v : A) q : safe lo hi (ret v) q (fun x r => x = v /\ r = q).
Proof. intros o f _. cbn. auto. Qed.

Lemma safe_weak {A} lo hi lo' hi' (m : M A) q (Q R : A -> N -> Prop) :
  safe lo hi m q Q -> lo' <= lo -> hi <= hi' -> (forall v r, Q v r -> R v r) -> safe lo' hi' m q R.
Proof.
  intros H L G W o f Bf. specialize (H o f Bf).
  assert (Z : forall g, supplies lo' hi' f g -> supplies lo hi f g) by (intros g E j b Hj; apply E; lia).
  destruct (m (mkEnv f o) q) as [[v r]|x|].
  - destruct H as [X Y]. split; [apply W, X|]. intros g Bg E. exact (Y g Bg (Z g E)).
  - destruct x; try (intros g Bg E; exact (H g Bg (Z g E))).
    destruct H as (i & Hi & N & Y). exists i. split; [lia|]. split; [exact N|].
    intros g Bg E. exact (Y g Bg (Z g E)).
  - intros g Bg E. exact (H g Bg (Z g E)).
Qed.

Lemma safe_pure {A} lo hi (v : A) q (Q : A -> N -> Prop) : Q v q -> safe lo hi (ret v) q Q.
Proof. intros H o f _. cbn. auto. Qed.

Lemma safe_post {A} lo hi (m : M A) q (Q R : A -> N -> Prop) :
  safe lo hi m q Q -> (forall v r, Q v r -> R v r) -> safe lo hi m q R.
Proof. intros H W. exact (safe_weak _ _ _ _ _ _ _ _ H (N.le_refl _) (N.le_refl _) W). Qed.

Lemma safe_bind {A B} lo hi (m : M A) (k : A -> M B) q Q R :
  safe lo hi m q Q -> (forall v r, Q v r -> safe lo hi (k v) r R) -> safe lo hi (bind m k) q R.
Proof.
  intros Hm Hk o f Bf. specialize (Hm o f Bf). unfold bind.
  destruct (m (mkEnv f o) q) as [[v r]|x|].
  - destruct Hm as [X Y]. specialize (Hk v r X o f Bf). destruct (k v (mkEnv f o) r) as [[w s]|x|].
    + destruct Hk as [Z W]. split; [exact Z|]. intros g Bg E. rewrite (Y g Bg E). exact (W g Bg E).
    + destruct x; try (intros g Bg E; rewrite (Y g Bg E); exact (Hk g Bg E)).
      destruct Hk as (i & Hi & N & W). exists i. split; [exact Hi|]. split; [exact N|].
      intros g Bg E G. rewrite (Y g Bg E). exact (W g Bg E G).
    + intros g Bg E. rewrite (Y g Bg E). exact (Hk g Bg E).
  - destruct x; try (intros g Bg E; rewrite (Hm g Bg E); reflexivity).
    destruct Hm as (i & Hi & N & W). exists i. split; [exact Hi|]. split; [exact N|].
    intros g Bg E G. rewrite (W g Bg E G). reflexivity.
  - intros g Bg E. rewrite (Hm g Bg E). reflexivity.
Qed.

Lemma safe_end {A B} lo hi (m : M A) (c : A -> B) q Q :
  safe lo hi m q Q -> safe lo hi (v <- m;; ret (c v)) q any.
Proof.
  intros H. eapply safe_bind; [exact H|]. intros v r _. apply safe_pure. exact I.
Qed.

Lemma safe_raise {A} lo hi x q (Q : A -> N -> Prop) : x <> UnexpectedEnd -> safe lo hi (raise x) q Q.
Proof. intros H o f _. cbn. destruct x; try (intros; reflexivity). destruct (H eq_refl). Qed.

Lemma safe_panic {A} lo hi q (Q : A -> N -> Prop) : safe lo hi panic q Q.
Proof. intros o f _ g _ _. reflexivity. Qed.

Lemma safe_ask lo hi q : safe lo hi ask q (fun _ r => r = q).
Proof. intros o f _. cbn. auto. Qed.

Lemma safe_position lo hi q : safe lo hi get_position q (fun v r => v = q /\ r = q).
Proof. intros o f _. cbn. auto. Qed.

Lemma safe_stay {A} lo hi (m : M A) q Q :
  safe lo hi m q Q -> safe lo hi (stay m) q (fun v r => r = q /\ exists r', Q v r').
Proof.
  intros Hm o f Bf. specialize (Hm o f Bf). unfold stay. destruct (m (mkEnv f o) q) as [[v r]|x|].
  - destruct Hm as [X Y]. split; [eauto|]. intros g Bg E. rewrite (Y g Bg E). reflexivity.
  - destruct x; try (intros g Bg E; rewrite (Hm g Bg E); reflexivity).
    destruct Hm as (i & Hi & N & W). exists i. split; [exact Hi|]. split; [exact N|].
    intros g Bg E G. rewrite (W g Bg E G). reflexivity.
  - intros g Bg E. rewrite (Hm g Bg E). reflexivity.
Qed.

Lemma safe_byte lo hi q : lo <= q -> q + 1 <= hi ->
  safe lo hi take_byte q (fun _ r => r = q + 1 /\ q < 9223372036854775808).
Proof.
  intros L G o f Bf. unfold take_byte. cbn [content]. destruct (f q) eqn:X.
  - split; [split; [reflexivity|]|].
    + destruct (N.lt_ge_cases q (2 ^ 63)) as [Y|Y]; [exact Y|]. rewrite (Bf q Y) in X. discriminate X.
    + intros g _ E. rewrite (E q b) by (assumption || lia). reflexivity.
  - exists q. split; [lia|]. split; [exact X|]. intros g _ _ E. rewrite E. reflexivity.
Qed.

Definition at_ (q n : N) (r : N) : Prop := r = q + n /\ q < 9223372036854775808.

Lemma byte_bound b : Byte.to_N b < 256.
Proof. pose proof (Byte.to_N_bounded b). lia. Qed.

Ltac bytes :=
  repeat (eapply safe_bind; [apply safe_byte; lia|intros ? ? [-> ?]]);
  apply safe_pure;
  repeat match goal with b : byte |- _ => lazymatch goal with
    | _ : Byte.to_N b < 256 |- _ => fail
    | _ => pose proof (byte_bound b) end end.

Lemma safe_u8 lo hi q : lo <= q -> q + 1 <= hi -> safe lo hi take_u8 q (fun v r => v < 256 /\ at_ q 1 r).
Proof. intros. unfold take_u8. bytes. unfold at_. lia. Qed.

Lemma safe_u16 lo hi q : lo <= q -> q + 2 <= hi -> safe lo hi take_u16 q (fun v r => v < 65536 /\ at_ q 2 r).
Proof. intros. unfold take_u16. bytes. unfold at_. lia. Qed.

Lemma safe_u32 lo hi q : lo <= q -> q + 4 <= hi ->
  safe lo hi take_u32 q (fun v r => v < 4294967296 /\ at_ q 4 r).
Proof. intros. unfold take_u32. bytes. unfold at_. lia. Qed.

Lemma safe_tag lo hi q : lo <= q -> q + 4 <= hi -> safe lo hi take_tag q (fun _ r => at_ q 4 r).
Proof. intros. unfold take_tag. bytes. unfold at_. lia. Qed.

Lemma safe_map {A B} lo hi (m : M A) (c : A -> B) q Q (P : N -> Prop) :
  safe lo hi m q Q -> (forall v r, Q v r -> P r) -> safe lo hi (v <- m;; ret (c v)) q (fun _ r => P r).
Proof.
  intros H W. eapply safe_bind; [exact H|]. intros v r X. apply safe_pure. exact (W _ _ X).
Qed.

Lemma safe_i16 lo hi q : lo <= q -> q + 2 <= hi -> safe lo hi take_i16 q (fun _ r => at_ q 2 r).
Proof. intros L G. eapply safe_map; [apply safe_u16; assumption|]. cbv beta. tauto. Qed.

Lemma safe_q32 lo hi q : lo <= q -> q + 4 <= hi -> safe lo hi take_q32 q (fun _ r => at_ q 4 r).
Proof. intros L G. eapply safe_map; [apply safe_u32; assumption|]. cbv beta. tauto. Qed.

Lemma safe_const lo hi c q : lo <= q -> q + 2 <= hi ->
  safe lo hi (take_const take_u16 c) q (fun v r => v < 65536 /\ at_ q 2 r).
Proof.
  intros L G. eapply safe_bind; [apply safe_u16; assumption|]. intros v r H. cbv beta in *.
  destruct (v =? c); [|apply safe_raise; discriminate]. apply safe_pure. exact H.
Qed.

Lemma safe_flags lo hi mask q : lo <= q -> q + 2 <= hi ->
  safe lo hi (take_flags mask) q (fun v r => v < 65536 /\ at_ q 2 r).
Proof.
  intros L G. eapply safe_bind; [apply safe_u16; assumption|]. intros v r H. cbv beta in *.
  eapply safe_bind; [apply safe_ask|]. intros o r' ->.
  destruct (_ && _); [apply safe_raise; discriminate|]. apply safe_pure. exact H.
Qed.

(** ** Loops *)

Lemma safe_for {A} lo hi count (f : nat -> M A) (n : N) (P : A -> Prop) q :
  (forall i q, lo <= q -> q + n <= hi -> safe lo hi (f i) q (fun v r => P v /\ q <= r <= q + n)) ->
  lo <= q -> q + n * count <= hi -> safe lo hi (for_n count f) q (fun v r => Forall P v /\
    q <= r <= q + n * count).
Proof.
  intros Hf. unfold for_n. rewrite <- (N2Nat.id count). generalize (N.to_nat count) as c. intros c.
  rewrite Nat2N.id.
  generalize 0%nat as i. revert q. induction c as [|c IH]; intros q i L G; cbn [for_range].
  - apply safe_pure. split; [constructor|lia].
  - assert (n * N.of_nat (S c) = n + n * N.of_nat c) as X by lia. rewrite X in *.
    eapply safe_bind; [apply Hf; lia|]. intros v r [Pv B].
    eapply safe_bind; [apply IH; lia|]. intros vs s [Pvs C].
    apply safe_pure. split; [constructor; assumption|lia].
Qed.

Lemma safe_vec {A} lo hi count (m : M A) (n : N) (P : A -> Prop) q :
  (forall q, lo <= q -> q + n <= hi -> safe lo hi m q (fun v r => P v /\ at_ q n r)) ->
  lo <= q -> q + n * count <= hi -> safe lo hi (take_vec count m) q (fun v r => Forall P v /\
    r = q + n * count).
Proof.
  intros Hf. unfold take_vec, for_n. rewrite <- (N2Nat.id count). generalize (N.to_nat count) as c.
  intros c. rewrite Nat2N.id.
  generalize 0%nat as i. revert q. induction c as [|c IH]; intros q i L G; cbn [for_range].
  - apply safe_pure. split; [constructor|lia].
  - assert (n * N.of_nat (S c) = n + n * N.of_nat c) as X by lia. rewrite X in *.
    eapply safe_bind; [apply Hf; lia|]. intros v r [Pv [-> B]].
    eapply safe_bind; [apply IH; lia|]. intros vs s [Pvs ->].
    apply safe_pure. split; [constructor; assumption|lia].
Qed.

(** A loop that goes elsewhere in each step. *)
Lemma safe_loop {A} lo hi count (f : nat -> M A) q :
  (forall i q, (i < N.to_nat count)%nat -> safe lo hi (f i) q any) -> safe lo hi (for_n count f) q any.
Proof.
  unfold for_n. generalize (N.to_nat count) as c. intros c.
  assert (G : forall d i q, (forall j q, (j < i + d)%nat -> safe lo hi (f j) q any) ->
    safe lo hi (for_range i d f) q any).
  { induction d as [|d IH]; intros i r Hf; cbn [for_range].
    - apply safe_pure. exact I.
    - eapply safe_bind; [apply Hf; lia|]. intros v s _.
      eapply safe_end. apply IH. intros j t Hj. apply Hf. lia. }
  intros Hf. apply G. exact Hf.
Qed.

(** ** Jumps *)

Lemma safe_add lo hi bits a b q :
  safe lo hi (add_wrapping bits a b) q (fun v r => r = q /\ (a + b < 2 ^ bits -> v = a + b) /\ v < 2 ^ bits).
Proof.
  eapply safe_bind; [apply safe_ask|]. intros o r ->. destruct (N.ltb_spec (a + b) (2 ^ bits)) as [X|X].
  - apply safe_pure. auto.
  - destruct (overflow_checks o).
    + apply safe_panic.
    + apply safe_pure.
      split; [reflexivity|]. split; [lia|]. apply N.mod_lt, N.pow_nonzero. discriminate.
Qed.

Lemma safe_jump {A} lo hi (m : M A) K base o q :
  reaches m K -> base + o < 18446744073709551616 -> lo <= base + o -> base + o + K <= hi ->
    safe lo hi (jump_take base o m) q any.
Proof.
  intros Hm S L G. eapply safe_bind; [apply safe_add|]. intros v r (-> & X & _). rewrite (X S).
  intros c f Bf. unfold bind, jump.
  exact (safe_weak _ _ lo hi _ _ _ _ (Hm (base + o)) L G (fun _ _ H => H) c f Bf).
Qed.

Lemma safe_maybe {A} lo hi (m : M A) K base o q :
  reaches m K -> base + o < 18446744073709551616 -> lo <= base + o -> base + o + K <= hi ->
    safe lo hi (jump_take_maybe base o m) q any.
Proof.
  intros Hm S L G. unfold jump_take_maybe. destruct (0 <? o).
  - eapply safe_end, safe_jump; eassumption.
  - apply safe_pure. exact I.
Qed.

Lemma safe_index {A} lo hi (l : list A) P i q :
  Forall P l -> safe lo hi (index l i) q (fun v r => r = q /\ P v).
Proof.
  intros F. unfold index. destruct (nth_error l i) eqn:X.
  - apply safe_pure. split; [reflexivity|].
    eapply Forall_forall; [exact F|]. eapply nth_error_In, X.
  - apply safe_panic.
Qed.

Lemma safe_each {A} lo hi (m : M A) K B base count offset q :
  reaches m K -> base + B <= 18446744073709551616 -> lo <= base -> base + B + K <= hi + 1 ->
  (forall i q, safe lo hi (offset i) q (fun v r => v < B)) ->
  safe lo hi (jump_take_each base count offset m) q any.
Proof.
  intros Hm S L G Ho. apply safe_loop. intros i r _. eapply safe_bind; [apply Ho|].
  intros v s H. cbv beta in *. eapply safe_jump; [exact Hm|lia|lia|lia].
Qed.

Lemma safe_n {A} lo hi (m : M A) K B base count offsets q :
  reaches m K -> Forall (fun o => o < B) offsets -> base + B <= 18446744073709551616 ->
    lo <= base -> base + B + K <= hi + 1 ->
  safe lo hi (jump_take_n base count offsets m) q any.
Proof.
  intros Hm F S L G. apply (safe_each _ _ _ K B); [assumption..|]. intros i r.
  eapply safe_post; [apply safe_index, F|]. cbv beta. tauto.
Qed.

Lemma safe_headers {A H} lo hi (m : M A) K B (off : H -> N) base count headers q :
  reaches m K -> Forall (fun h => off h < B) headers -> base + B <= 18446744073709551616 ->
    lo <= base -> base + B + K <= hi + 1 ->
  safe lo hi (jump_take_each base count (fun i => h <- index headers i;; ret (off h)) m) q any.
Proof.
  intros Hm F S L G. apply (safe_each _ _ _ K B); [assumption..|]. intros i r.
  eapply safe_bind; [apply safe_index, F|]. intros h s [_ X].
  apply safe_pure. exact X.
Qed.

Lemma safe_maybe_n {A} lo hi (m : M A) K B base count offsets q :
  reaches m K -> Forall (fun o => o < B) offsets -> base + B <= 18446744073709551616 ->
    lo <= base -> base + B + K <= hi + 1 ->
  safe lo hi (jump_take_maybe_n base count offsets m) q any.
Proof.
  intros Hm F S L G. apply safe_loop. intros i r _. eapply safe_bind; [apply safe_index, F|].
  intros v s [_ H]. eapply safe_maybe; [exact Hm|lia|lia|lia].
Qed.

Lemma safe_list {A} lo hi (m : M A) K base o default q :
  reaches m K -> base + o < 18446744073709551616 -> lo <= base + o -> base + o + K <= hi ->
    safe lo hi (jump_take_list base o m default) q any.
Proof.
  intros Hm S L G. eapply safe_bind; [apply safe_ask|]. intros x r ->.
  destruct (ignore_incomplete_directories x).
  - eapply safe_end, safe_maybe; eassumption.
  - eapply safe_jump; eassumption.
Qed.

Lemma reaches_weak {A} (m : M A) K K' : reaches m K -> K <= K' -> reaches m K'.
Proof. intros H L q. eapply safe_weak; [apply H|lia|lia|]. auto. Qed.

(** A reader may be looked at from an earlier position. *)
Lemma safe_from {A} lo hi (m : M A) K q : reaches m K -> lo <= q -> q + K <= hi -> safe lo hi m q any.
Proof. intros H L G. eapply safe_weak; [apply H|exact L|exact G|]. auto. Qed.
(* readers *)
Lemma safe_unless {A} lo hi (b : bool) x (m : M A) q Q :
  x <> UnexpectedEnd -> safe lo hi m q Q -> safe lo hi (if b then raise x else m) q Q.
Proof. intros N H. destruct b; [apply safe_raise, N|exact H]. Qed.

(** ** Walking through a reader *)

Create HintDb reach.

(** Parts of one size. *)
Definition sized {A} (m : M A) (n : N) (P : A -> Prop) : Prop :=
  forall lo hi q, lo <= q -> q + n <= hi -> safe lo hi m q (fun v r => P v /\ at_ q n r).

Lemma u8_sized : sized take_u8 1 (fun v => v < 256).
Proof. intros lo hi q. apply safe_u8. Qed.
Lemma u16_sized : sized take_u16 2 (fun v => v < 65536).
Proof. intros lo hi q. apply safe_u16. Qed.
Lemma u32_sized : sized take_u32 4 (fun v => v < 4294967296).
Proof. intros lo hi q. apply safe_u32. Qed.
Lemma q32_sized : sized take_q32 4 (fun _ => True).
Proof. intros lo hi q L G. eapply safe_post; [apply safe_q32; assumption|]. cbv beta. tauto. Qed.
#[global] Hint Resolve u8_sized u16_sized u32_sized q32_sized : reach.

Lemma vec_safe {A} lo hi count (m : M A) (n : N) (P : A -> Prop) q :
  sized m n P -> lo <= q -> q + n * count <= hi ->
  safe lo hi (take_vec count m) q (fun v r => Forall P v /\ r = q + n * count).
Proof. intros H. apply safe_vec. intros r. apply H. Qed.

Ltac leaf :=
  cbv beta;
  lazymatch goal with
  | |- safe _ _ get_position _ _ => apply safe_position
  | |- safe _ _ ask _ _ => apply safe_ask
  | |- safe _ _ take_u8 _ _ => apply safe_u8; lia
  | |- safe _ _ take_u16 _ _ => apply safe_u16; lia
  | |- safe _ _ take_u32 _ _ => apply safe_u32; lia
  | |- safe _ _ take_tag _ _ => apply safe_tag; lia
  | |- safe _ _ take_i16 _ _ => apply safe_i16; lia
  | |- safe _ _ take_q32 _ _ => apply safe_q32; lia
  | |- safe _ _ (take_const take_u16 _) _ _ => apply safe_const; lia
  | |- safe _ _ (take_flags _) _ _ => apply safe_flags; lia
  | |- safe _ _ take_lookup_flags _ _ => apply safe_flags; lia
  | |- safe _ _ take_value_flags _ _ => apply safe_flags; lia
  | |- safe _ _ take_axis_flags _ _ => apply safe_flags; lia
  | |- safe _ _ take_instance_flags _ _ => apply safe_flags; lia
  | |- safe _ _ (take_vec _ _) _ _ => eapply vec_safe; [solve [eauto with reach]|lia|lia]
  | |- safe _ _ (jump_take _ _ _) _ _ => eapply safe_jump; [solve [eauto with reach]|lia|lia|lia]
  | |- safe _ _ (jump_take_maybe _ _ _) _ _ => eapply safe_maybe; [solve [eauto with reach]|lia|lia|lia]
  | |- safe _ _ (jump_take_list _ _ _ _) _ _ => eapply safe_list; [solve [eauto with reach]|lia|lia|lia]
  | |- safe _ _ (jump_take_n _ _ _ _) _ _ => eapply safe_n; [solve [eauto with reach]|eassumption|lia|lia|lia]
  | |- safe _ _ (jump_take_maybe_n _ _ _ _) _ _ => eapply safe_maybe_n;
    [solve [eauto with reach]|eassumption|lia|lia|lia]
  | |- safe _ _ (jump_take_each _ _ _ _) _ _ => eapply safe_headers;
    [solve [eauto with reach]|eassumption|lia|lia|lia]
  | |- safe _ _ (if _ then raise _ else _) _ _ => apply safe_unless; [discriminate|leaf]
  | |- safe _ _ (peek _) _ _ => apply safe_stay; leaf
  end.

Ltac facts :=
  let H := fresh "F" in intros ? ? H; cbv beta in H; unfold at_ in H;
  repeat match goal with
  | H : _ /\ _ |- _ => destruct H
  | H : exists _, _ |- _ => destruct H
  end; subst.

Ltac on := eapply safe_bind; [leaf|facts].
Ltac done := apply safe_pure; solve [exact I | split; [solve [exact I | assumption]|unfold at_; split; lia]].

Ltac record := let L := fresh in let G := fresh in intros lo hi q L G; repeat on; done.

Lemma coverage_record_sized : sized read_coverage_record 6 (fun _ => True).
Proof. record. Qed.
Lemma class_record_sized : sized read_class_record 6 (fun _ => True).
Proof. record. Qed.
Lemma action_sized : sized read_action 4 (fun _ => True).
Proof. record. Qed.
Lemma language_header_sized : sized read_language_header 6 (fun h => language_header_offset h < 65536).
Proof. record. Qed.
Lemma script_header_sized : sized read_script_header 6 (fun h => script_header_offset h < 65536).
Proof. record. Qed.
Lemma feature_header_sized : sized read_feature_header 6 (fun h => feature_header_offset h < 65536).
Proof. record. Qed.
Lemma color_sized : sized read_color 4 (fun _ => True).
Proof. record. Qed.
Lemma axis_record_sized : sized read_axis_record 20 (fun _ => True).
Proof. record. Qed.
Lemma offset_record_sized : sized read_offset_record 16 (fun _ => True).
Proof. record. Qed.
#[global] Hint Resolve coverage_record_sized class_record_sized action_sized language_header_sized
  script_header_sized
  feature_header_sized color_sized axis_record_sized offset_record_sized : reach.

(** Formats: each branch is read from where the format was looked at. *)
Ltac branch := eapply safe_end; eapply safe_from; [solve [eauto with reach]|lia|lia].
Ltac pick x :=
  repeat match goal with |- safe _ _ (match ?y with _ => _ end) _ _ => is_var y; destruct y;
    try (apply safe_raise; discriminate) end.
Ltac formats := intros q; eapply safe_bind; [leaf|]; intros x r F; destruct F as [-> _]; pick x; branch.

Ltac walked := intros q; repeat on; done.

Lemma coverage1_reaches : reaches read_coverage1 131074.
Proof. walked. Qed.
#[global] Hint Resolve coverage1_reaches : reach.

Lemma coverage2_reaches : reaches read_coverage2 393214.
Proof. walked. Qed.
#[global] Hint Resolve coverage2_reaches : reach.

Lemma coverage_reaches : reaches read_coverage 393214.
Proof. formats. Qed.
#[global] Hint Resolve coverage_reaches : reach.

Lemma class1_reaches : reaches read_class1 131076.
Proof. walked. Qed.
#[global] Hint Resolve class1_reaches : reach.

Lemma class2_reaches : reaches read_class2 393214.
Proof. walked. Qed.
#[global] Hint Resolve class2_reaches : reach.

Lemma class_reaches : reaches read_class 393214.
Proof. formats. Qed.
#[global] Hint Resolve class_reaches : reach.


Lemma device_reaches : reaches read_device 65544.
Proof.
  intros q. on. on. apply safe_unless; [discriminate|]. on.
  match goal with |- context [(?v =? 0) || (3 <? ?v)] => destruct ((v =? 0) || (3 <? v)) eqn:Z;
    [apply safe_raise; discriminate|];
    apply orb_false_iff in Z as [_ Z]; apply N.ltb_ge in Z end. cbv zeta.
  match goal with |- context [take_vec ?n] => assert (n <= 32769) end.
  { rewrite N.shiftl_1_l, N.shiftr_div_pow2. change (2 ^ 4) with 16.
    apply N.le_trans with ((8 * 65536 + 16) / 16); [|vm_compute; discriminate].
    apply N.div_le_mono; [discriminate|].
    match type of Z with ?f <= 3 => pose proof (N.pow_le_mono_r 2 f 3 ltac:(discriminate) Z) as Y;
      change (2 ^ 3) with 8 in Y; generalize dependent (2 ^ f) end. intros m Y.
    match goal with |- m * ?c + 16 - ?x <= _ => assert (m * c <= 8 * 65536) by (apply N.mul_le_mono; lia);
      generalize x; generalize dependent (m * c) end. intros. lia. }
  on. done.
Qed.
#[global] Hint Resolve device_reaches : reach.

Lemma variation_reaches : reaches read_variation 6.
Proof. walked. Qed.
#[global] Hint Resolve variation_reaches : reach.


Lemma correction_reaches : reaches read_correction 65544.
Proof.
  intros q. eapply safe_bind.
  - apply safe_stay. on. leaf.
  - intros x r F. destruct F as [-> _]. destruct (_ && _); [branch|].
    destruct (_ =? _); [branch|apply safe_raise; discriminate].
Qed.
#[global] Hint Resolve correction_reaches : reach.

Lemma context_record_reaches : reaches read_context_record 393212.
Proof. walked. Qed.
#[global] Hint Resolve context_record_reaches : reach.

Lemma context_records_reaches : reaches read_context_records 458747.
Proof. walked. Qed.
#[global] Hint Resolve context_records_reaches : reach.

Lemma context_class_record_reaches : reaches read_context_class_record 393212.
Proof. walked. Qed.
#[global] Hint Resolve context_class_record_reaches : reach.

Lemma context_class_records_reaches : reaches read_context_class_records 458747.
Proof. walked. Qed.
#[global] Hint Resolve context_class_records_reaches : reach.

Lemma chained_record_reaches : reaches read_chained_record 655356.
Proof. walked. Qed.
#[global] Hint Resolve chained_record_reaches : reach.

Lemma chained_records_reaches : reaches read_chained_records 720891.
Proof. walked. Qed.
#[global] Hint Resolve chained_records_reaches : reach.

Lemma chained_class_record_reaches : reaches read_chained_class_record 655356.
Proof. walked. Qed.
#[global] Hint Resolve chained_class_record_reaches : reach.

Lemma chained_class_records_reaches : reaches read_chained_class_records 720891.
Proof. walked. Qed.
#[global] Hint Resolve chained_class_records_reaches : reach.

Lemma context1_reaches : reaches read_context1 524282.
Proof. walked. Qed.
#[global] Hint Resolve context1_reaches : reach.

Lemma context2_reaches : reaches read_context2 524282.
Proof. walked. Qed.
#[global] Hint Resolve context2_reaches : reach.

Lemma context3_reaches : reaches read_context3 458749.
Proof. walked. Qed.
#[global] Hint Resolve context3_reaches : reach.

Lemma context_reaches : reaches read_context 524282.
Proof. formats. Qed.
#[global] Hint Resolve context_reaches : reach.

Lemma chained_context1_reaches : reaches read_chained_context1 786426.
Proof. walked. Qed.
#[global] Hint Resolve chained_context1_reaches : reach.

Lemma chained_context2_reaches : reaches read_chained_context2 786426.
Proof. walked. Qed.
#[global] Hint Resolve chained_context2_reaches : reach.

Lemma chained_context3_reaches : reaches read_chained_context3 655360.
Proof. walked. Qed.
#[global] Hint Resolve chained_context3_reaches : reach.

Lemma chained_context_reaches : reaches read_chained_context 786426.
Proof. formats. Qed.
#[global] Hint Resolve chained_context_reaches : reach.

Lemma language_record_reaches : reaches read_language_record 131076.
Proof. walked. Qed.
#[global] Hint Resolve language_record_reaches : reach.

Lemma script_record_reaches : reaches read_script_record 393214.
Proof. walked. Qed.
#[global] Hint Resolve script_record_reaches : reach.

Lemma scripts_reaches : reaches read_scripts 458749.
Proof. walked. Qed.
#[global] Hint Resolve scripts_reaches : reach.


Lemma feature_record_reaches : reaches read_feature_record 131074.
Proof.
  intros q. do 4 on. eapply safe_bind with (Q := any).
  - destruct (_ <? _); [|done]. eapply safe_bind; [apply safe_add|]. intros ? ? _.
    intros o f _. cbn. split; [exact I|reflexivity].
  - intros. done.
Qed.
#[global] Hint Resolve feature_record_reaches : reach.

Lemma features_reaches : reaches read_features 393212.
Proof. walked. Qed.
#[global] Hint Resolve features_reaches : reach.

Lemma feature_variations_reaches : reaches read_feature_variations 8.
Proof. walked. Qed.
#[global] Hint Resolve feature_variations_reaches : reach.


Lemma lookup_record_reaches {T} (read_table : N -> M T) K :
  65543 <= K -> (forall t, reaches (read_table t) K) -> reaches (read_lookup_record read_table) (65535 + K).
Proof.
  intros M Ht q. do 5 on. eapply safe_bind with (Q := any).
  - destruct (has_mark_filtering _); [|done]. eapply safe_end. leaf.
  - intros ? ? _. pose proof (Ht v0) as R. on. done.
Qed.

Lemma lookups_reaches {T} (read_table : N -> M T) K :
  65543 <= K -> (forall t, reaches (read_table t) K) -> reaches (read_lookups read_table) (131070 + K).
Proof. intros M Ht q. pose proof (lookup_record_reaches read_table K M Ht). repeat on. done. Qed.

Lemma directory_reaches {T} (read_table : N -> M T) K K' :
  (forall t, reaches (read_table t) K) -> 65543 <= K -> 4294967303 <= K' -> 196605 + K <= K' ->
  reaches (read_directory read_table) K'.
Proof.
  intros Ht M L G q. pose proof (lookups_reaches read_table K M Ht). do 3 on.
  eapply safe_bind with (Q := fun _ r => r = q + 2 + 2).
  { destruct (_ && _); [|apply safe_raise; discriminate]. apply safe_pure. reflexivity. }
  intros ? ? ->. do 3 on.
  eapply safe_bind with (Q := fun v _ => v < 4294967296).
  { destruct (_ && _).
    - eapply safe_post; [leaf|]. cbv beta. tauto.
    - apply safe_pure. reflexivity. }
  facts. repeat on. done.
Qed.

Lemma alternates_reaches : reaches read_alternates 131072.
Proof. walked. Qed.
#[global] Hint Resolve alternates_reaches : reach.

Lemma ligature_reaches : reaches read_ligature 131072.
Proof. walked. Qed.
#[global] Hint Resolve ligature_reaches : reach.

Lemma ligatures_reaches : reaches read_ligatures 196607.
Proof. walked. Qed.
#[global] Hint Resolve ligatures_reaches : reach.

Lemma sequence_reaches : reaches read_sequence 131072.
Proof. walked. Qed.
#[global] Hint Resolve sequence_reaches : reach.

Lemma single_substitution1_reaches : reaches read_single_substitution1 458749.
Proof. walked. Qed.
#[global] Hint Resolve single_substitution1_reaches : reach.

Lemma single_substitution2_reaches : reaches read_single_substitution2 458749.
Proof. walked. Qed.
#[global] Hint Resolve single_substitution2_reaches : reach.

Lemma single_substitution_reaches : reaches read_single_substitution 458749.
Proof. formats. Qed.
#[global] Hint Resolve single_substitution_reaches : reach.

Lemma multiple_substitution_reaches : reaches read_multiple_substitution 458749.
Proof. walked. Qed.
#[global] Hint Resolve multiple_substitution_reaches : reach.

Lemma alternate_substitution_reaches : reaches read_alternate_substitution 458749.
Proof. walked. Qed.
#[global] Hint Resolve alternate_substitution_reaches : reach.

Lemma ligature_substitution_reaches : reaches read_ligature_substitution 458749.
Proof. walked. Qed.
#[global] Hint Resolve ligature_substitution_reaches : reach.

Lemma extension_substitution_reaches : reaches read_extension_substitution 8.
Proof. walked. Qed.
#[global] Hint Resolve extension_substitution_reaches : reach.

Lemma reverse_chained_contextual_substibution_reaches :
  reaches read_reverse_chained_contextual_substibution 458749.
Proof. walked. Qed.
#[global] Hint Resolve reverse_chained_contextual_substibution_reaches : reach.


Lemma gsub_type_reaches t : reaches (read_gsub_type t) 786426.
Proof. intros q. unfold read_gsub_type. pick t; branch. Qed.

Lemma glyph_substitution_reaches : reaches read_glyph_substitution (reach RequestGsub).
Proof. apply (directory_reaches _ 786426); [apply gsub_type_reaches|vm_compute; discriminate..]. Qed.

Lemma anchor1_reaches : reaches read_anchor1 6.
Proof. walked. Qed.
#[global] Hint Resolve anchor1_reaches : reach.

Lemma anchor2_reaches : reaches read_anchor2 8.
Proof. walked. Qed.
#[global] Hint Resolve anchor2_reaches : reach.

Lemma anchor3_reaches : reaches read_anchor3 131079.
Proof. walked. Qed.
#[global] Hint Resolve anchor3_reaches : reach.

Lemma anchor_reaches : reaches read_anchor 131079.
Proof. formats. Qed.
#[global] Hint Resolve anchor_reaches : reach.



Lemma safe_within {A} lo hi (m : M A) q : safe lo hi m q any -> safe lo hi (stay m) q (fun _ r => r = q).
Proof. intros H. eapply safe_post; [apply safe_stay, H|]. cbv beta. tauto. Qed.

(** Parts whose offsets are from an earlier position. *)
Section From.
Variables (lo hi base : N).
Hypothesis Hbase : base < 9223372036854775808.
Hypothesis Hlo : lo <= base.
Hypothesis Hhi : base + 65535 + 131079 <= hi.

Lemma take_if_safe {A} b (m : M A) (P : A -> Prop) q :
  sized m 2 P -> lo <= q -> q + 2 <= hi ->
  safe lo hi (take_if b m) q (fun v r => (forall x, v = Some x -> P x) /\ q <= r <= q + 2).
Proof.
  intros Hm L G. unfold take_if. destruct b.
  - eapply safe_bind; [apply Hm; assumption|]. facts. apply safe_pure. split; [|lia].
    intros x E. injection E as <-. assumption.
  - apply safe_pure. split; [discriminate|lia].
Qed.

Lemma linked_safe o q : (forall x, o = Some x -> x < 65536) -> safe lo hi (take_linked base o) q any.
Proof.
  intros H. destruct o as [o|]; cbn [take_linked]; [|done]. specialize (H o eq_refl). leaf.
Qed.

Lemma i16_sized : sized take_i16 2 (fun _ => True).
Proof. intros l h q L G. eapply safe_post; [apply safe_i16; assumption|]. cbv beta. tauto. Qed.

Lemma single_safe flags q : lo <= q -> q + 16 <= hi ->
  safe lo hi (read_single base flags) q (fun _ r => True /\ q <= r <= q + 16).
Proof.
  intros L G. unfold read_single.
  do 4 (eapply safe_bind; [apply (take_if_safe _ _ _ _ i16_sized); lia|intros ? ? [_ ?]]).
  do 4 (eapply safe_bind; [apply (take_if_safe _ _ _ _ u16_sized); lia|intros ? ? [? ?]]).
  eapply safe_bind.
  { apply safe_within. do 3 (eapply safe_bind; [apply linked_safe; assumption|intros ? ? _]).
    eapply safe_end. apply linked_safe. assumption. }
  intros [[[? ?] ?] ?] ? ->. apply safe_pure. split; [exact I|lia].
Qed.

Lemma value_safe flags q : lo <= q -> q + 16 <= hi ->
  safe lo hi (if 0 <? flags then v <- read_single base flags;; ret (Some v) else ret None) q
    (fun _ r => q <= r <= q + 16).
Proof.
  intros L G. destruct (0 <? flags).
  - eapply safe_bind; [apply single_safe; assumption|]. intros ? ? [_ ?]. apply safe_pure. assumption.
  - apply safe_pure. lia.
Qed.

Lemma pair1_safe a b q : lo <= q -> q + 34 <= hi ->
  safe lo hi (read_pair1 base a b) q (fun _ r => True /\ q <= r <= q + 34).
Proof.
  intros L G. unfold read_pair1. on. do 2 (eapply safe_bind; [apply value_safe; lia|facts]).
  apply safe_pure. split; [exact I|lia].
Qed.

Lemma pair2_safe a b q : lo <= q -> q + 32 <= hi ->
  safe lo hi (read_pair2 base a b) q (fun _ r => True /\ q <= r <= q + 32).
Proof.
  intros L G. unfold read_pair2. do 2 (eapply safe_bind; [apply value_safe; lia|facts]).
  apply safe_pure. split; [exact I|lia].
Qed.

Lemma pair2s_safe n a b q : lo <= q -> q + 32 * n <= hi ->
  safe lo hi (read_pair2s base n a b) q (fun _ r => True /\ q <= r <= q + 32 * n).
Proof.
  intros L G. unfold read_pair2s.
  eapply safe_bind; [apply (safe_for _ _ _ _ 32 (fun _ => True));
    [intros; apply pair2_safe; assumption|assumption..]|].
  intros ? ? [_ ?]. apply safe_pure. split; [exact I|assumption].
Qed.

Lemma anchors_safe n offsets q : Forall (fun o => o < 65536) offsets ->
  safe lo hi (stay (jump_take_maybe_n base n offsets read_anchor)) q (fun _ r => r = q).
Proof. intros F. apply safe_within. leaf. Qed.

Lemma base_safe n q : lo <= q -> q + 2 * n <= hi ->
  safe lo hi (read_base base n) q (fun _ r => True /\ q <= r <= q + 2 * n).
Proof.
  intros L G. unfold read_base. on. eapply safe_bind; [apply anchors_safe; assumption|]. facts.
  apply safe_pure. split; [exact I|lia].
Qed.

Lemma component_safe n q : lo <= q -> q + 2 * n <= hi ->
  safe lo hi (read_component base n) q (fun _ r => True /\ q <= r <= q + 2 * n).
Proof.
  intros L G. unfold read_component. on. eapply safe_bind; [apply anchors_safe; assumption|]. facts.
  apply safe_pure. split; [exact I|lia].
Qed.

Lemma mark2_safe n q : lo <= q -> q + 2 * n <= hi ->
  safe lo hi (read_mark2 base n) q (fun _ r => True /\ q <= r <= q + 2 * n).
Proof.
  intros L G. unfold read_mark2. on. eapply safe_bind; [apply anchors_safe; assumption|]. facts.
  apply safe_pure. split; [exact I|lia].
Qed.

Lemma mark1_safe q : lo <= q -> q + 4 <= hi ->
  safe lo hi (read_mark1 base) q (fun _ r => True /\ q <= r <= q + 4).
Proof.
  intros L G. unfold read_mark1. do 3 on. eapply safe_bind with (Q := fun _ r => r = q + 2 + 2).
  - destruct (ignore_incomplete_marks _).
    + eapply safe_bind; [apply safe_within; leaf|]. facts. apply safe_pure. reflexivity.
    + apply safe_within. leaf.
  - facts. apply safe_pure. split; [exact I|lia].
Qed.

Lemma connection_safe q : lo <= q -> q + 4 <= hi ->
  safe lo hi (read_connection base) q (fun _ r => True /\ q <= r <= q + 4).
Proof.
  intros L G. unfold read_connection. do 2 on. eapply safe_bind.
  - apply safe_within. on. eapply safe_end. leaf.
  - intros [? ?] ? ->. apply safe_pure. split; [exact I|lia].
Qed.
End From.

(** Rows of records. *)
Ltac rows n H := eapply safe_bind; [apply (safe_for _ _ _ _ n (fun _ => True));
  [intros; apply H; lia|lia..]|facts].

Lemma area a b k : a < 65536 -> b < 65536 -> k * a * b <= k * 4294836225.
Proof.
  intros A B. rewrite <- N.mul_assoc. apply N.mul_le_mono_l. change 4294836225 with (65535 * 65535).
  apply N.mul_le_mono; lia.
Qed.

Lemma pair1s_reaches a b : reaches (read_pair1s a b) 2228192.
Proof. intros q. unfold read_pair1s. do 2 on. rows 34 pair1_safe. done. Qed.
Lemma mark1s_reaches : reaches read_mark1s 262142.
Proof. intros q. unfold read_mark1s. do 2 on. rows 4 mark1_safe. done. Qed.
#[global] Hint Resolve pair1s_reaches mark1s_reaches : reach.

Lemma bases_reaches n : n < 65536 -> reaches (read_bases n) 8589672452.
Proof.
  intros Hn q. unfold read_bases. do 2 on.
  match goal with H : ?v < 65536 |- safe _ _ (bind (for_n ?v _) _) _ _ =>
    pose proof (area n v 2 Hn H) end. rows (2 * n) base_safe. done.
Qed.
Lemma mark2s_reaches n : n < 65536 -> reaches (read_mark2s n) 8589672452.
Proof.
  intros Hn q. unfold read_mark2s. do 2 on.
  match goal with H : ?v < 65536 |- safe _ _ (bind (for_n ?v _) _) _ _ =>
    pose proof (area n v 2 Hn H) end. rows (2 * n) mark2_safe. done.
Qed.
Lemma gpos_ligature_reaches n : n < 65536 -> reaches (read_gpos_ligature n) 8589672452.
Proof.
  intros Hn q. unfold read_gpos_ligature. do 2 on.
  match goal with H : ?v < 65536 |- safe _ _ (bind (for_n ?v _) _) _ _ =>
    pose proof (area n v 2 Hn H) end. rows (2 * n) component_safe. done.
Qed.
#[global] Hint Resolve bases_reaches mark2s_reaches gpos_ligature_reaches : reach.

Lemma gpos_ligatures_reaches n : n < 65536 -> reaches (read_gpos_ligatures n) 8589737987.
Proof. intros Hn q. unfold read_gpos_ligatures. do 3 on.
  eapply safe_bind; [apply safe_within; leaf|]. facts. done. Qed.
#[global] Hint Resolve gpos_ligatures_reaches : reach.

Lemma single_adjustment1_reaches : reaches read_single_adjustment1 458749.
Proof.
  intros q. do 4 on. eapply safe_bind; [apply single_safe; lia|]. facts. on. done.
Qed.
Lemma single_adjustment2_reaches : reaches read_single_adjustment2 1048568.
Proof. intros q. do 5 on. rows 16 single_safe. on. done. Qed.
#[global] Hint Resolve single_adjustment1_reaches single_adjustment2_reaches : reach.
Lemma single_adjustment_reaches : reaches read_single_adjustment 1048568.
Proof. formats. Qed.
Lemma pair_adjustment1_reaches : reaches read_pair_adjustment1 2293727.
Proof. walked. Qed.
Lemma pair_adjustment2_reaches : reaches read_pair_adjustment2 137434759216.
Proof.
  intros q. do 9 on.
  match goal with H : ?v < 65536, G : ?w < 65536 |- safe _ _
    (bind (for_n ?v (fun _ => read_pair2s _ ?w _ _)) _) _ _ =>
    pose proof (area w v 32 G H); rows (32 * w) pair2s_safe end.
  repeat on. done.
Qed.
#[global] Hint Resolve single_adjustment_reaches pair_adjustment1_reaches pair_adjustment2_reaches : reach.
Lemma pair_adjustment_reaches : reaches read_pair_adjustment 137434759216.
Proof. formats. Qed.
Lemma cursive_attachment_reaches : reaches read_cursive_attachment 458749.
Proof. intros q. do 4 on. rows 4 connection_safe. on. done. Qed.
Lemma mark_to_base_attachment_reaches : reaches read_mark_to_base_attachment 8589737987.
Proof. walked. Qed.
Lemma mark_to_ligature_attachment_reaches : reaches read_mark_to_ligature_attachment 8589803522.
Proof. walked. Qed.
Lemma mark_to_mark_attachment_reaches : reaches read_mark_to_mark_attachment 8589737987.
Proof. walked. Qed.
Lemma extension_positioning_reaches : reaches read_extension_positioning 8.
Proof. walked. Qed.
#[global] Hint Resolve pair_adjustment_reaches cursive_attachment_reaches mark_to_base_attachment_reaches
  mark_to_ligature_attachment_reaches mark_to_mark_attachment_reaches extension_positioning_reaches : reach.

Lemma gpos_type_reaches t : reaches (read_gpos_type t) 137434759216.
Proof. intros q. unfold read_gpos_type. pick t; branch. Qed.

Lemma glyph_positioning_reaches : reaches read_glyph_positioning (reach RequestGpos).
Proof. apply (directory_reaches _ 137434759216); [apply gpos_type_reaches|vm_compute; discriminate..]. Qed.

(** ** GDEF *)

Lemma store_record_reaches : reaches read_store_record 4294967301.
Proof.
  intros q. do 4 on. eapply safe_bind with (Q := any); [|intros; done].
  eapply safe_bind; [apply safe_add|]. intros n r (-> & _ & Hn). change (2 ^ 16) with 65536 in Hn.
  match goal with |- context [?v * n] => assert (v * n <= 65535 * 65535) by (apply N.mul_le_mono; lia);
    generalize dependent (v * n) end. intros. eapply safe_post; [leaf|]. exact (fun _ _ _ => I).
Qed.
#[global] Hint Resolve store_record_reaches : reach.

Lemma store_reaches : reaches read_store 8589934596.
Proof. walked. Qed.
Lemma attachment_reaches : reaches read_attachment 131072.
Proof. walked. Qed.
#[global] Hint Resolve store_reaches attachment_reaches : reach.
Lemma attachments_reaches : reaches read_attachments 458749.
Proof. walked. Qed.
Lemma caret1_reaches : reaches read_caret1 4.
Proof. walked. Qed.
Lemma caret2_reaches : reaches read_caret2 4.
Proof. walked. Qed.
Lemma caret3_reaches : reaches read_caret3 131079.
Proof. walked. Qed.
#[global] Hint Resolve attachments_reaches caret1_reaches caret2_reaches caret3_reaches : reach.
Lemma caret_reaches : reaches read_caret 131079.
Proof. formats. Qed.
#[global] Hint Resolve caret_reaches : reach.
Lemma gdef_ligature_reaches : reaches read_gdef_ligature 196614.
Proof. walked. Qed.
#[global] Hint Resolve gdef_ligature_reaches : reach.
Lemma gdef_ligatures_reaches : reaches read_gdef_ligatures 458749.
Proof. walked. Qed.
Lemma marks_reaches : reaches read_marks 4295360509.
Proof. walked. Qed.
#[global] Hint Resolve gdef_ligatures_reaches marks_reaches : reach.

(** The offsets of a header. *)
Definition short (h : GdefHeader) : Prop :=
  gdef_glyph_class_offset h < 65536 /\ gdef_attachment_offset h < 65536 /\ gdef_ligature_offset h < 65536 /\
  gdef_mark_class_offset h < 65536 /\ gdef_mark_offset h < 65536 /\ gdef_mark_offset_of_version13 h < 65536.

Ltac header := intros lo hi q ? ?; repeat on; apply safe_pure;
  (split; [unfold short; cbn; repeat apply conj; lia|lia]).

Lemma gdef_header1_safe lo hi q : lo <= q -> q + 12 <= hi ->
  safe lo hi read_gdef_header1 q (fun h _ => short (GdefVersion1 h) /\ q < 9223372036854775808).
Proof. revert lo hi q. header. Qed.
Lemma gdef_header12_safe lo hi q : lo <= q -> q + 14 <= hi ->
  safe lo hi read_gdef_header12 q (fun h _ => short (GdefVersion12 h) /\ q < 9223372036854775808).
Proof. revert lo hi q. header. Qed.
Lemma gdef_header13_safe lo hi q : lo <= q -> q + 18 <= hi ->
  safe lo hi read_gdef_header13 q (fun h _ => short (GdefVersion13 h) /\ q < 9223372036854775808).
Proof. revert lo hi q. header. Qed.

Lemma gdef_header_safe lo hi q : lo <= q -> q + 18 <= hi ->
  safe lo hi read_gdef_header q (fun h _ => short h /\ q < 9223372036854775808).
Proof.
  intros L G. eapply safe_bind; [leaf|]. intros x r F. destruct F as [-> _]. pick x.
  - eapply safe_bind; [apply gdef_header13_safe; lia|]. facts. apply safe_pure. auto.
  - eapply safe_bind; [apply gdef_header12_safe; lia|]. facts. apply safe_pure. auto.
  - eapply safe_bind; [apply gdef_header1_safe; lia|]. facts. apply safe_pure. auto.
Qed.

Lemma glyph_definition_reaches : reaches read_glyph_definition (reach RequestGdef).
Proof.
  apply (reaches_weak _ 8590000131); [|vm_compute; discriminate].
  intros q. unfold read_glyph_definition. on. eapply safe_bind; [apply gdef_header_safe; lia|].
  intros h r [(? & ? & ? & ? & ? & ?) ?]. repeat on. done.
Qed.

(** ** CPAL and fvar *)

Lemma cpal_header_safe lo hi q : lo <= q -> q + 131082 <= hi ->
  safe lo hi read_cpal_header q (fun h _ =>
    match h with
    | CpalVersion0 h => cpal_header0_color_offset h < 4294967296 /\ cpal_header0_color_count h < 65536
    | CpalVersion1 h => cpal_header1_color_offset h < 4294967296 /\ cpal_header1_color_count h < 65536
    end /\ q < 9223372036854775808).
Proof.
  intros L G. eapply safe_bind; [leaf|]. intros x r F. destruct F as [-> _]. pick x.
  - eapply safe_bind with (Q := fun h _ => (cpal_header0_color_offset h < 4294967296 /\
      cpal_header0_color_count h < 65536) /\ q < 9223372036854775808).
    + unfold read_cpal_header0. repeat on. apply safe_pure. cbn. auto.
    + intros h r F. apply safe_pure. exact F.
  - eapply safe_bind with (Q := fun h _ => (cpal_header1_color_offset h < 4294967296 /\
      cpal_header1_color_count h < 65536) /\ q < 9223372036854775808).
    + unfold read_cpal_header1. repeat on. apply safe_pure. cbn. auto.
    + intros h r F. apply safe_pure. exact F.
Qed.

Lemma colors_reaches count : reaches (take_vec count read_color) (4 * count).
Proof. intros q. eapply safe_post; [leaf|]. exact (fun _ _ _ => I). Qed.
#[global] Hint Resolve colors_reaches : reach.

Lemma color_palettes_reaches : reaches read_color_palettes (reach RequestCpal).
Proof.
  apply (reaches_weak _ 4295229435); [|vm_compute; discriminate].
  intros q. unfold read_color_palettes. on. eapply safe_bind; [apply cpal_header_safe; lia|].
  intros h r [F ?]. destruct h; destruct F; repeat on; done.
Qed.

Lemma fvar_header_safe lo hi q : lo <= q -> q + 16 <= hi ->
  safe lo hi read_fvar_header q (fun h _ => fvar_header_axis_offset h < 65536 /\
    fvar_header_axis_count h < 65536 /\
    fvar_header_axis_size h < 65536 /\ fvar_header_instance_count h < 65536 /\
      fvar_header_instance_size h < 65536 /\
    q < 9223372036854775808).
Proof. intros L G. unfold read_fvar_header. repeat on. apply safe_pure. cbn. repeat split; assumption. Qed.

Lemma axis_record_reaches : reaches read_axis_record 20.
Proof. walked. Qed.
Lemma instance_record_reaches n : reaches (read_instance_record n) (6 + 4 * n).
Proof. walked. Qed.

Lemma font_variations_reaches : reaches read_font_variations (reach RequestFvar).
Proof.
  apply (reaches_weak _ 8589934596); [|vm_compute; discriminate].
  intros q. unfold read_font_variations. on. eapply safe_bind; [apply fvar_header_safe; lia|].
  intros h r (Ho & Hn & Hs & Hm & Ht & Hq). eapply safe_bind; [apply safe_add|]. intros b s (-> & Hb & _).
  change (2 ^ 64) with 18446744073709551616 in Hb. rewrite Hb by lia. clear Hb b.
  assert (P : fvar_header_axis_count h * fvar_header_axis_size h <= 65535 * 65535) by
    (apply N.mul_le_mono; lia).
  eapply safe_bind.
  { apply safe_loop. intros i t Hi.
    assert (N.of_nat i * fvar_header_axis_size h <= 65535 * 65535) by (apply N.mul_le_mono; lia).
    eapply safe_jump; [apply axis_record_reaches|lia..]. }
  intros ? t _. eapply safe_bind; [apply safe_add|]. intros b u (-> & Hb & _).
  change (2 ^ 64) with 18446744073709551616 in Hb. rewrite Hb by lia. clear Hb b.
  eapply safe_bind; [|intros; done]. apply safe_loop. intros i w Hi.
  assert (N.of_nat i * fvar_header_instance_size h <= 65534 * 65535) by (apply N.mul_le_mono; lia).
  eapply safe_jump; [apply instance_record_reaches|lia..].
Qed.

(** ** Fonts *)

Lemma offsets_header_safe lo hi q : lo <= q -> q + 12 <= hi ->
  safe lo hi read_offsets_header q (fun h r => offsets_header_table_count h < 65536 /\ r = q + 12).
Proof. intros L G. unfold read_offsets_header. repeat on. apply safe_pure. cbn. split; [assumption|lia]. Qed.

Lemma font_reaches d : reaches (read_font d) (reach (RequestFont d)).
Proof.
  apply (reaches_weak _ 1048572); [|vm_compute; discriminate].
  intros q. eapply safe_end. eapply safe_bind; [leaf|]. intros x r F. destruct F as [-> _].
  destruct (truetype_accept d x); [|apply (safe_raise _ _ _ _ any); discriminate].
  eapply safe_bind; [apply offsets_header_safe; lia|]. facts. on. done.
Qed.

Lemma file_reaches d : reaches (read_file d) (reach (RequestFile d)).
Proof.
  apply (reaches_weak _ 1048572); [|vm_compute; discriminate].
  intros q. eapply safe_bind; [leaf|]. intros x r F. destruct F as [-> _].
  destruct (tag_eqb x ttcf); [apply safe_raise; discriminate|]. eapply safe_end. exact (font_reaches d q).
Qed.

Theorem request_reaches {A} (r : request A) : reaches (reader r) (reach r).
Proof.
  destruct r.
  - apply file_reaches.
  - apply font_reaches.
  - apply glyph_definition_reaches.
  - apply glyph_positioning_reaches.
  - apply glyph_substitution_reaches.
  - apply color_palettes_reaches.
  - apply font_variations_reaches.
Qed.

(** If a read runs out of bytes, then for a byte that is missing. *)
Theorem request_stuck {A} (r : request A) o f p :
  bounded f -> reader r (mkEnv f o) p = Err UnexpectedEnd ->
  exists i, p <= i < p + reach r /\ f i = None /\
    forall g, bounded g -> supplies p (p + reach r) f g -> g i = None ->
      reader r (mkEnv g o) p = Err UnexpectedEnd.
Proof. intros Hf H. pose proof (request_reaches r p o f Hf) as X. rewrite H in X. exact X. Qed.

(** Otherwise more bytes make no difference. *)
Theorem request_unstuck {A} (r : request A) o f g p :
  bounded f -> bounded g -> supplies p (p + reach r) f g -> reader r (mkEnv f o) p <> Err UnexpectedEnd ->
  reader r (mkEnv g o) p = reader r (mkEnv f o) p.
Proof.
  intros Hf Hg E H. pose proof (request_reaches r p o f Hf) as X.
  destruct (reader r (mkEnv f o) p) as [[v q]|x|]; [exact (proj2 X g Hg E)| |exact (X g Hg E)].
  destruct x; try exact (X g Hg E). destruct (H eq_refl).
Qed.

Theorem request_local {A} (r : request A) o f g p :
  bounded f -> bounded g -> agree p (p + reach r) f g -> reader r (mkEnv f o) p = reader r (mkEnv g o) p.
Proof.
  intros Hf Hg E.
  assert (S : supplies p (p + reach r) f g) by (intros j b Hj; rewrite (E j Hj); auto).
  pose proof (request_reaches r p o f Hf) as X.
  destruct (reader r (mkEnv f o) p) as [[v q]|x|]; symmetry; [exact (proj2 X g Hg S)| |exact (X g Hg S)].
  destruct x; try exact (X g Hg S).
  destruct X as (i & Hi & N & Y). apply (Y g Hg S). rewrite <- (E i Hi). exact N.
Qed.

(** Taking a table from a font looks at the table only. *)
Theorem take_local {A} (r : request A) d o this t f g record p :
  bounded f -> bounded g ->
  first_record (offsets_records (font_offsets this)) (table_tag t) record ->
  record_checksum d f record = record_checksum d g record ->
  agree (offset_record_offset record) (offset_record_offset record + reach r) f g ->
  font_take d this t (reader r) (mkEnv f o) p = font_take d this t (reader r) (mkEnv g o) p.
Proof.
  intros Hf Hg Hr Hc H. rewrite !(take_present _ _ _ _ _ _ _ Hr). unfold checksum_test. cbn [content opts].
  rewrite Hc, (request_local r o f g _ Hf Hg H). reflexivity.
Qed.

(** ** Files that are read to the last byte of the reach *)

(** The given bytes at the given positions, zeros elsewhere, up to [n]. *)
Definition sparse (bytes : list (N * byte)) (n : N) : file := fun p =>
  if p <? n then
    Some (match find (fun x => fst x =? p) bytes with Some x => snd x | None => "000"%byte end)
  else None.

Fixpoint put_at (p : N) (l : list byte) : list (N * byte) :=
  match l with [] => [] | b :: l => (p, b) :: put_at (p + 1) l end.

Lemma sparse_bounded bytes n : n <= 2 ^ 63 -> bounded (sparse bytes n).
Proof. intros H p L. unfold sparse. destruct (N.ltb_spec p n); [lia|reflexivity]. Qed.

Definition succeeds {A} (x : res A) : bool := match x with Ok _ => true | _ => false end.

Definition far_gdef : list (N * byte) :=
  put_at 0 (flat_map be16 [1; 3; 0; 0; 0; 0; 65535; 0; 0]) ++ put_at 65535
    (flat_map be16 [1; 0; 0; 1; 65535; 65535]).
