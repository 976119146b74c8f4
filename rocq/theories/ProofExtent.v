(** The extent of every value. *)

From Verif Require Export SpecExtent.
From Verif Require Import Reads ReadsTactics ProofWriter ProofWriterGsub ProofWriterTables
  ProofPositions ProofCursor.

Definition shorter (n : N) (e : env) : env := mkEnv (cut n (content e)) (opts e).

(** Whatever [m] reads at [q] it also reads without the bytes from [E] on, and with
    fewer than that, but no fewer than [B], the file ends too early. *)
Definition meas {A} (B : N) (m : M A) (e : env) (q : N) (Q : A -> N -> N -> Prop) : Prop :=
  forall v r, m e q = Ok (v, r) -> exists E, B <= E /\
    (forall n, E <= n -> m (shorter n e) q = Ok (v, r)) /\
    (forall n, B <= n -> n < E -> m (shorter n e) q = Err UnexpectedEnd) /\ Q v r E.

(** [N.max], hidden from [lia]. *)
Definition mx : N -> N -> N := N.max.

Lemma by_bounds a b : (forall n, a <= n <-> b <= n) -> a = b.
Proof. intros H. apply N.le_antisymm; apply H; lia. Qed.

Ltac bounds :=
  subst; unfold mx; apply by_bounds; intro;
  rewrite <- ?N.add_max_distr_l; rewrite ?N.max_lub_iff; split; intros;
  repeat match goal with H : _ /\ _ |- _ => destruct H end; repeat apply conj; lia.

Section Meas.
Variable e : env.
Hypothesis Hb : bounded (content e).

Lemma meas_post {A} B (m : M A) q (Q R : A -> N -> N -> Prop) :
  meas B m e q Q -> (forall v r E, B <= E -> Q v r E -> R v r E) -> meas B m e q R.
Proof.
  intros H W v r X. destruct (H v r X) as (E & L & F & G & P). exists E. eauto 6.
Qed.

Lemma meas_pure {A} B (v : A) q (Q : A -> N -> N -> Prop) : Q v q B -> meas B (ret v) e q Q.
Proof.
  intros H x r X. apply (ret_ok e) in X as [-> ->]. exists B. split; [lia|]. split; [reflexivity|].
  split; [lia|exact H].
Qed.

(** What does not look at the content. *)
Lemma meas_blind {A} B (m : M A) q (Q : A -> N -> N -> Prop) :
  (forall n, m (shorter n e) q = m e q) -> (forall v r, m e q = Ok (v, r) -> Q v r B) -> meas B m e q Q.
Proof.
  intros S H v r X. exists B. split; [lia|]. split; [intros; rewrite S; exact X|]. split; [lia|].
  exact (H v r X).
Qed.

Lemma meas_bind {A C} B (m : M A) (k : A -> M C) q Q R :
  meas B m e q Q -> (forall v r E, B <= E -> Q v r E -> meas E (k v) e r R) -> meas B (bind m k) e q R.
Proof.
  intros Hm Hk w s X. apply bind_ok in X as (v & r & Y & X).
  destruct (Hm v r Y) as (E & L & F & G & P). destruct (Hk v r E L P w s X) as (E' & L' & F' & G' & P').
  exists E'. split; [lia|]. split; [|split; [|exact P']].
  - intros n Hn. unfold bind. rewrite F by lia. apply F'. exact Hn.
  - intros n Hn Hn'. unfold bind. destruct (N.lt_ge_cases n E) as [Z|Z].
    + rewrite G by assumption. reflexivity.
    + rewrite F by assumption. apply G'; assumption.
Qed.

Lemma meas_map {A C} B (m : M A) (c : A -> C) q (Q : A -> N -> N -> Prop) (R : C -> N -> N -> Prop) :
  meas B m e q Q -> (forall v r E, B <= E -> Q v r E -> R (c v) r E) -> meas B (v <- m;; ret (c v)) e q R.
Proof. intros H W. eapply meas_bind; [exact H|]. intros v r E L P. apply meas_pure. auto. Qed.

Lemma meas_raise {A} B x q (Q : A -> N -> N -> Prop) : meas B (raise x) e q Q.
Proof. intros v r X. discriminate X. Qed.

Lemma meas_unless {A} B (b : bool) x (m : M A) q Q : meas B m e q Q -> meas B (if b then raise x else m) e q Q.
Proof. destruct b; [intros _; apply meas_raise|auto]. Qed.

Lemma meas_position B q : meas B get_position e q (fun v r E => v = q /\ r = q /\ E = B).
Proof. apply meas_blind; [reflexivity|]. intros v r X. injection X as <- <-. auto. Qed.

Lemma meas_ask B q : meas B ask e q (fun v r E => v = opts e /\ r = q /\ E = B).
Proof. apply meas_blind; [reflexivity|]. intros v r X. injection X as <- <-. auto. Qed.

Lemma meas_stay {A} B (m : M A) q Q :
  meas B m e q Q -> meas B (stay m) e q (fun v r E => r = q /\ exists r', Q v r' E).
Proof.
  intros H v r X. unfold stay in *. destruct (m e q) as [[w s]| |] eqn:Y; try discriminate X.
  injection X as <- <-.
  destruct (H w s Y) as (E & L & F & G & P). exists E. split; [exact L|]. split; [|split; [|eauto]].
  - intros n Hn. rewrite F by exact Hn. reflexivity.
  - intros n Hn Hn'. rewrite G by assumption. reflexivity.
Qed.

Definition at_ (B q n : N) (r E : N) : Prop := r = q + n /\ q < 9223372036854775808 /\ r <= E /\ E = mx B r.

Lemma meas_byte B q : meas B take_byte e q (fun v r E => at_ B q 1 r E).
Proof.
  intros v r X. unfold take_byte, at_ in *. cbn [shorter content]. unfold cut.
  destruct (content e q) as [b|] eqn:Y; [|discriminate X]. injection X as <- <-.
  exists (N.max B (q + 1)). split; [lia|]. split; [|split].
  - intros n Hn. destruct (N.ltb_spec q n); [reflexivity|lia].
  - intros n Hn Hn'. destruct (N.ltb_spec q n); [lia|reflexivity].
  - split; [reflexivity|]. split; [|split; [lia|reflexivity]].
    destruct (N.lt_ge_cases q (2 ^ 63)) as [Z|Z]; [exact Z|]. rewrite (Hb q Z) in Y. discriminate Y.
Qed.

Lemma byte_bound b : Byte.to_N b < 256.
Proof. pose proof (Byte.to_N_bounded b). lia. Qed.

Ltac bytes :=
  repeat (eapply meas_bind; [apply meas_byte|intros ? ? ? ? (-> & ? & ? & ->)]);
  apply meas_pure; unfold at_, mx in *;
  repeat match goal with b : byte |- _ => lazymatch goal with
    | _ : Byte.to_N b < 256 |- _ => fail
    | _ => pose proof (byte_bound b) end end; repeat apply conj; lia.

Lemma meas_u8 B q : meas B take_u8 e q (fun v r E => v < 256 /\ at_ B q 1 r E).
Proof. unfold take_u8. bytes. Qed.
Lemma meas_u16 B q : meas B take_u16 e q (fun v r E => v < 65536 /\ at_ B q 2 r E).
Proof. unfold take_u16. bytes. Qed.
Lemma meas_u32 B q : meas B take_u32 e q (fun v r E => v < 4294967296 /\ at_ B q 4 r E).
Proof. unfold take_u32. bytes. Qed.
Lemma meas_tag B q : meas B take_tag e q (fun v r E => at_ B q 4 r E).
Proof. unfold take_tag. bytes. Qed.
Lemma meas_i16 B q : meas B take_i16 e q (fun v r E => at_ B q 2 r E).
Proof. eapply meas_map; [apply meas_u16|]. cbv beta. tauto. Qed.
Lemma meas_q32 B q : meas B take_q32 e q (fun v r E => at_ B q 4 r E).
Proof. eapply meas_map; [apply meas_u32|]. cbv beta. tauto. Qed.

Lemma meas_const B c q : meas B (take_const take_u16 c) e q (fun v r E => v < 65536 /\ at_ B q 2 r E).
Proof.
  eapply meas_bind; [apply meas_u16|]. intros v r E L H. cbv beta in *.
  destruct (v =? c); [|apply meas_raise]. apply meas_pure. exact H.
Qed.

Lemma meas_flags B mask q : meas B (take_flags mask) e q (fun v r E => v < 65536 /\ at_ B q 2 r E).
Proof.
  eapply meas_bind; [apply meas_u16|]. intros v r E L H. cbv beta in *.
  eapply meas_bind; [apply meas_ask|]. intros o s E' L' (-> & -> & ->).
  destruct (_ && _); [apply meas_raise|]. apply meas_pure. exact H.
Qed.

(** ** Loops *)

(** Parts of one size that are read one after another. *)
Definition sized {A} (m : M A) (n : N) (P : A -> Prop) : Prop :=
  forall B q, meas B m e q (fun v r E => P v /\ at_ B q n r E).

Lemma meas_vec {A} B count (m : M A) n (P : A -> Prop) q :
  sized m n P -> q <= B \/ 0 < count ->
  meas B (take_vec count m) e q (fun v r E =>
    N.of_nat (length v) = count /\ Forall P v /\ r = q + n * count /\ r <= E /\ E = mx B r).
Proof.
  intros Hf. unfold take_vec, for_n. rewrite <- (N2Nat.id count). generalize (N.to_nat count) as c. intros c.
  rewrite Nat2N.id. generalize 0%nat as i. revert B q. induction c as [|c IH]; intros B q i L; cbn [for_range].
  - apply meas_pure. unfold mx. repeat apply conj; [reflexivity|constructor|lia..].
  - assert (n * N.of_nat (S c) = n + n * N.of_nat c) as X by lia. rewrite X in *.
    eapply meas_bind; [apply Hf|]. intros v r E ? (Pv & -> & ? & ? & ->).
    eapply meas_bind; [apply IH; lia|]. intros vs s E' ? (Lvs & Pvs & -> & ? & ->).
    apply meas_pure. unfold mx. repeat apply conj; [cbn [length]; lia|constructor; assumption|lia..].
Qed.

(** Records whose offsets are from [base]. *)
Lemma meas_for {A} base B count (f : nat -> M A) en links q :
  (forall i B q, q <= B -> base <= B ->
    meas B (f i) e q (fun v r E => r = q + en v /\ r <= E /\ E = mx (mx B r) (base + links v))) ->
  q <= B -> base <= B ->
  meas B (for_n count f) e q (fun l r E =>
    N.of_nat (length l) = count /\ r = q + sum (map en l) /\ r <= E /\
    E = mx (mx B r) (base + most (map links l))).
Proof.
  intros Hf. unfold for_n. rewrite <- (N2Nat.id count). generalize (N.to_nat count) as c. intros c.
  rewrite Nat2N.id. generalize 0%nat as i. revert B q.
  induction c as [|c IH]; intros B q i L L'; cbn [for_range].
  - apply meas_pure. unfold mx. cbn. repeat apply conj; [reflexivity|lia..].
  - eapply meas_bind; [apply Hf; lia|]. intros v r E ? (-> & ? & ->).
    eapply meas_bind; [apply IH; lia|]. intros vs s E' ? (Lvs & -> & ? & ->).
    apply meas_pure. cbn [map length]. change (sum (en v :: ?l)) with (en v + sum l).
    cbn [sum most fold_right]. fold (sum (map en vs)) (most (map links vs)). unfold mx in *.
    repeat apply conj; lia.
Qed.

(** ** Jumps *)

(** [m] reads something, and its value has the given extent. *)
Definition measured {A} (m : M A) (ext : A -> N) : Prop :=
  forall B q, meas B m e q (fun v _ E => E = mx B (q + ext v)).

Lemma meas_add B a b q : a + b < 18446744073709551616 ->
  meas B (add_u64 a b) e q (fun v r E => v = a + b /\ r = q /\ E = B).
Proof.
  intros S. apply meas_blind.
  - intros n. unfold add_u64, add_wrapping, bind, ask. cbn [opts shorter].
    destruct (a + b <? 2 ^ 64), (overflow_checks (opts e)); reflexivity.
  - intros v r X. apply add_ok in X; [|exact S]. destruct X as [-> ->]. auto.
Qed.

Lemma meas_jump {A} B (m : M A) ext base o q :
  measured m ext -> base + o < 18446744073709551616 ->
  meas B (jump_take base o m) e q (fun v _ E => E = mx B (base + (o + ext v))).
Proof.
  intros Hm S. unfold jump_take. eapply meas_bind; [apply meas_add, S|].
  intros v r E L (-> & -> & ->). intros w s X.
  change (bind (jump (base + o)) (fun _ => m) e q) with (m e (base + o)) in X.
  destruct (Hm B (base + o) w s X) as (E & L' & F & G & P). exists E.
  split; [exact L'|]. split; [exact F|]. split; [exact G|]. rewrite P. f_equal. lia.
Qed.

Lemma meas_maybe {A} B (m : M A) ext base o q :
  measured m ext -> base + o < 18446744073709551616 -> base <= B ->
  meas B (jump_take_maybe base o m) e q (fun v _ E => E = mx B (base + maybe_far o (option_map ext v))).
Proof.
  intros Hm S L. unfold jump_take_maybe. destruct (0 <? o).
  - eapply meas_map; [apply meas_jump; eassumption|]. intros v r E _ ->. reflexivity.
  - apply meas_pure. unfold mx. cbn. lia.
Qed.

(** Going through offsets. *)
Lemma meas_through {A} B (step : N -> M A) far base offsets bound count offset q (total :
  list N -> list A -> N) :
  (forall B o q, o < bound -> base <= B -> meas B (step o) e q (fun v _ E => E = mx B (base + far o v))) ->
  (forall l, total l [] = 0) ->
  (forall o l v vs, total (o :: l) (v :: vs) = N.max (far o v) (total l vs)) ->
  Forall (fun o => o < bound) offsets -> base <= B ->
  (forall i B q, meas B (offset i) e q (fun o r E => nth_error offsets i = Some o /\ E = B)) ->
  meas B (for_n count (fun i => o <- offset i;; step o)) e q (fun v _ E => E = mx B (base + total offsets v)).
Proof.
  intros Hm T0 TS F L Ho. unfold for_n.
  cut (forall c i B q, base <= B -> meas B (for_range i c (fun i => o <- offset i;; step o)) e q
    (fun v _ E => E = mx B (base + total (skipn i offsets) v))).
  { intros H. exact (H _ 0%nat B q L). }
  clear B q L. induction c as [|c IH]; intros i B q L; cbn [for_range].
  - apply meas_pure. rewrite T0. unfold mx. lia.
  - eapply meas_bind with (Q := fun v _ E => exists o, nth_error offsets i = Some o /\
    E = mx B (base + far o v)).
    { eapply meas_bind; [apply Ho|]. intros o r E ? [N ->].
      assert (o < bound) by (apply (proj1 (Forall_forall _ _) F), nth_error_In with i, N).
      eapply meas_post; [apply Hm; assumption|]. intros v s E ? ->. eauto. }
    intros v r E L' (o & N & ->). eapply meas_bind; [apply IH; lia|]. intros vs s E ? ->.
    apply meas_pure. rewrite (skipn_nth _ _ _ N), TS. unfold mx. lia.
Qed.

Lemma meas_index {A C} (f : A -> C) (l : list A) i B q :
  meas B (h <- index l i;; ret (f h)) e q (fun o r E => nth_error (map f l) i = Some o /\ E = B).
Proof.
  apply meas_blind.
  - intros n. unfold index, bind. destruct (nth_error l i); reflexivity.
  - intros o r X. apply (index_ok e) in X as [X _]. auto.
Qed.

Lemma meas_each {A H} B (m : M A) ext base (f : H -> N) headers bound count q :
  measured m ext -> Forall (fun h => f h < bound) headers -> base + bound <= 18446744073709551616 ->
    base <= B ->
  meas B (jump_take_each base count (fun i => h <- index headers i;; ret (f h)) m) e q
    (fun v _ E => E = mx B (base + farthest (map f headers) (map ext v))).
Proof.
  intros Hm F S L. unfold jump_take_each.
  apply (meas_through B (fun o => jump_take base o m) (fun o v => o + ext v) base (map f headers) bound _ _ q
    (fun l v => farthest l (map ext v))).
  - intros C o r G K. apply meas_jump; [exact Hm|lia].
  - intros [|o l]; reflexivity.
  - reflexivity.
  - apply Forall_map, F.
  - exact L.
  - intros. apply meas_index.
Qed.

Lemma meas_n {A} B (m : M A) ext base offsets bound count q :
  measured m ext -> Forall (fun o => o < bound) offsets -> base + bound <= 18446744073709551616 -> base <= B ->
  meas B (jump_take_n base count offsets m) e q (fun v _ E => E = mx B (base + farthest offsets (map ext v))).
Proof.
  intros Hm F S L. unfold jump_take_n, jump_take_each.
  apply (meas_through B (fun o => jump_take base o m) (fun o v => o + ext v) base offsets bound _ _ q
    (fun l v => farthest l (map ext v))).
  - intros C o r G K. apply meas_jump; [exact Hm|lia].
  - intros [|o l]; reflexivity.
  - reflexivity.
  - exact F.
  - exact L.
  - intros i C r. apply meas_blind; unfold index; destruct (nth_error offsets i); try reflexivity;
    try discriminate.
    intros v s X. apply (ret_ok e) in X as [-> _]. auto.
Qed.

Lemma meas_maybe_n {A} B (m : M A) ext base offsets bound count q :
  measured m ext -> Forall (fun o => o < bound) offsets -> base + bound <= 18446744073709551616 -> base <= B ->
  meas B (jump_take_maybe_n base count offsets m) e q
    (fun v _ E => E = mx B (base + farthest_some offsets (map (option_map ext) v))).
Proof.
  intros Hm F S L. unfold jump_take_maybe_n.
  apply (meas_through B (fun o => jump_take_maybe base o m)
    (fun o v => maybe_far o (option_map ext v)) base offsets
    bound _ _ q (fun l v => farthest_some l (map (option_map ext) v))).
  - intros C o r G K. apply meas_maybe; [exact Hm|lia|exact K].
  - intros [|o l]; reflexivity.
  - reflexivity.
  - exact F.
  - exact L.
  - intros i C r. apply meas_blind; unfold index; destruct (nth_error offsets i); try reflexivity;
    try discriminate.
    intros v s X. apply (ret_ok e) in X as [-> _]. auto.
Qed.

Lemma meas_list {A} B (m : M A) ext base o default q :
  measured m ext -> base + o < 18446744073709551616 -> base <= B ->
  meas B (jump_take_list base o m default) e q (fun v _ E => E = mx B (base + list_far (opts e) o (ext v))).
Proof.
  intros Hm S L. unfold jump_take_list, list_far. eapply meas_bind; [apply meas_ask|].
  intros x r E _ (-> & -> & ->). destruct (ignore_incomplete_directories (opts e)); cbn [andb].
  - unfold jump_take_maybe. destruct (N.ltb_spec 0 o), (N.eqb_spec o 0); try lia.
    + eapply meas_bind with (Q := fun v _ E => exists w, v = Some w /\ E = mx B (base + (o + ext w))).
      * eapply meas_map; [apply meas_jump; eassumption|]. intros v r E _ X. exists v. auto.
      * intros v r E _ (w & -> & ->). apply meas_pure. reflexivity.
    + eapply meas_bind with (Q := fun _ _ E => E = B); [apply meas_pure; reflexivity|].
      intros v r E _ ->. apply meas_pure. unfold mx. lia.
  - apply meas_jump; assumption.
Qed.

(** ** Walking through a reader *)

Lemma u8_sized : sized take_u8 1 (fun v => v < 256).
Proof. exact meas_u8. Qed.
Lemma u16_sized : sized take_u16 2 (fun v => v < 65536).
Proof. exact meas_u16. Qed.
Lemma u32_sized : sized take_u32 4 (fun v => v < 4294967296).
Proof. exact meas_u32. Qed.
Lemma i16_sized : sized take_i16 2 (fun _ => True).
Proof. intros B q. eapply meas_post; [apply meas_i16|]. cbv beta. tauto. Qed.
Lemma q32_sized : sized take_q32 4 (fun _ => True).
Proof. intros B q. eapply meas_post; [apply meas_q32|]. cbv beta. tauto. Qed.
End Meas.

Create HintDb extent.
#[global] Hint Resolve u8_sized u16_sized u32_sized i16_sized q32_sized : extent.

Ltac meas_leaf :=
  cbv beta;
  lazymatch goal with
  | |- meas _ get_position _ _ _ => apply meas_position
  | |- meas _ ask _ _ _ => apply meas_ask
  | |- meas _ take_u8 _ _ _ => apply meas_u8; assumption
  | |- meas _ take_u16 _ _ _ => apply meas_u16; assumption
  | |- meas _ take_u32 _ _ _ => apply meas_u32; assumption
  | |- meas _ take_tag _ _ _ => apply meas_tag; assumption
  | |- meas _ take_i16 _ _ _ => apply meas_i16; assumption
  | |- meas _ take_q32 _ _ _ => apply meas_q32; assumption
  | |- meas _ (take_const take_u16 _) _ _ _ => apply meas_const; assumption
  | |- meas _ (take_flags _) _ _ _ => apply meas_flags; assumption
  | |- meas _ take_lookup_flags _ _ _ => apply meas_flags; assumption
  | |- meas _ take_value_flags _ _ _ => apply meas_flags; assumption
  | |- meas _ take_axis_flags _ _ _ => apply meas_flags; assumption
  | |- meas _ take_instance_flags _ _ _ => apply meas_flags; assumption
  | |- meas _ (take_vec _ _) _ _ _ => eapply meas_vec; [solve [eauto with extent]|lia]
  | |- meas _ (jump_take _ _ _) _ _ _ => eapply meas_jump; [solve [eauto with extent]|lia]
  | |- meas _ (jump_take_maybe _ _ _) _ _ _ => eapply meas_maybe; [solve [eauto with extent]|lia|lia]
  | |- meas _ (jump_take_list _ _ _ _) _ _ _ => eapply meas_list; [solve [eauto with extent]|lia|lia]
  | |- meas _ (jump_take_n _ _ _ _) _ _ _ => eapply meas_n; [solve [eauto with extent]|eassumption|lia|lia]
  | |- meas _ (jump_take_maybe_n _ _ _ _) _ _ _ => eapply meas_maybe_n;
    [solve [eauto with extent]|eassumption|lia|lia]
  | |- meas _ (jump_take_each _ _ _ _) _ _ _ => eapply meas_each;
    [solve [eauto with extent]|eassumption|lia|lia]
  | |- meas _ (if _ then raise _ else _) _ _ _ => apply meas_unless; meas_leaf
  | |- meas _ (peek _) _ _ _ => apply meas_stay; meas_leaf
  | |- meas _ (stay _) _ _ _ => apply meas_stay; meas_leaf
  end.

Ltac meas_facts :=
  let H := fresh "F" in intros ? ? ? ? H; cbv beta in H; unfold at_ in H;
  repeat match goal with
  | H : _ /\ _ |- _ => destruct H
  | H : exists _, _ |- _ => destruct H
  | H : ?r = ?q + ?n |- context [meas _ _ _ ?r _] => is_var r; subst r
  | H : ?r = ?q |- context [meas _ _ _ ?r _] => is_var r; subst r
  end.

Ltac meas_on := eapply meas_bind; [meas_leaf|meas_facts].

Ltac ending := apply meas_pure; subst; unfold at_; repeat apply conj;
  try solve [exact I | assumption | lia | bounds | unfold mx in *; lia].
Ltac record := intros B q; repeat meas_on; ending.
Ltac flat := intros B q; repeat meas_on; ending.
Ltac pick := repeat match goal with |- meas _ (match ?y with _ => _ end) _ _ _ => is_var y;
  destruct y; try apply meas_raise end.
Ltac looked := eapply meas_bind; [meas_leaf|meas_facts].
Ltac branch r := unfold r; eapply meas_map; [|intros ? ? ? ? X; exact X]; repeat meas_on; ending.
Ltac shown := subst;
  cbn -[N.add N.mul N.sub N.max N.of_nat N.eqb N.le N.lt mx size sum most farthest farthest_some
    maybe_far list_far link];
  bounds.
Ltac walked := intros B q; repeat meas_on; apply meas_pure; shown.
Ltac variant r := unfold r; eapply meas_bind; [|intros ? ? ? ? X; apply meas_pure; exact X];
  repeat meas_on; apply meas_pure; shown.

Section Readers.
Variable e : env.
Hypothesis Hb : bounded (content e).
Notation measured := (measured e).
Notation sized := (sized e).

Lemma coverage_record_sized : sized read_coverage_record 6 (fun _ => True).
Proof. record. Qed.
Lemma class_record_sized : sized read_class_record 6 (fun _ => True).
Proof. record. Qed.
Lemma action_sized : sized read_action 4 (fun _ => True).
Proof. record. Qed.
Lemma language_header_sized : sized read_language_header 6 (fun h => language_header_offset h < 65536).
Proof. record. Qed.
Lemma script_header_sized : sized read_script_header 6 (fun h => script_header_offset h < 65536).
Proof. record. Qed.
Lemma feature_header_sized : sized read_feature_header 6 (fun h => feature_header_offset h < 65536).
Proof. record. Qed.
Lemma color_sized : sized read_color 4 (fun _ => True).
Proof. record. Qed.
Lemma axis_record_sized : sized read_axis_record 20 (fun _ => True).
Proof. record. Qed.
Lemma offset_record_sized : sized read_offset_record 16 (fun _ => True).
Proof. record. Qed.
Hint Resolve coverage_record_sized class_record_sized action_sized language_header_sized script_header_sized
  feature_header_sized color_sized axis_record_sized offset_record_sized : extent.

(** Readers without offsets need what they consume. *)
Definition firm {A} (m : M A) : Prop := forall B q, meas B m e q (fun _ r E => q + 2 <= r /\ E = mx B r).

Lemma firm_measured {A} (m : M A) en : firm m -> ends e m en -> measured m en.
Proof.
  intros H D B q v r X. destruct (H B q v r X) as (E & L & F & G & K & P). exists E.
  repeat apply conj; try assumption. rewrite P, (D q v r X). reflexivity.
Qed.

(** Formats: each is read from where it was looked at. *)

(** The extents of what was read. *)

Lemma coverage_measured : measured read_coverage coverage_end.
Proof.
  apply firm_measured; [|apply coverage_ends; assumption]. intros B q. looked.
  pick; [branch read_coverage2|branch read_coverage1].
Qed.
Hint Resolve coverage_measured : extent.
Lemma class_measured : measured read_class class_end.
Proof.
  apply firm_measured; [|apply class_ends; assumption]. intros B q. looked.
  pick; [branch read_class2|branch read_class1].
Qed.
Hint Resolve class_measured : extent.
Lemma correction_measured : measured read_correction correction_end.
Proof.
  apply firm_measured; [|apply correction_ends; assumption]. intros B q.
  eapply meas_bind with (Q := fun _ r E => r = q /\ E = mx B (q + 6) /\ q <= E).
  { eapply meas_post; [apply (meas_stay e B (_ <- take_u32;; take_u16) q (fun _ r E => E = mx B (q + 6)))|].
    - meas_on. eapply meas_post; [meas_leaf|]. meas_facts. bounds.
    - cbv beta. intros ? ? ? ? [-> [_ ->]]. repeat apply conj; [reflexivity..|unfold mx; lia]. }
  meas_facts. destruct (_ && _); [|destruct (_ =? _); [branch read_variation|apply meas_raise]].
  unfold read_device. eapply meas_map; [|intros ? ? ? ? X; exact X]. do 2 meas_on. apply meas_unless. meas_on.
  apply meas_unless. cbv zeta. meas_on. ending.
Qed.
Hint Resolve correction_measured : extent.
Lemma context_record_measured : measured read_context_record (fun r => size (context_record_bytes r)).
Proof. apply firm_measured; [flat|apply context_record_ends; assumption]. Qed.
Hint Resolve context_record_measured : extent.
Lemma context_records_measured : measured read_context_records context_records_extent.
Proof. unfold context_records_extent. walked. Qed.
Hint Resolve context_records_measured : extent.
Lemma context_class_record_measured :
  measured read_context_class_record (fun r => size (context_class_record_bytes r)).
Proof. apply firm_measured; [flat|apply context_class_record_ends; assumption]. Qed.
Hint Resolve context_class_record_measured : extent.
Lemma context_class_records_measured : measured read_context_class_records context_class_records_extent.
Proof. unfold context_class_records_extent. walked. Qed.
Hint Resolve context_class_records_measured : extent.
Lemma chained_record_measured : measured read_chained_record (fun r => size (chained_record_bytes r)).
Proof. apply firm_measured; [flat|apply chained_record_ends; assumption]. Qed.
Hint Resolve chained_record_measured : extent.
Lemma chained_records_measured : measured read_chained_records chained_records_extent.
Proof. unfold chained_records_extent. walked. Qed.
Hint Resolve chained_records_measured : extent.
Lemma chained_class_record_measured :
  measured read_chained_class_record (fun r => size (chained_class_record_bytes r)).
Proof. apply firm_measured; [flat|apply chained_class_record_ends; assumption]. Qed.
Hint Resolve chained_class_record_measured : extent.
Lemma chained_class_records_measured : measured read_chained_class_records chained_class_records_extent.
Proof. unfold chained_class_records_extent. walked. Qed.
Hint Resolve chained_class_records_measured : extent.
Lemma language_record_measured : measured read_language_record language_record_end.
Proof. apply firm_measured; [flat|apply language_record_ends; assumption]. Qed.
Hint Resolve language_record_measured : extent.
Lemma context_measured : measured read_context context_extent.
Proof. intros B q. looked. unfold context_extent.
  pick; [variant read_context3|variant read_context2|variant read_context1]. Qed.
Hint Resolve context_measured : extent.
Lemma chained_context_measured : measured read_chained_context chained_context_extent.
Proof.
  intros B q. looked. unfold chained_context_extent.
  pick; [variant read_chained_context3|variant read_chained_context2|variant read_chained_context1].
Qed.
Hint Resolve chained_context_measured : extent.
Lemma script_record_measured : measured read_script_record script_record_extent.
Proof. unfold script_record_extent. walked. Qed.
Hint Resolve script_record_measured : extent.
Lemma scripts_measured : measured read_scripts scripts_extent.
Proof. unfold scripts_extent. walked. Qed.
Hint Resolve scripts_measured : extent.
Lemma feature_record_measured : measured read_feature_record feature_record_extent.
Proof.
  intros B q. unfold read_feature_record, feature_record_extent. do 4 meas_on.
  match goal with |- meas ?E' _ _ _ _ => eapply meas_bind with (Q := fun _ _ E => E = E') end.
  - destruct (_ <? _); [|apply meas_pure; reflexivity]. eapply meas_bind; [apply meas_add; lia|].
    intros ? ? ? ? (-> & -> & ->). apply meas_blind; [reflexivity|]. auto.
  - intros ? ? ? ? ->. apply meas_pure. shown.
Qed.
Hint Resolve feature_record_measured : extent.
Lemma features_measured : measured read_features features_extent.
Proof. unfold features_extent. walked. Qed.
Hint Resolve features_measured : extent.
Lemma feature_variations_measured : measured read_feature_variations (fun _ => 8).
Proof. walked. Qed.
Hint Resolve feature_variations_measured : extent.

Lemma lookup_record_measured {T} (read_table : N -> M T) ext :
  (forall t, measured (read_table t) ext) ->
    measured (read_lookup_record read_table) (lookup_record_extent ext).
Proof.
  intros Ht B q. unfold read_lookup_record, lookup_record_extent. do 5 meas_on.
  match goal with |- meas ?E' _ _ ?q' _ => eapply meas_bind with (Q := fun v r E =>
    E = mx E' (q' + match v with Some _ => 2 | None => 0 end)) end.
  - destruct (has_mark_filtering _).
    + eapply meas_map; [meas_leaf|]. meas_facts. subst. reflexivity.
    + apply meas_pure. subst. unfold mx. lia.
  - intros ? ? ? ? ->. eapply meas_bind; [eapply meas_n; [apply Ht|eassumption|lia|lia]|].
    meas_facts. apply meas_pure. shown.
Qed.

Lemma lookups_measured {T} (read_table : N -> M T) ext :
  (forall t, measured (read_table t) ext) -> measured (read_lookups read_table) (lookups_extent ext).
Proof. intros Ht. pose proof (lookup_record_measured read_table ext Ht). unfold lookups_extent. walked. Qed.

Lemma directory_measured {T} (read_table : N -> M T) ext :
  (forall t, measured (read_table t) ext) ->
    measured (read_directory read_table) (directory_extent (opts e) ext).
Proof.
  intros Ht B q. pose proof (lookups_measured read_table ext Ht).
  unfold read_directory, directory_extent. do 3 meas_on.
  match goal with |- meas ?E' (bind (if (?a =? 1) && ((?b =? 0) || (?b =? 1)) then _ else _) _) _ _ _ =>
    eapply meas_bind with (Q := fun _ r E => r = q + 2 + 2 /\ E = E' /\ a = 1); [
      destruct (N.eqb_spec a 1); [|apply meas_raise]; destruct ((b =? 0) || (b =? 1)); [|apply meas_raise];
      apply meas_pure; auto|] end.
  intros ? ? ? ? (-> & -> & ->). do 3 meas_on.
  match goal with |- meas ?E' (bind (if (1 =? 1) && (?b =? 1) then _ else _) _) _ ?q' _ =>
    eapply meas_bind with (Q := fun v _ E => v < 4294967296 /\ E = mx E' (q + if b =? 1 then 14 else 10)); [
      change (1 =? 1) with true; cbn [andb]; destruct (b =? 1)|] end.
  - eapply meas_post; [meas_leaf|]. meas_facts. subst. split; [assumption|bounds].
  - apply meas_pure. subst. split; [reflexivity|bounds].
  - meas_facts. repeat meas_on. apply meas_pure. subst. cbn [directory_minor_version]. destruct (_ =? 1); shown.
Qed.
Lemma store_record_measured : measured read_store_record store_record_end.
Proof.
  apply firm_measured; [|apply store_record_ends; assumption]. intros B q. unfold read_store_record.
  do 4 meas_on.
  match goal with |- meas ?E' _ _ ?q' _ => eapply meas_bind with (Q := fun v r E =>
    q' <= r /\ E = mx E' r) end.
  - match goal with |- meas ?E' _ _ ?q' _ => eapply meas_bind with (Q := fun v r E => r = q' /\ E = E') end.
    + apply meas_blind.
      * intros n. unfold add_u16, add_wrapping, bind, ask. cbn [opts shorter].
        destruct (_ <? _), (overflow_checks (opts e)); reflexivity.
      * unfold add_u16, add_wrapping, bind, ask. intros ? ? X.
        destruct (_ <? _), (overflow_checks (opts e)); try discriminate X; injection X as <- <-; auto.
    + intros ? ? ? ? (-> & ->). eapply meas_post; [meas_leaf|]. meas_facts. subst. split; [lia|reflexivity].
  - meas_facts. ending.
Qed.
Hint Resolve store_record_measured : extent.
Lemma store_measured : measured read_store store_extent.
Proof. unfold store_extent. walked. Qed.
Hint Resolve store_measured : extent.
Lemma attachment_measured : measured read_attachment attachment_end.
Proof. apply firm_measured; [flat|apply attachment_ends; assumption]. Qed.
Hint Resolve attachment_measured : extent.
Lemma attachments_measured : measured read_attachments attachments_extent.
Proof. unfold attachments_extent. walked. Qed.
Hint Resolve attachments_measured : extent.
Lemma caret_measured : measured read_caret caret_extent.
Proof. intros B q. looked. unfold caret_extent.
  pick; [variant read_caret3|variant read_caret2|variant read_caret1]. Qed.
Hint Resolve caret_measured : extent.
Lemma gdef_ligature_measured : measured read_gdef_ligature gdef_ligature_extent.
Proof. unfold gdef_ligature_extent. walked. Qed.
Hint Resolve gdef_ligature_measured : extent.
Lemma gdef_ligatures_measured : measured read_gdef_ligatures gdef_ligatures_extent.
Proof. unfold gdef_ligatures_extent. walked. Qed.
Hint Resolve gdef_ligatures_measured : extent.
Lemma marks_measured : measured read_marks marks_extent.
Proof. unfold marks_extent. walked. Qed.
Hint Resolve marks_measured : extent.
Lemma alternates_measured : measured read_alternates (fun r => size (alternates_bytes r)).
Proof. apply firm_measured; [flat|apply alternates_ends; assumption]. Qed.
Hint Resolve alternates_measured : extent.
Lemma ligature_measured : measured read_ligature (fun r => size (ligature_bytes r)).
Proof. apply firm_measured; [flat|apply ligature_ends; assumption]. Qed.
Hint Resolve ligature_measured : extent.
Lemma sequence_measured : measured read_sequence (fun r => size (sequence_bytes r)).
Proof. apply firm_measured; [flat|apply sequence_ends; assumption]. Qed.
Hint Resolve sequence_measured : extent.
Lemma ligatures_measured : measured read_ligatures ligatures_extent.
Proof. unfold ligatures_extent. walked. Qed.
Hint Resolve ligatures_measured : extent.
Lemma single_substitution_measured :
  measured read_single_substitution (fun v => gsub_type_extent (GsubSingleSubstitution v)).
Proof. intros B q. looked. unfold gsub_type_extent.
  pick; [variant read_single_substitution2|variant read_single_substitution1]. Qed.
Hint Resolve single_substitution_measured : extent.
Lemma multiple_substitution_measured :
  measured read_multiple_substitution (fun v => gsub_type_extent (GsubMultipleSubstitution v)).
Proof. unfold gsub_type_extent. walked. Qed.
Hint Resolve multiple_substitution_measured : extent.
Lemma alternate_substitution_measured :
  measured read_alternate_substitution (fun v => gsub_type_extent (GsubAlternateSubstitution v)).
Proof. unfold gsub_type_extent. walked. Qed.
Hint Resolve alternate_substitution_measured : extent.
Lemma ligature_substitution_measured :
  measured read_ligature_substitution (fun v => gsub_type_extent (GsubLigatureSubstitution v)).
Proof. unfold gsub_type_extent. walked. Qed.
Hint Resolve ligature_substitution_measured : extent.
Lemma extension_substitution_measured :
  measured read_extension_substitution (fun v => gsub_type_extent (GsubExtensionSubstitution v)).
Proof. unfold gsub_type_extent. walked. Qed.
Hint Resolve extension_substitution_measured : extent.
Lemma reverse_chained_contextual_substibution_measured :
  measured read_reverse_chained_contextual_substibution
    (fun v => gsub_type_extent (GsubReverseChainedContextualSubstibution v)).
Proof. unfold gsub_type_extent. walked. Qed.
Hint Resolve reverse_chained_contextual_substibution_measured : extent.
Lemma gsub_type_measured t : measured (read_gsub_type t) gsub_type_extent.
Proof.
  intros B q. unfold read_gsub_type.
  pick; (eapply meas_map; [apply extension_substitution_measured || apply single_substitution_measured ||
    apply multiple_substitution_measured || apply alternate_substitution_measured || apply
      ligature_substitution_measured ||
    apply context_measured || apply chained_context_measured || apply
      reverse_chained_contextual_substibution_measured|
    intros ? ? ? ? X; exact X]).
Qed.

(** ** GDEF *)

Definition gdef_size (h : GdefHeader) : N :=
  match h with GdefVersion1 _ => 12 | GdefVersion12 _ => 14 | GdefVersion13 _ => 18 end.

Lemma gdef_header_meas B q : meas B read_gdef_header e q (fun h _ E =>
  gdef_glyph_class_offset h < 65536 /\ gdef_attachment_offset h < 65536 /\ gdef_ligature_offset h < 65536 /\
  gdef_mark_class_offset h < 65536 /\ gdef_mark_offset h < 65536 /\ gdef_mark_offset_of_version13 h < 65536 /\
  q < 9223372036854775808 /\ q <= E /\ E = mx B (q + gdef_size h)).
Proof.
  looked. pick; [unfold read_gdef_header13|unfold read_gdef_header12|unfold read_gdef_header1];
    (eapply meas_bind; [|intros ? ? ? ? X; apply meas_pure; exact X]); repeat meas_on; apply meas_pure;
    cbn -[N.add N.lt N.le mx]; repeat apply conj; try assumption; try reflexivity; try lia; bounds.
Qed.

Lemma definition_measured : measured read_glyph_definition definition_extent.
Proof.
  intros B q. unfold read_glyph_definition. meas_on. eapply meas_bind; [apply gdef_header_meas|].
  intros h ? ? ? (? & ? & ? & ? & ? & ? & ? & ? & ?). repeat meas_on. apply meas_pure.
  destruct h; unfold definition_extent;
    cbn [gdef_size gdef_glyph_class_offset gdef_attachment_offset gdef_ligature_offset
    gdef_mark_class_offset gdef_mark_offset gdef_mark_offset_of_version13] in *; shown.
Qed.
End Readers.

#[global] Hint Resolve coverage_record_sized class_record_sized action_sized language_header_sized
  script_header_sized
  feature_header_sized color_sized axis_record_sized offset_record_sized coverage_measured
  class_measured correction_measured context_record_measured context_records_measured
  context_class_record_measured context_class_records_measured chained_record_measured
  chained_records_measured chained_class_record_measured chained_class_records_measured
  language_record_measured context_measured chained_context_measured script_record_measured
  scripts_measured feature_record_measured features_measured feature_variations_measured
  store_record_measured store_measured attachment_measured attachments_measured caret_measured
  gdef_ligature_measured gdef_ligatures_measured marks_measured alternates_measured ligature_measured
  sequence_measured ligatures_measured single_substitution_measured multiple_substitution_measured
  alternate_substitution_measured ligature_substitution_measured extension_substitution_measured
  reverse_chained_contextual_substibution_measured gsub_type_measured : extent.
