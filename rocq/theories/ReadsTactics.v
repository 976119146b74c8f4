(** Automation for the calculus of Reads.v. *)

From Verif Require Export Reads Tape.

(** ** Facts about formats *)

Lemma byte_position f p b : bounded f -> f p = Some b -> p < 2 ^ 63.
Proof.
  intros Hb H. destruct (N.lt_ge_cases p (2 ^ 63)) as [|Hp]; [assumption|].
  apply Hb in Hp. congruence.
Qed.

Lemma u16_position f p v : bounded f -> u16_at f p v -> p < 2 ^ 63.
Proof. intros Hb (b & _ & H & _). eapply byte_position; eassumption. Qed.

Lemma u32_position f p v : bounded f -> u32_at f p v -> p < 2 ^ 63.
Proof. intros Hb (h & _ & H & _). eapply u16_position; eassumption. Qed.

Lemma tag_position f p v : bounded f -> tag_at f p v -> p < 2 ^ 63.
Proof. intros Hb. destruct v. intros (H & _). eapply byte_position; eassumption. Qed.

Lemma u16_fun f p v w : u16_at f p v -> u16_at f p w -> v = w.
Proof. intros (b0 & b1 & H0 & H1 & ->) (c0 & c1 & I0 & I1 & ->). congruence. Qed.

Lemma u32_fun f p v w : u32_at f p v -> u32_at f p w -> v = w.
Proof.
  intros (h & l & Hh & Hl & ->) (h' & l' & Hh' & Hl' & ->).
  rewrite (u16_fun _ _ _ _ Hh Hh'), (u16_fun _ _ _ _ Hl Hl'). reflexivity.
Qed.

Lemma near_intro base offset : base < 2 ^ 63 -> offset < 2 ^ 32 -> near base offset.
Proof. unfold near. change (2 ^ 64) with (2 ^ 63 + 2 ^ 63). lia. Qed.

Lemma near_position base offset : near base offset -> base + offset < 2 ^ 64.
Proof. intros H; exact H. Qed.

Lemma u16_small f p v : u16_at f p v -> v < 2 ^ 32.
Proof. intros (b0 & b1 & _ & _ & ->). pose proof (Byte.to_N_bounded b0). pose proof (Byte.to_N_bounded b1). lia. Qed.

Lemma u32_small f p v : u32_at f p v -> v < 2 ^ 32.
Proof.
  intros (h & l & (b0 & b1 & _ & _ & ->) & (c0 & c1 & _ & _ & ->) & ->).
  pose proof (Byte.to_N_bounded b0). pose proof (Byte.to_N_bounded b1).
  pose proof (Byte.to_N_bounded c0). pose proof (Byte.to_N_bounded c1). lia.
Qed.

Lemma vec_forall {A} (elem : N -> A -> Prop) (Q : A -> Prop) n p count vs :
  (forall p v, elem p v -> Q v) -> vec_at elem n p count vs -> Forall Q vs.
Proof.
  intros H [_ Hv]. apply Forall_forall. intros v Hi. apply In_nth_error in Hi as [i Hi].
  eapply H, Hv, Hi.
Qed.

Lemma vec_length {A} (elem : N -> A -> Prop) n p count vs :
  vec_at elem n p count vs -> N.of_nat (length vs) = count.
Proof. intros H; apply H. Qed.

Lemma u16s_length f p count vs : u16s_at f p count vs -> N.of_nat (length vs) = count.
Proof. intros H; apply H. Qed.

Lemma u32s_length f p count vs : u32s_at f p count vs -> N.of_nat (length vs) = count.
Proof. intros H; apply H. Qed.

Lemma nears_vec {A} (elem : N -> A -> Prop) (g : A -> N) base n p count vs :
  base < 2 ^ 63 -> (forall p v, elem p v -> g v < 2 ^ 32) -> vec_at elem n p count vs ->
  nears base (map g vs).
Proof.
  intros Hb H Hv. unfold nears. apply Forall_map. eapply vec_forall; [|exact Hv].
  intros q v Hq. cbn. apply near_intro; [exact Hb|]. eapply H, Hq.
Qed.

Lemma nears_u16s f base p count vs : base < 2 ^ 63 -> u16s_at f p count vs -> nears base vs.
Proof.
  intros Hb Hv. eapply vec_forall; [|exact Hv]. intros q v Hq.
  apply near_intro; [exact Hb|]. eapply u16_small, Hq.
Qed.

Lemma nears_u32s f base p count vs : base < 2 ^ 63 -> u32s_at f p count vs -> nears base vs.
Proof.
  intros Hb Hv. eapply vec_forall; [|exact Hv]. intros q v Hq.
  apply near_intro; [exact Hb|]. eapply u32_small, Hq.
Qed.

(** A flag is a bit. *)
Lemma has_flag_bit flags k : has_flag flags (2 ^ k) = N.testbit flags k.
Proof.
  unfold has_flag. destruct (N.testbit flags k) eqn:E.
  - apply N.ltb_lt. apply N.neq_0_lt_0. intros H.
    assert (T : N.testbit (N.land flags (2 ^ k)) k = true).
    { rewrite N.land_spec, E, N.pow2_bits_true. reflexivity. }
    rewrite H in T. discriminate T.
  - apply N.ltb_ge. apply N.le_0_r. apply N.bits_inj. intros i. rewrite N.land_spec, N.bits_0.
    destruct (N.eq_dec i k) as [->|Hi]; [rewrite E; reflexivity|].
    rewrite N.pow2_bits_false by congruence. apply andb_false_r.
Qed.

(** ** Tactics *)

Create HintDb reads.
#[export] Hint Resolve take_u8_takes take_u16_takes take_u32_takes take_i16_takes take_q32_takes
  take_tag_takes take_const_takes take_flags_takes take_u8s_takes take_u16s_takes take_u32s_takes
  take_i32s_takes takes_stay take_vec_takes : reads.

Ltac base_small :=
  first
  [ assumption
  | match goal with
    | Hb : bounded ?f, H : u16_at ?f ?b _ |- ?b < _ => exact (u16_position f b _ Hb H)
    | Hb : bounded ?f, H : u32_at ?f ?b _ |- ?b < _ => exact (u32_position f b _ Hb H)
    | Hb : bounded ?f, H : tag_at ?f ?b _ |- ?b < _ => exact (tag_position f b _ Hb H)
    end ].

Ltac offset_small :=
  first
  [ assumption
  | match goal with
    | H : u16_at _ _ ?o |- ?o < _ => exact (u16_small _ _ _ H)
    | H : u32_at _ _ ?o |- ?o < _ => exact (u32_small _ _ _ H)
    end ].

Ltac nearby :=
  lazymatch goal with
  | |- near _ _ => first [assumption | apply near_intro; [base_small | offset_small]]
  | |- nears ?b ?os =>
      first
      [ assumption
      | match goal with
        | H : u16s_at _ _ _ os |- _ => eapply nears_u16s; [base_small | exact H]
        | H : u32s_at _ _ _ os |- _ => eapply nears_u32s; [base_small | exact H]
        | H : vec_at _ _ _ _ ?hs |- nears _ (map _ ?hs) =>
            eapply nears_vec; [base_small | | exact H];
            let t := fresh "t" in let Ht := fresh "Ht" in
            intros ? t Ht; destruct t; destruct Ht as [_ Ht]; exact (u16_small _ _ _ Ht)
        end ]
  end.

Ltac lengths :=
  match goal with
  | H : u16s_at _ _ ?n ?vs |- N.of_nat (length ?vs) = ?n => exact (u16s_length _ _ _ _ H)
  | H : u32s_at _ _ ?n ?vs |- N.of_nat (length ?vs) = ?n => exact (u32s_length _ _ _ _ H)
  | H : vec_at _ _ _ ?n ?vs |- N.of_nat (length ?vs) = ?n => exact (vec_length _ _ _ _ _ H)
  end.

Ltac taken := solve [eauto 6 with reads].

Ltac found :=
  lazymatch goal with
  | |- finds _ (jump_take _ _ _) _ _ _ => eapply jump_take_finds; [nearby | found]
  | |- finds _ (jump_take_maybe _ _ _) _ _ _ => eapply jump_take_maybe_finds; [nearby | found]
  | |- finds _ (jump_take_n _ _ _ _) _ _ _ =>
      eapply jump_take_n_finds; [lengths | nearby | intros ? ?; found]
  | |- finds _ (jump_take_each _ _ _ _) _ _ _ =>
      eapply jump_take_headers_finds; [lengths | nearby | intros ? ?; found]
  | |- finds _ (jump_take_maybe_n _ _ _ _) _ _ _ =>
      eapply jump_take_maybe_n_finds; [lengths | nearby | intros ? ?; found]
  | |- _ => solve [eauto 6 with reads | eapply takes_finds; eauto 6 with reads]
  end.

Ltac open H :=
  cbv beta in H;
  lazymatch type of H with
  | _ /\ _ => let H' := fresh H in destruct H as [H H']; open H'
  | _ => idtac
  end.

Ltac step :=
  lazymatch goal with
  | |- finds _ (bind get_position _) _ _ _ => apply finds_bind_position; cbv beta
  | |- finds _ (bind ask _) _ _ _ => apply finds_bind_ask; cbv beta
  | |- takes _ (bind ask _) _ _ _ _ => apply takes_bind_ask; cbv beta
  | |- finds _ (bind _ _) _ _ _ =>
      first
      [ eapply finds_bind_takes; [taken | let x := fresh "x" in let H := fresh "H" in intros x H; open H]
      | eapply finds_bind;
        [found | let x := fresh "x" in let H := fresh "H" in intros x H ?; open H] ]
  | |- takes _ (bind _ _) _ _ _ _ =>
      eapply takes_bind; [taken | let x := fresh "x" in let H := fresh "H" in intros x H; open H]
  | |- finds _ (ret _) _ _ _ => apply finds_ret
  | |- takes _ (ret _) _ _ _ _ => apply takes_ret
  | |- finds _ (raise _) _ _ _ => apply finds_raise
  | |- takes _ (raise _) _ _ _ _ => apply takes_raise
  end.

Ltac steps := repeat step.

(** Close a goal with a hypothesis that differs in the positions only. *)
Ltac by_position :=
  match goal with
  | H : ?P ?a ?v |- ?P ?b ?v => replace b with a by lia; exact H
  | H : ?P ?a ?n ?v |- ?P ?b ?n ?v => replace b with a by lia; exact H
  end.

Ltac break :=
  repeat match goal with
  | H : exists _, _ |- _ => let x := fresh "x" in destruct H as [x H]
  | H : _ /\ _ |- _ => let H' := fresh H in destruct H as [H H']
  end.

(** Instantiate the existentials of a goal from the equation it ends with. *)
Ltac build :=
  lazymatch goal with
  | |- exists _, _ => refine (ex_intro _ _ _); build
  | |- _ = _ => reflexivity
  | |- unit => exact tt
  | |- _ /\ _ => refine (conj _ _); [shelve | build]
  end.

Ltac fields :=
  repeat match goal with |- _ /\ _ => split end; first [eassumption | by_position | lia | idtac].

Ltac head t := lazymatch t with ?h _ => head h | _ => t end.

Ltac spell :=
  lazymatch goal with
  | |- ?P -> _ => let h := head P in unfold h
  | |- ?P => let h := head P in unfold h
  end.

Ltac matches :=
  let v := fresh "v" in
  intros v; cbv beta; split;
  [ intros ?; break; subst v; spell; fields
  | destruct v; spell; intros ?; break; unshelve build; fields ].

Ltac enter :=
  lazymatch goal with
  | |- finds _ ?m _ _ _ => let h := head m in unfold h
  | |- takes _ ?m _ _ _ _ => let h := head m in unfold h
  end.

Ltac sequential := enter; eapply takes_conv; [steps | matches | lia].
Ltac linked := enter; eapply finds_conv; [steps | matches].

(** ** Enumerations: a look at the format and a [match] on it *)

Ltac known :=
  repeat match goal with
  | H : u16_at ?f ?p ?a, H' : u16_at ?f ?p ?b |- _ =>
      lazymatch a with
      | b => clear H'
      | _ => let E := fresh "E" in
             pose proof (u16_fun f p a b H H') as E; first [discriminate E | subst a | subst b]
      end
  | H : u32_at ?f ?p ?a, H' : u32_at ?f ?p ?b |- _ =>
      lazymatch a with
      | b => clear H'
      | _ => let E := fresh "E" in
             pose proof (u32_fun f p a b H H') as E; first [discriminate E | subst a | subst b]
      end
  | H : ?a = ?b :> N |- _ => first [discriminate H | subst a | subst b]
  end.

Ltac unpack t := destruct t; cbn in *; break; known.

Ltac cases :=
  repeat lazymatch goal with
  | |- finds _ (match ?x with _ => _ end) _ _ _ => destruct x
  end.

Ltac refuse :=
  eapply finds_conv; [apply finds_raise|];
  let v := fresh "v" in let t := fresh "t" in
  intros v; cbv beta; split; [intros [] | case v; clear v; intros t ?; exfalso; unpack t].

Ltac accept :=
  eapply finds_conv; [steps|];
  let v := fresh "v" in let t := fresh "t" in
  intros v; cbv beta; split;
  [ intros (t & ? & ->); cbn; split; [unpack t; reflexivity | assumption]
  | case v; clear v; intros t; cbn; intros [? ?];
    first [exists t; split; [assumption | reflexivity] | exfalso; unpack t] ].

Ltac dispatch :=
  enter; eapply finds_bind_peek;
  [ found
  | let v := fresh "v" in let t := fresh "t" in
    intros v; case v; clear v; intros t ?; unpack t; eauto
  | intros ? ?; cases; first [refuse | accept] ].

(** ** Enumerations by a parameter *)

Ltac refuse_type :=
  eapply finds_conv; [apply finds_raise|];
  let v := fresh "v" in
  intros v; cbv beta; split; [intros [] | case v; intros ? [? _]; discriminate].

Ltac accept_type :=
  eapply finds_conv; [steps|];
  let v := fresh "v" in let t := fresh "t" in let Ht := fresh "Ht" in
  intros v; cbv beta; split;
  [ intros (t & Ht & ->); split; [reflexivity | exact Ht]
  | case v; clear v; intros t [? Ht];
    first [discriminate | exists t; split; [exact Ht | reflexivity]] ].

Ltac typed := enter; cases; first [refuse_type | accept_type].
