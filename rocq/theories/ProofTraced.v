(** Whatever is refused has a part that is at fault. *)

From Verif Require Export ProofRefused Pieces.
From Verif Require Import Reads ReadsTactics ProofLayout ProofGsub ProofGpos ProofGdef ProofCpal
  ProofFvar ProofFont ProofErrors ProofShape ProofParts.
From Verif Require ProofOverflow.

Section Traced.
Context (o : options) (f : file) (Hb : bounded f).
Notation e := (mkEnv f o).

(** What is not read has a part that is at fault, or a variation with counts that are too large. *)
Definition unread (x : part) : Prop :=
  (exists y z, blamed o f x z /\ faulty o f y z) \/
  (overflow_checks o = true /\ exists q, blamed o f x (Part read_store_record q) /\ store_record_overflows f q).

Definition traced (x : part) : Prop := readable o f x \/ unread x.

Lemma traced_fault {A} (m : M A) p x : fault o f p m x -> traced (Part m p).
Proof. intros H. right. left. exists x, (Part m p). split; [constructor|exact H]. Qed.

Lemma traced_list l : Forall traced l -> Forall (readable o f) l \/
  exists before x after, l = before ++ x :: after /\ Forall (readable o f) before /\ unread x.
Proof.
  intros H. induction H as [|x l [R|F] _ IH]; [auto| |].
  - destruct IH as [IH|(before & z & after & -> & Hr & Hz)]; [auto|].
    right. exists (x :: before), z, after. auto.
  - right. exists [], x, l. auto.
Qed.

Lemma unread_below {A} (m : M A) p before x after :
  parts o f p m (before ++ x :: after) -> Forall (readable o f) before -> unread x -> unread (Part m p).
Proof.
  intros Hp Hr [(y & z & Hz & F)|(C & q & Hz & F)].
  - left. exists y, z. split; [|exact F]. eapply BlamedBelow; eassumption.
  - right. split; [exact C|]. exists q. split; [|exact F]. eapply BlamedBelow; eassumption.
Qed.

Lemma traced_parts {A} (m : M A) p l : parts o f p m l -> Forall traced l -> traced (Part m p).
Proof.
  intros Hp Hl. destruct (traced_list _ Hl) as [Hr|(before & x & after & -> & Hr & Hx)].
  - left. apply (parts_readable _ _ _ _ _ _ Hb Hp), Hr.
  - right. eapply unread_below; eassumption.
Qed.

Lemma traced_follows {A} (m : M A) p : follows e m p [] -> traced (Part m p).
Proof. intros H. left. apply readable_report. exact H. Qed.

Lemma traced_solid {A} (m : M A) p n : solid e m p n -> begins o f p m n [] -> traced (Part m p).
Proof.
  intros [(v & E & _)|[L _]] Hm.
  - apply traced_follows. unfold follows. rewrite E. reflexivity.
  - eapply traced_fault, FaultFields; eassumption.
Qed.

Lemma each_traced {A} (m : M A) p l : (forall q, traced (Part m q)) -> Forall traced (each p m l).
Proof. intros H. unfold each. apply Forall_map, Forall_forall. intros. apply H. Qed.

Lemma nonzero_traced {A} (m : M A) p l : (forall q, traced (Part m q)) -> Forall traced (nonzero p m l).
Proof. intros H. apply each_traced, H. Qed.

Lemma unless_traced {A} (m : M A) b p a : (forall q, traced (Part m q)) -> Forall traced (unless b p m a).
Proof. intros H. unfold unless. destruct b; [apply nonzero_traced|apply each_traced]; exact H. Qed.

Lemma row_traced {A} (m : M A) q s n : (forall q, traced (Part m q)) -> Forall traced (row q s n m).
Proof. intros H. unfold row. apply Forall_map, Forall_forall. intros. apply H. Qed.

End Traced.

Create HintDb traced.

Ltac children :=
  lazymatch goal with
  | |- Forall _ (_ ++ _) => apply Forall_app; split; children
  | |- Forall _ (_ :: _) => constructor; [eauto 3 with traced|children]
  | |- Forall _ [] => constructor
  | |- Forall _ (each _ _ _) => apply each_traced; eauto 3 with traced
  | |- Forall _ (nonzero _ _ _) => apply nonzero_traced; eauto 3 with traced
  | |- Forall _ (unless _ _ _ _) => apply unless_traced; eauto 3 with traced
  | |- Forall _ (row _ _ _ _) => apply row_traced; eauto 3 with traced
  end.

(** What is missing, in the part that has it. *)
Lemma misses_within f p q a k : misses f q a -> p <= q -> q + a <= p + k -> misses f p k.
Proof.
  intros (i & Hi & E) H1 H2. exists (q - p + i). split; [lia|]. replace (p + (q - p + i)) with (q + i) by lia.
  exact E.
Qed.

Ltac lost_cut :=
  first
  [ apply CutNumber; match goal with L : misses _ _ _ |- _ => apply (misses_within _ _ _ _ _ L); lia end
  | eapply CutElement; [placed | match goal with L :
    misses _ _ _ |- _ => apply (misses_within _ _ _ _ _ L); lia end]
  | eapply CutLater; [placed | lost_cut] ].

Ltac premises := try eassumption; try lia; try discriminate; try (cbn; tauto).

Ltac lost :=
  eapply traced_fault;
  first
  [ eapply FaultFields; [econstructor; solve [premises] |
      match goal with L : misses _ _ _ |- _ => apply (misses_within _ _ _ _ _ L); lia end]
  | eapply FaultArrays; [econstructor; solve [premises] | lost_cut] ].

Tactic Notation "need" constr(c) "as" ident(x) := destruct c as [[x ?]|?]; [|solve [lost]].

Ltac unknown := eapply traced_fault, FaultFormat; [constructor|eexists; split; eassumption].

Ltac of_format n l :=
  let I := fresh "I" in
  destruct (in_dec N.eq_dec n l) as [I|I];
  [ cbn [In] in I; repeat (destruct I as [<-|I]; [|]); [..|destruct I] | try solve [unknown] ].

Ltac of_value n c :=
  let I := fresh "I" in
  destruct (N.eq_dec n c) as [->|I];
  [|eapply traced_fault; eapply (FaultFixed _ _ _ _ _ 0); [constructor|apply intact_zero|
      rewrite N.add_0_r; eassumption|exact I]].

Ltac parts_of := eapply traced_parts; [eassumption|econstructor; eassumption|children].

Section Readers.
Context (o : options) (f : file) (Hb : bounded f).
Notation e := (mkEnv f o).
Notation traced := (traced o f).


(** *** Coverages, classes and corrections *)

Lemma coverage_traced p : traced (Part read_coverage p).
Proof.
  need (u16_or o f p) as n. of_format n [1; 2].
  - need (u16_or o f (p + 2)) as c. need (u16s_or o f (p + 4) c) as l. apply traced_follows. formatted.
  - need (u16_or o f (p + 2)) as c.
    need (vec_or o f read_coverage_record (coverage_record_at f) 6 (p + 4) c
      (fun q => read_coverage_record_takes True e q) (coverage_record_solid e)) as l.
    apply traced_follows. formatted.
Qed.

Lemma class_traced p : traced (Part read_class p).
Proof.
  need (u16_or o f p) as n. of_format n [1; 2].
  - need (u16_or o f (p + 2)) as s. need (u16_or o f (p + 4)) as c.
    need (u16s_or o f (p + 6) c) as l. apply traced_follows. formatted.
  - need (u16_or o f (p + 2)) as c.
    need (vec_or o f read_class_record (class_record_at f) 6 (p + 4) c
      (fun q => read_class_record_takes True e q) (class_record_solid e)) as l.
    apply traced_follows. formatted.
Qed.
Hint Resolve coverage_traced class_traced : traced.

Lemma traced_finds {A} S (m : M A) p P v : finds S m e p P -> P v -> traced (Part m p).
Proof.
  intros [_ H] Hv. apply H in Hv as [q E]. apply traced_follows. unfold follows. rewrite E. reflexivity.
Qed.

Lemma device_traced p s t n : u16_at f p s -> u16_at f (p + 2) t -> u16_at f (p + 4) n -> 1 <= n <= 3 ->
  traced (Part read_correction p).
Proof.
  intros Hs Ht Hn B. destruct (N.lt_ge_cases t s) as [L|G].
  - eapply traced_fault, FaultDevice; eassumption.
  - need (u16s_or o f (p + 6) (device_words s t n)) as l.
    apply (traced_finds _ _ _ _ (CorrectionDevice (mkDevice s t n l)) (read_correction_finds True e p)).
    split; [exact Hs|]. split; [exact Ht|]. split; [exact G|]. split; [exact Hn|].
    split; [exact B|]. assumption.
Qed.

Lemma correction_traced p : traced (Part read_correction p).
Proof.
  need (u16_or o f p) as s. need (u16_or o f (p + 2)) as t. need (u16_or o f (p + 4)) as n.
  assert (I : intact f p 4) by (apply (intact_app _ _ 2 2); eapply u16_intact; eassumption).
  destruct (in_dec N.eq_dec n [1; 2; 3]) as [J|J].
  - eapply device_traced; try eassumption. cbn in J. lia.
  - destruct (N.eq_dec n 0x8000) as [->|N].
    + apply (traced_finds _ _ _ _ (CorrectionVariation (mkVariation s t 0x8000))
      (read_correction_finds True e p)).
      cbn. repeat split; assumption.
    + eapply traced_fault, FaultCorrection; [exact I|]. eexists. split; [eassumption|].
      cbn in J |- *. intuition congruence.
Qed.
Hint Resolve correction_traced : traced.

(** *** Contexts *)

Lemma actions_or p n : (exists l, vec_at (action_at f) 4 p n l) \/ misses f p (4 * n).
Proof. apply (vec_or o f read_action); [intros; apply read_action_takes|apply action_solid]. Qed.

Lemma follows_if {A B} (b : bool) (m m' : M A) (k : A -> M B) p l : b = false ->
  follows e (bind m' k) p l -> follows e (bind (if b then m else m') k) p l.
Proof. intros ->. exact (fun H => H). Qed.

Ltac ruled := opened; repeat first [follow | apply follows_if; [apply N.eqb_neq; assumption|]].

Lemma context_record_traced p : traced (Part read_context_record p).
Proof.
  need (u16_or o f p) as n. need (u16_or o f (p + 2)) as m. destruct (N.eq_dec n 0) as [->|N].
  - eapply traced_fault, FaultContextRecord; [assumption|eapply u16_intact; eassumption].
  - need (u16s_or o f (p + 4) (n - 1)) as l. need (actions_or (p + 4 + 2 * (n - 1)) m) as l'.
    apply traced_follows. ruled.
Qed.

Lemma context_class_record_traced p : traced (Part read_context_class_record p).
Proof.
  need (u16_or o f p) as n. need (u16_or o f (p + 2)) as m. destruct (N.eq_dec n 0) as [->|N].
  - eapply traced_fault, FaultContextClassRecord; [assumption|eapply u16_intact; eassumption].
  - need (u16s_or o f (p + 4) (n - 1)) as l. need (actions_or (p + 4 + 2 * (n - 1)) m) as l'.
    apply traced_follows. ruled.
Qed.

Lemma u16s_intact p n l : u16s_at f p n l -> intact f p (2 * n).
Proof.
  intros H. destruct (solid_vec e take_u16 2 n p (u16_solid e)) as [(v & _ & I)|[_ E]]; [exact I|].
  rewrite (proj2 (proj2 (take_u16s_takes True e n p) l (p + 2 * n)) (conj H eq_refl)) in E. discriminate.
Qed.

Lemma chained_record_traced p : traced (Part read_chained_record p).
Proof.
  need (u16_or o f p) as n. need (u16s_or o f (p + 2) n) as l. need (u16_or o f (p + 2 + 2 * n)) as m.
  destruct (N.eq_dec m 0) as [->|N].
  - eapply traced_fault, FaultChainedRecord; [eassumption|eapply u16s_intact; eassumption|assumption].
  - need (u16s_or o f (p + 4 + 2 * n) (m - 1)) as l2. need (u16_or o f (p + 4 + 2 * n + 2 * (m - 1))) as k.
    need (u16s_or o f (p + 6 + 2 * n + 2 * (m - 1)) k) as l3.
    need (u16_or o f (p + 6 + 2 * n + 2 * (m - 1) + 2 * k)) as a.
    need (actions_or (p + 8 + 2 * n + 2 * (m - 1) + 2 * k) a) as l4.
    apply traced_follows. ruled.
Qed.

Lemma chained_class_record_traced p : traced (Part read_chained_class_record p).
Proof.
  need (u16_or o f p) as n. need (u16s_or o f (p + 2) n) as l. need (u16_or o f (p + 2 + 2 * n)) as m.
  destruct (N.eq_dec m 0) as [->|N].
  - eapply traced_fault, FaultChainedClassRecord; [eassumption|eapply u16s_intact; eassumption|assumption].
  - need (u16s_or o f (p + 4 + 2 * n) (m - 1)) as l2. need (u16_or o f (p + 4 + 2 * n + 2 * (m - 1))) as k.
    need (u16s_or o f (p + 6 + 2 * n + 2 * (m - 1)) k) as l3.
    need (u16_or o f (p + 6 + 2 * n + 2 * (m - 1) + 2 * k)) as a.
    need (actions_or (p + 8 + 2 * n + 2 * (m - 1) + 2 * k) a) as l4.
    apply traced_follows. ruled.
Qed.
Hint Resolve context_record_traced context_class_record_traced chained_record_traced
  chained_class_record_traced : traced.

Lemma context_records_traced p : traced (Part read_context_records p).
Proof. need (u16_or o f p) as n. need (u16s_or o f (p + 2) n) as l. parts_of. Qed.
Lemma context_class_records_traced p : traced (Part read_context_class_records p).
Proof. need (u16_or o f p) as n. need (u16s_or o f (p + 2) n) as l. parts_of. Qed.
Lemma chained_records_traced p : traced (Part read_chained_records p).
Proof. need (u16_or o f p) as n. need (u16s_or o f (p + 2) n) as l. parts_of. Qed.
Lemma chained_class_records_traced p : traced (Part read_chained_class_records p).
Proof. need (u16_or o f p) as n. need (u16s_or o f (p + 2) n) as l. parts_of. Qed.
Hint Resolve context_records_traced context_class_records_traced chained_records_traced
  chained_class_records_traced : traced.

Lemma context_traced p : traced (Part read_context p).
Proof.
  need (u16_or o f p) as n. of_format n [1; 2; 3].
  - need (u16_or o f (p + 2)) as c. need (u16_or o f (p + 4)) as n. need (u16s_or o f (p + 6) n) as l. parts_of.
  - need (u16_or o f (p + 2)) as c. need (u16_or o f (p + 4)) as k. need (u16_or o f (p + 6)) as n.
    need (u16s_or o f (p + 8) n) as l. parts_of.
  - need (u16_or o f (p + 2)) as n. need (u16_or o f (p + 4)) as m. need (u16s_or o f (p + 6) n) as l.
    need (actions_or (p + 6 + 2 * n) m) as l'. parts_of.
Qed.

Lemma chained_context_traced p : traced (Part read_chained_context p).
Proof.
  need (u16_or o f p) as n. of_format n [1; 2; 3].
  - need (u16_or o f (p + 2)) as c. need (u16_or o f (p + 4)) as n. need (u16s_or o f (p + 6) n) as l. parts_of.
  - need (u16_or o f (p + 2)) as c. need (u16_or o f (p + 4)) as k1. need (u16_or o f (p + 6)) as k2.
    need (u16_or o f (p + 8)) as k3. need (u16_or o f (p + 10)) as n.
    need (u16s_or o f (p + 12) n) as l. parts_of.
  - need (u16_or o f (p + 2)) as n1. need (u16s_or o f (p + 4) n1) as l1.
    need (u16_or o f (p + 4 + 2 * n1)) as n2. need (u16s_or o f (p + 6 + 2 * n1) n2) as l2.
    need (u16_or o f (p + 6 + 2 * n1 + 2 * n2)) as n3. need (u16s_or o f (p + 8 + 2 * n1 + 2 * n2) n3) as l3.
    need (u16_or o f (p + 8 + 2 * n1 + 2 * n2 + 2 * n3)) as m.
    need (actions_or (p + 10 + 2 * n1 + 2 * n2 + 2 * n3) m) as l4. parts_of.
Qed.
Hint Resolve context_traced chained_context_traced : traced.

(** *** Scripts, features and lookups *)

Lemma language_record_traced p : traced (Part read_language_record p).
Proof.
  need (u16_or o f p) as n. of_value n 0. need (u16_or o f (p + 2)) as i. need (u16_or o f (p + 4)) as n.
  need (u16s_or o f (p + 6) n) as l.
  apply (traced_finds _ _ _ _ (mkLanguageRecord 0 i n l) (read_language_record_finds True e p)). cbn. auto.
Qed.
Hint Resolve language_record_traced : traced.

Lemma script_record_traced p : traced (Part read_script_record p).
Proof.
  need (u16_or o f p) as d. need (u16_or o f (p + 2)) as n.
  need (vec_or o f read_language_header (language_header_at f) 6 (p + 4) n
    (fun q => read_language_header_takes True e q) (language_header_solid e)) as l. parts_of.
Qed.
Hint Resolve script_record_traced : traced.

Lemma scripts_traced p : traced (Part read_scripts p).
Proof.
  need (u16_or o f p) as n.
  need (vec_or o f read_script_header (script_header_at f) 6 (p + 2) n
    (fun q => read_script_header_takes True e q) (script_header_solid e)) as l. parts_of.
Qed.

Lemma feature_record_traced p : traced (Part read_feature_record p).
Proof.
  need (u16_or o f p) as a. need (u16_or o f (p + 2)) as n. need (u16s_or o f (p + 4) n) as l.
  destruct (N.eq_dec a 0) as [->|N].
  - apply (traced_finds _ _ _ _ (mkFeatureRecord 0 n l None)
    (read_feature_record_finds True e Hb p)). cbn. auto.
  - apply (traced_finds _ _ _ _ (mkFeatureRecord a n l (Some []))
    (read_feature_record_finds True e Hb p)). cbn. auto.
Qed.
Hint Resolve feature_record_traced : traced.

Lemma features_traced p : traced (Part read_features p).
Proof.
  need (u16_or o f p) as n.
  need (vec_or o f read_feature_header (feature_header_at f) 6 (p + 2) n
    (fun q => read_feature_header_takes True e q) (feature_header_solid e)) as l. parts_of.
Qed.

Lemma feature_variations_traced p : traced (Part read_feature_variations p).
Proof.
  need (u16_or o f p) as n. of_value n 1. need (u16_or o f (p + 2)) as n.
  destruct (N.eq_dec n 0) as [->|N].
  - need (u32_or o f (p + 4)) as c.
    apply (traced_finds _ _ _ _ (mkFeatureVariations 1 0 c)
      (read_feature_variations_finds True e p)). cbn. auto.
  - eapply traced_fault. eapply (FaultFixed _ _ _ _ _ 2);
      [constructor; eassumption|eapply u16_intact; eassumption|eassumption|exact N].
Qed.
Hint Resolve scripts_traced features_traced feature_variations_traced : traced.

Section Lookups.
Context {T : Type} (read_table : N -> M T) (Ht : forall t q, traced (Part (read_table t) q)).
Hint Resolve Ht : traced.

Lemma lookup_record_traced p : traced (Part (read_lookup_record read_table) p).
Proof.
  need (u16_or o f p) as t. destruct (flags_or o f 0x00E0 (p + 2)) as [[flags Hf]|[L|(C & v & Hv & N)]].
  - need (u16_or o f (p + 4)) as n. need (u16s_or o f (p + 6) n) as l.
    destruct (N.testbit flags 4) eqn:B.
    + need (u16_or o f (p + 6 + 2 * n)) as set.
      eapply traced_parts; [eassumption|econstructor; try eassumption|children].
      eauto.
    + eapply traced_parts; [eassumption|econstructor; try eassumption|children]. rewrite B. discriminate.
  - lost.
  - eapply traced_fault. eapply (FaultFlags _ _ _ _ _ 2);
      [constructor|exact C|eapply u16_intact; eassumption|eassumption|exact N].
Qed.
Hint Resolve lookup_record_traced : traced.

Lemma lookups_traced p : traced (Part (read_lookups read_table) p).
Proof. need (u16_or o f p) as n. need (u16s_or o f (p + 2) n) as l. parts_of. Qed.
Hint Resolve lookups_traced : traced.

Lemma directory_traced p : traced (Part (read_directory read_table) p).
Proof.
  need (u16_or o f p) as a. need (u16_or o f (p + 2)) as b.
  destruct (N.eq_dec a 1) as [->|N]; [|eapply traced_fault, FaultDirectory; exists a, b; tauto].
  destruct (in_dec N.eq_dec b [0; 1]) as [[<-|[<-|[]]]|I].
  - need (u16_or o f (p + 4)) as s. need (u16_or o f (p + 6)) as t. need (u16_or o f (p + 8)) as l.
    eapply traced_parts; [eassumption|econstructor; try eassumption; eauto|children].
  - need (u16_or o f (p + 4)) as s. need (u16_or o f (p + 6)) as t. need (u16_or o f (p + 8)) as l.
    need (u32_or o f (p + 10)) as v.
    eapply traced_parts; [eassumption|econstructor; try eassumption; eauto|children].
  - eapply traced_fault, FaultDirectory. exists 1, b. cbn in I. intuition congruence.
Qed.
End Lookups.

(** *** Item variations *)

Lemma store_record_traced p : traced (Part read_store_record p).
Proof.
  need (u16_or o f p) as items. need (u16_or o f (p + 2)) as short. need (u16_or o f (p + 4)) as n.
  need (u16s_or o f (p + 6) n) as l.
  destruct (overflow_checks o) eqn:C, (N.lt_ge_cases (short + n) (2 ^ 16)) as [L|G].
  2: { right. right. split; [exact C|]. exists p. split; [constructor|]. exists items, short, n, l. auto. }
  all: assert (F : overflow_checks o = true -> short + n < 65536) by (intros E; rewrite E in C;
    [exact L||discriminate]);
    destruct (u8s_or o f (p + 6 + 2 * n) (items * ((short + n) mod 65536))) as [[d Hd]|M];
    [apply (traced_finds _ _ _ _ (mkStoreRecord items short n l d)
      (read_store_record_finds False e p ltac:(tauto)));
     cbn; auto 8
    |eapply traced_fault, FaultFields; [eapply BeginsStoreRecordDeltas; eassumption|];
     apply (misses_within _ _ _ _ _ M); remember (items * ((short + n) mod 65536)); lia].
Qed.
Hint Resolve store_record_traced : traced.

Lemma store_traced p : traced (Part read_store p).
Proof.
  need (u16_or o f p) as n. of_value n 1. need (u32_or o f (p + 2)) as r. need (u16_or o f (p + 6)) as n.
  need (u32s_or o f (p + 8) n) as l. parts_of.
Qed.

(** *** GSUB *)

Lemma sequence_traced p : traced (Part read_sequence p).
Proof. need (u16_or o f p) as n. need (u16s_or o f (p + 2) n) as l. apply traced_follows. parted. Qed.
Lemma alternates_traced p : traced (Part read_alternates p).
Proof. need (u16_or o f p) as n. need (u16s_or o f (p + 2) n) as l. apply traced_follows. parted. Qed.
Lemma ligature_traced p : traced (Part read_ligature p).
Proof.
  need (u16_or o f p) as g. need (u16_or o f (p + 2)) as n. destruct (N.eq_dec n 0) as [->|N].
  - eapply traced_fault, FaultLigature; [eapply u16_intact; eassumption|assumption].
  - need (u16s_or o f (p + 4) (n - 1)) as l. apply traced_follows. ruled.
Qed.
Hint Resolve sequence_traced alternates_traced ligature_traced : traced.

Lemma ligatures_traced p : traced (Part read_ligatures p).
Proof. need (u16_or o f p) as n. need (u16s_or o f (p + 2) n) as l. parts_of. Qed.
Hint Resolve ligatures_traced : traced.

Lemma single_substitution_traced p : traced (Part read_single_substitution p).
Proof.
  need (u16_or o f p) as n. of_format n [1; 2].
  - need (u16_or o f (p + 2)) as c. need (i16_or o f (p + 4)) as d.
    eapply traced_parts; [eassumption|eapply PartsSingleSubstitution1; eassumption|children].
  - need (u16_or o f (p + 2)) as c. need (u16_or o f (p + 4)) as n. need (u16s_or o f (p + 6) n) as l.
    eapply traced_parts; [eassumption|eapply PartsSingleSubstitution2; eassumption|children].
Qed.
Lemma multiple_substitution_traced p : traced (Part read_multiple_substitution p).
Proof.
  need (u16_or o f p) as n. of_value n 1. need (u16_or o f (p + 2)) as c. need (u16_or o f (p + 4)) as n.
  need (u16s_or o f (p + 6) n) as l. parts_of.
Qed.
Lemma alternate_substitution_traced p : traced (Part read_alternate_substitution p).
Proof.
  need (u16_or o f p) as n. of_value n 1. need (u16_or o f (p + 2)) as c. need (u16_or o f (p + 4)) as n.
  need (u16s_or o f (p + 6) n) as l. parts_of.
Qed.
Lemma ligature_substitution_traced p : traced (Part read_ligature_substitution p).
Proof.
  need (u16_or o f p) as n. of_value n 1. need (u16_or o f (p + 2)) as c. need (u16_or o f (p + 4)) as n.
  need (u16s_or o f (p + 6) n) as l. parts_of.
Qed.
Lemma extension_substitution_traced p : traced (Part read_extension_substitution p).
Proof.
  need (u16_or o f p) as n. of_value n 1. need (u16_or o f (p + 2)) as t. need (u32_or o f (p + 4)) as a.
  apply (traced_finds _ _ _ _ (mkExtensionSubstitution 1 t a) (read_extension_substitution_finds True e p)).
  cbn. auto.
Qed.
Lemma reverse_traced p : traced (Part read_reverse_chained_contextual_substibution p).
Proof.
  need (u16_or o f p) as n. need (u16_or o f (p + 2)) as c. need (u16_or o f (p + 4)) as n1.
  need (u16s_or o f (p + 6) n1) as l1. need (u16_or o f (p + 6 + 2 * n1)) as n2.
  need (u16s_or o f (p + 8 + 2 * n1) n2) as l2. need (u16_or o f (p + 8 + 2 * n1 + 2 * n2)) as m.
  need (u16s_or o f (p + 10 + 2 * n1 + 2 * n2) m) as l3. parts_of.
Qed.
Hint Resolve single_substitution_traced multiple_substitution_traced alternate_substitution_traced
  ligature_substitution_traced extension_substitution_traced reverse_traced : traced.

Lemma gsub_type_traced t p : traced (Part (read_gsub_type t) p).
Proof.
  destruct (in_dec N.eq_dec t [1; 2; 3; 4; 5; 6; 7; 8]) as [I|I].
  - cbn [In] in I. repeat (destruct I as [<-|I]; [eapply traced_parts; [eassumption|constructor|children]|]).
    destruct I.
  - eapply traced_fault, FaultGsubType. intros B. apply I. cbn. lia.
Qed.

(** *** GPOS *)

Lemma anchor_traced p : traced (Part read_anchor p).
Proof.
  need (u16_or o f p) as n. of_format n [1; 2; 3].
  - need (i16_or o f (p + 2)) as x. need (i16_or o f (p + 4)) as y.
    eapply traced_parts; [eassumption|eapply PartsAnchor1; eassumption|children].
  - need (i16_or o f (p + 2)) as x. need (i16_or o f (p + 4)) as y. need (u16_or o f (p + 6)) as i.
    eapply traced_parts; [eassumption|eapply PartsAnchor2; eassumption|children].
  - need (i16_or o f (p + 2)) as x. need (i16_or o f (p + 4)) as y.
    need (u16_or o f (p + 6)) as a. need (u16_or o f (p + 8)) as b.
    eapply traced_parts; [eassumption|eapply PartsAnchor3; eassumption|children].
Qed.
Hint Resolve anchor_traced : traced.

Lemma base_traced base k p : base < 2 ^ 63 -> traced (Part (read_base base k) p).
Proof. intros B. need (u16s_or o f p k) as l. parts_of. Qed.
Lemma component_traced base k p : base < 2 ^ 63 -> traced (Part (read_component base k) p).
Proof. intros B. need (u16s_or o f p k) as l. parts_of. Qed.
Lemma mark1_traced base p : base < 2 ^ 63 -> traced (Part (read_mark1 base) p).
Proof. intros B. need (u16_or o f p) as c. need (u16_or o f (p + 2)) as a. parts_of. Qed.
Lemma mark2_traced base k p : base < 2 ^ 63 -> traced (Part (read_mark2 base k) p).
Proof. intros B. need (u16s_or o f p k) as l. parts_of. Qed.
Lemma connection_traced base p : base < 2 ^ 63 -> traced (Part (read_connection base) p).
Proof. intros B. need (u16_or o f p) as a. need (u16_or o f (p + 2)) as b. parts_of. Qed.
Hint Resolve base_traced component_traced mark1_traced mark2_traced connection_traced : traced.

Lemma bases_traced k p : traced (Part (read_bases k) p).
Proof. need (u16_or o f p) as n. assert (B : p < 2 ^ 63) by base_small. parts_of. Qed.
Lemma gpos_ligature_traced k p : traced (Part (read_gpos_ligature k) p).
Proof. need (u16_or o f p) as n. assert (B : p < 2 ^ 63) by base_small. parts_of. Qed.
Lemma mark1s_traced p : traced (Part read_mark1s p).
Proof. need (u16_or o f p) as n. assert (B : p < 2 ^ 63) by base_small. parts_of. Qed.
Lemma mark2s_traced k p : traced (Part (read_mark2s k) p).
Proof. need (u16_or o f p) as n. assert (B : p < 2 ^ 63) by base_small. parts_of. Qed.
Hint Resolve bases_traced gpos_ligature_traced mark1s_traced mark2s_traced : traced.
Lemma gpos_ligatures_traced k p : traced (Part (read_gpos_ligatures k) p).
Proof. need (u16_or o f p) as n. need (u16s_or o f (p + 2) n) as l. parts_of. Qed.
Hint Resolve gpos_ligatures_traced : traced.

Lemma bits_below_mono flags k n : (k <= n)%nat -> bits_below flags k <= bits_below flags n.
Proof.
  intros H. induction H as [|n _ IH]; [lia|]. rewrite bits_below_next. destruct (N.testbit _ _); lia.
Qed.

Lemma field_or {A} (elem : N -> A -> Prop) flags k p :
  (forall q, (exists v, elem q v) \/ misses f q 2) -> (k < 8)%nat ->
  (exists v, field_at elem flags k p v) \/ misses f p (value_size flags).
Proof.
  intros H K. unfold field_at. destruct (N.testbit flags (N.of_nat k)) eqn:B.
  - destruct (H (p + 2 * bits_below flags k)) as [[v Hv]|L]; [left; exists (Some v); auto|right].
    apply (misses_within _ _ _ _ _ L); [lia|]. unfold value_size.
    pose proof (bits_below_mono flags (Datatypes.S k) 8 K) as G. rewrite bits_below_next, B in G. lia.
  - left. exists None. reflexivity.
Qed.

Lemma single_traced base flags p : base < 2 ^ 63 -> traced (Part (read_single base flags) p).
Proof.
  intros Hbase.
  need (field_or (i16_at f) flags 0 p (i16_or o f) ltac:(lia)) as x.
  need (field_or (i16_at f) flags 1 p (i16_or o f) ltac:(lia)) as y.
  need (field_or (i16_at f) flags 2 p (i16_or o f) ltac:(lia)) as xa.
  need (field_or (i16_at f) flags 3 p (i16_or o f) ltac:(lia)) as ya.
  need (field_or (u16_at f) flags 4 p (u16_or o f) ltac:(lia)) as a.
  need (field_or (u16_at f) flags 5 p (u16_or o f) ltac:(lia)) as b.
  need (field_or (u16_at f) flags 6 p (u16_or o f) ltac:(lia)) as c.
  need (field_or (u16_at f) flags 7 p (u16_or o f) ltac:(lia)) as d.
  parts_of.
Qed.
Hint Resolve single_traced : traced.

Lemma value_part_traced base flags p : base < 2 ^ 63 -> Forall traced (value_part base flags p).
Proof. intros B. unfold value_part. destruct (flags =? 0); [constructor|children]. Qed.

Lemma pair1_traced base flags1 flags2 p : base < 2 ^ 63 -> traced (Part (read_pair1 base flags1 flags2) p).
Proof.
  intros B. need (u16_or o f p) as g. eapply traced_parts; [eassumption|econstructor; eassumption|].
  apply Forall_app. split; apply value_part_traced, B.
Qed.
Lemma pair2_traced base flags1 flags2 p : base < 2 ^ 63 -> traced (Part (read_pair2 base flags1 flags2) p).
Proof.
  intros B. eapply traced_parts; [eassumption|econstructor; eassumption|].
  apply Forall_app. split; apply value_part_traced, B.
Qed.
Hint Resolve pair1_traced pair2_traced : traced.
Lemma pair1s_traced flags1 flags2 p : traced (Part (read_pair1s flags1 flags2) p).
Proof. need (u16_or o f p) as n. assert (B : p < 2 ^ 63) by base_small. parts_of. Qed.
Lemma pair2s_traced base n flags1 flags2 p :
  base < 2 ^ 63 -> traced (Part (read_pair2s base n flags1 flags2) p).
Proof. intros B. parts_of. Qed.
Hint Resolve pair1s_traced pair2s_traced : traced.

(** The flags at [k] are of a part that has them there. *)
Lemma flags_need {A} (m : M A) mask k p : flagged o f p m k mask -> intact f p k ->
  (exists v, flags_at (checked_flags o) mask f (p + k) v) \/ misses f (p + k) 2 \/ traced (Part m p).
Proof.
  intros Hm I. destruct (flags_or o f mask (p + k)) as [H|[H|(C & v & Hv & N)]]; auto.
  right. right. eapply traced_fault, FaultFlags; eassumption.
Qed.

Lemma intact_4 p a b : u16_at f p a -> u16_at f (p + 2) b -> intact f p 4.
Proof. intros. apply (intact_app _ _ 2 2); eapply u16_intact; eassumption. Qed.

Lemma intact_6 p a b c : u16_at f p a -> u16_at f (p + 2) b -> u16_at f (p + 4) c -> intact f p 6.
Proof. intros. apply (intact_app _ _ 4 2); [eapply intact_4; eassumption|eapply u16_intact; eassumption]. Qed.

Lemma single_adjustment_traced p : traced (Part read_single_adjustment p).
Proof.
  need (u16_or o f p) as n. of_format n [1; 2].
  - need (u16_or o f (p + 2)) as c. pose proof (u16_position _ _ _ Hb H) as B.
    destruct (flags_need _ _ 4 p (FlaggedSingleAdjustment o f p 1 H ltac:(cbn; tauto))
      (intact_4 _ _ _ H H0)) as [[flags ?]|[?|G]]; [|lost|exact G].
    eapply traced_parts; [eassumption|eapply PartsSingleAdjustment1; eassumption|children].
  - need (u16_or o f (p + 2)) as c. pose proof (u16_position _ _ _ Hb H) as B.
    destruct (flags_need _ _ 4 p (FlaggedSingleAdjustment o f p 2 H ltac:(cbn; tauto))
      (intact_4 _ _ _ H H0)) as [[flags ?]|[?|G]]; [|lost|exact G].
    need (u16_or o f (p + 6)) as n.
    eapply traced_parts; [eassumption|eapply PartsSingleAdjustment2; eassumption|children].
Qed.

Lemma pair_adjustment_traced p : traced (Part read_pair_adjustment p).
Proof.
  need (u16_or o f p) as n. of_format n [1; 2].
  - need (u16_or o f (p + 2)) as c. pose proof (u16_position _ _ _ Hb H) as B.
    destruct (flags_need _ _ 4 p (FlaggedPairAdjustmentFirst o f p 1 H ltac:(cbn; tauto))
      (intact_4 _ _ _ H H0)) as [[flags1 F1]|[?|G]]; [|lost|exact G].
    destruct (flags_need _ _ 6 p (FlaggedPairAdjustmentSecond o f p 1 flags1 H ltac:(cbn; tauto) F1)
      (intact_6 _ _ _ _ H H0 (proj1 F1))) as [[flags2 F2]|[?|G]]; [|lost|exact G].
    need (u16_or o f (p + 8)) as n. need (u16s_or o f (p + 10) n) as l.
    eapply traced_parts; [eassumption|eapply PartsPairAdjustment1; eassumption|children].
  - need (u16_or o f (p + 2)) as c. pose proof (u16_position _ _ _ Hb H) as B.
    destruct (flags_need _ _ 4 p (FlaggedPairAdjustmentFirst o f p 2 H ltac:(cbn; tauto))
      (intact_4 _ _ _ H H0)) as [[flags1 F1]|[?|G]]; [|lost|exact G].
    destruct (flags_need _ _ 6 p (FlaggedPairAdjustmentSecond o f p 2 flags1 H ltac:(cbn; tauto) F1)
      (intact_6 _ _ _ _ H H0 (proj1 F1))) as [[flags2 F2]|[?|G]]; [|lost|exact G].
    need (u16_or o f (p + 8)) as k1. need (u16_or o f (p + 10)) as k2.
    need (u16_or o f (p + 12)) as n1. need (u16_or o f (p + 14)) as n2.
    eapply traced_parts; [eassumption|eapply PartsPairAdjustment2; eassumption|children].
Qed.

Lemma cursive_traced p : traced (Part read_cursive_attachment p).
Proof.
  need (u16_or o f p) as n. of_value n 1. pose proof (u16_position _ _ _ Hb H) as B.
  need (u16_or o f (p + 2)) as c. need (u16_or o f (p + 4)) as n. parts_of.
Qed.
Lemma mark_to_base_traced p : traced (Part read_mark_to_base_attachment p).
Proof.
  need (u16_or o f p) as n. of_value n 1. need (u16_or o f (p + 2)) as c1. need (u16_or o f (p + 4)) as c2.
  need (u16_or o f (p + 6)) as k. need (u16_or o f (p + 8)) as a. need (u16_or o f (p + 10)) as b. parts_of.
Qed.
Lemma mark_to_ligature_traced p : traced (Part read_mark_to_ligature_attachment p).
Proof.
  need (u16_or o f p) as n. of_value n 1. need (u16_or o f (p + 2)) as c1. need (u16_or o f (p + 4)) as c2.
  need (u16_or o f (p + 6)) as k. need (u16_or o f (p + 8)) as a. need (u16_or o f (p + 10)) as b. parts_of.
Qed.
Lemma mark_to_mark_traced p : traced (Part read_mark_to_mark_attachment p).
Proof.
  need (u16_or o f p) as n. of_value n 1. need (u16_or o f (p + 2)) as c1. need (u16_or o f (p + 4)) as c2.
  need (u16_or o f (p + 6)) as k. need (u16_or o f (p + 8)) as a. need (u16_or o f (p + 10)) as b. parts_of.
Qed.
Lemma extension_positioning_traced p : traced (Part read_extension_positioning p).
Proof.
  need (u16_or o f p) as n. of_value n 1. need (u16_or o f (p + 2)) as t. need (u32_or o f (p + 4)) as a.
  apply (traced_finds _ _ _ _ (mkExtensionPositioning 1 t a) (read_extension_positioning_finds True e p)).
  cbn. auto.
Qed.
Hint Resolve single_adjustment_traced pair_adjustment_traced cursive_traced mark_to_base_traced
  mark_to_ligature_traced mark_to_mark_traced extension_positioning_traced : traced.

Lemma gpos_type_traced t p : traced (Part (read_gpos_type t) p).
Proof.
  destruct (in_dec N.eq_dec t [1; 2; 3; 4; 5; 6; 7; 8; 9]) as [I|I].
  - cbn [In] in I. repeat (destruct I as [<-|I]; [eapply traced_parts; [eassumption|constructor|children]|]).
    destruct I.
  - eapply traced_fault, FaultGposType. intros B. apply I. cbn. lia.
Qed.

(** *** GDEF *)

Lemma attachment_traced p : traced (Part read_attachment p).
Proof. need (u16_or o f p) as n. need (u16s_or o f (p + 2) n) as l. apply traced_follows. parted. Qed.
Hint Resolve attachment_traced : traced.
Lemma attachments_traced p : traced (Part read_attachments p).
Proof.
  need (u16_or o f p) as c. need (u16_or o f (p + 2)) as n. need (u16s_or o f (p + 4) n) as l. parts_of.
Qed.
Lemma caret_traced p : traced (Part read_caret p).
Proof.
  need (u32_or o f p) as n. destruct (in_dec N.eq_dec n [1; 2; 3]) as [[<-|[<-|[<-|[]]]]|I].
  - eapply traced_parts; [eassumption|eapply PartsCaret1; eassumption|children].
  - eapply traced_parts; [eassumption|eapply PartsCaret2; eassumption|children].
  - need (u16_or o f (p + 4)) as a. eapply traced_parts; [eassumption|eapply PartsCaret3; eassumption|children].
  - eapply traced_fault, FaultCaret; eassumption.
Qed.
Hint Resolve caret_traced : traced.
Lemma gdef_ligature_traced p : traced (Part read_gdef_ligature p).
Proof. need (u16_or o f p) as n. need (u16s_or o f (p + 2) n) as l. parts_of. Qed.
Hint Resolve gdef_ligature_traced : traced.
Lemma gdef_ligatures_traced p : traced (Part read_gdef_ligatures p).
Proof.
  need (u16_or o f p) as c. need (u16_or o f (p + 2)) as n. need (u16s_or o f (p + 4) n) as l. parts_of.
Qed.
Lemma marks_traced p : traced (Part read_marks p).
Proof.
  need (u16_or o f p) as n. of_value n 1. need (u16_or o f (p + 2)) as n.
  need (u32s_or o f (p + 4) n) as l. parts_of.
Qed.
Hint Resolve attachments_traced gdef_ligatures_traced marks_traced store_traced : traced.

Lemma halves p n : u32_at f p n -> u16_at f p (n / 65536) /\ u16_at f (p + 2) (n mod 65536).
Proof.
  intros (h & l & Hh & Hl & ->). pose proof (u16_bound e _ _ Hl) as L.
  replace ((65536 * h + l) / 65536) with h by (apply (N.div_unique _ _ _ l); lia).
  replace ((65536 * h + l) mod 65536) with l by (apply (N.mod_unique _ _ h); lia). auto.
Qed.

Lemma glyph_definition_traced p : traced (Part read_glyph_definition p).
Proof.
  need (u32_or o f p) as n. destruct (halves _ _ H) as [Ha Hi].
  destruct (in_dec N.eq_dec n [0x00010000; 0x00010002; 0x00010003]) as [[<-|[<-|[<-|[]]]]|I].
  4: eapply traced_fault, FaultGdef; eassumption.
  all: need (u16_or o f (p + 4)) as a; need (u16_or o f (p + 6)) as b; need (u16_or o f (p + 8)) as c;
    need (u16_or o f (p + 10)) as d.
  - eapply traced_parts; [eassumption|eapply (PartsGdef _ _ _ (GdefVersion1 (mkGdefHeader1 1 0 a b c d)));
      [cbn; auto 9|reflexivity]|children].
  - need (u16_or o f (p + 12)) as m.
    eapply traced_parts; [eassumption|eapply (PartsGdef _ _ _ (GdefVersion12 (mkGdefHeader12 1 2 a b c d m)));
      [cbn; auto 9|reflexivity]|children].
  - need (u16_or o f (p + 12)) as m. need (u32_or o f (p + 14)) as i.
    eapply traced_parts; [eassumption|eapply (PartsGdef _ _ _ (GdefVersion13 (mkGdefHeader13 1 3 a b c d m i)));
      [cbn; auto 10|reflexivity]|children].
Qed.

(** *** CPAL and fvar *)

Lemma color_traced p : traced (Part read_color p).
Proof. eapply traced_solid; [apply color_solid|constructor]. Qed.
Hint Resolve color_traced : traced.

Lemma color_palettes_traced p : traced (Part read_color_palettes p).
Proof.
  need (u16_or o f p) as v. destruct (in_dec N.eq_dec v [0; 1]) as [I|I].
  2: eapply traced_fault, FaultCpal; eexists; split; eassumption.
  need (u16_or o f (p + 2)) as a. need (u16_or o f (p + 4)) as n. need (u16_or o f (p + 6)) as c.
  need (u32_or o f (p + 8)) as d. need (u16s_or o f (p + 12) n) as l.
  destruct I as [<-|[<-|[]]].
  - eapply traced_parts; [eassumption|eapply (PartsCpal0 _ _ _ (mkCpalHeader0 0 a n c d l))|children].
    cbn. auto 9.
  - eapply traced_parts; [eassumption|eapply (PartsCpal1 _ _ _ (mkCpalHeader1 1 a n c d l))|children].
    cbn. auto 9.
Qed.

Lemma i32_or p : (exists n, i32_at f p n) \/ misses f p 4.
Proof. eapply (either_of o f); [apply take_q32_takes|apply q32_solid]. Qed.

Lemma there {A} (m : M A) q a P v : solid e m q a -> takes True m e q P a -> P v -> intact f q a.
Proof.
  intros [(w & _ & I)|[_ E]] T Hv; [exact I|]. exfalso.
  rewrite (proj2 (proj2 T v (q + a)) (conj Hv eq_refl)) in E. discriminate.
Qed.

Lemma axis_record_traced p : traced (Part read_axis_record p).
Proof.
  need (tag_or o f p) as t. need (i32_or (p + 4)) as a. need (i32_or (p + 8)) as b. need (i32_or (p + 12)) as c.
  assert (I : intact f p 16).
  { apply (intact_app _ _ 12 4); [apply (intact_app _ _ 8 4); [apply (intact_app _ _ 4 4)|]|].
    - eapply (there take_tag); [apply tag_solid|apply take_tag_takes|eassumption].
    - eapply (there take_q32); [apply q32_solid|apply take_q32_takes|eassumption].
    - eapply (there take_q32); [apply q32_solid|apply take_q32_takes|eassumption].
    - eapply (there take_q32); [apply q32_solid|apply take_q32_takes|eassumption]. }
  destruct (flags_need _ _ 16 p (FlaggedAxisRecord o f p) I) as [[flags F]|[?|G]]; [|lost|exact G].
  need (u16_or o f (p + 18)) as n.
  apply (traced_finds _ _ _ _ (mkAxisRecord t a b c flags n) (read_axis_record_finds True e p)). cbn. auto 9.
Qed.

Lemma instance_record_traced k p : traced (Part (read_instance_record k) p).
Proof.
  need (u16_or o f p) as s.
  destruct (flags_need _ _ 2 p (FlaggedInstanceRecord o f p k) (u16_intact _ _ _ H)) as [[flags F]|[?|G]];
    [|lost|exact G].
  need (vec_or o f take_q32 (i32_at f) 4 (p + 4) k (fun q => take_q32_takes True e q) (q32_solid e)) as l.
  need (u16_or o f (p + 4 + 4 * k)) as n.
  apply (traced_finds _ _ _ _ (mkInstanceRecord s flags l n)
    (read_instance_record_finds True e k p)). cbn. auto 9.
Qed.
Hint Resolve axis_record_traced instance_record_traced : traced.

Lemma font_variations_traced p : traced (Part read_font_variations p).
Proof.
  need (u16_or o f p) as a. need (u16_or o f (p + 2)) as b. need (u16_or o f (p + 4)) as c.
  need (u16_or o f (p + 6)) as r. destruct (N.eq_dec r 2) as [->|N].
  - need (u16_or o f (p + 8)) as ac. need (u16_or o f (p + 10)) as as_. need (u16_or o f (p + 12)) as ic.
    need (u16_or o f (p + 14)) as is_.
    eapply traced_parts; [eassumption|eapply (PartsFvar _ _ _ (mkFvarHeader a b c 2 ac as_ ic is_))|children].
    cbn. auto 10.
  - eapply traced_fault. eapply (FaultFixed _ _ _ _ _ 6); [constructor| |eassumption|exact N].
    eapply intact_6; eassumption.
Qed.

(** *** Files *)

Lemma offset_record_traced p : traced (Part read_offset_record p).
Proof. eapply traced_solid; [apply offset_record_solid|constructor]. Qed.
Hint Resolve offset_record_traced : traced.

Lemma font_traced d p : traced (Part (read_font d) p).
Proof.
  need (tag_or o f p) as t. destruct (truetype_accept d t) eqn:T.
  - need (u16_or o f (p + 4)) as n. need (u16_or o f (p + 6)) as a. need (u16_or o f (p + 8)) as b.
    need (u16_or o f (p + 10)) as c.
    eapply traced_parts; [eassumption|eapply (PartsFont _ _ _ d (mkOffsetsHeader t n a b c))|children];
      cbn; auto 9.
  - eapply traced_fault, FaultTag. exists t. auto.
Qed.
Hint Resolve font_traced : traced.

Lemma file_traced d p : traced (Part (read_file d) p).
Proof.
  need (tag_or o f p) as t. destruct (tag_eqb t (Tag "t" "t" "c" "f")) eqn:T.
  - apply tag_eqb_eq in T. subst t. eapply traced_fault, FaultCollection. assumption.
  - eapply traced_parts; [eassumption|eapply PartsFile; [eassumption|]|children].
    intros E. apply tag_eqb_eq in E. congruence.
Qed.

(** *** Fields that are read by themselves *)

Lemma coverage_record_traced p : traced (Part read_coverage_record p).
Proof. eapply traced_solid; [apply coverage_record_solid|constructor]. Qed.
Lemma class_record_traced p : traced (Part read_class_record p).
Proof. eapply traced_solid; [apply class_record_solid|constructor]. Qed.
Lemma action_traced p : traced (Part read_action p).
Proof. eapply traced_solid; [apply action_solid|constructor]. Qed.
Lemma language_header_traced p : traced (Part read_language_header p).
Proof. eapply traced_solid; [apply language_header_solid|constructor]. Qed.
Lemma script_header_traced p : traced (Part read_script_header p).
Proof. eapply traced_solid; [apply script_header_solid|constructor]. Qed.
Lemma feature_header_traced p : traced (Part read_feature_header p).
Proof. eapply traced_solid; [apply feature_header_solid|constructor]. Qed.

Lemma flags_traced mask (m : M N) p : m = take_flags mask -> begins o f p m 2 [] -> flagged o f p m 0 mask ->
  traced (Part m p).
Proof.
  intros E Hm Hf. destruct (flags_need m mask 0 p Hf (intact_zero _ _)) as [[v Hv]|[L|G]]; [|..|exact G];
    rewrite N.add_0_r in *.
  - apply traced_follows. unfold follows. rewrite E, (flags_run e mask v p Hv). reflexivity.
  - eapply traced_fault, FaultFields; eassumption.
Qed.

Lemma lookup_flags_traced p : traced (Part take_lookup_flags p).
Proof. apply (flags_traced 0x00E0); [reflexivity|constructor|constructor]. Qed.
Lemma value_flags_traced p : traced (Part take_value_flags p).
Proof. apply (flags_traced 0xFF00); [reflexivity|constructor|constructor]. Qed.
Lemma axis_flags_traced p : traced (Part take_axis_flags p).
Proof. apply (flags_traced 0xFFFE); [reflexivity|constructor|constructor]. Qed.
Lemma instance_flags_traced p : traced (Part take_instance_flags p).
Proof. apply (flags_traced 0xFFFF); [reflexivity|constructor|constructor]. Qed.

Lemma gdef_header_traced p : traced (Part read_gdef_header p).
Proof.
  need (u32_or o f p) as n. destruct (halves _ _ H) as [Ha Hi].
  destruct (in_dec N.eq_dec n [0x00010000; 0x00010002; 0x00010003]) as [[<-|[<-|[<-|[]]]]|I].
  4: eapply traced_fault, FaultGdefHeader; eassumption.
  all: need (u16_or o f (p + 4)) as a; need (u16_or o f (p + 6)) as b; need (u16_or o f (p + 8)) as c;
    need (u16_or o f (p + 10)) as d.
  - apply (traced_finds _ _ _ _ (GdefVersion1 (mkGdefHeader1 1 0 a b c d)) (read_gdef_header_finds True e p)).
    cbn. auto 9.
  - need (u16_or o f (p + 12)) as m.
    apply (traced_finds _ _ _ _ (GdefVersion12 (mkGdefHeader12 1 2 a b c d m))
      (read_gdef_header_finds True e p)).
    cbn. auto 9.
  - need (u16_or o f (p + 12)) as m. need (u32_or o f (p + 14)) as i.
    apply (traced_finds _ _ _ _ (GdefVersion13 (mkGdefHeader13 1 3 a b c d m i))
      (read_gdef_header_finds True e p)).
    cbn. auto 10.
Qed.

Lemma cpal_header_traced p : traced (Part read_cpal_header p).
Proof.
  need (u16_or o f p) as v. destruct (in_dec N.eq_dec v [0; 1]) as [I|I].
  2: eapply traced_fault, FaultCpalHeader; eexists; split; eassumption.
  need (u16_or o f (p + 2)) as a. need (u16_or o f (p + 4)) as n. need (u16_or o f (p + 6)) as c.
  need (u32_or o f (p + 8)) as d. need (u16s_or o f (p + 12) n) as l.
  destruct I as [<-|[<-|[]]].
  - apply (traced_finds _ _ _ _ (CpalVersion0 (mkCpalHeader0 0 a n c d l)) (read_cpal_header_finds True e p)).
    cbn. auto 9.
  - apply (traced_finds _ _ _ _ (CpalVersion1 (mkCpalHeader1 1 a n c d l)) (read_cpal_header_finds True e p)).
    cbn. auto 9.
Qed.

Lemma fvar_header_traced p : traced (Part read_fvar_header p).
Proof.
  need (u16_or o f p) as a. need (u16_or o f (p + 2)) as b. need (u16_or o f (p + 4)) as c.
  need (u16_or o f (p + 6)) as r. destruct (N.eq_dec r 2) as [->|N].
  - need (u16_or o f (p + 8)) as ac. need (u16_or o f (p + 10)) as as_. need (u16_or o f (p + 12)) as ic.
    need (u16_or o f (p + 14)) as is_.
    apply (traced_finds _ _ _ _ (mkFvarHeader a b c 2 ac as_ ic is_) (read_fvar_header_finds True e p)).
    cbn. auto 10.
  - eapply traced_fault. eapply (FaultFixed _ _ _ _ _ 6); [constructor| |eassumption|exact N].
    eapply intact_6; eassumption.
Qed.

(** *** Formats that are read by themselves *)

Lemma coverage1_traced p : traced (Part read_coverage1 p).
Proof.
  need (u16_or o f p) as n. need (u16_or o f (p + 2)) as c. need (u16s_or o f (p + 4) c) as l.
  apply traced_follows. parted.
Qed.
Lemma coverage2_traced p : traced (Part read_coverage2 p).
Proof.
  need (u16_or o f p) as n. need (u16_or o f (p + 2)) as c.
  need (vec_or o f read_coverage_record (coverage_record_at f) 6 (p + 4) c
    (fun q => read_coverage_record_takes True e q) (coverage_record_solid e)) as l.
  apply traced_follows. parted.
Qed.
Lemma class1_traced p : traced (Part read_class1 p).
Proof.
  need (u16_or o f p) as n. need (u16_or o f (p + 2)) as s. need (u16_or o f (p + 4)) as c.
  need (u16s_or o f (p + 6) c) as l. apply traced_follows. parted.
Qed.
Lemma class2_traced p : traced (Part read_class2 p).
Proof.
  need (u16_or o f p) as n. need (u16_or o f (p + 2)) as c.
  need (vec_or o f read_class_record (class_record_at f) 6 (p + 4) c
    (fun q => read_class_record_takes True e q) (class_record_solid e)) as l.
  apply traced_follows. parted.
Qed.
Lemma only_device_traced p : traced (Part read_device p).
Proof.
  need (u16_or o f p) as s. need (u16_or o f (p + 2)) as t. destruct (N.lt_ge_cases t s) as [L|G].
  - eapply traced_fault, FaultOnlyDevice; eassumption.
  - need (u16_or o f (p + 4)) as n. destruct (in_dec N.eq_dec n [1; 2; 3]) as [J|J].
    + assert (B : 1 <= n <= 3) by (cbn in J; lia). need (u16s_or o f (p + 6) (device_words s t n)) as l.
      apply (traced_finds _ _ _ _ (mkDevice s t n l) (read_device_finds True e p)).
      split; [assumption|]. split; [assumption|]. split; [exact G|]. split; [assumption|].
      split; [exact B|]. assumption.
    + eapply traced_fault, FaultOnlyDeviceFormat; [eassumption..|]. eexists. split; eassumption.
Qed.
Lemma variation_traced p : traced (Part read_variation p).
Proof.
  need (u16_or o f p) as a. need (u16_or o f (p + 2)) as b. need (u16_or o f (p + 4)) as c.
  apply traced_follows. parted.
Qed.
Lemma context1_traced p : traced (Part read_context1 p).
Proof.
  need (u16_or o f p) as t. need (u16_or o f (p + 2)) as c. need (u16_or o f (p + 4)) as n.
  need (u16s_or o f (p + 6) n) as l. parts_of.
Qed.
Lemma context2_traced p : traced (Part read_context2 p).
Proof.
  need (u16_or o f p) as t. need (u16_or o f (p + 2)) as c. need (u16_or o f (p + 4)) as k.
  need (u16_or o f (p + 6)) as n. need (u16s_or o f (p + 8) n) as l. parts_of.
Qed.
Lemma context3_traced p : traced (Part read_context3 p).
Proof.
  need (u16_or o f p) as t. need (u16_or o f (p + 2)) as n. need (u16_or o f (p + 4)) as m.
  need (u16s_or o f (p + 6) n) as l. need (actions_or (p + 6 + 2 * n) m) as l'. parts_of.
Qed.
Lemma chained_context1_traced p : traced (Part read_chained_context1 p).
Proof.
  need (u16_or o f p) as t. need (u16_or o f (p + 2)) as c. need (u16_or o f (p + 4)) as n.
  need (u16s_or o f (p + 6) n) as l. parts_of.
Qed.
Lemma chained_context2_traced p : traced (Part read_chained_context2 p).
Proof.
  need (u16_or o f p) as t. need (u16_or o f (p + 2)) as c. need (u16_or o f (p + 4)) as k1.
  need (u16_or o f (p + 6)) as k2. need (u16_or o f (p + 8)) as k3. need (u16_or o f (p + 10)) as n.
  need (u16s_or o f (p + 12) n) as l. parts_of.
Qed.
Lemma chained_context3_traced p : traced (Part read_chained_context3 p).
Proof.
  need (u16_or o f p) as t. need (u16_or o f (p + 2)) as n1. need (u16s_or o f (p + 4) n1) as l1.
  need (u16_or o f (p + 4 + 2 * n1)) as n2. need (u16s_or o f (p + 6 + 2 * n1) n2) as l2.
  need (u16_or o f (p + 6 + 2 * n1 + 2 * n2)) as n3. need (u16s_or o f (p + 8 + 2 * n1 + 2 * n2) n3) as l3.
  need (u16_or o f (p + 8 + 2 * n1 + 2 * n2 + 2 * n3)) as m.
  need (actions_or (p + 10 + 2 * n1 + 2 * n2 + 2 * n3) m) as l4. parts_of.
Qed.
Lemma single_substitution1_traced p : traced (Part read_single_substitution1 p).
Proof.
  need (u16_or o f p) as t. need (u16_or o f (p + 2)) as c. need (i16_or o f (p + 4)) as d. parts_of.
Qed.
Lemma single_substitution2_traced p : traced (Part read_single_substitution2 p).
Proof.
  need (u16_or o f p) as t. need (u16_or o f (p + 2)) as c. need (u16_or o f (p + 4)) as n.
  need (u16s_or o f (p + 6) n) as l. parts_of.
Qed.
Lemma anchor1_traced p : traced (Part read_anchor1 p).
Proof.
  need (u16_or o f p) as t. need (i16_or o f (p + 2)) as x. need (i16_or o f (p + 4)) as y.
  apply traced_follows. parted.
Qed.
Lemma anchor2_traced p : traced (Part read_anchor2 p).
Proof.
  need (u16_or o f p) as t. need (i16_or o f (p + 2)) as x. need (i16_or o f (p + 4)) as y.
  need (u16_or o f (p + 6)) as i. apply traced_follows. parted.
Qed.
Lemma anchor3_traced p : traced (Part read_anchor3 p).
Proof.
  need (u16_or o f p) as t. need (i16_or o f (p + 2)) as x. need (i16_or o f (p + 4)) as y.
  need (u16_or o f (p + 6)) as a. need (u16_or o f (p + 8)) as b. parts_of.
Qed.
Lemma single_adjustment1_traced p : traced (Part read_single_adjustment1 p).
Proof.
  need (u16_or o f p) as n. need (u16_or o f (p + 2)) as c. pose proof (u16_position _ _ _ Hb H) as B.
  destruct (flags_need _ _ 4 p (FlaggedOnlySingleAdjustment1 o f p) (intact_4 _ _ _ H H0))
    as [[flags ?]|[?|G]]; [|lost|exact G].
  parts_of.
Qed.
Lemma single_adjustment2_traced p : traced (Part read_single_adjustment2 p).
Proof.
  need (u16_or o f p) as t. need (u16_or o f (p + 2)) as c. pose proof (u16_position _ _ _ Hb H) as B.
  destruct (flags_need _ _ 4 p (FlaggedOnlySingleAdjustment2 o f p) (intact_4 _ _ _ H H0))
    as [[flags ?]|[?|G]]; [|lost|exact G].
  need (u16_or o f (p + 6)) as n. parts_of.
Qed.
Lemma pair_adjustment1_traced p : traced (Part read_pair_adjustment1 p).
Proof.
  need (u16_or o f p) as t. need (u16_or o f (p + 2)) as c. pose proof (u16_position _ _ _ Hb H) as B.
  destruct (flags_need _ _ 4 p (FlaggedOnlyPairAdjustment1First o f p) (intact_4 _ _ _ H H0))
    as [[flags1 F1]|[?|G]]; [|lost|exact G].
  destruct (flags_need _ _ 6 p (FlaggedOnlyPairAdjustment1Second o f p flags1 F1)
    (intact_6 _ _ _ _ H H0 (proj1 F1))) as [[flags2 F2]|[?|G]]; [|lost|exact G].
  need (u16_or o f (p + 8)) as n. need (u16s_or o f (p + 10) n) as l.
  eapply traced_parts; [eassumption|eapply PartsOnlyPairAdjustment1; eassumption|children].
Qed.
Lemma pair_adjustment2_traced p : traced (Part read_pair_adjustment2 p).
Proof.
  need (u16_or o f p) as t. need (u16_or o f (p + 2)) as c. pose proof (u16_position _ _ _ Hb H) as B.
  destruct (flags_need _ _ 4 p (FlaggedOnlyPairAdjustment2First o f p) (intact_4 _ _ _ H H0))
    as [[flags1 F1]|[?|G]]; [|lost|exact G].
  destruct (flags_need _ _ 6 p (FlaggedOnlyPairAdjustment2Second o f p flags1 F1)
    (intact_6 _ _ _ _ H H0 (proj1 F1))) as [[flags2 F2]|[?|G]]; [|lost|exact G].
  need (u16_or o f (p + 8)) as k1. need (u16_or o f (p + 10)) as k2.
  need (u16_or o f (p + 12)) as n1. need (u16_or o f (p + 14)) as n2.
  eapply traced_parts; [eassumption|eapply PartsOnlyPairAdjustment2; eassumption|children].
Qed.
Lemma caret1_traced p : traced (Part read_caret1 p).
Proof.
  need (u16_or o f p) as t. need (i16_or o f (p + 2)) as x. apply traced_follows. parted.
Qed.
Lemma caret2_traced p : traced (Part read_caret2 p).
Proof.
  need (u16_or o f p) as t. need (u16_or o f (p + 2)) as i. apply traced_follows. parted.
Qed.
Lemma caret3_traced p : traced (Part read_caret3 p).
Proof.
  need (u16_or o f p) as t. need (i16_or o f (p + 2)) as x. need (u16_or o f (p + 4)) as a. parts_of.
Qed.

Ltac minor_of n c :=
  destruct (N.eq_dec n c) as [->|];
  [|eapply traced_fault; eapply (FaultFixed _ _ _ _ _ 2);
    [constructor; eassumption|eapply u16_intact; eassumption|eassumption|assumption]].

Lemma gdef_header1_traced p : traced (Part read_gdef_header1 p).
Proof.
  need (u16_or o f p) as n. of_value n 1. need (u16_or o f (p + 2)) as n. minor_of n 0.
  need (u16_or o f (p + 4)) as a. need (u16_or o f (p + 6)) as b. need (u16_or o f (p + 8)) as c.
  need (u16_or o f (p + 10)) as d. apply traced_follows. parted.
Qed.
Lemma gdef_header12_traced p : traced (Part read_gdef_header12 p).
Proof.
  need (u16_or o f p) as n. of_value n 1. need (u16_or o f (p + 2)) as n. minor_of n 2.
  need (u16_or o f (p + 4)) as a. need (u16_or o f (p + 6)) as b. need (u16_or o f (p + 8)) as c.
  need (u16_or o f (p + 10)) as d. need (u16_or o f (p + 12)) as m. apply traced_follows. parted.
Qed.
Lemma gdef_header13_traced p : traced (Part read_gdef_header13 p).
Proof.
  need (u16_or o f p) as n. of_value n 1. need (u16_or o f (p + 2)) as n. minor_of n 3.
  need (u16_or o f (p + 4)) as a. need (u16_or o f (p + 6)) as b. need (u16_or o f (p + 8)) as c.
  need (u16_or o f (p + 10)) as d. need (u16_or o f (p + 12)) as m. need (u32_or o f (p + 14)) as i.
  apply traced_follows. parted.
Qed.
Lemma cpal_header0_traced p : traced (Part read_cpal_header0 p).
Proof.
  need (u16_or o f p) as v. of_value v 0.
  need (u16_or o f (p + 2)) as a. need (u16_or o f (p + 4)) as n. need (u16_or o f (p + 6)) as c.
  need (u32_or o f (p + 8)) as d. need (u16s_or o f (p + 12) n) as l. apply traced_follows. parted.
Qed.
Lemma cpal_header1_traced p : traced (Part read_cpal_header1 p).
Proof.
  need (u16_or o f p) as v. of_value v 1.
  need (u16_or o f (p + 2)) as a. need (u16_or o f (p + 4)) as n. need (u16_or o f (p + 6)) as c.
  need (u32_or o f (p + 8)) as d. need (u16s_or o f (p + 12) n) as l. apply traced_follows. parted.
Qed.

Lemma whole_traced d A (m : M A) p : whole d m -> traced (Part m p).
Proof.
  intros []; [apply directory_traced, gsub_type_traced|apply directory_traced, gpos_type_traced
  |apply glyph_definition_traced|apply color_palettes_traced|apply font_variations_traced|apply file_traced].
Qed.

End Readers.

(** ** What is the matter with what is not read *)

Section Refused.
Context (o : options) (f : file) (A : Type) (m : M A) (p : N) (Hb : bounded f) (Ht : traced o f (Part m p)).

Lemma overflow_panics q : overflow_checks o = true -> store_record_overflows f q ->
  panics o read_store_record f q.
Proof. intros C H. apply (ProofOverflow.store_record_stops (mkEnv f o) C q), H. Qed.

Lemma traced_refused x :
  refuses o m f p x <-> exists B (n : M B) q, blamed o f (Part m p) (Part n q) /\ fault o f q n x.
Proof.
  split.
  - intros Hx. destruct Ht as
    [(v & q & E)|[(y & [B n q] & Hz & F)|(C & q & Hz & F)]].
    + unfold refuses in Hx. congruence.
    + exists B, n, q. split; [exact Hz|]. replace x with y; [exact F|].
      apply fault_refused in F. apply (blamed_refused _ _ _ _ _ Hb Hz) in F. unfold refuses in *.
      cbn in F. congruence.
    + apply (overflow_panics _ C) in F. apply (blamed_panicking _ _ _ _ Hb Hz) in F. unfold refuses in *.
      cbn in F. unfold panics in F. congruence.
  - intros (B & n & q & Hz & F). apply fault_refused in F. exact (blamed_refused _ _ _ _ _ Hb Hz F).
Qed.

Lemma traced_panics :
  panics o m f p <-> overflow_checks o = true /\
    exists q, blamed o f (Part m p) (Part read_store_record q) /\ store_record_overflows f q.
Proof.
  split.
  - intros Hx. destruct Ht as
    [(v & q & E)|[(y & [B n q] & Hz & F)|H]]; [..|exact H].
    + unfold panics in Hx. congruence.
    + apply fault_refused in F. apply (blamed_refused _ _ _ _ _ Hb Hz) in F. cbn in F.
      unfold refuses, panics in *. congruence.
  - intros (C & q & Hz & F). apply (overflow_panics _ C) in F. exact (blamed_panicking _ _ _ _ Hb Hz F).
Qed.

Lemma traced_read : (exists v, reads o m f p v) <->
  (forall B (n : M B) q x, blamed o f (Part m p) (Part n q) -> ~ fault o f q n x) /\
  (overflow_checks o = true -> forall q, blamed o f (Part m p) (Part read_store_record q) ->
    ~ store_record_overflows f q).
Proof.
  split.
  - intros (v & q & E). split.
    + intros B n r x Hz F. assert (R : refuses o m f p x) by (apply traced_refused; exists B, n, r; auto).
      unfold refuses in R. congruence.
    + intros C r Hz F. assert (R : panics o m f p) by (apply traced_panics; split; [exact C|exists r; auto]).
      unfold panics in R. congruence.
  - intros [H1 H2]. destruct Ht as [R|[(y & [B n q] & Hz & F)|(C & q & Hz & F)]].
    + exact R.
    + destruct (H1 B n q y Hz F).
    + destruct (H2 C q Hz F).
Qed.
End Refused.

Section Whole.
Context (o : options) (f : file) (d : deps) (A : Type) (m : M A) (p : N) (Hb : bounded f) (Hm : whole d m).

Lemma whole_refused x :
  refuses o m f p x <-> exists B (n : M B) q, blamed o f (Part m p) (Part n q) /\ fault o f q n x.
Proof. apply traced_refused; [exact Hb|]. apply (whole_traced o f Hb d), Hm. Qed.

Lemma whole_panics :
  panics o m f p <-> overflow_checks o = true /\
    exists q, blamed o f (Part m p) (Part read_store_record q) /\ store_record_overflows f q.
Proof. apply traced_panics; [exact Hb|]. apply (whole_traced o f Hb d), Hm. Qed.

Lemma whole_read : (exists v, reads o m f p v) <->
  (forall B (n : M B) q x, blamed o f (Part m p) (Part n q) -> ~ fault o f q n x) /\
  (overflow_checks o = true -> forall q, blamed o f (Part m p) (Part read_store_record q) ->
    ~ store_record_overflows f q).
Proof. apply traced_read; [exact Hb|]. apply (whole_traced o f Hb d), Hm. Qed.

End Whole.

(** The same for parts by themselves. *)

Section Parts.
Context (o : options) (f : file) (p : N) (Hb : bounded f) {A : Type} (r : piece A)
  (Hp : piece_base r < 2 ^ 63).

Lemma piece_traced : traced o f (Part (piece_reader r) p).
Proof.
  destruct r; cbn [piece_reader piece_base] in *;
    auto using coverage_traced, class_traced, correction_traced, context_record_traced,
      context_class_record_traced, chained_record_traced, chained_class_record_traced,
      context_records_traced, context_class_records_traced, chained_records_traced,
      chained_class_records_traced, context_traced, chained_context_traced, language_record_traced,
      script_record_traced, scripts_traced, feature_record_traced, features_traced,
      feature_variations_traced, lookup_record_traced, lookups_traced, store_record_traced, store_traced,
      sequence_traced, alternates_traced, ligature_traced, ligatures_traced, single_substitution_traced,
      multiple_substitution_traced, alternate_substitution_traced, ligature_substitution_traced,
      extension_substitution_traced, reverse_traced, gsub_type_traced, anchor_traced, base_traced,
      component_traced, mark1_traced, mark2_traced, connection_traced, bases_traced, gpos_ligature_traced,
      mark1s_traced, mark2s_traced, gpos_ligatures_traced, single_traced, pair1_traced, pair2_traced,
      pair1s_traced, pair2s_traced, single_adjustment_traced, pair_adjustment_traced, cursive_traced,
      mark_to_base_traced, mark_to_ligature_traced, mark_to_mark_traced, extension_positioning_traced,
      gpos_type_traced, attachment_traced, attachments_traced, caret_traced, gdef_ligature_traced,
      gdef_ligatures_traced, marks_traced, color_traced, axis_record_traced, instance_record_traced,
      coverage_record_traced, class_record_traced, action_traced, language_header_traced,
      script_header_traced, feature_header_traced, lookup_flags_traced, value_flags_traced,
      axis_flags_traced, instance_flags_traced, gdef_header_traced, cpal_header_traced,
      fvar_header_traced, coverage1_traced, coverage2_traced, class1_traced, class2_traced,
      only_device_traced, variation_traced, context1_traced, context2_traced, context3_traced,
      chained_context1_traced, chained_context2_traced, chained_context3_traced,
      single_substitution1_traced, single_substitution2_traced, anchor1_traced, anchor2_traced,
      anchor3_traced, single_adjustment1_traced, single_adjustment2_traced, pair_adjustment1_traced,
      pair_adjustment2_traced, caret1_traced, caret2_traced, caret3_traced, gdef_header1_traced,
      gdef_header12_traced, gdef_header13_traced, cpal_header0_traced, cpal_header1_traced.
Qed.

Lemma piece_refused x :
  refuses o (piece_reader r) f p x <->
  exists B (n : M B) q, blamed o f (Part (piece_reader r) p) (Part n q) /\ fault o f q n x.
Proof. apply traced_refused; [exact Hb|exact piece_traced]. Qed.

Lemma piece_panics :
  panics o (piece_reader r) f p <-> overflow_checks o = true /\
    exists q, blamed o f (Part (piece_reader r) p) (Part read_store_record q) /\ store_record_overflows f q.
Proof. apply traced_panics; [exact Hb|exact piece_traced]. Qed.

Lemma piece_read : (exists v, reads o (piece_reader r) f p v) <->
  (forall B (n : M B) q x, blamed o f (Part (piece_reader r) p) (Part n q) -> ~ fault o f q n x) /\
  (overflow_checks o = true -> forall q, blamed o f (Part (piece_reader r) p) (Part read_store_record q) ->
    ~ store_record_overflows f q).
Proof. apply traced_read; [exact Hb|exact piece_traced]. Qed.

End Parts.
