(** Every value at a position of a file is well formed. *)

From Verif Require Export SpecShape SpecGsub SpecGpos SpecCpal SpecFvar.
From Verif Require Import Reads ReadsTactics.

Lemma vec_counts {A} (elem : N -> A -> Prop) s p n l : vec_at elem s p n l -> counts n l.
Proof. intros [H _]. symmetry. exact H. Qed.

Lemma u16s_counts f p n l : u16s_at f p n l -> counts n l.
Proof. apply vec_counts. Qed.

Lemma u32s_counts f p n l : u32s_at f p n l -> counts n l.
Proof. apply vec_counts. Qed.

Lemma u8s_counts f p n l : u8s_at f p n l -> counts n l.
Proof. apply vec_counts. Qed.

Lemma i32s_counts f p n l : i32s_at f p n l -> counts n l.
Proof. apply vec_counts. Qed.

Lemma u16s_counts_rest f p n l : 1 <= n -> u16s_at f p (n - 1) l -> counts_rest n l.
Proof. intros Hn [H _]. unfold counts_rest. lia. Qed.

Lemma vec_Forall {A} (elem : N -> A -> Prop) (P : A -> Prop) s p n l :
  (forall p v, elem p v -> P v) -> vec_at elem s p n l -> Forall P l.
Proof.
  intros HP [_ H]. apply Forall_forall. intros v Hv. apply In_nth_error in Hv.
  destruct Hv as [i Hi]. eapply HP, H, Hi.
Qed.

Lemma Forall2_length {A B} (R : A -> B -> Prop) xs ys : Forall2 R xs ys -> length xs = length ys.
Proof. intros H. induction H; cbn; congruence. Qed.
Arguments Forall2_length {A B R xs ys}.

Lemma linked_counts {A} (elem : N -> A -> Prop) base n offsets l :
  linked_at elem base offsets l -> counts n offsets -> counts n l.
Proof. intros H ->. unfold counts. now rewrite (Forall2_length H). Qed.

Lemma linked_counts_map {A H} (g : H -> N) (elem : N -> A -> Prop) base n headers l :
  linked_at elem base (map g headers) l -> counts n headers -> counts n l.
Proof. intros Hl ->. unfold counts. now rewrite <- (Forall2_length Hl), map_length. Qed.

Lemma linked_Forall {A} (elem : N -> A -> Prop) (P : A -> Prop) base offsets l :
  (forall p v, elem p v -> P v) -> linked_at elem base offsets l -> Forall P l.
Proof. intros HP H. induction H; constructor; eauto. Qed.

Lemma maybe_presence {A} (elem : N -> A -> Prop) base offset v :
  maybe_at elem base offset v -> presence_wf offset v.
Proof. destruct v; cbn; split; intros; try discriminate; tauto. Qed.

Lemma maybe_Forall {A} (elem : N -> A -> Prop) (P : A -> Prop) base offset v :
  (forall p v, elem p v -> P v) -> maybe_at elem base offset v -> maybe_wf P v.
Proof. destruct v; cbn; [intros HP [_ H]; eauto|auto]. Qed.

Lemma maybes_counts {A} (elem : N -> A -> Prop) base n offsets l :
  maybes_at elem base offsets l -> counts n offsets -> counts n l.
Proof. intros H ->. unfold counts. now rewrite (Forall2_length H). Qed.

Lemma maybes_presence {A} (elem : N -> A -> Prop) base offsets l :
  maybes_at elem base offsets l -> Forall2 presence_wf offsets l.
Proof. intros H. induction H; constructor; [|assumption]. eapply maybe_presence; eassumption. Qed.

Lemma maybes_Forall {A} (elem : N -> A -> Prop) (P : A -> Prop) base offsets l :
  (forall p v, elem p v -> P v) -> maybes_at elem base offsets l -> Forall (maybe_wf P) l.
Proof. intros HP H. induction H; constructor; [|assumption]. eapply maybe_Forall; eassumption. Qed.

(** Take a value and what is known of it apart; then each requirement follows from one
    fact. *)
Ltac shaped :=
  first
  [ eassumption
  | reflexivity
  | eapply u16s_counts; eassumption
  | eapply u32s_counts; eassumption
  | eapply u8s_counts; eassumption
  | eapply i32s_counts; eassumption
  | eapply u16s_counts_rest; eassumption
  | eapply vec_counts; eassumption
  | eapply linked_counts; [eassumption|shaped]
  | eapply linked_counts_map; [eassumption|shaped]
  | eapply maybes_counts; [eassumption|shaped]
  | eapply maybe_presence; eassumption
  | eapply maybes_presence; eassumption
  | eapply vec_Forall; [|eassumption]; solve [eauto with shape]
  | eapply linked_Forall; [|eassumption]; solve [eauto with shape]
  | eapply maybe_Forall; [|eassumption]; solve [eauto with shape]
  | eapply maybes_Forall; [|eassumption]; solve [eauto with shape]
  | solve [eauto with shape] ].

Ltac conjuncts := repeat match goal with |- _ /\ _ => split end.

Ltac shape v :=
  let H := fresh "H" in
  intros H; destruct v; cbn -[N.mul N.add N.pow N.div N.testbit] in H |- *; break; subst;
    unfold anchors_wf; conjuncts; shaped.

Create HintDb shape.

Lemma coverage_shape f p v : coverage_at f p v -> coverage_wf v.
Proof. destruct v as [v|v]; shape v. Qed.
#[local] Hint Resolve coverage_shape : shape.

Lemma class_shape f p v : class_at f p v -> class_wf v.
Proof. destruct v as [v|v]; shape v. Qed.
#[local] Hint Resolve class_shape : shape.

Lemma correction_shape f p v : correction_at f p v -> correction_wf v.
Proof. destruct v as [v|v]; shape v. Qed.
#[local] Hint Resolve correction_shape : shape.

Lemma context_record_shape f p v : context_record_at f p v -> context_record_wf v.
Proof. shape v. Qed.
#[local] Hint Resolve context_record_shape : shape.

Lemma context_records_shape f p v : context_records_at f p v -> context_records_wf v.
Proof. shape v. Qed.
#[local] Hint Resolve context_records_shape : shape.

Lemma context_class_record_shape f p v : context_class_record_at f p v -> context_class_record_wf v.
Proof. shape v. Qed.
#[local] Hint Resolve context_class_record_shape : shape.

Lemma context_class_records_shape f p v : context_class_records_at f p v -> context_class_records_wf v.
Proof. shape v. Qed.
#[local] Hint Resolve context_class_records_shape : shape.

Lemma chained_record_shape f p v : chained_record_at f p v -> chained_record_wf v.
Proof. shape v. Qed.
#[local] Hint Resolve chained_record_shape : shape.

Lemma chained_records_shape f p v : chained_records_at f p v -> chained_records_wf v.
Proof. shape v. Qed.
#[local] Hint Resolve chained_records_shape : shape.

Lemma chained_class_record_shape f p v : chained_class_record_at f p v -> chained_class_record_wf v.
Proof. shape v. Qed.
#[local] Hint Resolve chained_class_record_shape : shape.

Lemma chained_class_records_shape f p v : chained_class_records_at f p v -> chained_class_records_wf v.
Proof. shape v. Qed.
#[local] Hint Resolve chained_class_records_shape : shape.

Lemma context_shape f p v : context_at f p v -> context_wf v.
Proof. destruct v as [v|v|v]; shape v. Qed.
#[local] Hint Resolve context_shape : shape.

Lemma chained_context_shape f p v : chained_context_at f p v -> chained_context_wf v.
Proof. destruct v as [v|v|v]; shape v. Qed.
#[local] Hint Resolve chained_context_shape : shape.

Lemma language_record_shape f p v : language_record_at f p v -> language_record_wf v.
Proof. shape v. Qed.
#[local] Hint Resolve language_record_shape : shape.

Lemma script_record_shape f p v : script_record_at f p v -> script_record_wf v.
Proof. shape v. Qed.
#[local] Hint Resolve script_record_shape : shape.

Lemma scripts_shape f p v : scripts_at f p v -> scripts_wf v.
Proof. shape v. Qed.
#[local] Hint Resolve scripts_shape : shape.

Lemma feature_record_shape f p v : feature_record_at f p v -> feature_record_wf v.
Proof.
  destruct v as [offset n indices parameters]. cbn. intros H. break. conjuncts; [shaped|].
  destruct parameters; split; intros; break; try discriminate; tauto.
Qed.
#[local] Hint Resolve feature_record_shape : shape.

Lemma features_shape f p v : features_at f p v -> features_wf v.
Proof. shape v. Qed.
#[local] Hint Resolve features_shape : shape.

Lemma feature_variations_shape f p v : feature_variations_at f p v -> feature_variations_wf v.
Proof. shape v. Qed.
#[local] Hint Resolve feature_variations_shape : shape.

Section Lookup.
Context {T : Type} (o : options) (table_at : N -> file -> N -> T -> Prop) (P : N -> T -> Prop).
Context (HP : forall type_ f p v, table_at type_ f p v -> P type_ v).

Lemma lookup_record_shape f p v : lookup_record_at o table_at f p v -> lookup_record_wf P v.
Proof.
  destruct v as [type_ flags n offsets set tables]. cbn -[N.testbit]. intros H. break.
  conjuncts; try shaped.
  destruct set; split; intros; break; try discriminate; congruence.
Qed.
#[local] Hint Resolve lookup_record_shape : shape.

Lemma lookups_shape f p v : lookups_at o table_at f p v -> lookups_wf P v.
Proof. shape v. Qed.
#[local] Hint Resolve lookups_shape : shape.

Lemma list_shape {A} (elem : N -> A -> Prop) (Q : A -> Prop) base offset default v :
  (forall p v, elem p v -> Q v) -> Q default -> list_at o elem base offset default v -> Q v.
Proof. intros HQ Hd [(_ & _ & ->)|[_ H]]; eauto. Qed.

Lemma directory_shape f p v : directory_at o table_at f p v -> directory_wf P v.
Proof.
  destruct v as [major minor a b c w scripts features lookups variations].
  cbn -[N.testbit]. intros H. break. conjuncts; try shaped.
  - eapply list_shape; [| |eassumption]; [solve [eauto with shape]|].
    repeat split; constructor.
  - eapply list_shape; [| |eassumption]; [solve [eauto with shape]|].
    repeat split; constructor.
  - eapply list_shape; [| |eassumption]; [solve [eauto with shape]|].
    repeat split; constructor.
  - intros Hm. destruct variations; [|reflexivity].
    match goal with H : maybe_at _ _ w _ |- _ => destruct H as [Hw _] end. tauto.
Qed.
End Lookup.

(** ** [GSUB] *)

Lemma alternates_shape f p v : alternates_at f p v -> alternates_wf v.
Proof. shape v. Qed.
#[local] Hint Resolve alternates_shape : shape.

Lemma sequence_shape f p v : sequence_at f p v -> sequence_wf v.
Proof. shape v. Qed.
#[local] Hint Resolve sequence_shape : shape.

Lemma ligature_shape f p v : ligature_at f p v -> ligature_wf v.
Proof. shape v. Qed.
#[local] Hint Resolve ligature_shape : shape.

Lemma ligatures_shape f p v : ligatures_at f p v -> ligatures_wf v.
Proof. shape v. Qed.
#[local] Hint Resolve ligatures_shape : shape.

Lemma single_substitution_shape f p v : single_substitution_at f p v -> single_substitution_wf v.
Proof. destruct v as [v|v]; shape v. Qed.
#[local] Hint Resolve single_substitution_shape : shape.

Lemma gsub_type_shape type_ f p v : gsub_type_at type_ f p v -> gsub_type_wf type_ v.
Proof.
  destruct v as [v|v|v|v|v|v|v|v]; cbn [gsub_type_at gsub_type_wf]; intros [-> H];
    try (split; [reflexivity|shaped]); revert H; shape v.
Qed.
#[local] Hint Resolve gsub_type_shape : shape.

Lemma glyph_substitution_shape o f p v : glyph_substitution_at o f p v -> glyph_substitution_wf v.
Proof. apply directory_shape. eauto with shape. Qed.

(** ** [GPOS] *)

Lemma anchor_shape f p v : anchor_at f p v -> anchor_wf v.
Proof. destruct v as [v|v|v]; shape v. Qed.
#[local] Hint Resolve anchor_shape : shape.

Lemma base_shape f base n p v : base_at f base n p v -> base_wf n v.
Proof. shape v. Qed.
#[local] Hint Resolve base_shape : shape.

Lemma bases_shape f n p v : bases_at f n p v -> bases_wf n v.
Proof. shape v. Qed.
#[local] Hint Resolve bases_shape : shape.

Lemma component_shape f base n p v : component_at f base n p v -> component_wf n v.
Proof. shape v. Qed.
#[local] Hint Resolve component_shape : shape.

Lemma gpos_ligature_shape f n p v : gpos_ligature_at f n p v -> gpos_ligature_wf n v.
Proof. shape v. Qed.
#[local] Hint Resolve gpos_ligature_shape : shape.

Lemma gpos_ligatures_shape f n p v : gpos_ligatures_at f n p v -> gpos_ligatures_wf n v.
Proof. shape v. Qed.
#[local] Hint Resolve gpos_ligatures_shape : shape.

Lemma mark2_shape f base n p v : mark2_at f base n p v -> mark2_wf n v.
Proof. shape v. Qed.
#[local] Hint Resolve mark2_shape : shape.

Lemma mark2s_shape f n p v : mark2s_at f n p v -> mark2s_wf n v.
Proof. shape v. Qed.
#[local] Hint Resolve mark2s_shape : shape.

Lemma mark1_shape o f base p v : mark1_at o f base p v -> mark1_wf o v.
Proof.
  destruct v as [class_id offset anchor]. cbn. intros (_ & _ & [(H & Hi & Ha)|[_ H]]).
  - right. auto.
  - left. shaped.
Qed.
#[local] Hint Resolve mark1_shape : shape.

Lemma mark1s_shape o f p v : mark1s_at o f p v -> mark1s_wf o v.
Proof. shape v. Qed.
#[local] Hint Resolve mark1s_shape : shape.

Lemma connection_shape f base p v : connection_at f base p v -> connection_wf v.
Proof. shape v. Qed.
#[local] Hint Resolve connection_shape : shape.

Lemma field_shape {A} (elem : N -> A -> Prop) flags k p v :
  field_at elem flags k p v -> announced flags (N.of_nat k) v.
Proof. unfold announced. destruct v; cbn -[N.testbit]; split; intros; break; congruence. Qed.

Lemma corrected_shape f base offset v : corrected_at f base offset v -> corrected_wf offset v.
Proof. destruct offset; cbn; [|auto]. intros H. split; shaped. Qed.

Lemma single_shape f base flags p v : single_at f base flags p v -> single_wf flags v.
Proof.
  destruct v. cbn -[field_at N.testbit]. intros H. break.
  conjuncts; first [ apply corrected_shape with f base; assumption
    | match goal with H : field_at _ flags ?k p ?v |- announced flags _ ?v =>
        exact (field_shape _ _ k _ _ H) end ].
Qed.
#[local] Hint Resolve single_shape : shape.

Lemma value_shape f base flags p v : value_at f base flags p v -> value_wf flags v.
Proof.
  unfold value_wf. destruct v as [v|]; cbn; intros H; break.
  - split; [split; [discriminate|tauto]|shaped].
  - tauto.
Qed.
#[local] Hint Resolve value_shape : shape.

Lemma pair1_shape f base flags1 flags2 p v : pair1_at f base flags1 flags2 p v -> pair1_wf flags1 flags2 v.
Proof. shape v. Qed.
#[local] Hint Resolve pair1_shape : shape.

Lemma pair1s_shape f flags1 flags2 p v : pair1s_at f flags1 flags2 p v -> pair1s_wf flags1 flags2 v.
Proof. shape v. Qed.
#[local] Hint Resolve pair1s_shape : shape.

Lemma pair2_shape f base flags1 flags2 p v : pair2_at f base flags1 flags2 p v -> pair2_wf flags1 flags2 v.
Proof. shape v. Qed.
#[local] Hint Resolve pair2_shape : shape.

Lemma pair2s_shape f base n flags1 flags2 p v :
  pair2s_at f base n flags1 flags2 p v -> pair2s_wf n flags1 flags2 v.
Proof. shape v. Qed.
#[local] Hint Resolve pair2s_shape : shape.

Lemma gpos_type_shape o type_ f p v : gpos_type_at o type_ f p v -> gpos_type_wf o type_ v.
Proof.
  destruct v as [[v|v]|[v|v]|v|v|v|v|v|v|v]; cbn [gpos_type_at gpos_type_wf]; intros [-> H];
    try (split; [reflexivity|shaped]); revert H; shape v.
Qed.
#[local] Hint Resolve gpos_type_shape : shape.

Lemma glyph_positioning_shape o f p v : glyph_positioning_at o f p v -> glyph_positioning_wf o v.
Proof. apply directory_shape. eauto with shape. Qed.

(** ** [GDEF] *)

Lemma attachment_shape f p v : attachment_at f p v -> attachment_wf v.
Proof. shape v. Qed.
#[local] Hint Resolve attachment_shape : shape.

Lemma attachments_shape f p v : attachments_at f p v -> attachments_wf v.
Proof. shape v. Qed.
#[local] Hint Resolve attachments_shape : shape.

(** A 32-bit number below 2^16 is a zero word and the number itself. *)
Lemma small_words f p n : n < 65536 -> u32_at f p n -> u16_at f p 0 /\ u16_at f (p + 2) n.
Proof.
  intros Hn (h & l & Hh & Hl & E). assert (l < 65536)
    by exact (u16_bound (mkEnv f (mkOptions true true true true true)) _ _ Hl).
  assert (h = 0) by lia. assert (l = n) by lia. subst. auto.
Qed.

Lemma i16_small f p n v : n < 32768 -> u16_at f p n -> i16_at f p v -> v = Z.of_N n.
Proof.
  intros Hn Hu (u & Hu' & ->). rewrite (u16_fun _ _ _ _ Hu' Hu).
  destruct (N.ltb_spec n 32768); [reflexivity|lia].
Qed.

Lemma caret_shape f p v : caret_at f p v -> caret_wf v.
Proof.
  destruct v as [v|v|v]; destruct v; cbn; intros H; break;
    match goal with H : u32_at f p _ |- _ => apply small_words in H; [|lia]; break end;
    conjuncts; try shaped;
    first [ eapply u16_fun; eassumption
          | eapply (i16_small f _ 1); [lia|eassumption|eassumption]
          | eapply (i16_small f _ 3); [lia|eassumption|eassumption] ].
Qed.
#[local] Hint Resolve caret_shape : shape.

Lemma gdef_ligature_shape f p v : gdef_ligature_at f p v -> gdef_ligature_wf v.
Proof. shape v. Qed.
#[local] Hint Resolve gdef_ligature_shape : shape.

Lemma gdef_ligatures_shape f p v : gdef_ligatures_at f p v -> gdef_ligatures_wf v.
Proof. shape v. Qed.
#[local] Hint Resolve gdef_ligatures_shape : shape.

Lemma marks_shape f p v : marks_at f p v -> marks_wf v.
Proof. shape v. Qed.
#[local] Hint Resolve marks_shape : shape.

Lemma store_record_shape o f p v : store_record_at o f p v -> store_record_wf v.
Proof.
  destruct v. unfold store_record_at, store_record_wf. intros H. break. conjuncts; shaped.
Qed.
#[local] Hint Resolve store_record_shape : shape.

Lemma store_shape o f p v : store_at o f p v -> store_wf v.
Proof. shape v. Qed.
#[local] Hint Resolve store_shape : shape.

Lemma glyph_definition_shape o f p v : glyph_definition_at o f p v -> glyph_definition_wf v.
Proof.
  destruct v as [[h|h|h] ? ? ? ? ? ?]; destruct h;
    cbn -[N.mul N.add]; intros H; break; subst; unfold anchors_wf; conjuncts; shaped.
Qed.

(** ** [CPAL] and [fvar] *)

Lemma color_palettes_shape f p v : color_palettes_at f p v -> color_palettes_wf v.
Proof. destruct v as [[h|h] ?]; destruct h; cbn; intros H; break; subst; conjuncts; shaped. Qed.

Lemma font_variations_shape o f p v : font_variations_at o f p v -> font_variations_wf v.
Proof.
  destruct v as [[] axes instances]. cbn. intros H. break. conjuncts; try shaped.
  eapply vec_Forall; [|eassumption]. intros q []. cbn. intros H'. break. shaped.
Qed.
