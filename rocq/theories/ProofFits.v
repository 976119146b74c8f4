(** What is in a file is within range. *)

From Verif Require Export SpecFits SpecShape SpecGsub SpecGpos SpecGdef SpecCpal SpecFvar SpecFont.

Lemma u8_at_fits f p v : u8_at f p v -> u8 v.
Proof. intros (b & _ & ->). pose proof (Byte.to_N_bounded b). unfold u8. lia. Qed.

Lemma u16_at_fits f p v : u16_at f p v -> u16 v.
Proof.
  intros (b & c & _ & _ & ->). pose proof (Byte.to_N_bounded b). pose proof (Byte.to_N_bounded c).
  unfold u16. lia.
Qed.

Lemma u32_at_fits f p v : u32_at f p v -> u32 v.
Proof.
  intros (b & c & B & C & ->). apply u16_at_fits in B, C. unfold u16, u32 in *. lia.
Qed.

Lemma i16_at_fits f p v : i16_at f p v -> i16 v.
Proof.
  intros (u & U & ->). apply u16_at_fits in U. unfold u16, i16 in *.
  destruct (N.ltb_spec u 32768); lia.
Qed.

Lemma i32_at_fits f p v : i32_at f p v -> i32 v.
Proof.
  intros (u & U & ->). apply u32_at_fits in U. unfold u32, i32 in *.
  destruct (N.ltb_spec u 2147483648); lia.
Qed.

Lemma vec_at_fits {A} (elem : N -> A -> Prop) (P : A -> Prop) s p n l :
  (forall q v, elem q v -> P v) -> vec_at elem s p n l -> Forall P l.
Proof.
  intros E [_ H]. apply Forall_forall. intros v I. apply In_nth_error in I. destruct I as [i I].
  eapply E, H, I.
Qed.

Lemma linked_at_fits {A} (elem : N -> A -> Prop) (P : A -> Prop) b os l :
  (forall q v, elem q v -> P v) -> linked_at elem b os l -> Forall P l.
Proof.
  intros E H. unfold linked_at in H. induction H; constructor; eauto.
Qed.

Lemma maybe_at_fits {A} (elem : N -> A -> Prop) (P : A -> Prop) b k v :
  (forall q v, elem q v -> P v) -> maybe_at elem b k v -> maybe_fits P v.
Proof.
  intros E H. destruct v as [x|]; cbn; [|exact I]. destruct H as [_ H]. eapply E, H.
Qed.

Lemma maybes_at_fits {A} (elem : N -> A -> Prop) (P : A -> Prop) b os l :
  (forall q v, elem q v -> P v) -> maybes_at elem b os l -> Forall (maybe_fits P) l.
Proof.
  intros E H. unfold maybes_at in H. induction H; constructor; eauto using maybe_at_fits.
Qed.

Lemma flags_at_fits checked reserved f p v : flags_at checked reserved f p v -> flags16 checked reserved v.
Proof. intros [U R]. split; [eapply u16_at_fits, U|exact R]. Qed.

Lemma u8s_at_fits f p n l : u8s_at f p n l -> Forall u8 l.
Proof. apply vec_at_fits. intros q v. apply u8_at_fits. Qed.

Lemma u16s_at_fits f p n l : u16s_at f p n l -> Forall u16 l.
Proof. apply vec_at_fits. intros q v. apply u16_at_fits. Qed.

Lemma i32s_at_fits f p n l : i32s_at f p n l -> Forall i32 l.
Proof. apply vec_at_fits. intros q v. apply i32_at_fits. Qed.

Create HintDb fitting.

#[export] Hint Resolve u8_at_fits u16_at_fits u32_at_fits i16_at_fits i32_at_fits flags_at_fits
  u8s_at_fits u16s_at_fits i32s_at_fits : fitting.

#[export] Hint Extern 2 (Forall (maybe_fits _) _) =>
  eapply maybes_at_fits; [|eassumption]; intros ? ?; eauto with fitting : fitting.
#[export] Hint Extern 3 (Forall _ _) =>
  eapply linked_at_fits; [|eassumption]; intros ? ?; eauto with fitting : fitting.
#[export] Hint Extern 3 (Forall _ _) =>
  eapply vec_at_fits; [|eassumption]; intros ? ?; eauto with fitting : fitting.
#[export] Hint Extern 2 (maybe_fits _ _) =>
  eapply maybe_at_fits; [|eassumption]; intros ? ?; eauto with fitting : fitting.

Ltac fitting :=
  cbn; intros;
  repeat match goal with H : _ /\ _ |- _ => destruct H end;
  repeat match goal with |- _ /\ _ => split end;
  try exact I; eauto with fitting.

Lemma coverage_record_at_fits f p v : coverage_record_at f p v -> coverage_record_fits v.
Proof. destruct v. fitting. Qed.
#[export] Hint Resolve coverage_record_at_fits : fitting.

Lemma coverage_at_fits f p v : coverage_at f p v -> coverage_fits v.
Proof. destruct v as [[]|[]]; fitting. Qed.
#[export] Hint Resolve coverage_at_fits : fitting.

Lemma class_record_at_fits f p v : class_record_at f p v -> class_record_fits v.
Proof. destruct v. fitting. Qed.
#[export] Hint Resolve class_record_at_fits : fitting.

Lemma class_at_fits f p v : class_at f p v -> class_fits v.
Proof. destruct v as [[]|[]]; fitting. Qed.
#[export] Hint Resolve class_at_fits : fitting.

Lemma correction_at_fits f p v : correction_at f p v -> correction_fits v.
Proof. destruct v as [[]|[]]; fitting. Qed.
#[export] Hint Resolve correction_at_fits : fitting.

Lemma action_at_fits f p v : action_at f p v -> action_fits v.
Proof. destruct v. fitting. Qed.
#[export] Hint Resolve action_at_fits : fitting.

Lemma context_record_at_fits f p v : context_record_at f p v -> context_record_fits v.
Proof. destruct v. fitting. Qed.
#[export] Hint Resolve context_record_at_fits : fitting.

Lemma context_records_at_fits f p v : context_records_at f p v -> context_records_fits v.
Proof. destruct v. fitting. Qed.
#[export] Hint Resolve context_records_at_fits : fitting.

Lemma context_class_record_at_fits f p v : context_class_record_at f p v -> context_class_record_fits v.
Proof. destruct v. fitting. Qed.
#[export] Hint Resolve context_class_record_at_fits : fitting.

Lemma context_class_records_at_fits f p v : context_class_records_at f p v -> context_class_records_fits v.
Proof. destruct v. fitting. Qed.
#[export] Hint Resolve context_class_records_at_fits : fitting.

Lemma chained_record_at_fits f p v : chained_record_at f p v -> chained_record_fits v.
Proof. destruct v. fitting. Qed.
#[export] Hint Resolve chained_record_at_fits : fitting.

Lemma chained_records_at_fits f p v : chained_records_at f p v -> chained_records_fits v.
Proof. destruct v. fitting. Qed.
#[export] Hint Resolve chained_records_at_fits : fitting.

Lemma chained_class_record_at_fits f p v : chained_class_record_at f p v -> chained_class_record_fits v.
Proof. destruct v. fitting. Qed.
#[export] Hint Resolve chained_class_record_at_fits : fitting.

Lemma chained_class_records_at_fits f p v : chained_class_records_at f p v -> chained_class_records_fits v.
Proof. destruct v. fitting. Qed.
#[export] Hint Resolve chained_class_records_at_fits : fitting.

Lemma context_at_fits f p v : context_at f p v -> context_fits v.
Proof. destruct v as [[]|[]|[]]; fitting. Qed.
#[export] Hint Resolve context_at_fits : fitting.

Lemma chained_context_at_fits f p v : chained_context_at f p v -> chained_context_fits v.
Proof. destruct v as [[]|[]|[]]; fitting. Qed.
#[export] Hint Resolve chained_context_at_fits : fitting.

(** ** The directory *)

Lemma language_record_at_fits f p v : language_record_at f p v -> language_record_fits v.
Proof. destruct v. fitting. Qed.
#[export] Hint Resolve language_record_at_fits : fitting.

Lemma script_record_at_fits f p v : script_record_at f p v -> script_record_fits v.
Proof. destruct v. fitting. Qed.
#[export] Hint Resolve script_record_at_fits : fitting.

Lemma scripts_at_fits f p v : scripts_at f p v -> scripts_fits v.
Proof. destruct v. fitting. Qed.
#[export] Hint Resolve scripts_at_fits : fitting.

Lemma feature_record_at_fits f p v : feature_record_at f p v -> feature_record_fits v.
Proof. destruct v as [? ? ? [|]]; fitting; subst; reflexivity. Qed.
#[export] Hint Resolve feature_record_at_fits : fitting.

Lemma features_at_fits f p v : features_at f p v -> features_fits v.
Proof. destruct v. fitting. Qed.
#[export] Hint Resolve features_at_fits : fitting.

Lemma feature_variations_at_fits f p v : feature_variations_at f p v -> feature_variations_fits v.
Proof. destruct v. fitting. Qed.
#[export] Hint Resolve feature_variations_at_fits : fitting.

Lemma list_at_fits {A} o (elem : N -> A -> Prop) (P : A -> Prop) b k d v :
  P d -> (forall q v, elem q v -> P v) -> list_at o elem b k d v -> P v.
Proof. intros D E [(_ & _ & ->)|[_ H]]; [exact D|eapply E, H]. Qed.

Section Lookups.
  Variable T : Type.
  Variable o : options.
  Variable table_at : N -> file -> N -> T -> Prop.
  Variable P : T -> Prop.
  Hypothesis table_fits : forall type_ f p v, table_at type_ f p v -> P v.
  Local Hint Resolve table_fits : fitting.

  Lemma lookup_record_at_fits f p v : lookup_record_at o table_at f p v -> lookup_record_fits o P v.
  Proof. destruct v as [? ? ? ? [|] ?]; fitting. Qed.
  Local Hint Resolve lookup_record_at_fits : fitting.

  Lemma lookups_at_fits f p v : lookups_at o table_at f p v -> lookups_fits o P v.
  Proof. destruct v. fitting. Qed.
  Local Hint Resolve lookups_at_fits : fitting.

  Lemma directory_at_fits f p v : directory_at o table_at f p v -> directory_fits o P v.
  Proof.
    destruct v. cbn. intros (_ & _ & _ & _ & _ & _ & _ & _ & _ & S & F & L & V).
    split; [|split; [|split]].
    - eapply list_at_fits; [|intros q v; apply scripts_at_fits|exact S]. split; [reflexivity|constructor].
    - eapply list_at_fits; [|intros q v; apply features_at_fits|exact F]. split; [reflexivity|constructor].
    - eapply list_at_fits; [|intros q v; apply lookups_at_fits|exact L]. split; [reflexivity|constructor].
    - eauto with fitting.
  Qed.
End Lookups.

(** ** [GSUB] *)

Lemma alternates_at_fits f p v : alternates_at f p v -> alternates_fits v.
Proof. destruct v. fitting. Qed.
#[export] Hint Resolve alternates_at_fits : fitting.

Lemma sequence_at_fits f p v : sequence_at f p v -> sequence_fits v.
Proof. destruct v. fitting. Qed.
#[export] Hint Resolve sequence_at_fits : fitting.

Lemma ligature_at_fits f p v : ligature_at f p v -> ligature_fits v.
Proof. destruct v. fitting. Qed.
#[export] Hint Resolve ligature_at_fits : fitting.

Lemma ligatures_at_fits f p v : ligatures_at f p v -> ligatures_fits v.
Proof. destruct v. fitting. Qed.
#[export] Hint Resolve ligatures_at_fits : fitting.

Lemma single_substitution_at_fits f p v : single_substitution_at f p v -> single_substitution_fits v.
Proof. destruct v as [[]|[]]; fitting. Qed.
#[export] Hint Resolve single_substitution_at_fits : fitting.

Lemma gsub_type_at_fits type_ f p v : gsub_type_at type_ f p v -> gsub_type_fits v.
Proof. destruct v as [?|[]|[]|[]|?|?|[]|[]]; fitting. Qed.
#[export] Hint Resolve gsub_type_at_fits : fitting.

Lemma glyph_substitution_at_fits o f p v : glyph_substitution_at o f p v -> glyph_substitution_fits o v.
Proof. apply directory_at_fits. intros. eauto with fitting. Qed.

(** ** [GPOS] *)

Lemma anchor_at_fits f p v : anchor_at f p v -> anchor_fits v.
Proof. destruct v as [[]|[]|[]]; fitting. Qed.
#[export] Hint Resolve anchor_at_fits : fitting.

Lemma base_at_fits f base n p v : base_at f base n p v -> base_fits v.
Proof. destruct v. unfold base_fits, anchors_fits. fitting. Qed.
#[export] Hint Resolve base_at_fits : fitting.

Lemma component_at_fits f base n p v : component_at f base n p v -> component_fits v.
Proof. destruct v. unfold component_fits, anchors_fits. fitting. Qed.
#[export] Hint Resolve component_at_fits : fitting.

Lemma mark2_at_fits f base n p v : mark2_at f base n p v -> mark2_fits v.
Proof. destruct v. unfold mark2_fits, anchors_fits. fitting. Qed.
#[export] Hint Resolve mark2_at_fits : fitting.

Lemma bases_at_fits f n p v : bases_at f n p v -> bases_fits v.
Proof. destruct v. fitting. Qed.
#[export] Hint Resolve bases_at_fits : fitting.

Lemma gpos_ligature_at_fits f n p v : gpos_ligature_at f n p v -> gpos_ligature_fits v.
Proof. destruct v. fitting. Qed.
#[export] Hint Resolve gpos_ligature_at_fits : fitting.

Lemma gpos_ligatures_at_fits f n p v : gpos_ligatures_at f n p v -> gpos_ligatures_fits v.
Proof. destruct v. fitting. Qed.
#[export] Hint Resolve gpos_ligatures_at_fits : fitting.

Lemma mark2s_at_fits f n p v : mark2s_at f n p v -> mark2s_fits v.
Proof. destruct v. fitting. Qed.
#[export] Hint Resolve mark2s_at_fits : fitting.

Lemma mark1_at_fits o f base p v : mark1_at o f base p v -> mark1_fits v.
Proof.
  destruct v. cbn. intros (C & _ & [(_ & _ & ->)|[_ A]]); split; eauto with fitting.
  cbn. unfold i16. lia.
Qed.
#[export] Hint Resolve mark1_at_fits : fitting.

Lemma mark1s_at_fits o f p v : mark1s_at o f p v -> mark1s_fits v.
Proof. destruct v. fitting. Qed.
#[export] Hint Resolve mark1s_at_fits : fitting.

Lemma connection_at_fits f base p v : connection_at f base p v -> connection_fits v.
Proof. destruct v. fitting. Qed.
#[export] Hint Resolve connection_at_fits : fitting.

Lemma field_at_fits {A} (elem : N -> A -> Prop) (P : A -> Prop) flags k p v :
  (forall q v, elem q v -> P v) -> field_at elem flags k p v -> maybe_fits P v.
Proof. intros E H. destruct v as [x|]; cbn; [|exact I]. destruct H as [_ H]. eapply E, H. Qed.

Lemma corrected_at_fits f base k v : corrected_at f base k v -> maybe_fits correction_fits v.
Proof.
  destruct k; cbn; [|intros ->; exact I]. apply maybe_at_fits. intros q w. apply correction_at_fits.
Qed.
#[export] Hint Resolve corrected_at_fits : fitting.

Lemma single_at_fits f base flags p v : single_at f base flags p v -> single_fits v.
Proof.
  destruct v. cbn. intros (A & B & C & D & _ & _ & _ & _ & E & F & G & H).
  repeat match goal with |- _ /\ _ => split end; eauto with fitting;
    (eapply field_at_fits; [|eassumption]; intros q w; apply i16_at_fits).
Qed.
#[export] Hint Resolve single_at_fits : fitting.

Lemma value_at_fits f base flags p v : value_at f base flags p v -> maybe_fits single_fits v.
Proof. destruct v; fitting. Qed.
#[export] Hint Resolve value_at_fits : fitting.

Lemma pair1_at_fits f base flags1 flags2 p v : pair1_at f base flags1 flags2 p v -> pair1_fits v.
Proof. destruct v. fitting. Qed.
#[export] Hint Resolve pair1_at_fits : fitting.

Lemma pair1s_at_fits f flags1 flags2 p v : pair1s_at f flags1 flags2 p v -> pair1s_fits v.
Proof. destruct v. fitting. Qed.
#[export] Hint Resolve pair1s_at_fits : fitting.

Lemma pair2_at_fits f base flags1 flags2 p v : pair2_at f base flags1 flags2 p v -> pair2_fits v.
Proof. destruct v. fitting. Qed.
#[export] Hint Resolve pair2_at_fits : fitting.

Lemma pair2s_at_fits f base n flags1 flags2 p v : pair2s_at f base n flags1 flags2 p v -> pair2s_fits v.
Proof. destruct v. fitting. Qed.
#[export] Hint Resolve pair2s_at_fits : fitting.

Lemma value_flags_at_fits o f p v : value_flags_at o f p v -> value_flags_fits o v.
Proof. apply flags_at_fits. Qed.
#[export] Hint Resolve value_flags_at_fits : fitting.

Lemma gpos_type_at_fits o type_ f p v : gpos_type_at o type_ f p v -> gpos_type_fits o v.
Proof. destruct v as [[[]|[]]|[[]|[]]|[]|[]|[]|[]|?|?|[]]; fitting. Qed.
#[export] Hint Resolve gpos_type_at_fits : fitting.

Lemma glyph_positioning_at_fits o f p v : glyph_positioning_at o f p v -> glyph_positioning_fits o v.
Proof. apply directory_at_fits. intros. eauto with fitting. Qed.

(** ** [GDEF] *)

Lemma attachment_at_fits f p v : attachment_at f p v -> attachment_fits v.
Proof. destruct v. fitting. Qed.
#[export] Hint Resolve attachment_at_fits : fitting.

Lemma attachments_at_fits f p v : attachments_at f p v -> attachments_fits v.
Proof. destruct v. fitting. Qed.
#[export] Hint Resolve attachments_at_fits : fitting.

Lemma caret_at_fits f p v : caret_at f p v -> caret_fits v.
Proof. destruct v as [[]|[]|[]]; fitting. Qed.
#[export] Hint Resolve caret_at_fits : fitting.

Lemma gdef_ligature_at_fits f p v : gdef_ligature_at f p v -> gdef_ligature_fits v.
Proof. destruct v. fitting. Qed.
#[export] Hint Resolve gdef_ligature_at_fits : fitting.

Lemma gdef_ligatures_at_fits f p v : gdef_ligatures_at f p v -> gdef_ligatures_fits v.
Proof. destruct v. fitting. Qed.
#[export] Hint Resolve gdef_ligatures_at_fits : fitting.

Lemma marks_at_fits f p v : marks_at f p v -> marks_fits v.
Proof. destruct v. fitting. Qed.
#[export] Hint Resolve marks_at_fits : fitting.

Lemma store_record_at_fits o f p v : store_record_at o f p v -> store_record_fits o v.
Proof. destruct v. fitting. Qed.
#[export] Hint Resolve store_record_at_fits : fitting.

Lemma store_at_fits o f p v : store_at o f p v -> store_fits o v.
Proof. destruct v. fitting. Qed.
#[export] Hint Resolve store_at_fits : fitting.

Lemma gdef_header_at_fits f p v : gdef_header_at f p v -> gdef_header_fits v.
Proof. destruct v as [[]|[]|[]]; fitting. Qed.
#[export] Hint Resolve gdef_header_at_fits : fitting.

Lemma glyph_definition_at_fits o f p v : glyph_definition_at o f p v -> glyph_definition_fits o v.
Proof.
  destruct v as [header ? ? ? ? ? ?]. unfold glyph_definition_at, glyph_definition_with.
  destruct (gdef_offsets header) as [[[[[? ?] ?] ?] ?] ?]. fitting.
Qed.

(** ** [CPAL] and [fvar] *)

Lemma color_at_fits f p v : color_at f p v -> color_fits v.
Proof. destruct v. fitting. Qed.
#[export] Hint Resolve color_at_fits : fitting.

Lemma color_palettes_at_fits f p v : color_palettes_at f p v -> color_palettes_fits v.
Proof. destruct v as [[[]|[]] ?]; fitting. Qed.
#[export] Hint Resolve color_palettes_at_fits : fitting.

Lemma axis_record_at_fits o f p v : axis_record_at o f p v -> axis_record_fits o v.
Proof. destruct v. fitting. Qed.
#[export] Hint Resolve axis_record_at_fits : fitting.

Lemma instance_record_at_fits o f n p v : instance_record_at o f n p v -> instance_record_fits o v.
Proof. destruct v. fitting. Qed.
#[export] Hint Resolve instance_record_at_fits : fitting.

Lemma font_variations_at_fits o f p v : font_variations_at o f p v -> font_variations_fits o v.
Proof. destruct v as [[] ? ?]. fitting. Qed.
#[export] Hint Resolve font_variations_at_fits : fitting.

(** ** The table directory *)

Lemma offset_record_at_fits f p v : offset_record_at f p v -> offset_record_fits v.
Proof. destruct v. fitting. Qed.
#[export] Hint Resolve offset_record_at_fits : fitting.

Lemma offsets_at_fits f p v : offsets_at f p v -> offsets_fits v.
Proof. destruct v as [[] ?]. fitting. Qed.
