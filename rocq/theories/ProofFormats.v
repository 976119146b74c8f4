(** Each reader reads exactly its format: the results of Proof*.v in the vocabulary of
    Api.v. *)

From Verif Require Export Requests.
From Verif Require Import Reads ReadsTactics ProofLayout ProofGdef ProofGsub ProofGpos ProofCpal
  ProofFvar ProofFont
  ProofRequests.

Lemma finds_exactly {A} o (m : M A) f p P : finds True m (mkEnv f o) p P -> reads_exactly o m f p P.
Proof.
  intros H. split; [exact (proj2 H)|]. split; [|exact (proj1 H I)].
  unfold fails. rewrite (finds_fails _ _ _ _ H). split.
  - intros Hn v Hv. apply Hn. eauto.
  - intros Hn [v Hv]. exact (Hn v Hv).
Qed.

(** A read that is exact fails on what has not the format. *)
Lemma exactly_fails {A} o (m : M A) f p P : reads_exactly o m f p P -> (forall v, ~ P v) -> fails o m f p.
Proof. intros (_ & H & _). apply H. Qed.

Section Formats.
Context (o : options) (f : file) (p : N) (Hb : bounded f).

Let e := mkEnv f o.
Local Ltac exact_by H := apply finds_exactly; exact H.

Lemma coverage_exactly : reads_exactly o read_coverage f p (coverage_at f p).
Proof. exact_by (read_coverage_finds True e p). Qed.

Lemma class_exactly : reads_exactly o read_class f p (class_at f p).
Proof. exact_by (read_class_finds True e p). Qed.

Lemma correction_exactly : reads_exactly o read_correction f p (correction_at f p).
Proof. exact_by (read_correction_finds True e p). Qed.

Lemma context_exactly : reads_exactly o read_context f p (context_at f p).
Proof. exact_by (read_context_finds True e Hb p). Qed.

Lemma chained_context_exactly : reads_exactly o read_chained_context f p (chained_context_at f p).
Proof. exact_by (read_chained_context_finds True e Hb p). Qed.

Lemma scripts_exactly : reads_exactly o read_scripts f p (scripts_at f p).
Proof. exact_by (read_scripts_finds True e Hb p). Qed.

Lemma features_exactly : reads_exactly o read_features f p (features_at f p).
Proof. exact_by (read_features_finds True e Hb p). Qed.

Lemma gsub_type_exactly type_ : reads_exactly o (read_gsub_type type_) f p (gsub_type_at type_ f p).
Proof. exact_by (read_gsub_type_finds True e Hb type_ p). Qed.

Lemma gpos_type_exactly type_ : reads_exactly o (read_gpos_type type_) f p (gpos_type_at o type_ f p).
Proof. exact_by (read_gpos_type_finds True e Hb type_ p). Qed.

Lemma gsub_lookups_exactly : reads_exactly o (read_lookups read_gsub_type) f p (lookups_at o gsub_type_at f p).
Proof.
  apply finds_exactly. apply (read_lookups_finds True e Hb). intros. apply (read_gsub_type_finds True e Hb).
Qed.

Lemma gpos_lookups_exactly :
  reads_exactly o (read_lookups read_gpos_type) f p (lookups_at o (gpos_type_at o) f p).
Proof.
  apply finds_exactly. apply (read_lookups_finds True e Hb). intros. apply (read_gpos_type_finds True e Hb).
Qed.

Lemma mark1s_exactly : reads_exactly o read_mark1s f p (mark1s_at o f p).
Proof. exact_by (read_mark1s_finds True e Hb p). Qed.

Lemma bases_exactly n : reads_exactly o (read_bases n) f p (bases_at f n p).
Proof. exact_by (read_bases_finds True e Hb n p). Qed.

Lemma mark2s_exactly n : reads_exactly o (read_mark2s n) f p (mark2s_at f n p).
Proof. exact_by (read_mark2s_finds True e Hb n p). Qed.

Lemma ligatures_exactly n : reads_exactly o (read_gpos_ligatures n) f p (gpos_ligatures_at f n p).
Proof. exact_by (read_gpos_ligatures_finds True e Hb n p). Qed.

Lemma single_exactly base flags :
  base < 2 ^ 63 -> reads_exactly o (read_single base flags) f p (single_at f base flags p).
Proof. intros H. apply finds_exactly. eapply takes_finds, (read_single_takes True e base flags p H). Qed.

Lemma single_size base flags v q :
  base < 2 ^ 63 -> read_single base flags (mkEnv f o) p = Ok (v, q) -> q = p + value_size flags.
Proof. intros H E. apply (read_single_takes True e base flags p H) in E. apply E. Qed.

Lemma request_exactly {A} (r : request A) :
  is_gdef r = false \/ overflow_checks o = false ->
  reads_exactly o (reader r) f p (conforms o r f p).
Proof. intros H. apply finds_exactly. apply request_finds; [exact Hb|intros _; exact H]. Qed.

Lemma store_reads v : reads o read_store f p v <-> store_at o f p v.
Proof. exact (proj2 (read_store_finds False e Hb p ltac:(tauto)) v). Qed.

Lemma store_exactly : overflow_checks o = false -> reads_exactly o read_store f p (store_at o f p).
Proof. intros H. exact_by (read_store_finds True e Hb p (fun _ => H)). Qed.

(** Formats, types and versions that are not known. *)

Lemma coverage_other x : u16_at f p x -> x <> 1 -> x <> 2 -> fails o read_coverage f p.
Proof.
  intros Hx H1 H2. apply (exactly_fails _ _ _ _ _ coverage_exactly).
  intros [[y n l]|[y n l]]; cbn [coverage_at coverage1_format coverage2_format coverage1_at coverage2_at];
    intros (-> & Hy & _); eauto using u16_fun.
Qed.

Lemma class_other x : u16_at f p x -> x <> 1 -> x <> 2 -> fails o read_class f p.
Proof.
  intros Hx H1 H2. apply (exactly_fails _ _ _ _ _ class_exactly).
  intros [[y s n l]|[y n l]]; cbn [class_at class1_format class2_format class1_at class2_at];
    intros (-> & Hy & _); eauto using u16_fun.
Qed.

Lemma context_other x : u16_at f p x -> ~ 1 <= x <= 3 -> fails o read_context f p.
Proof.
  intros Hx H1. apply (exactly_fails _ _ _ _ _ context_exactly).
  intros [[y ? ? ? ? ?]|[y ? ? ? ? ? ? ?]|[y ? ? ? ? ?]]; cbn [context_at context1_format context2_format
    context3_format context1_at context2_at context3_at];
    intros (-> & Hy & _); assert (E := u16_fun _ _ _ _ Hx Hy); lia.
Qed.

Lemma chained_context_other x : u16_at f p x -> ~ 1 <= x <= 3 -> fails o read_chained_context f p.
Proof.
  intros Hx H1. apply (exactly_fails _ _ _ _ _ chained_context_exactly).
  intros [[y ? ? ? ? ?]|[y ? ? ? ? ? ? ? ? ? ? ?]|[y ? ? ? ? ? ? ? ? ? ? ?]];
    cbn [chained_context_at chained_context1_format chained_context2_format
    chained_context3_format chained_context1_at chained_context2_at chained_context3_at];
    intros (-> & Hy & _); assert (E := u16_fun _ _ _ _ Hx Hy); lia.
Qed.

Lemma correction_other x :
  u16_at f (p + 4) x -> ~ 1 <= x <= 3 -> x <> 0x8000 -> fails o read_correction f p.
Proof.
  intros Hx H1 H2. apply (exactly_fails _ _ _ _ _ correction_exactly).
  intros [[a b y l]|[a b y]]; cbn [correction_at device_at variation_at variation_format].
  - intros (_ & _ & _ & Hy & Hr & _). assert (E := u16_fun _ _ _ _ Hx Hy). lia.
  - intros (-> & _ & _ & Hy). exact (H2 (u16_fun _ _ _ _ Hx Hy)).
Qed.

Lemma gsub_type_other type_ : ~ 1 <= type_ <= 8 -> fails o (read_gsub_type type_) f p.
Proof.
  intros H. apply (exactly_fails _ _ _ _ _ (gsub_type_exactly type_)).
  intros [t|t|t|t|t|t|t|t]; cbn [gsub_type_at]; intros [E _]; lia.
Qed.

Lemma gpos_type_other type_ : ~ 1 <= type_ <= 9 -> fails o (read_gpos_type type_) f p.
Proof.
  intros H. apply (exactly_fails _ _ _ _ _ (gpos_type_exactly type_)).
  intros [t|t|t|t|t|t|t|t|t]; cbn [gpos_type_at]; intros [E _]; lia.
Qed.

Lemma directory_version {T} (table_at : N -> file -> N -> T -> Prop) v x :
  u32_at f p x -> directory_at o table_at f p v -> x = 0x10000 \/ x = 0x10001.
Proof.
  intros (h & l & Hh & Hl & ->) H. destruct v as [a b s t w y scripts features lookups variations].
  destruct H as (Ha & -> & Hv & Hb' & _).
  assert (E := u16_fun _ _ _ _ Hh Ha). assert (E' := u16_fun _ _ _ _ Hl Hv). lia.
Qed.

Lemma gsub_version x :
  u32_at f p x -> x <> 0x10000 -> x <> 0x10001 -> fails o read_glyph_substitution f p.
Proof.
  intros Hx H0 H1. apply (exactly_fails _ _ _ _ _ (request_exactly RequestGsub (or_introl eq_refl))).
  intros v Hv. destruct (directory_version _ _ _ Hx Hv); tauto.
Qed.

Lemma gpos_version x :
  u32_at f p x -> x <> 0x10000 -> x <> 0x10001 -> fails o read_glyph_positioning f p.
Proof.
  intros Hx H0 H1. apply (exactly_fails _ _ _ _ _ (request_exactly RequestGpos (or_introl eq_refl))).
  intros v Hv. destruct (directory_version _ _ _ Hx Hv); tauto.
Qed.

Lemma gdef_version_of v x :
  u32_at f p x -> glyph_definition_at o f p v -> x = 0x10000 \/ x = 0x10002 \/ x = 0x10003.
Proof.
  intros (h & l & Hh & Hl & ->) H. destruct v as [header a b c d m s].
  unfold glyph_definition_at, glyph_definition_with in H.
  assert (Hd : gdef_header_at f p header).
  { destruct (gdef_offsets header) as [[[[[x0 x1] x2] x3] x4] x5]. apply H. }
  destruct header as [t|t|t]; destruct t; cbn in Hd; destruct Hd as (Ha & -> & Hv & -> & _);
    rewrite (u16_fun _ _ _ _ Hh Ha), (u16_fun _ _ _ _ Hl Hv); auto.
Qed.

Lemma gdef_version x v :
  u32_at f p x -> reads o read_glyph_definition f p v -> x = 0x10000 \/ x = 0x10002 \/ x = 0x10003.
Proof.
  intros Hx H. apply (request_reads RequestGdef) in H; [|exact Hb]. eapply gdef_version_of; eassumption.
Qed.

Lemma cpal_version x :
  u16_at f p x -> x <> 0 -> x <> 1 -> fails o read_color_palettes f p.
Proof.
  intros Hx H0 H1. apply (exactly_fails _ _ _ _ _ (request_exactly RequestCpal (or_introl eq_refl))).
  intros [header colors] H. cbn [conforms color_palettes_at] in H.
  assert (Hd : cpal_header_at f p header).
  { destruct (cpal_layout header) as [[[a b] c] i]. apply H. }
  destruct header as [t|t]; destruct t; cbn in Hd; destruct Hd as (Ha & -> & _);
    pose proof (u16_fun _ _ _ _ Hx Ha); tauto.
Qed.
End Formats.

Lemma exactly_finds {A} o (m : M A) f p P : reads_exactly o m f p P -> finds True m (mkEnv f o) p P.
Proof. intros (H & _ & Hn). split; [intros _; exact Hn|exact H]. Qed.

(** A lookup list over any kind of subtable. *)
Lemma lookups_exactly {T} o (read_table : N -> M T) (table_at : N -> file -> N -> T -> Prop) f p :
  bounded f ->
  (forall type_ q, reads_exactly o (read_table type_) f q (table_at type_ f q)) ->
  reads_exactly o (read_lookups read_table) f p (lookups_at o table_at f p).
Proof.
  intros Hb H. apply finds_exactly, (read_lookups_finds True (mkEnv f o) Hb).
  intros type_ q. apply exactly_finds, H.
Qed.

(** ** Strides *)

Lemma mark_strides o f p v : bounded f -> reads o read_mark1s f p v -> forall i m,
  nth_error (mark1s_records v) i = Some m -> mark1_at o f p (p + 2 + 4 * N.of_nat i) m.
Proof.
  intros Hb H i m Hi. apply (proj1 (mark1s_exactly o f p Hb)) in H. destruct v as [n l].
  destruct H as (_ & _ & H). apply H, Hi.
Qed.
