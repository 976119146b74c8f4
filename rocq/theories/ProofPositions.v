(** Where the cursor is after a read. *)

From Verif Require Import Reads ProofWriter ProofWriterGsub ProofWriterTables ProofLayout ProofGsub
  ProofGpos ProofGdef ProofCpal ProofFvar ProofFont.
From Verif Require Export SpecPositions SpecFits SpecShape Samples.

Section Positions.
Variable e : env.
Hypothesis Hb : bounded (content e).

Lemma takes_ends {A} (m : M A) p P n v q : takes False m e p P n -> m e p = Ok (v, q) -> q = p + n.
Proof. intros [_ H] E. apply H in E. tauto. Qed.

Lemma takes_holds {A} (m : M A) p P n v q : takes False m e p P n -> m e p = Ok (v, q) -> P v /\ q = p + n.
Proof. intros [_ H] E. apply H. exact E. Qed.

Lemma vec_length {A} (P : N -> A -> Prop) n p count v : vec_at P n p count v -> N.of_nat (length v) = count.
Proof. intros [H _]. exact H. Qed.

Lemma u16_ends p v q : take_u16 e p = Ok (v, q) -> q = p + 2.
Proof. apply (takes_ends _ _ _ _ _ _ (take_u16_takes False e p)). Qed.

Lemma u32_ends p v q : take_u32 e p = Ok (v, q) -> q = p + 4.
Proof. apply (takes_ends _ _ _ _ _ _ (take_u32_takes False e p)). Qed.

Lemma i16_ends p v q : take_i16 e p = Ok (v, q) -> q = p + 2.
Proof. apply (takes_ends _ _ _ _ _ _ (take_i16_takes False e p)). Qed.

Lemma const_ends c p v q : take_const take_u16 c e p = Ok (v, q) -> q = p + 2.
Proof. apply (takes_ends _ _ _ _ _ _ (take_const_takes False e _ p _ _ c (take_u16_takes False e p))). Qed.

Lemma vec_ends {A} (m : M A) P n count p v q :
  (forall q, takes False m e q (P q) n) -> take_vec count m e p = Ok (v, q) ->
  q = p + n * N.of_nat (length v).
Proof.
  intros H E. destruct (takes_holds _ _ _ _ _ _ (take_vec_takes False e m P n count p H) E) as [Hv ->].
  rewrite (vec_length _ _ _ _ _ Hv). reflexivity.
Qed.

Lemma u16s_ends count p v q : take_vec count take_u16 e p = Ok (v, q) -> q = p + 2 * N.of_nat (length v).
Proof. apply (vec_ends _ _ _ count p v q (take_u16_takes False e)). Qed.

Lemma peek_ok {A B} (m : M A) (k : A -> M B) p w q :
  bind (peek m) k e p = Ok (w, q) -> exists v, k v e p = Ok (w, q).
Proof.
  intros H. apply bind_ok in H as (v & r & Hm & Hk). unfold peek, stay in Hm.
  destruct (m e p) as [[x s]|x|]; try discriminate Hm. injection Hm as <- <-. eauto.
Qed.

Lemma ret_ok {A} (a : A) p v q : ret a e p = Ok (v, q) -> v = a /\ q = p.
Proof. intros H. injection H as <- <-. split; reflexivity. Qed.
End Positions.

Ltac step H :=
  let x := fresh "x" in let r := fresh "r" in let E := fresh "E" in
  apply bind_ok in H as (x & r & E & H).

Ltac steps H := repeat step H; apply ret_ok in H as [-> ->].

Ltac ends :=
  repeat match goal with
  | H : take_u16 _ _ = Ok _ |- _ => apply u16_ends in H; subst
  | H : take_u32 _ _ = Ok _ |- _ => apply u32_ends in H; subst
  | H : take_i16 _ _ = Ok _ |- _ => apply i16_ends in H; subst
  | H : take_const take_u16 _ _ _ = Ok _ |- _ => apply const_ends in H; subst
  | H : take_vec _ take_u16 _ _ = Ok _ |- _ => apply u16s_ends in H; subst
  | H : take_vec _ read_coverage_record _ _ = Ok _ |- _ =>
      apply (vec_ends _ _ _ _ _ _ _ _ (read_coverage_record_takes False _)) in H; subst
  | H : take_vec _ read_class_record _ _ = Ok _ |- _ =>
      apply (vec_ends _ _ _ _ _ _ _ _ (read_class_record_takes False _)) in H; subst
  | H : take_vec _ read_action _ _ = Ok _ |- _ =>
      apply (vec_ends _ _ _ _ _ _ _ _ (read_action_takes False _)) in H; subst
  end.

Lemma size_records {A} (enc : A -> list byte) n l :
  (forall v, length (enc v) = n) -> size (flat_map enc l) = N.of_nat n * N.of_nat (length l).
Proof. intros H. unfold size. rewrite (flat_map_size enc n) by (intros v _; apply H). lia. Qed.

Ltac sizes := cbn; rewrite ?size_app, ?size_be16, ?size_be32, ?size_words;
  rewrite ?(size_records coverage_record_bytes 6), ?(size_records class_record_bytes 6),
    ?(size_records action_bytes 4) by (intros []; reflexivity); try lia.

Ltac formats x H :=
  destruct x as [|[[|[]|]|[|[]|]|]]; try discriminate H;
  step H; apply ret_ok in H as [-> ->];
  match goal with E : _ = Ok _ |- _ => steps E end; ends; sizes.

(** The vector after a count that must not be zero. *)
Lemma following_ends e count p v q :
  (if count =? 0 then raise Malformed else take_vec (count - 1) take_u16) e p = Ok (v, q) ->
  q = p + 2 * N.of_nat (length v).
Proof. destruct (count =? 0); [discriminate|]. apply u16s_ends. Qed.

Ltac flat :=
  let H := fresh in intros p v q H; steps H;
  repeat match goal with
  | E : (if _ =? 0 then raise Malformed else _) _ _ = Ok _ |- _ => apply following_ends in E; subst
  end; ends; sizes.

Section Flat.
Variable e : env.

Lemma coverage_consumed : consumes e read_coverage coverage_bytes.
Proof.
  intros p v q H. apply peek_ok in H as [x H]. formats x H.
Qed.

Lemma class_consumed : consumes e read_class class_bytes.
Proof. intros p v q H. apply peek_ok in H as [x H]. formats x H. Qed.

Lemma correction_consumed : consumes e read_correction correction_bytes.
Proof.
  intros p v q H. apply peek_ok in H as [x H].
  destruct ((1 <=? x) && (x <=? 3)); [|destruct (x =? 0x8000); [|discriminate H]].
  - step H. apply ret_ok in H as [-> ->]. step E. step E. destruct (x2 <? x1); [discriminate E|].
    step E. destruct ((x3 =? 0) || (3 <? x3)); [discriminate E|]. steps E. ends. sizes.
  - step H. apply ret_ok in H as [-> ->]. steps E. ends. sizes.
Qed.

Lemma action_consumed : consumes e read_action action_bytes.
Proof. flat. Qed.

Lemma language_record_consumed : consumes e read_language_record language_record_bytes.
Proof. flat. Qed.

Lemma feature_variations_consumed : consumes e read_feature_variations feature_variations_bytes.
Proof. flat. Qed.

Lemma alternates_consumed : consumes e read_alternates alternates_bytes.
Proof. flat. Qed.

Lemma sequence_consumed : consumes e read_sequence sequence_bytes.
Proof. flat. Qed.

Lemma ligature_consumed : consumes e read_ligature ligature_bytes.
Proof. flat. Qed.

Lemma attachment_consumed : consumes e read_attachment attachment_bytes.
Proof. flat. Qed.

Lemma context_record_consumed : consumes e read_context_record context_record_bytes.
Proof. flat. Qed.

Lemma context_class_record_consumed : consumes e read_context_class_record context_class_record_bytes.
Proof. flat. Qed.

Lemma chained_record_consumed : consumes e read_chained_record chained_record_bytes.
Proof. flat. Qed.

Lemma chained_class_record_consumed : consumes e read_chained_class_record chained_class_record_bytes.
Proof. flat. Qed.
End Flat.

(** ** Tables *)

Section Tables.
Variable e : env.
Hypothesis Hb : bounded (content e).

Lemma font_consumed d : consumes e (read_font d) (fun v => offsets_bytes (font_offsets v)).
Proof.
  intros p v q H. step H. apply ret_ok in H as [-> ->]. apply peek_ok in E as [t E].
  destruct (truetype_accept d t); [|discriminate E]. step E. steps E.
  apply (takes_ends _ _ _ _ _ _ _ (read_offsets_header_takes False e p)) in E0. subst.
  apply (vec_ends _ _ _ _ _ _ _ _ (read_offset_record_takes False _)) in E1. subst.
  destruct x0 as [[] ? ? ? ?]. unfold offsets_bytes, font_offsets, tag_bytes. rewrite !size_app, !size_be16.
  rewrite (size_records offset_record_bytes 16) by (intros [[] ? ? ?]; reflexivity).
  unfold size. cbn [length Writer.tag_bytes]. lia.
Qed.

Lemma file_consumed d :
  consumes e (read_file d) (fun v => flat_map (fun font => offsets_bytes (font_offsets font)) (file_fonts v)).
Proof.
  intros p v q H. apply peek_ok in H as [t H]. destruct (tag_eqb t ttcf); [discriminate H|].
  steps H. apply font_consumed in E. subst. cbn. rewrite app_nil_r. reflexivity.
Qed.

Lemma jump_take_ok {A} (m : M A) base offset p v q : base + offset < 2 ^ 64 ->
  jump_take base offset m e p = Ok (v, q) -> m e (base + offset) = Ok (v, q).
Proof.
  intros H. unfold jump_take, add_u64, add_wrapping. apply N.ltb_lt in H.
  unfold bind at 1 2. unfold ask. rewrite H. exact (fun E => E).
Qed.

Lemma color_palettes_ends p v q : read_color_palettes e p = Ok (v, q) -> q = p + color_end v.
Proof.
  intros H. unfold read_color_palettes in H. step H. injection E as <- <-.
  step H. assert (Hh : cpal_header_at (content e) p x).
  { apply (proj2 (read_cpal_header_finds False e p)). eauto. }
  destruct (cpal_header_small e Hb _ _ Hh) as [Hp Ho].
  destruct x as [[a b c n o l]|[a b c n o l]]; cbn in Ho, H; step H; apply ret_ok in H as [-> ->].
  all: apply jump_take_ok in E0; [|lia].
  all: apply (takes_holds _ _ _ _ _ _ _ (take_vec_takes False e _ _ _ _ _ (read_color_takes False e))) in E0
    as [_ ->]; unfold color_end; cbn; lia.
Qed.

Lemma last_ok {A} (m : M A) base size count i p v q : base + size * (N.of_nat i + N.of_nat count) < 2 ^ 64 ->
  for_range i count (fun i => jump_take base (N.of_nat i * size) m) e p = Ok (v, q) ->
  count = 0%nat /\ q = p \/ (0 < count)%nat /\ exists w,
    m e (base + size * (N.of_nat i + N.of_nat count - 1)) = Ok (w, q).
Proof.
  revert i p v. induction count as [|count IH]; intros i p v Hn H; cbn [for_range] in H.
  - left. apply ret_ok in H as [_ ->]. auto.
  - right. split; [lia|]. step H. step H. apply ret_ok in H as [_ ->]. apply jump_take_ok in E; [|nia].
    apply IH in E0 as [[-> ->]|(_ & w & Hw)]; [| |nia].
    + exists x. rewrite <- E. f_equal. lia.
    + exists w. rewrite <- Hw. f_equal. nia.
Qed.

Lemma tag_ends p v q : take_tag e p = Ok (v, q) -> q = p + 4.
Proof. apply (takes_ends _ _ _ _ _ _ _ (take_tag_takes False e p)). Qed.

Lemma q32_ends p v q : take_q32 e p = Ok (v, q) -> q = p + 4.
Proof. apply (takes_ends _ _ _ _ _ _ _ (take_q32_takes False e p)). Qed.

Lemma axis_flags_ends p v q : take_axis_flags e p = Ok (v, q) -> q = p + 2.
Proof. apply (takes_ends _ _ _ _ _ _ _ (take_axis_flags_takes False e p)). Qed.

Lemma instance_flags_ends p v q : take_instance_flags e p = Ok (v, q) -> q = p + 2.
Proof. apply (takes_ends _ _ _ _ _ _ _ (take_instance_flags_takes False e p)). Qed.

Lemma fvar_header_ends p v q : read_fvar_header e p = Ok (v, q) -> q = p + 16.
Proof. intros H. unfold read_fvar_header in H. steps H. ends. lia. Qed.

Lemma axis_record_ends p v q : read_axis_record e p = Ok (v, q) -> q = p + 20.
Proof.
  intros H. unfold read_axis_record in H. steps H. ends.
  apply tag_ends in E. apply q32_ends in E0, E1, E2. apply axis_flags_ends in E3. lia.
Qed.

Lemma instance_record_ends n p v q : read_instance_record n e p = Ok (v, q) -> q = p + 6 + 4 * n.
Proof.
  intros H. unfold read_instance_record in H. steps H. ends.
  apply instance_flags_ends in E0.
  apply (takes_holds _ _ _ _ _ _ _ (take_vec_takes False e _ _ _ _ _ (take_q32_takes False e))) in E1 as [_ E1].
  lia.
Qed.

Lemma add_ok a b p v q : a + b < 2 ^ 64 -> add_u64 a b e p = Ok (v, q) -> v = a + b /\ q = p.
Proof.
  intros H. unfold add_u64, add_wrapping. apply N.ltb_lt in H.
  unfold bind at 1, ask. rewrite H. intros E. apply ret_ok in E as [-> ->]. auto.
Qed.

Lemma font_variations_ends p v q : read_font_variations e p = Ok (v, q) -> q = p + variation_end v.
Proof.
  intros H. unfold read_font_variations in H. step H. injection E as <- <-. step H.
  assert (Hh : fvar_header_at (content e) p x).
  { apply (proj2 (read_fvar_header_finds False e p)). eauto. }
  apply fvar_header_ends in E.
  assert (Hs : p < 2 ^ 63 /\ fvar_header_axis_offset x < 65536 /\
    fvar_header_axis_count x < 65536 /\ fvar_header_axis_size x < 65536 /\
    fvar_header_instance_count x < 65536 /\ fvar_header_instance_size x < 65536).
  { destruct x. cbn in Hh |- *. repeat match goal with H : _ /\ _ |- _ => destruct H end.
    split; [eapply u16_position; eassumption|]. repeat split; eapply u16_bound; eassumption. }
  destruct Hs as (Hp & Ho & Hac & Has & Hic & His).
  assert (fvar_header_axis_count x * fvar_header_axis_size x < 65536 * 65536) by nia.
  assert (fvar_header_instance_count x * fvar_header_instance_size x < 65536 * 65536) by nia.
  assert (Hpow : 2 ^ 63 + 2 ^ 40 < 2 ^ 64) by reflexivity.
  step H. apply add_ok in E0 as [-> ->]; [|lia].
  step H. step H. apply add_ok in E1 as [-> ->]; [|lia]. step H. apply ret_ok in H as [-> ->].
  unfold variation_end. cbn [font_variations_header].
  unfold for_n in E0, E1.
  apply last_ok in E1; [|lia]. apply last_ok in E0; [|lia].
  destruct E1 as [[E1 ->]|(Hi & w & E1)].
  - destruct (N.ltb_spec 0 (fvar_header_instance_count x)) as [?|_]; [lia|].
    destruct E0 as [[E0 ->]|(Ha & w & E0)].
    + destruct (N.ltb_spec 0 (fvar_header_axis_count x)) as [?|_]; lia.
    + apply axis_record_ends in E0. destruct (N.ltb_spec 0 (fvar_header_axis_count x)) as [?|Hz]; lia.
  - apply instance_record_ends in E1.
    destruct (N.ltb_spec 0 (fvar_header_instance_count x)) as [?|Hz]; lia.
Qed.
End Tables.

(** ** Runs *)

Lemma runs {A} (m : M A) (P : file -> N -> A -> Prop) enc (good : A -> Prop) :
  (forall o f p, bounded f -> finds False m (mkEnv f o) p (P f p)) ->
  (forall e, consumes e m enc) ->
  (forall v, good v -> plain P v (enc v)) ->
  reads_runs m enc good.
Proof.
  intros Hm Hc Hp o f p vs Hb Hg. revert p. unfold take_vec, for_n. rewrite Nat2N.id.
  generalize 0%nat as i. induction Hg as [|v vs Hv Hg IH]; intros i p H.
  - cbn. rewrite N.add_0_r. reflexivity.
  - cbn [flat_map] in H |- *. apply bytes_at_app in H as [H1 H2].
    apply (Hp v Hv) in H1. apply (proj2 (Hm o f p Hb)) in H1 as [q Hq].
    pose proof (Hc _ _ _ _ Hq) as ->.
    cbn [length for_range]. unfold bind. rewrite Hq. rewrite (IH _ _ H2). unfold ret.
    rewrite size_app, N.add_assoc. reflexivity.
Qed.

Ltac run P x y z := apply (runs _ P);
  [intros; apply x; assumption|intros; apply y|intros v [F W]; exact (z v F W)].

Lemma coverage_runs : reads_runs read_coverage coverage_bytes (fun v => coverage_fits v /\ coverage_wf v).
Proof. run coverage_at read_coverage_finds coverage_consumed coverage_plain. Qed.

Lemma class_runs : reads_runs read_class class_bytes (fun v => class_fits v /\ class_wf v).
Proof. run class_at read_class_finds class_consumed class_plain. Qed.

Lemma correction_runs : reads_runs read_correction correction_bytes (fun v => correction_fits v /\
  correction_wf v).
Proof. run correction_at read_correction_finds correction_consumed correction_plain. Qed.

Lemma language_record_runs : reads_runs read_language_record language_record_bytes
  (fun v => language_record_fits v /\ language_record_wf v).
Proof. run language_record_at read_language_record_finds language_record_consumed language_record_plain. Qed.

Lemma feature_variations_runs : reads_runs read_feature_variations feature_variations_bytes
  (fun v => feature_variations_fits v /\ feature_variations_wf v).
Proof. run feature_variations_at read_feature_variations_finds feature_variations_consumed
  feature_variations_plain. Qed.

Lemma alternates_runs : reads_runs read_alternates alternates_bytes (fun v => alternates_fits v /\
  alternates_wf v).
Proof. run alternates_at read_alternates_finds alternates_consumed alternates_plain. Qed.

Lemma sequence_runs : reads_runs read_sequence sequence_bytes (fun v => sequence_fits v /\ sequence_wf v).
Proof. run sequence_at read_sequence_finds sequence_consumed sequence_plain. Qed.

Lemma ligature_runs : reads_runs read_ligature ligature_bytes (fun v => ligature_fits v /\ ligature_wf v).
Proof. run ligature_at read_ligature_finds ligature_consumed ligature_plain. Qed.

Lemma attachment_runs : reads_runs read_attachment attachment_bytes (fun v => attachment_fits v /\
  attachment_wf v).
Proof. run attachment_at read_attachment_finds attachment_consumed attachment_plain. Qed.

Lemma context_record_runs : reads_runs read_context_record context_record_bytes
  (fun v => context_record_fits v /\ context_record_wf v).
Proof. run context_record_at read_context_record_finds context_record_consumed context_record_plain. Qed.

Lemma context_class_record_runs : reads_runs read_context_class_record context_class_record_bytes
  (fun v => context_class_record_fits v /\ context_class_record_wf v).
Proof. run context_class_record_at read_context_class_record_finds context_class_record_consumed
  context_class_record_plain. Qed.

Lemma chained_record_runs : reads_runs read_chained_record chained_record_bytes
  (fun v => chained_record_fits v /\ chained_record_wf v).
Proof. run chained_record_at read_chained_record_finds chained_record_consumed chained_record_plain. Qed.

Lemma chained_class_record_runs : reads_runs read_chained_class_record chained_class_record_bytes
  (fun v => chained_class_record_fits v /\ chained_class_record_wf v).
Proof. run chained_class_record_at read_chained_class_record_finds chained_class_record_consumed
  chained_class_record_plain. Qed.

Lemma all_consumed e :
  consumes e read_coverage coverage_bytes /\
  consumes e read_class class_bytes /\
  consumes e read_correction correction_bytes /\
  consumes e read_language_record language_record_bytes /\
  consumes e read_feature_variations feature_variations_bytes /\
  consumes e read_alternates alternates_bytes /\
  consumes e read_sequence sequence_bytes /\
  consumes e read_ligature ligature_bytes /\
  consumes e read_attachment attachment_bytes /\
  consumes e read_context_record context_record_bytes /\
  consumes e read_context_class_record context_class_record_bytes /\
  consumes e read_chained_record chained_record_bytes /\
  consumes e read_chained_class_record chained_class_record_bytes.
Proof.
  apply conj; [apply coverage_consumed|]. apply conj; [apply class_consumed|].
  apply conj; [apply correction_consumed|]. apply conj; [apply language_record_consumed|].
  apply conj; [apply feature_variations_consumed|]. apply conj; [apply alternates_consumed|].
  apply conj; [apply sequence_consumed|]. apply conj; [apply ligature_consumed|].
  apply conj; [apply attachment_consumed|]. apply conj; [apply context_record_consumed|].
  apply conj; [apply context_class_record_consumed|]. apply conj; [apply chained_record_consumed|].
  apply chained_class_record_consumed.
Qed.

Lemma all_runs :
  reads_runs read_coverage coverage_bytes (fun v => coverage_fits v /\ coverage_wf v) /\
  reads_runs read_class class_bytes (fun v => class_fits v /\ class_wf v) /\
  reads_runs read_correction correction_bytes (fun v => correction_fits v /\ correction_wf v) /\
  reads_runs read_language_record language_record_bytes (fun v => language_record_fits v /\
    language_record_wf v) /\
  reads_runs read_feature_variations feature_variations_bytes (fun v => feature_variations_fits v /\
    feature_variations_wf v) /\
  reads_runs read_alternates alternates_bytes (fun v => alternates_fits v /\ alternates_wf v) /\
  reads_runs read_sequence sequence_bytes (fun v => sequence_fits v /\ sequence_wf v) /\
  reads_runs read_ligature ligature_bytes (fun v => ligature_fits v /\ ligature_wf v) /\
  reads_runs read_attachment attachment_bytes (fun v => attachment_fits v /\ attachment_wf v) /\
  reads_runs read_context_record context_record_bytes (fun v => context_record_fits v /\ context_record_wf v) /\
  reads_runs read_context_class_record context_class_record_bytes
    (fun v => context_class_record_fits v /\ context_class_record_wf v) /\
  reads_runs read_chained_record chained_record_bytes (fun v => chained_record_fits v /\ chained_record_wf v) /\
  reads_runs read_chained_class_record chained_class_record_bytes
    (fun v => chained_class_record_fits v /\ chained_class_record_wf v).
Proof.
  apply conj; [exact coverage_runs|]. apply conj; [exact class_runs|].
  apply conj; [exact correction_runs|]. apply conj; [exact language_record_runs|].
  apply conj; [exact feature_variations_runs|]. apply conj; [exact alternates_runs|].
  apply conj; [exact sequence_runs|]. apply conj; [exact ligature_runs|].
  apply conj; [exact attachment_runs|]. apply conj; [exact context_record_runs|].
  apply conj; [exact context_class_record_runs|]. apply conj; [exact chained_record_runs|].
  exact chained_class_record_runs.
Qed.
