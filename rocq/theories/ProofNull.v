(** Coverages and classes whose offsets are zero. *)

From Verif Require Import ProofRequests ProofReads ProofPieces ProofSharing.
From Verif Require Export SpecNull Requests Pieces Samples Encode.

Lemma word_same f p a b : u16_at f p a -> u16_at f p b -> a = b.
Proof. intros (x & y & Hx & Hy & ->) (x' & y' & Hx' & Hy' & ->). congruence. Qed.

Lemma list_at_nil {A} (elem : N -> A -> Prop) s p l : vec_at elem s p 0 l -> l = [].
Proof. intros [H _]. destruct l; [reflexivity|discriminate H]. Qed.

(** A coverage at a header of which the second word is known. *)
Lemma coverage_here f p n c : u16_at f (p + 2) n -> coverage_at f (p + 0) c ->
  (exists glyphs, c = CoverageFormat1 (mkCoverage1 1 n glyphs) /\ u16s_at f (p + 4) n glyphs) \/
  (exists records, c = CoverageFormat2 (mkCoverage2 2 n records) /\
    vec_at (coverage_record_at f) 6 (p + 4) n records).
Proof.
  rewrite N.add_0_r. intros W H. destruct c as [[k m l]|[k m l]]; cbn in H; destruct H as (-> & _ & W' & L);
    rewrite (word_same _ _ _ _ W' W) in *; eauto.
Qed.

Lemma coverage_empty f p c : u16_at f (p + 2) 0 -> coverage_at f (p + 0) c -> empty_coverage c.
Proof.
  intros W H. destruct (coverage_here f p 0 c W H) as [(l & -> & L)|(l & -> & L)];
    rewrite (list_at_nil _ _ _ _ L); [left|right]; reflexivity.
Qed.

Lemma coverage_format f p k c : u16_at f p k -> coverage_at f (p + 0) c -> k = 1 \/ k = 2.
Proof.
  rewrite N.add_0_r. intros W H. destruct c as [[j m l]|[j m l]]; cbn in H; destruct H as (-> & W' & _);
    rewrite (word_same _ _ _ _ W W'); auto.
Qed.

Lemma coverage_glyphs f p n c : u16_at f p 1 -> u16_at f (p + 2) n -> coverage_at f (p + 0) c ->
  header_glyphs f p n c.
Proof.
  intros F W H. destruct (coverage_here f p n c W H) as [X|(l & -> & L)]; [exact X|].
  rewrite N.add_0_r in H. destruct H as (_ & F' & _). discriminate (word_same _ _ _ _ F F').
Qed.

Lemma class_here f p n c : u16_at f p 2 -> u16_at f (p + 2) n -> class_at f (p + 0) c -> header_classes f p n c.
Proof.
  rewrite N.add_0_r. intros F W H. destruct c as [[k s m l]|[k m l]]; cbn in H; destruct H as (-> & F' & W' & L).
  - discriminate (word_same _ _ _ _ F F').
  - rewrite (word_same _ _ _ _ W' W) in *. eexists. split; [reflexivity|exact L].
Qed.

(** ** Contexts *)

Lemma context_empty f p v c : context_at f p v -> context_coverage v = Some (0, c) -> empty_coverage c.
Proof.
  destruct v as [v|v|v]; destruct v; cbn; intros H E; try discriminate E; injection E as -> <-;
    apply (coverage_empty f p); apply H.
Qed.

Lemma chained_empty f p v c : chained_context_at f p v -> chained_coverage v = Some (0, c) -> empty_coverage c.
Proof.
  destruct v as [v|v|v]; destruct v; cbn; intros H E; try discriminate E; injection E as -> <-;
    apply (coverage_empty f p); apply H.
Qed.

Lemma linked_nonzero f p offsets coverages :
  u16_at f p 3 -> linked_at (coverage_at f) p offsets coverages -> ~ In 0 offsets.
Proof.
  intros F H. induction H as [|x c xs cs Hx _ IH]; [intros []|]. intros [->|Hi]; [|exact (IH Hi)].
  destruct (coverage_format f p 3 c F Hx); discriminate.
Qed.

Lemma context_nonzero f p v : context_at f p v -> ~ In 0 (context_offsets v).
Proof.
  destruct v as [v|v|v]; destruct v; cbn; intros H; [intros []|intros []|].
  destruct H as (-> & F & _ & _ & _ & _ & L). exact (linked_nonzero f p _ _ F L).
Qed.

Lemma chained_nonzero f p v : chained_context_at f p v -> ~ In 0 (chained_offsets v).
Proof.
  destruct v as [v|v|v]; destruct v; cbn; intros H; [intros []|intros []|].
  destruct H as (-> & F & _ & _ & _ & _ & _ & _ & _ & _ & L1 & L2 & L3).
  rewrite !in_app_iff. intros [X|[X|X]]; revert X; eapply linked_nonzero; eassumption.
Qed.

Lemma context_header f p v n c d :
  context_at f p v -> context_coverage v = Some (n, d) -> In (0, c) (context_classes v) -> header_classes f p n c.
Proof.
  destruct v as [v|v|v]; destruct v; cbn; intros H E []; try contradiction. injection E as <- <-.
  injection H0 as -> ->. destruct H as (-> & F & W & _ & _ & _ & _ & C & _). exact (class_here f p _ _ F W C).
Qed.

Lemma chained_header f p v n c d :
  chained_context_at f p v -> chained_coverage v = Some (n, d) -> In (0, c) (chained_classes v) ->
  header_classes f p n c.
Proof.
  destruct v as [v|v|v]; destruct v; cbn; intros H E I; try contradiction. injection E as <- <-.
  destruct H as (-> & F & W & _ & _ & _ & _ & _ & _ & C1 & C2 & C3 & _).
  destruct I as [I|[I|[I|[]]]]; injection I as -> ->; apply (class_here f p _ _ F W); assumption.
Qed.

(** ** Subtables *)

Lemma gsub_empty ty f p t c : gsub_type_at ty f p t -> gsub_coverage t = Some (0, c) -> empty_coverage c.
Proof.
  destruct t as [[v|v]|v|v|v|v|v|v|v]; cbn; intros H E;
    try (exact (context_empty f p v c (proj2 H) E)); try (exact (chained_empty f p v c (proj2 H) E));
    try discriminate E; destruct v; cbn in *; injection E as -> <-; apply (coverage_empty f p); apply H.
Qed.

Lemma gpos_empty o ty f p t c : gpos_type_at o ty f p t -> gpos_coverage t = Some (0, c) -> empty_coverage c.
Proof.
  destruct t as [[v|v]|[v|v]|v|v|v|v|v|v|v]; cbn; intros H E;
    try (exact (context_empty f p v c (proj2 H) E)); try (exact (chained_empty f p v c (proj2 H) E));
    try discriminate E; destruct v; cbn in *; injection E as -> <-; apply (coverage_empty f p); apply H.
Qed.

Lemma gpos_bases o ty f p t n c d :
  gpos_type_at o ty f p t -> gpos_coverage t = Some (n, d) -> base_coverage t = Some (0, c) ->
  header_glyphs f p n c.
Proof.
  destruct t as [v|v|v|v|v|v|v|v|v]; cbn; intros H E B; try discriminate B; destruct v; cbn in *;
    injection E as <- <-; injection B as -> <-; destruct H as (_ & F & -> & W & H);
    apply (coverage_glyphs f p _ _ F W); apply H.
Qed.

Lemma gsub_nonzero ty f p t : gsub_type_at ty f p t -> ~ In 0 (gsub_offsets t).
Proof.
  destruct t as [v|v|v|v|v|v|v|v]; cbn; intros H; try (intros []).
  - exact (context_nonzero f p v (proj2 H)).
  - exact (chained_nonzero f p v (proj2 H)).
Qed.

Lemma gpos_nonzero o ty f p t : gpos_type_at o ty f p t -> ~ In 0 (gpos_offsets t).
Proof.
  destruct t as [v|v|v|v|v|v|v|v|v]; cbn; intros H; try (intros []).
  - exact (context_nonzero f p v (proj2 H)).
  - exact (chained_nonzero f p v (proj2 H)).
Qed.

Lemma gsub_header ty f p t n c d :
  gsub_type_at ty f p t -> gsub_coverage t = Some (n, d) -> In (0, c) (gsub_classes t) -> header_classes f p n c.
Proof.
  destruct t as [v|v|v|v|v|v|v|v]; cbn; intros H E I; try contradiction.
  - exact (context_header f p v n c d (proj2 H) E I).
  - exact (chained_header f p v n c d (proj2 H) E I).
Qed.

Lemma gpos_header o ty f p t n c d :
  gpos_type_at o ty f p t -> gpos_coverage t = Some (n, d) -> In (0, c) (gpos_classes t) -> header_classes f p n c.
Proof.
  destruct t as [v|[v|v]|v|v|v|v|v|v|v]; cbn; intros H E I; try contradiction.
  - destruct v; cbn in *. injection E as <- <-.
    destruct H as (_ & -> & F & W & _ & _ & _ & _ & _ & _ & _ & _ & C1 & C2).
    destruct I as [I|[I|[]]]; injection I as -> ->; apply (class_here f p _ _ F W); assumption.
  - exact (context_header f p v n c d (proj2 H) E I).
  - exact (chained_header f p v n c d (proj2 H) E I).
Qed.

(** ** Tables *)

Lemma directory_subtable {T} o (table_at : N -> file -> N -> T -> Prop) f p v ty a t :
  directory_at o table_at f p v -> subtable_in (directory_lookups v) ty a t ->
  table_at ty f (p + directory_lookup_offset v + a) t.
Proof.
  destruct v as [a0 a1 so fo lo x scripts features lookups variations].
  intros (_ & _ & _ & _ & _ & _ & _ & _ & _ & _ & _ & Hl & _) S. cbn in *.
  destruct Hl as [(_ & _ & ->)|[_ Hl]].
  - destruct S as (r & b & c & (i & Hi & _) & _). destruct i; discriminate Hi.
  - exact (subtable_address _ _ _ _ _ _ _ _ Hl S).
Qed.

Lemma gsub_subtable_at o f p v ty a t :
  bounded f -> reads o read_glyph_substitution f p v -> subtable_in (directory_lookups v) ty a t ->
  gsub_type_at ty f (p + directory_lookup_offset v + a) t.
Proof.
  intros B R S. apply (request_reads RequestGsub o f p v B) in R. exact (directory_subtable o _ f p v ty a t R S).
Qed.

Lemma gpos_subtable_at o f p v ty a t :
  bounded f -> reads o read_glyph_positioning f p v -> subtable_in (directory_lookups v) ty a t ->
  gpos_type_at o ty f (p + directory_lookup_offset v + a) t.
Proof.
  intros B R S. apply (request_reads RequestGpos o f p v B) in R. exact (directory_subtable o _ f p v ty a t R S).
Qed.

Lemma zero_coverage o f p ty a c :
  bounded f ->
  (forall v t, reads o read_glyph_substitution f p v -> subtable_in (directory_lookups v) ty a t ->
    gsub_coverage t = Some (0, c) -> empty_coverage c) /\
  (forall v t, reads o read_glyph_positioning f p v -> subtable_in (directory_lookups v) ty a t ->
    gpos_coverage t = Some (0, c) -> empty_coverage c).
Proof.
  intros B. split; intros v t R S.
  - exact (gsub_empty _ _ _ _ _ (gsub_subtable_at _ _ _ _ _ _ _ B R S)).
  - exact (gpos_empty _ _ _ _ _ _ (gpos_subtable_at _ _ _ _ _ _ _ B R S)).
Qed.

Lemma zero_bases o f p v ty a t n c d :
  bounded f -> reads o read_glyph_positioning f p v -> subtable_in (directory_lookups v) ty a t ->
  gpos_coverage t = Some (n, d) -> base_coverage t = Some (0, c) ->
  header_glyphs f (p + directory_lookup_offset v + a) n c.
Proof. intros B R S. exact (gpos_bases _ _ _ _ _ _ _ _ (gpos_subtable_at _ _ _ _ _ _ _ B R S)). Qed.

Lemma zero_classes o f p ty a n c d :
  bounded f ->
  (forall v t, reads o read_glyph_substitution f p v -> subtable_in (directory_lookups v) ty a t ->
    gsub_coverage t = Some (n, d) -> In (0, c) (gsub_classes t) ->
    header_classes f (p + directory_lookup_offset v + a) n c) /\
  (forall v t, reads o read_glyph_positioning f p v -> subtable_in (directory_lookups v) ty a t ->
    gpos_coverage t = Some (n, d) -> In (0, c) (gpos_classes t) ->
    header_classes f (p + directory_lookup_offset v + a) n c).
Proof.
  intros B. split; intros v t R S.
  - exact (gsub_header _ _ _ _ _ _ _ (gsub_subtable_at _ _ _ _ _ _ _ B R S)).
  - exact (gpos_header _ _ _ _ _ _ _ _ (gpos_subtable_at _ _ _ _ _ _ _ B R S)).
Qed.

Lemma format3_nonzero o f p ty a :
  bounded f ->
  (forall v t, reads o read_glyph_substitution f p v -> subtable_in (directory_lookups v) ty a t ->
    ~ In 0 (gsub_offsets t)) /\
  (forall v t, reads o read_glyph_positioning f p v -> subtable_in (directory_lookups v) ty a t ->
    ~ In 0 (gpos_offsets t)).
Proof.
  intros B. split; intros v t R S.
  - exact (gsub_nonzero _ _ _ _ (gsub_subtable_at _ _ _ _ _ _ _ B R S)).
  - exact (gpos_nonzero _ _ _ _ _ (gpos_subtable_at _ _ _ _ _ _ _ B R S)).
Qed.

(** A word of the format and a zero are a coverage. *)
Lemma always_read o f p k :
  bounded f -> u16_at f p k -> k = 1 \/ k = 2 -> u16_at f (p + 2) 0 ->
  exists c, empty_coverage c /\ reads o read_coverage f p c.
Proof.
  intros B F K W.
  assert (E : forall A (elem : N -> A -> Prop) s q, vec_at elem s q 0 []).
  { intros. split; [reflexivity|]. intros [|i] v; discriminate. }
  destruct K as [-> | ->].
  - exists (CoverageFormat1 (mkCoverage1 1 0 [])). split; [left; reflexivity|].
    apply (piece_reads PieceCoverage o f p _ B eq_refl). cbn. repeat (split; [auto|]). apply E.
  - exists (CoverageFormat2 (mkCoverage2 2 0 [])). split; [right; reflexivity|].
    apply (piece_reads PieceCoverage o f p _ B eq_refl). cbn. repeat (split; [auto|]). apply E.
Qed.

(** ** Glyph definitions *)

Lemma attachments_nonzero f p v : attachments_at f p v -> attachments_coverage_offset v <> 0.
Proof.
  destruct v as [x n offsets c records]. intros (F & _ & _ & C & _) E. cbn in *. subst x.
  destruct (coverage_format f p 0 c F C); discriminate.
Qed.

Lemma gdef_ligatures_nonzero f p v : gdef_ligatures_at f p v -> gdef_ligatures_coverage_offset v <> 0.
Proof.
  destruct v as [x n offsets c records]. intros (F & _ & _ & C & _) E. cbn in *. subst x.
  destruct (coverage_format f p 0 c F C); discriminate.
Qed.

Lemma marks_header o f p v c :
  bounded f -> reads o read_marks f p v -> paired (marks_coverage_offsets v) (marks_coverages v) 0 c ->
  header_glyphs f p (marks_count v) c.
Proof.
  intros B R P. apply (piece_reads PieceMarks o f p v B eq_refl) in R.
  destruct v as [k n offsets coverages]. destruct R as (F & -> & W & _ & L). cbn in *.
  apply (coverage_glyphs f p _ _ F W). exact (linked_paired _ _ _ _ _ _ L P).
Qed.

Lemma gdef_nonzero o f p v :
  bounded f -> reads o read_glyph_definition f p v ->
  (forall x, glyph_definition_attachments v = Some x -> attachments_coverage_offset x <> 0) /\
  (forall x, glyph_definition_ligatures v = Some x -> gdef_ligatures_coverage_offset x <> 0).
Proof.
  intros B R. apply (request_reads RequestGdef o f p v B) in R.
  destruct v as [header glyph_class attachments ligatures mark_class marks variations]. cbn in *.
  unfold glyph_definition_at, glyph_definition_with in R.
  destruct (gdef_offsets header) as [[[[[a b] c] d] e] g]. destruct R as (_ & _ & Ha & Hl & _).
  split; intros x ->.
  - exact (attachments_nonzero f _ x (proj2 Ha)).
  - exact (gdef_ligatures_nonzero f _ x (proj2 Hl)).
Qed.

(** ** Samples: one lookup with one subtable *)

Definition lookup_words (type_ : N) (table : list N) : list N :=
  [1; 0; 10; 12; 14;  0;  0;  1; 4;  type_; 0; 1; 8] ++ table.

Definition lookup_table {T} (type_ : N) (t : T) : Directory T :=
  mkDirectory 1 0 10 12 14 0 (mkScripts 0 [] []) (mkFeatures 0 [] [])
    (mkLookups 1 [4] [mkLookupRecord type_ 0 1 [8] None [t]]) None.

Lemma lookup_subtable {T} type_ (t : T) : subtable_in (directory_lookups (lookup_table type_ t)) type_ 12 t.
Proof. exists (mkLookupRecord type_ 0 1 [8] None [t]), 4, 8. repeat split; exists 0%nat; split; reflexivity. Qed.

Definition null_substitution : GsubType :=
  GsubSingleSubstitution (SingleSubstitutionFormat1
    (mkSingleSubstitution1 1 0 7 (CoverageFormat1 (mkCoverage1 1 0 [])))).

Definition null_words : list N := lookup_words 1 [1; 0; 7].

Lemma null_read :
  bounded (words null_words) /\
  reads debug_build read_glyph_substitution (words null_words) 0 (lookup_table 1 null_substitution).
Proof. split; [apply file_of_bounded; vm_compute; discriminate|]. eexists. vm_compute. reflexivity. Qed.

Lemma zero_not_refused :
  ~ forall o f p v ty a t offset c, bounded f -> reads o read_glyph_substitution f p v ->
    subtable_in (directory_lookups v) ty a t -> gsub_coverage t = Some (offset, c) -> offset <> 0.
Proof.
  intros H. destruct null_read as [B R].
  exact (H _ _ _ _ _ _ _ _ _ B R (lookup_subtable 1 null_substitution) eq_refl eq_refl).
Qed.

(** Pairs without class definitions. *)
Definition pair_words : list N := lookup_words 2 [2; 4; 1; 0; 0; 0; 0; 0;  9; 9; 9; 8; 8; 8].

Definition pair_classes : Class :=
  ClassFormat2 (mkClass2 2 4 [mkClassRecord 1 0 0; mkClassRecord 0 0 0; mkClassRecord 9 9 9; mkClassRecord 8 8 8]).

Definition null_pairs : GposType :=
  GposPairAdjustment (PairAdjustmentFormat2 (mkPairAdjustment2 2 4 1 0 0 0 0 0 []
    (CoverageFormat1 (mkCoverage1 1 0 [])) pair_classes pair_classes)).

Lemma pairs_read :
  bounded (words pair_words) /\
  reads debug_build read_glyph_positioning (words pair_words) 0 (lookup_table 2 null_pairs).
Proof. split; [apply file_of_bounded; vm_compute; discriminate|]. eexists. vm_compute. reflexivity. Qed.

(** Marks without bases. *)
Definition base_words : list N := lookup_words 4 [1; 12; 0; 0; 16; 18;  1; 0;  0;  0;  5; 6; 7; 8].

Definition null_bases : GposType :=
  GposMarkToBaseAttachment (mkMarkToBaseAttachment 1 12 0 0 16 18 (CoverageFormat1 (mkCoverage1 1 0 []))
    (CoverageFormat1 (mkCoverage1 1 12 [0; 0; 16; 18; 1; 0; 0; 0; 5; 6; 7; 8])) (mkMark1s 0 []) (mkBases 0 [])).

Lemma bases_read :
  bounded (words base_words) /\
  reads debug_build read_glyph_positioning (words base_words) 0 (lookup_table 4 null_bases).
Proof. split; [apply file_of_bounded; vm_compute; discriminate|]. eexists. vm_compute. reflexivity. Qed.
