(** Nothing is guaranteed but the ranges of numbers and the shapes of values. *)

From Verif Require Import ProofWritten ProofFits ProofShape ProofEntries.
From Verif Require Export SpecGuaranteed.

Lemma gdef_writable_erase v : gdef_writable (glyph_definition_erase v) <-> gdef_writable v.
Proof.
  destruct v as [[[]|[]|[]] ? ? ? ? [|] ?]; cbn; try tauto; split; intros H; solve [reflexivity|discriminate H].
Qed.

Lemma writable_erased {A} (r : request A) v : writable r (erased r v) <-> writable r v.
Proof.
  assert (E := written_erased r v). destruct r; cbn in E |- *; try tauto; rewrite E; try tauto.
  rewrite gdef_writable_erase. tauto.
Qed.

Lemma writable_content {A} (r : request A) : by_content r (writable r).
Proof. intros v w E H. apply (writable_erased r). rewrite <- E. apply (writable_erased r), H. Qed.

Lemma guaranteed_all {A} (r : request A) o (P : A -> Prop) :
  (forall v, in_range o r v -> well_formed o r v -> P v) -> guaranteed o r P.
Proof.
  intros H f p v B R. apply H; [exact (read_in_range r o f p v B R)|exact (request_shape r o f p v B R)].
Qed.

Lemma nothing_more {A} (r : request A) o (P : A -> Prop) :
  by_content r P -> guaranteed o r P ->
  forall v, in_range o r v -> well_formed o r v -> writable r v -> P v.
Proof.
  intros C G v R W S. assert (B := written_bounded r o v R W S).
  destruct (written_reads r o _ 0 v B R W S (bytes_at_file _)) as (w & H & E).
  exact (C _ _ E (G _ _ _ B H)).
Qed.

Lemma guaranteed_exactly {A} (r : request A) o (P : A -> Prop) :
  by_content r P ->
  guaranteed o r (fun v => writable r v -> P v) <->
  forall v, in_range o r v -> well_formed o r v -> writable r v -> P v.
Proof.
  intros C. split.
  - intros G v R W S. refine (nothing_more r o (fun v => writable r v -> P v) _ G v R W S S).
    intros x y E H Y. apply (C _ _ E), H. exact (writable_content r _ _ (eq_sym E) Y).
  - intros H. apply guaranteed_all. exact H.
Qed.

(** In particular some value would have to be out of range or out of shape. *)
Lemma not_guaranteed {A} (r : request A) o (P : A -> Prop) v :
  by_content r P -> in_range o r v -> well_formed o r v -> writable r v -> ~ P v -> ~ guaranteed o r P.
Proof. intros C R W S N G. apply N. exact (nothing_more r o P C G v R W S). Qed.

Lemma same_subtable {T} (erase : T -> T) v w u :
  directory_erase erase v = directory_erase erase w -> has_subtable w u ->
  exists t, has_subtable v t /\ erase t = erase u.
Proof.
  destruct v as [? ? ? ? ? ? ? ? [n xs records] ?], w as [? ? ? ? ? ? ? ? [m ys records'] ?]. cbn.
  intros E (r & Hr & Hu). injection E as _ _ _ _ _ E _. cbn in Hr.
  apply (in_map (lookup_record_erase erase)) in Hr. rewrite <- E in Hr.
  apply in_map_iff in Hr as (r' & Er & Hr'). destruct r' as [? ? ? ? ? tables], r as [? ? ? ? ? tables']. cbn in Er, Hu.
  injection Er as _ _ _ _ Et. apply (in_map erase) in Hu. rewrite <- Et in Hu.
  apply in_map_iff in Hu as (t & Ht & Hin). exists t. split; [|exact Ht]. eexists. split; [exact Hr'|exact Hin].
Qed.

Lemma gsub_coverage_same t u x c :
  gsub_type_erase t = gsub_type_erase u -> gsub_coverage u = Some (x, c) -> exists y, gsub_coverage t = Some (y, c).
Proof.
  intros E H. assert (K : forall v, option_map snd (gsub_coverage (gsub_type_erase v)) = option_map snd (gsub_coverage v))
    by (intros [[[]|[]]|[]|[]|[]|[[]|[]|[]]|[[]|[]|[]]|[]|[]]; reflexivity).
  assert (Kt := K t). rewrite E, K, H in Kt. destruct (gsub_coverage t) as [[y d]|]; [|discriminate Kt].
  injection Kt as <-. exists y. reflexivity.
Qed.

Lemma coverages_content : by_content RequestGsub coverages_indexed.
Proof.
  intros v w E H u x c Hu Hc. destruct (same_subtable _ v w u E Hu) as (t & Ht & Et).
  destruct (gsub_coverage_same t u x _ Et Hc) as (y & Hy). exact (H t y c Ht Hy).
Qed.

Lemma pairs_content : by_content RequestGpos pairs_known.
Proof.
  intros v w E H u Hu. destruct (same_subtable _ v w _ E Hu) as (t & Ht & Et).
  destruct u. destruct t as [[[]|[]]|[[]|t]|[]|[]|[]|[]|[[]|[]|[]]|[[]|[]|[]]|[]]; try discriminate Et.
  assert (K := H _ Ht). destruct t. cbn in Et, K |- *. injection Et as _ _ _ En Em _ _ Ex Ey. subst. exact K.
Qed.

Lemma palettes_content : by_content RequestCpal palettes_within.
Proof.
  intros [[[]|[]] colors] [[[]|[]] colors'] E; cbn in E; try discriminate E;
    injection E; intros; subst; assumption.
Qed.

Lemma instances_content : by_content RequestFvar instances_within.
Proof. intros [[] axes instances] [[] axes' instances'] E; cbn in E. injection E; intros; subst; assumption. Qed.

Lemma axes_content : by_content RequestFvar axes_distinct.
Proof. intros [[] axes instances] [[] axes' instances'] E; cbn in E. injection E; intros; subst; assumption. Qed.

Lemma points_content : by_content RequestGdef points_increasing.
Proof.
  intros v w E H l r i x y Hl.
  assert (El : option_map attachments_erase (glyph_definition_attachments v) =
    option_map attachments_erase (glyph_definition_attachments w))
    by (destruct v, w; cbn in E |- *; injection E; intros; assumption).
  rewrite Hl in El. destruct (glyph_definition_attachments v) as [k|] eqn:Ek; [|discriminate El]. injection El as El.
  assert (Er : attachments_records l = attachments_records k)
    by (destruct k, l; cbn in El |- *; injection El; intros; subst; reflexivity).
  rewrite Er. exact (H k r i x y Ek).
Qed.

(** ** Values with a parameter *)

Definition instance_of (x : Z) : FontVariations :=
  mkFontVariations (mkFvarHeader 1 0 16 2 2 20 2 12)
    [mkAxisRecord (Tag "w" "g" "h" "t") 1 5 9 0 256; mkAxisRecord (Tag "w" "d" "t" "h") 2 5 8 0 257]
    [mkInstanceRecord 258 0 [5; 5]%Z 0; mkInstanceRecord 259 0 [5; x]%Z 0].

Lemma instance_within x : instances_within (instance_of x) <-> (2 <= x <= 8)%Z.
Proof.
  split.
  - intros H. exact (H 1%nat _ _ _ (or_intror (or_introl eq_refl)) eq_refl eq_refl).
  - intros H i instance axis y [<-|[<-|[]]]; destruct i as [|[|i]]; cbn; intros Ha Hy; try discriminate Ha;
      try (destruct i; discriminate Ha); injection Ha as <-; injection Hy as <-; cbn; lia.
Qed.

Definition axes_of (a : tag) : FontVariations :=
  mkFontVariations (mkFvarHeader 1 0 16 2 2 20 0 0)
    [mkAxisRecord (Tag "w" "g" "h" "t") 1 5 9 0 256; mkAxisRecord a 1 5 9 0 257] [].

Lemma axes_of_distinct a : axes_distinct (axes_of a) <-> a <> Tag "w" "g" "h" "t".
Proof.
  unfold axes_distinct. cbn. split.
  - intros H E. subst a. inversion H as [|? ? N _]. apply N. left. reflexivity.
  - intros H. constructor; [intros [E|[]]; exact (H E)|]. constructor; [intros []|constructor].
Qed.

Definition index_of (k : N) : GlyphSubstitution :=
  only 1 (GsubSingleSubstitution (SingleSubstitutionFormat1 (mkSingleSubstitution1 1 0 7
    (CoverageFormat2 (mkCoverage2 2 3
      [mkCoverageRecord 10 12 0; mkCoverageRecord 20 20 3; mkCoverageRecord 30 31 k]))))).

Lemma index_of_indexed k : coverages_indexed (index_of k) <-> k = 4.
Proof.
  split.
  - intros H. specialize (H _ _ _ (ex_intro _ _ (conj (or_introl eq_refl) (or_introl eq_refl))) eq_refl).
    destruct H as (_ & _ & H & _). exact H.
  - intros -> t x c (l & [<-|[]] & [<-|[]]) E. injection E as _ <-. cbn. auto.
Qed.

Definition pairs_of (a b : N) : GlyphPositioning :=
  only 2 (GposPairAdjustment (PairAdjustmentFormat2 (mkPairAdjustment2 2 0 0 0 0 0 1 2
    [mkPair2s [mkPair2 None None; mkPair2 None None]] (CoverageFormat1 (mkCoverage1 1 1 [5]))
    (ClassFormat1 (mkClass1 1 5 1 [a])) (ClassFormat2 (mkClass2 2 1 [mkClassRecord 5 6 b]))))).

Lemma pairs_of_known a b : pairs_known (pairs_of a b) <-> a < 1 /\ b < 2.
Proof.
  split.
  - intros H. destruct (H _ (ex_intro _ _ (conj (or_introl eq_refl) (or_introl eq_refl)))) as [K L].
    exact (conj (Forall_inv K) (Forall_inv L)).
  - intros [Ha Hb] t (l & [<-|[]] & [E|[]]). injection E as <-. split; (constructor; [assumption|constructor]).
Qed.

Definition palettes_of_two (first : N) : ColorPalettes :=
  mkColorPalettes (CpalVersion0 (mkCpalHeader0 0 2 2 3 16 [0; first])) [mkColor 1 2 3 4; mkColor 5 6 7 8; mkColor 9 0 1 2].

Lemma palettes_of_two_within first : palettes_within (palettes_of_two first) <-> first <= 1.
Proof.
  unfold palettes_within. cbn. split.
  - intros H. specialize (H first (or_intror (or_introl eq_refl))). lia.
  - intros H x [<-|[<-|[]]]; lia.
Qed.

Definition points_of (x : N) : GlyphDefinition :=
  mkGlyphDefinition (GdefVersion1 (mkGdefHeader1 1 0 0 1 0 0)) None
    (Some (mkAttachments 0 1 [0] (CoverageFormat1 (mkCoverage1 1 1 [5])) [mkAttachment 3 [4; 9; x]])) None None None None.

Lemma points_of_increasing x : points_increasing (points_of x) <-> 9 < x.
Proof.
  split.
  - intros H. exact (H _ _ 1%nat _ _ eq_refl (or_introl eq_refl) eq_refl eq_refl).
  - intros H l r i a b E. injection E as <-. intros [<-|[]]. destruct i as [|[|[|i]]]; cbn; intros Ha Hb;
      try discriminate Ha; try discriminate Hb; injection Ha as <-; injection Hb as <-; lia.
Qed.

(** All of them fit their fields and have their shapes. *)
Ltac plain := cbn; unfold u8, u16, u32, i16, i32, flags16, counts, presence_wf; cbn;
  repeat (constructor || discriminate || (intros; discriminate) || (intros; reflexivity)); try lia.

Definition plausible {A} o (r : request A) (v : A) : Prop := in_range o r v /\ well_formed o r v /\ writable r v.

Lemma instance_plausible o : plausible o RequestFvar (instance_of 9).
Proof. split; [plain|]. split; [plain|vm_compute; reflexivity]. Qed.

Lemma axes_plausible o : plausible o RequestFvar (axes_of (Tag "w" "g" "h" "t")).
Proof. split; [plain|]. split; [plain|vm_compute; reflexivity]. Qed.

Lemma index_plausible o : plausible o RequestGsub (index_of 5).
Proof. split; [apply only_fits; plain|]. split; [apply only_wf; plain|vm_compute; reflexivity]. Qed.

Lemma pairs_plausible o : plausible o RequestGpos (pairs_of 1 2).
Proof. split; [apply only_fits; plain|]. split; [apply only_wf; plain|vm_compute; reflexivity]. Qed.

Lemma palettes_plausible o : plausible o RequestCpal (palettes_of_two 2).
Proof. split; [plain|]. split; [plain|vm_compute; reflexivity]. Qed.

Lemma points_plausible o : plausible o RequestGdef (points_of 9).
Proof. split; [plain|]. split; [plain|vm_compute; auto]. Qed.

(** And so none of the properties is guaranteed. *)
Lemma instances_not o : ~ guaranteed o RequestFvar instances_within.
Proof.
  destruct (instance_plausible o) as (R & W & S).
  apply (not_guaranteed _ o _ _ instances_content R W S). rewrite instance_within. lia.
Qed.

Lemma axes_not o : ~ guaranteed o RequestFvar axes_distinct.
Proof.
  destruct (axes_plausible o) as (R & W & S).
  apply (not_guaranteed _ o _ _ axes_content R W S). rewrite axes_of_distinct. intros H. exact (H eq_refl).
Qed.

Lemma indices_not o : ~ guaranteed o RequestGsub coverages_indexed.
Proof.
  destruct (index_plausible o) as (R & W & S).
  apply (not_guaranteed _ o _ _ coverages_content R W S). rewrite index_of_indexed. discriminate.
Qed.

Lemma pairs_not o : ~ guaranteed o RequestGpos pairs_known.
Proof.
  destruct (pairs_plausible o) as (R & W & S).
  apply (not_guaranteed _ o _ _ pairs_content R W S). rewrite pairs_of_known. lia.
Qed.

Lemma palettes_not o : ~ guaranteed o RequestCpal palettes_within.
Proof.
  destruct (palettes_plausible o) as (R & W & S).
  apply (not_guaranteed _ o _ _ palettes_content R W S). rewrite palettes_of_two_within. lia.
Qed.

Lemma points_not o : ~ guaranteed o RequestGdef points_increasing.
Proof.
  destruct (points_plausible o) as (R & W & S).
  apply (not_guaranteed _ o _ _ points_content R W S). rewrite points_of_increasing. lia.
Qed.
