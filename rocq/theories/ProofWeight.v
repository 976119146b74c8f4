(** How much a value holds is bounded by its extent (C76). *)

From Verif Require Import ProofShape ProofExtentUse ProofWritten ProofPositions ProofRequests.
From Verif Require Export SpecExtent SpecWeight.

(** ** Vectors *)

Lemma load_cons {A} (w : A -> N) x l : load w (x :: l) = 1 + w x + load w l.
Proof. reflexivity. Qed.

Lemma count_cons {A} (x : A) l : count (x :: l) = 1 + count l.
Proof. unfold count. cbn [length]. lia. Qed.

Lemma load_le {A} (w : A -> N) b l : Forall (fun x => w x <= b) l -> load w l <= count l * (1 + b).
Proof.
  induction 1 as [|x l H _ IH]; [cbn; lia|]. rewrite load_cons, count_cons. lia.
Qed.

Lemma load_ends {A} (w e : A -> N) n l :
  Forall (fun x => w x <= n * e x) l -> load w l <= count l + n * sum (map e l).
Proof.
  induction 1 as [|x l H _ IH]; [cbn; lia|]. rewrite load_cons, count_cons. cbn [map sum fold_right] in *.
  unfold sum in *. lia.
Qed.

Lemma sum_count {A} (e : A -> N) k l : Forall (fun x => k <= e x) l -> k * count l <= sum (map e l).
Proof.
  induction 1 as [|x l H _ IH]; [cbn; lia|]. rewrite count_cons. cbn [map sum fold_right] in *.
  unfold sum in *. lia.
Qed.

(** ** Parts *)

Lemma farthest_within {A} (ext : A -> N) n : forall offsets l, length offsets = length l ->
  farthest offsets (map ext l) <= n -> Forall (fun x => ext x <= n) l.
Proof.
  induction offsets as [|o offsets IH]; intros [|x l] L H; try discriminate L; constructor; cbn in H, L.
  - lia.
  - apply IH; lia.
Qed.

Lemma farthest_some_within {A} (ext : A -> N) n : forall offsets l, length offsets = length l ->
  farthest_some offsets (map (option_map ext) l) <= n ->
  Forall (fun v => match v with Some x => ext x <= n | None => True end) l.
Proof.
  induction offsets as [|o offsets IH]; intros [|x l] L H; try discriminate L; constructor; cbn in H, L.
  - destruct x; cbn in H; [lia|exact I].
  - apply IH; lia.
Qed.

Lemma most_within {A} (ext : A -> N) n l : most (map ext l) <= n -> Forall (fun x => ext x <= n) l.
Proof.
  induction l as [|x l IH]; intros H; [constructor|]. unfold most in *. cbn in H.
  constructor; [lia|apply IH; lia].
Qed.

Lemma counts_length {A B} n (l : list A) (k : list B) : counts n l -> counts n k -> length l = length k.
Proof. unfold counts. lia. Qed.

(** A level of parts found by offsets: if each holds at most [P / 2], they hold together at most
    [e * P / 2], and there is room for [P] more. *)
Lemma level c b P e : 2 + 2 * c <= e -> 2 * b <= P -> e <= P -> 2 * (c + c * (1 + b)) + 2 * P <= e * P.
Proof.
  intros H B L. assert (M : (2 + 2 * c) * P <= e * P) by (apply N.mul_le_mono_r; exact H).
  destruct (N.eq_dec c 0) as [->|K]; [lia|].
  assert (c * (2 * b) <= c * P) by (apply N.mul_le_mono_l; exact B).
  assert (c * 4 <= c * P) by (apply N.mul_le_mono_l; lia). lia.
Qed.

Lemma Forall_imp2 {A} (P Q R : A -> Prop) l :
  (forall x, P x -> Q x -> R x) -> Forall P l -> Forall Q l -> Forall R l.
Proof. intros H A1 A2. rewrite Forall_forall in *. auto. Qed.

Ltac weigh :=
  cbn -[N.mul N.add N.le N.of_nat size be16 flat_map app length count]; unfold count;
  rewrite ?size_app, ?size_be16, ?size_be32, ?size_words;
  rewrite ?(size_records coverage_record_bytes 6), ?(size_records class_record_bytes 6),
    ?(size_records action_bytes 4) by (intros []; reflexivity); lia.

(** ** Values without parts *)

Lemma coverage_plain v : 4 + 2 * coverage_weight v <= coverage_end v.
Proof. unfold coverage_end. destruct v as [[]|[]]; weigh. Qed.

Lemma class_plain v : 4 + 2 * class_weight v <= class_end v.
Proof. unfold class_end. destruct v as [[]|[]]; weigh. Qed.

Lemma correction_plain v : 6 + 2 * correction_weight v <= correction_end v.
Proof. unfold correction_end. destruct v as [[]|[]]; weigh. Qed.

Lemma context_record_plain v : 2 * context_record_weight v <= size (context_record_bytes v).
Proof. unfold context_record_weight. destruct v; weigh. Qed.

Lemma context_class_record_plain v : 2 * context_class_record_weight v <= size (context_class_record_bytes v).
Proof. unfold context_class_record_weight. destruct v; weigh. Qed.

Lemma chained_record_plain v : 2 * chained_record_weight v <= size (chained_record_bytes v).
Proof. unfold chained_record_weight. destruct v; weigh. Qed.

Lemma chained_class_record_plain v : 2 * chained_class_record_weight v <= size (chained_class_record_bytes v).
Proof. unfold chained_class_record_weight. destruct v; weigh. Qed.

Lemma language_record_plain v : 2 * language_record_weight v <= language_record_end v.
Proof. unfold language_record_weight, language_record_end. destruct v; weigh. Qed.

Lemma attachment_plain v : 2 * attachment_weight v <= attachment_end v.
Proof. unfold attachment_weight, attachment_end. destruct v; weigh. Qed.

Lemma ligature_plain v : 2 * ligature_weight v <= size (ligature_bytes v).
Proof. unfold ligature_weight. destruct v; weigh. Qed.

Lemma sequence_plain v : 2 * count (sequence_glyph_ids v) <= size (sequence_bytes v).
Proof. destruct v; weigh. Qed.

Lemma alternates_plain v : 2 * count (alternates_glyph_ids v) <= size (alternates_bytes v).
Proof. destruct v; weigh. Qed.

Lemma double_ge e : 2 <= e -> 2 * e <= e * e.
Proof. intros H. apply N.mul_le_mono_r, H. Qed.

(** ** Parts found by offsets *)

Lemma parts {A} (wf : A -> Prop) (w ext : A -> N) P e c offsets l :
  (forall x, wf x -> ext x <= e -> 2 * w x <= P) ->
  counts c offsets -> counts c l -> Forall wf l -> farthest offsets (map ext l) <= e ->
  2 + 2 * c <= e -> e <= P -> 2 * (count offsets + load w l) + 2 * P <= e * P.
Proof.
  intros B L1 L2 W F R Q.
  apply farthest_within in F; [|exact (counts_length _ _ _ L1 L2)].
  assert (X : Forall (fun x => w x <= P / 2) l).
  { revert W F. apply Forall_imp2. intros x H1 H2. apply N.div_le_lower_bound; [discriminate|]. auto. }
  apply load_le in X. pose proof (level c (P / 2) P e R) as Y. unfold counts, count in *.
  rewrite <- L1. rewrite <- L2 in X. pose proof (N.mul_div_le P 2 ltac:(discriminate)). lia.
Qed.

Lemma parts_some {A} (wf : A -> Prop) (w ext : A -> N) P e c offsets l :
  (forall x, wf x -> ext x <= e -> 2 * w x <= P) ->
  counts c offsets -> counts c l -> Forall (maybe_wf wf) l ->
  farthest_some offsets (map (option_map ext) l) <= e ->
  2 + 2 * c <= e -> e <= P -> 2 * (count offsets + load (maybe_weight w) l) + 2 * P <= e * P.
Proof.
  intros B L1 L2 W F R Q.
  apply farthest_some_within in F; [|exact (counts_length _ _ _ L1 L2)].
  assert (X : Forall (fun x => maybe_weight w x <= P / 2) l).
  { revert W F. apply Forall_imp2. intros [x|] H1 H2; [|apply N.le_0_l].
    apply N.div_le_lower_bound; [discriminate|]. cbn in *. auto. }
  apply load_le in X. pose proof (level c (P / 2) P e R) as Y. unfold counts, count in *.
  rewrite <- L1. rewrite <- L2 in X. pose proof (N.mul_div_le P 2 ltac:(discriminate)). lia.
Qed.

(** A list of parts without a header of its own. *)
Lemma parts_plain {A} (w ext : A -> N) P e c offsets l :
  (forall x, ext x <= e -> 2 * w x <= P) ->
  counts c offsets -> counts c l -> farthest offsets (map ext l) <= e ->
  2 + 2 * c <= e -> e <= P -> 2 * (count offsets + load w l) + 2 * P <= e * P.
Proof.
  intros B L1 L2. apply (parts (fun _ => True)); [auto|exact L1|exact L2|].
  apply Forall_forall. auto.
Qed.

Tactic Notation "look" :=
  cbn -[N.mul N.add N.max N.le N.of_nat size length count load maybe_weight farthest farthest_some maybe_far
    coverage_weight coverage_end class_weight class_end].
Tactic Notation "look" "in" "*" :=
  cbn -[N.mul N.add N.max N.le N.of_nat size length count load maybe_weight farthest farthest_some maybe_far
    coverage_weight coverage_end class_weight class_end] in *.

(** ** src/layout *)

Ltac plain_pieces :=
  match goal with H : context [farthest _ (map ?ext ?l)] |- context [load ?w ?l] =>
    eapply (parts_plain w ext) end.
Ltac pieces :=
  match goal with H : context [farthest _ (map ?ext ?l)] |- context [load ?w ?l] => eapply (parts _ w ext) end.
Ltac pieces_of wf :=
  match goal with H : context [farthest _ (map ?ext ?l)] |- context [load ?w ?l] => eapply (parts wf w ext) end.
Ltac some_pieces :=
  match goal with
  | H : context [farthest_some _ (map (option_map ?ext) ?l)] |- context [load (maybe_weight ?w) ?l] =>
      eapply (parts_some _ w ext)
  end.
Ltac ceil := try assumption; try lia.

Lemma context_records_held e v : context_records_wf v -> context_records_extent v <= e ->
  2 * context_records_weight v + 2 * e <= e * e.
Proof.
  destruct v as [n offsets records]. look. unfold context_records_weight, context_records_extent. look.
  intros (H1 & H2 & _) H. plain_pieces; [|exact H1|exact H2|..]; ceil.
  intros x Hx. pose proof (context_record_plain x). lia.
Qed.

Lemma context_class_records_held e v : context_class_records_wf v -> context_class_records_extent v <= e ->
  2 * context_class_records_weight v + 2 * e <= e * e.
Proof.
  destruct v as [n offsets records]. look.
  unfold context_class_records_weight, context_class_records_extent. look.
  intros (H1 & H2 & _) H. plain_pieces; [|exact H1|exact H2|..]; ceil.
  intros x Hx. pose proof (context_class_record_plain x). lia.
Qed.

Lemma chained_records_held e v : chained_records_wf v -> chained_records_extent v <= e ->
  2 * chained_records_weight v + 2 * e <= e * e.
Proof.
  destruct v as [n offsets records]. look. unfold chained_records_weight, chained_records_extent. look.
  intros (H1 & H2 & _) H. plain_pieces; [|exact H1|exact H2|..]; ceil.
  intros x Hx. pose proof (chained_record_plain x). lia.
Qed.

Lemma chained_class_records_held e v : chained_class_records_wf v -> chained_class_records_extent v <= e ->
  2 * chained_class_records_weight v + 2 * e <= e * e.
Proof.
  destruct v as [n offsets records]. look.
  unfold chained_class_records_weight, chained_class_records_extent. look.
  intros (H1 & H2 & _) H. plain_pieces; [|exact H1|exact H2|..]; ceil.
  intros x Hx. pose proof (chained_class_record_plain x). lia.
Qed.

Lemma coverages_held e c offsets l :
  counts c offsets -> counts c l -> farthest offsets (map coverage_end l) <= e -> 2 + 2 * c <= e ->
  2 * (count offsets + load coverage_weight l) + 2 * e <= e * e.
Proof.
  intros H1 H2 H3 H4. plain_pieces; [|exact H1|exact H2|..]; ceil.
  intros x Hx. pose proof (coverage_plain x). lia.
Qed.

Lemma context_held e v : context_wf v -> context_extent v <= e -> 2 * context_weight v <= e * (e * e).
Proof.
  destruct v as [[format o1 n offsets coverage records]|[format o1 o2 n offsets coverage class records]|
    [format n m offsets actions coverages]]; look.
  - intros (_ & H1 & _ & H2 & W) H. pose proof (coverage_plain coverage). pose proof (double_ge e ltac:(lia)).
    cut (2 * (count offsets + load context_records_weight records) + 2 * (e * e) <= e * (e * e)); [lia|].
    pieces; [|exact H1|exact H2|exact W|..]; ceil.
    intros x Wx Hx. pose proof (context_records_held e x Wx Hx). lia.
  - intros (_ & H1 & _ & _ & H2 & W & _) H. pose proof (coverage_plain coverage).
    pose proof (class_plain class).
    pose proof (double_ge e ltac:(lia)).
    cut (2 * (count offsets + load (maybe_weight context_class_records_weight) records) + 2 *
      (e * e) <= e * (e * e)); [lia|].
    some_pieces; [|exact H1|exact H2|exact W|..]; ceil.
    intros x Wx Hx. pose proof (context_class_records_held e x Wx Hx). lia.
  - intros (_ & H1 & M & H2 & _) H. pose proof (double_ge e ltac:(lia)).
    pose proof (coverages_held e n offsets coverages H1 H2 ltac:(lia) ltac:(lia)).
    pose proof (N.mul_le_mono_r 2 e (e * e) ltac:(lia)). unfold counts, count in *. lia.
Qed.

Lemma chained_context_held e v : chained_context_wf v -> chained_context_extent v <= e ->
  2 * chained_context_weight v <= e * (e * e).
Proof.
  destruct v as [[format o1 n offsets coverage records]|
    [format o1 o2 o3 o4 n offsets coverage back class fore records]|
    [format a offsets1 b offsets2 c offsets3 m actions coverages1 coverages2 coverages3]]; look.
  - intros (_ & H1 & _ & H2 & W) H. pose proof (coverage_plain coverage). pose proof (double_ge e ltac:(lia)).
    cut (2 * (count offsets + load chained_records_weight records) + 2 * (e * e) <= e * (e * e)); [lia|].
    pieces; [|exact H1|exact H2|exact W|..]; ceil.
    intros x Wx Hx. pose proof (chained_records_held e x Wx Hx). lia.
  - intros (_ & H1 & _ & _ & _ & _ & H2 & W & _) H. pose proof (coverage_plain coverage).
    pose proof (class_plain back). pose proof (class_plain class). pose proof (class_plain fore).
    pose proof (double_ge e ltac:(lia)).
    cut (2 * (count offsets + load (maybe_weight chained_class_records_weight) records) + 2 *
      (e * e) <= e * (e * e)); [lia|].
    some_pieces; [|exact H1|exact H2|exact W|..]; ceil.
    intros x Wx Hx. pose proof (chained_class_records_held e x Wx Hx). lia.
  - intros (_ & A1 & B1 & C1 & M & A2 & B2 & C2 & _) H.
    pose proof (coverages_held e a offsets1 coverages1 A1 A2 ltac:(lia) ltac:(lia)).
    pose proof (coverages_held e b offsets2 coverages2 B1 B2 ltac:(lia) ltac:(lia)).
    pose proof (coverages_held e c offsets3 coverages3 C1 C2 ltac:(lia) ltac:(lia)).
    pose proof (N.mul_le_mono_r 10 e (e * e) ltac:(lia)). unfold counts, count in *. lia.
Qed.

Lemma script_record_held e v : script_record_wf v -> script_record_extent v <= e ->
  2 * script_record_weight v <= e * e.
Proof.
  destruct v as [offset n headers default records]. look.
  unfold script_record_weight, script_record_extent. look.
  intros (H1 & H2 & _ & _ & _) H.
  assert (D : 2 * maybe_weight language_record_weight default <= e).
  { destruct default as [x|]; cbn [maybe_weight maybe_far option_map] in *; [|lia].
  pose proof (language_record_plain x). lia. }
  cut (2 * (count (map language_header_offset headers) + load language_record_weight records) + 2 * e <= e * e).
  { unfold count. rewrite map_length. lia. }
  plain_pieces; [|unfold counts; rewrite map_length; exact H1|exact H2|..]; ceil.
  intros x Hx. pose proof (language_record_plain x). lia.
Qed.

Lemma scripts_held e v : scripts_wf v -> scripts_extent v <= e -> 2 * scripts_weight v <= e * (e * e).
Proof.
  destruct v as [n headers records]. look. unfold scripts_weight, scripts_extent. look.
  intros (H1 & H2 & W) H. pose proof (double_ge e ltac:(lia)).
  cut (2 * (count (map script_header_offset headers) + load script_record_weight records) + 2 *
    (e * e) <= e * (e * e)).
  { unfold count. rewrite map_length. lia. }
  pieces; [|unfold counts; rewrite map_length; exact H1|exact H2|exact W|..]; ceil.
  intros x Wx Hx. apply script_record_held; assumption.
Qed.

Lemma features_held e v : features_wf v -> features_fits v -> features_extent v <= e ->
  2 * features_weight v <= e * e.
Proof.
  destruct v as [n headers records]. look. unfold features_weight, features_extent. look.
  intros (H1 & H2 & W) (_ & R) H.
  cut (2 * (count (map feature_header_offset headers) + load feature_record_weight records) + 2 * e <= e * e).
  { unfold count. rewrite map_length. lia. }
  pieces_of (fun x => feature_record_wf x /\ feature_record_fits x);
    [|unfold counts; rewrite map_length; exact H1|exact H2| |..]; ceil.
  - intros [offset m indices parameters] [(L & _) (_ & _ & X)] Hx.
    unfold feature_record_weight, feature_record_extent in *. look in *.
    destruct parameters as [?|]; cbn [maybe_weight maybe_fits] in *; [subst|];
      unfold counts, count in *; cbn [length]; lia.
  - revert W R. apply Forall_imp2. auto.
Qed.

(** What [GSUB] and [GPOS] have in common. *)
Section lookups.
Context {T : Type} (wf : N -> T -> Prop) (fits : T -> Prop) (w ext : T -> N) (P e : N) (o : options).
Hypothesis table : forall t x, wf t x -> fits x -> ext x <= e -> 2 * w x <= P.
Hypothesis enough : e <= P.

Lemma lookup_record_held v : lookup_record_wf wf v -> lookup_record_fits o fits v ->
  lookup_record_extent ext v <= e -> 2 * lookup_record_weight w v <= e * P.
Proof.
  destruct v as [t flags n offsets set tables]. look. unfold lookup_record_weight, lookup_record_extent. look.
  intros (H1 & H2 & _ & W) (_ & _ & _ & _ & R) H.
  cut (2 * (count offsets + load w tables) + 2 * P <= e * P); [lia|].
  pieces_of (fun x => wf t x /\ fits x); [|exact H1|exact H2| |..]; ceil.
  - intros x [? ?] Hx. eapply table; eassumption.
  - revert W R. apply Forall_imp2. auto.
Qed.

Lemma lookups_held v : lookups_wf wf v -> lookups_fits o fits v ->
  lookups_extent ext v <= e -> 2 * lookups_weight w v + 2 * (e * P) <= e * (e * P).
Proof.
  destruct v as [n offsets records]. look. unfold lookups_weight, lookups_extent. look.
  intros (H1 & H2 & W) (_ & R) H.
  pieces_of (fun x => lookup_record_wf wf x /\ lookup_record_fits o fits x); [|exact H1|exact H2| |..]; ceil.
  - intros x [? ?] Hx. apply lookup_record_held; assumption.
  - revert W R. apply Forall_imp2. auto.
  - pose proof (N.mul_le_mono_r 1 e P ltac:(lia)). lia.
Qed.
End lookups.

(** A list of the directory that is not there holds nothing. *)
Lemma list_held {A} o (elem : N -> A -> Prop) (w ext : A -> N) p offset default v e :
  list_at o elem p offset default v -> w default = 0 -> list_far o offset (ext v) <= e ->
  w v = 0 \/ ext v <= e.
Proof.
  intros [(-> & X & ->)|(C & _)] D H; [left; exact D|right]. unfold list_far in H.
  destruct (ignore_incomplete_directories o); [|cbn in H; lia].
  destruct C as [C|C]; [|discriminate C]. rewrite (proj2 (N.eqb_neq _ _) C) in H. cbn in H. lia.
Qed.

Lemma directory_held {T} (wf : N -> T -> Prop) (fits : T -> Prop) (w ext : T -> N) P e o table_at f p v :
  (forall t x, wf t x -> fits x -> ext x <= e -> 2 * w x <= P) -> e * e <= P ->
  directory_at o table_at f p v -> directory_wf wf v -> directory_fits o fits v ->
  directory_extent o ext v <= e -> 2 * directory_weight w v <= e * (e * P).
Proof.
  destruct v as [major minor o1 o2 o3 o4 scripts features lookups variations].
  intros B Q D (_ & _ & W1 & W2 & W3 & _) (R1 & R2 & R3 & _) H.
  destruct D as (_ & _ & _ & _ & _ & _ & _ & _ & _ & D1 & D2 & D3 & _).
  unfold directory_extent, directory_weight in *.
  cbn [directory_minor_version directory_script_offset directory_feature_offset directory_lookup_offset
    directory_variation_offset directory_scripts directory_features directory_lookups
      directory_variations] in *.
  assert (S : 10 <= e) by (destruct (minor =? 1); lia).
  pose proof (double_ge e ltac:(lia)).
  assert (X1 : 2 * scripts_weight scripts <= e * P).
  { assert (e * (e * e) <= e * P) by (apply N.mul_le_mono_l, Q).
    destruct (list_held o _ scripts_weight scripts_extent p o1 _ scripts e D1 eq_refl ltac:(lia)) as
      [X|X]; [lia|].
    pose proof (scripts_held e scripts W1 X). lia. }
  assert (X2 : 2 * features_weight features <= e * P).
  { assert (1 * P <= e * P) by (apply N.mul_le_mono_r; lia).
    destruct (list_held o _ features_weight features_extent p o2 _ features e D2 eq_refl ltac:(lia))
      as [X|X]; [lia|].
    pose proof (features_held e features W2 R2 X). lia. }
  destruct (list_held o _ (lookups_weight w) (lookups_extent ext) p o3 _ lookups e D3 eq_refl
    ltac:(lia)) as [X|X].
  - pose proof (N.mul_le_mono_r 2 e (e * P) ltac:(lia)). lia.
  - pose proof (lookups_held wf fits w ext P e o B ltac:(lia) lookups W3 R3 X). lia.
Qed.

(** ** src/tables/glyph_substitution *)

Lemma ligatures_held e v : ligatures_wf v -> ligatures_extent v <= e -> 2 * ligatures_weight v + 2 * e <= e * e.
Proof.
  destruct v as [n offsets records]. look. unfold ligatures_weight, ligatures_extent. look.
  intros (H1 & H2 & _) H. plain_pieces; [|exact H1|exact H2|..]; ceil.
  intros x Hx. pose proof (ligature_plain x). lia.
Qed.

Lemma gsub_type_held e t v : gsub_type_wf t v -> gsub_type_extent v <= e ->
  2 * gsub_type_weight v <= e * (e * e).
Proof.
  destruct v as [[[format o1 delta coverage]|[format o1 n ids coverage]]|[format o1 n offsets coverage records]|
    [format o1 n offsets coverage records]|[format o1 n offsets coverage records]|v|v|[format type_ offset]|
    [format o1 a offsets1 b offsets2 c ids coverage coverages1 coverages2]].
  - look. intros _ H. pose proof (coverage_plain coverage). pose proof (double_ge e ltac:(lia)).
    pose proof (N.mul_le_mono_r 2 e (e * e) ltac:(lia)). lia.
  - look. intros (_ & _ & M & _) H. pose proof (coverage_plain coverage). pose proof (double_ge e ltac:(lia)).
    pose proof (N.mul_le_mono_r 2 e (e * e) ltac:(lia)). unfold counts, count in *. lia.
  - look. intros (_ & _ & H1 & _ & H2 & _) H. pose proof (coverage_plain coverage).
    pose proof (double_ge e ltac:(lia)).
    cut (2 * (count offsets + load (fun r => count (sequence_glyph_ids r)) records) + 2 * e <= e * e).
    { pose proof (N.mul_le_mono_r 2 e (e * e) ltac:(lia)). lia. }
    plain_pieces; [|exact H1|exact H2|..]; ceil. intros x Hx. pose proof (sequence_plain x). lia.
  - look. intros (_ & _ & H1 & _ & H2 & _) H. pose proof (coverage_plain coverage).
    pose proof (double_ge e ltac:(lia)).
    cut (2 * (count offsets + load (fun r => count (alternates_glyph_ids r)) records) + 2 * e <= e * e).
    { pose proof (N.mul_le_mono_r 2 e (e * e) ltac:(lia)). lia. }
    plain_pieces; [|exact H1|exact H2|..]; ceil. intros x Hx. pose proof (alternates_plain x). lia.
  - look. intros (_ & _ & H1 & _ & H2 & W) H. pose proof (coverage_plain coverage).
    pose proof (double_ge e ltac:(lia)).
    cut (2 * (count offsets + load ligatures_weight records) + 2 * (e * e) <= e * (e * e)); [lia|].
    pieces; [|exact H1|exact H2|exact W|..]; ceil.
    intros x Wx Hx. pose proof (ligatures_held e x Wx Hx). lia.
  - intros (_ & W) H. exact (context_held e v W H).
  - intros (_ & W) H. exact (chained_context_held e v W H).
  - look. intros. apply N.le_0_l.
  - look. intros (_ & A1 & B1 & M & _ & A2 & B2 & _) H. pose proof (coverage_plain coverage).
    pose proof (coverages_held e a offsets1 coverages1 A1 A2 ltac:(lia) ltac:(lia)).
    pose proof (coverages_held e b offsets2 coverages2 B1 B2 ltac:(lia) ltac:(lia)).
    pose proof (N.mul_le_mono_r 10 e (e * e) ltac:(lia)). unfold counts, count in *. lia.
Qed.

(** ** src/tables/glyph_definition and src/variations *)

Lemma attachments_held e v : attachments_wf v -> attachments_extent v <= e -> 2 * attachments_weight v <= e * e.
Proof.
  destruct v as [o1 n offsets coverage records]. look. unfold attachments_weight, attachments_extent. look.
  intros (H1 & _ & H2 & _) H. pose proof (coverage_plain coverage).
  cut (2 * (count offsets + load attachment_weight records) + 2 * e <= e * e); [lia|].
  plain_pieces; [|exact H1|exact H2|..]; ceil. intros x Hx. pose proof (attachment_plain x). lia.
Qed.

Lemma caret_held e v : caret_extent v <= e -> 2 * caret_weight v <= e.
Proof. destruct v as [v|v|v]; look; intros H; [lia|lia|].
  pose proof (correction_plain (caret3_correction v)). lia. Qed.

Lemma gdef_ligature_held e v : gdef_ligature_wf v -> gdef_ligature_extent v <= e ->
  2 * gdef_ligature_weight v + 2 * e <= e * e.
Proof.
  destruct v as [n offsets carets]. look. unfold gdef_ligature_weight, gdef_ligature_extent. look.
  intros (H1 & H2 & _) H. plain_pieces; [|exact H1|exact H2|..]; ceil.
  intros x Hx. exact (caret_held e x Hx).
Qed.

Lemma gdef_ligatures_held e v : gdef_ligatures_wf v -> gdef_ligatures_extent v <= e ->
  2 * gdef_ligatures_weight v <= e * (e * e).
Proof.
  destruct v as [o1 n offsets coverage records]. look.
  unfold gdef_ligatures_weight, gdef_ligatures_extent. look.
  intros (H1 & _ & H2 & W) H. pose proof (coverage_plain coverage). pose proof (double_ge e ltac:(lia)).
  cut (2 * (count offsets + load gdef_ligature_weight records) + 2 * (e * e) <= e * (e * e)); [lia|].
  pieces; [|exact H1|exact H2|exact W|..]; ceil. intros x Wx Hx. pose proof (gdef_ligature_held e x Wx Hx). lia.
Qed.

Lemma marks_held e v : marks_wf v -> marks_extent v <= e -> 2 * marks_weight v <= e * e.
Proof.
  destruct v as [format n offsets coverages]. look. unfold marks_weight, marks_extent. look.
  intros (_ & H1 & H2 & _) H. pose proof
    (coverages_held e n offsets coverages H1 H2 ltac:(lia) ltac:(lia)). lia.
Qed.

Lemma store_held e v : store_wf v -> store_extent v <= e -> 2 * store_weight v <= 2 * (e * e).
Proof.
  destruct v as [format o1 n offsets records]. look. unfold store_weight, store_extent. look.
  intros (_ & H1 & H2 & W) H.
  cut (2 * (count offsets + load store_record_weight records) + 2 * (2 * e) <= e * (2 * e)); [lia|].
  pieces; [|exact H1|exact H2|exact W|..]; ceil.
  intros [a b c indices deltas] (L & _) Hx. unfold store_record_weight, store_record_end in *. look in *.
  unfold counts, count in *. lia.
Qed.

Lemma maybe_held {A} (wf : A -> Prop) (w ext : A -> N) e B offset v :
  (forall x, wf x -> ext x <= e -> 2 * w x <= B) -> maybe_wf wf v ->
  maybe_far offset (option_map ext v) <= e -> 2 * maybe_weight w v <= B.
Proof. intros H W F. destruct v as [x|]; cbn [maybe_wf maybe_far option_map maybe_weight] in *;
  [|lia]. apply H; [exact W|lia]. Qed.

Ltac optional L W :=
  match goal with
  | H : context [maybe_far ?o (option_map ?ext ?v)] |- 2 * maybe_weight ?w ?v <= _ =>
      eapply (maybe_held _ w ext _ _ o); [exact L|exact W|lia]
  end.

Lemma definition_held e v : glyph_definition_wf v -> definition_extent v <= e ->
  definition_weight v <= e * (e * e).
Proof.
  destruct v as [header a b c d m s]. unfold glyph_definition_wf, definition_extent, definition_weight.
  cbn [glyph_definition_header glyph_definition_glyph_class glyph_definition_attachments
    glyph_definition_ligatures
    glyph_definition_mark_class glyph_definition_marks glyph_definition_variations].
  intros W H.
  assert (X : 12 <= e /\ 2 * maybe_weight class_weight a <= e /\
    2 * maybe_weight attachments_weight b <= e * e /\
    2 * maybe_weight gdef_ligatures_weight c <= e * (e * e) /\
    2 * maybe_weight class_weight d <= e /\ 2 * maybe_weight marks_weight m <= e * e /\
    2 * maybe_weight store_weight s <= 2 * (e * e)).
  { assert (K : forall x, class_wf x -> class_end x <= e -> 2 * class_weight x <= e).
    { intros x _ Hx. pose proof (class_plain x). lia. }
    destruct header as [[]|[]|[]]; look in *;
      destruct W as (_ & _ & W1 & _ & W2 & _ & W3 & _ & W4 & _ & W5 & _ & W6);
      (split; [lia|]);
      (split; [optional K W1|]);
      (split; [optional (attachments_held e) W2|]);
      (split; [optional (gdef_ligatures_held e) W3|]);
      (split; [optional K W4|]);
      (split; [optional (marks_held e) W5|]);
      (optional (store_held e) W6). }
  clear W H. pose proof (N.mul_le_mono_r 12 e (e * e) ltac:(lia)). pose proof (double_ge e ltac:(lia)). lia.
Qed.

(** ** src/tables/color_palettes.rs, src/tables/font_variations and src/file.rs *)

Lemma color_held e v : color_palettes_wf v -> color_extent v <= e -> color_weight v <= e.
Proof.
  destruct v as [[[version k n m o1 indices]|[version k n m o1 indices]] colors]; cbn;
    unfold color_extent, color_weight, steps_far; cbn;
  intros (_ & L1 & L2) H; unfold counts, count in *; destruct (m =? 0) eqn:E;
    [apply N.eqb_eq in E|apply N.eqb_neq in E|apply N.eqb_eq in E|apply N.eqb_neq in E]; lia.
Qed.

Lemma variation_held e o v : font_variations_wf v -> font_variations_fits o v -> variation_extent v <= e ->
  variation_weight v <= 2 ^ 16 * e.
Proof.
  destruct v as [[major minor o1 reserved n s1 m s2] axes instances]. look.
  unfold variation_extent, variation_weight. look.
  intros (_ & L1 & L2 & W) (_ & _ & R1 & R2 & _) H. change (2 ^ 16) with 65536. unfold u16 in *.
  assert (X : load (fun r => count (instance_record_coordinates r)) instances <= count instances * (1 + n)).
  { apply load_le. revert W. apply Forall_impl. unfold counts, count. intros x ->. lia. }
  unfold steps_far in H. unfold counts, count in *. rewrite <- L1, <- L2 in *.
  destruct (m =? 0) eqn:E; [apply N.eqb_eq in E; subst m; rewrite E in X; lia|].
  assert (m * (1 + n) <= 65535 * (1 + n)) by (apply N.mul_le_mono_r; lia). lia.
Qed.

Lemma offsets_plain v : 12 + 16 * count (offsets_records v) = size (offsets_bytes v).
Proof.
  destruct v as [[tag n a b c] records]. cbn [offsets_bytes offsets_records]. unfold count.
  rewrite !size_app, !size_be16. destruct tag.
  rewrite (size_records offset_record_bytes 16) by (intros [[]]; reflexivity).
  change (size (tag_bytes _)) with 4. lia.
Qed.

(** ** src/tables/glyph_positioning *)

Lemma anchor_held e v : anchor_extent v <= e -> anchor_weight v <= e.
Proof.
  destruct v as [v|v|v]; look; intros H; [lia|lia|].
  assert (K : forall o x, maybe_far o (option_map correction_end x) <= e ->
    2 * maybe_weight correction_weight x <= e).
  { intros o [x|] Hx; cbn [maybe_far option_map maybe_weight] in *; [|lia].
  pose proof (correction_plain x). lia. }
  pose proof (K _ _ (N.le_trans _ _ e (N.le_trans _ _ _ (N.le_max_l _ _) (N.le_max_r _ _)) H)).
  pose proof (K _ _ (N.le_trans _ _ e (N.le_trans _ _ _ (N.le_max_r _ _) (N.le_max_r _ _)) H)). lia.
Qed.

Lemma corrected_held e offset v : corrected_wf offset v -> link offset v <= e ->
  4 * maybe_weight correction_weight v <= e * field offset.
Proof.
  destruct offset as [offset|]; cbn [corrected_wf]; [|intros ->; cbn; lia]. intros _ H.
  destruct v as [v|]; cbn [link maybe_weight field] in *; [|lia]. pose proof (correction_plain v). lia.
Qed.

Lemma single_held e flags v : single_wf flags v -> single_links v <= e ->
  4 * single_weight v <= e * single_end v.
Proof.
  destruct v as [x0 x1 x2 x3 x4 x5 x6 x7 c4 c5 c6 c7].
  intros (_ & _ & _ & _ & _ & _ & _ & _ & W4 & W5 & W6 & W7) H.
  unfold single_links, single_weight, single_end in *.
  cbn [single_x_placement single_y_placement single_x_advance single_y_advance
    single_x_placement_correction_offset
    single_y_placement_correction_offset single_x_advance_correction_offset single_y_advance_correction_offset
    single_x_placement_correction single_y_placement_correction single_x_advance_correction
    single_y_advance_correction] in *.
  pose proof (corrected_held e _ _ W4 ltac:(lia)). pose proof (corrected_held e _ _ W5 ltac:(lia)).
  pose proof (corrected_held e _ _ W6 ltac:(lia)). pose proof (corrected_held e _ _ W7 ltac:(lia)). lia.
Qed.

Lemma value_held e flags v : value_wf flags v -> value_links v <= e ->
  4 * maybe_weight single_weight v <= e * value_end v.
Proof.
  destruct v as [v|]; cbn [value_links value_end maybe_weight]; [|lia]. intros (_ & W).
  exact (single_held e flags v W).
Qed.

Lemma load_four {A} (w ends : A -> N) e l :
  Forall (fun x => 4 * w x <= e * ends x) l -> 4 * load w l <= 4 * count l + e * sum (map ends l).
Proof.
  induction 1 as [|x l H _ IH]; [cbn; lia|]. rewrite load_cons, count_cons. cbn [map sum fold_right] in *.
  unfold sum in *. lia.
Qed.

Lemma pair1s_held e flags1 flags2 v : pair1s_wf flags1 flags2 v -> pair1s_extent v <= e ->
  2 * pair1s_weight v <= e * e.
Proof.
  destruct v as [n records]. unfold pair1s_extent, pair1s_weight, pair1s_end. cbn [pair1s_wf pair1s_records].
  intros (_ & W) H.
  assert (M : Forall (fun r => N.max (value_links (pair1_value1 r)) (value_links (pair1_value2 r))
    <= e) records).
  { apply most_within. lia. }
  set (ends := fun r => 2 + value_end (pair1_value1 r) + value_end (pair1_value2 r)) in *.
  assert (X : Forall (fun r => 4 * pair1_weight r <= e * ends r) records).
  { revert W M. apply Forall_imp2. intros [id a b] [Wa Wb] Hx. unfold pair1_weight, ends.
  cbn [pair1_value1 pair1_value2] in *.
    pose proof (value_held e _ _ Wa ltac:(lia)). pose proof (value_held e _ _ Wb ltac:(lia)). lia. }
  apply load_four in X.
  assert (Y : 2 * count records <= sum (map ends records)).
  { apply sum_count, Forall_forall. intros x _. unfold ends. lia. }
  assert (Z : e * (2 + sum (map ends records)) <= e * e) by (apply N.mul_le_mono_l; lia).
  pose proof (double_ge e ltac:(lia)). lia.
Qed.

Lemma pair2s_held e n flags1 flags2 v : pair2s_wf n flags1 flags2 v -> pair2s_links v <= e ->
  4 * pair2s_weight v <= 4 * n + e * pair2s_end v.
Proof.
  destruct v as [records]. unfold pair2s_links, pair2s_weight, pair2s_end. cbn [pair2s_wf pair2s_records].
  intros (L & W) H. apply most_within in H. unfold counts in L. subst n. apply load_four.
  revert W H. apply Forall_imp2. intros [a b] [Wa Wb] Hx. unfold pair2_weight.
  cbn [pair2_value1 pair2_value2] in *.
  pose proof (value_held e _ _ Wa ltac:(lia)). pose proof (value_held e _ _ Wb ltac:(lia)). lia.
Qed.

Lemma row_held e n offsets anchors : anchors_wf n offsets anchors -> anchors_links offsets anchors <= e ->
  2 * row_weight offsets anchors <= (2 + e) * (2 * N.of_nat (length offsets)).
Proof.
  intros (L1 & L2 & _) H. unfold row_weight, anchors_links in *.
  apply farthest_some_within in H; [|exact (counts_length _ _ _ L1 L2)].
  assert (X : Forall (fun x => maybe_weight anchor_weight x <= e) anchors).
  { revert H. apply Forall_impl. intros [x|] Hx; cbn [maybe_weight]; [apply anchor_held, Hx|lia]. }
  apply load_le in X. unfold counts, count in *. rewrite <- L1, <- L2 in *. lia.
Qed.

Lemma rows_held {R} (offsets : R -> list N) (anchors : R -> list (option Anchor)) n e l :
  Forall (fun r => anchors_wf n (offsets r) (anchors r)) l ->
  most (map (fun r => anchors_links (offsets r) (anchors r)) l) <= e ->
  2 * load (fun r => row_weight (offsets r) (anchors r)) l <=
  2 * count l + (2 + e) * sum (map (fun r => 2 * N.of_nat (length (offsets r))) l).
Proof.
  intros W H. apply most_within in H.
  induction l as [|x l IH]; [cbn; lia|]. inversion W; inversion H; subst.
  rewrite load_cons, count_cons. cbn [map sum fold_right] in *. unfold sum in *.
  pose proof (row_held e n _ _ H2 H6). specialize (IH H3 H7). lia.
Qed.

Lemma bases_held e n v : bases_wf n v -> bases_fits v -> bases_extent v <= e ->
  2 * bases_weight v <= 131070 + (2 + e) * e.
Proof.
  destruct v as [c records]. unfold bases_extent, bases_weight, bases_end.
  cbn [bases_wf bases_fits bases_records].
  intros (L & W) (R & _) H.
  pose proof (rows_held base_anchor_offsets base_anchors n e records) as X.
  assert (Y : Forall (fun r => anchors_wf n (base_anchor_offsets r) (base_anchors r)) records).
  { revert W. apply Forall_impl. intros []; auto. }
  specialize (X Y ltac:(lia)).
  assert (Z : (2 + e) * sum (map (fun r => 2 * N.of_nat (length (base_anchor_offsets r))) records)
    <= (2 + e) * e).
  { apply N.mul_le_mono_l. lia. }
  unfold counts, count, u16 in *. lia.
Qed.

Lemma mark2s_held e n v : mark2s_wf n v -> mark2s_fits v -> mark2s_extent v <= e ->
  2 * mark2s_weight v <= 131070 + (2 + e) * e.
Proof.
  destruct v as [c records]. unfold mark2s_extent, mark2s_weight, mark2s_end.
  cbn [mark2s_wf mark2s_fits mark2s_records].
  intros (L & W) (R & _) H.
  pose proof (rows_held mark2_anchor_offsets mark2_anchors n e records) as X.
  assert (Y : Forall (fun r => anchors_wf n (mark2_anchor_offsets r) (mark2_anchors r)) records).
  { revert W. apply Forall_impl. intros []; auto. }
  specialize (X Y ltac:(lia)).
  assert (Z : (2 + e) * sum (map (fun r => 2 * N.of_nat (length (mark2_anchor_offsets r))) records)
    <= (2 + e) * e).
  { apply N.mul_le_mono_l. lia. }
  unfold counts, count, u16 in *. lia.
Qed.

Lemma gpos_ligature_held e n v : gpos_ligature_wf n v -> gpos_ligature_fits v -> gpos_ligature_extent v <= e ->
  2 * gpos_ligature_weight v <= 131070 + (2 + e) * e.
Proof.
  destruct v as [c records]. unfold gpos_ligature_extent, gpos_ligature_weight.
  cbn [gpos_ligature_wf gpos_ligature_fits gpos_ligature_components].
  intros (L & W) (R & _) H.
  pose proof (rows_held component_anchor_offsets component_anchors n e records) as X.
  assert (Y : Forall (fun r => anchors_wf n (component_anchor_offsets r) (component_anchors r)) records).
  { revert W. apply Forall_impl. intros []; auto. }
  specialize (X Y ltac:(lia)).
  assert (Z : (2 + e) * sum (map (fun r => 2 * N.of_nat (length (component_anchor_offsets r)))
    records) <= (2 + e) * e).
  { apply N.mul_le_mono_l. lia. }
  unfold counts, count, u16 in *. lia.
Qed.

Lemma gpos_ligatures_held e n v : gpos_ligatures_wf n v -> gpos_ligatures_fits v ->
  gpos_ligatures_extent v <= e ->
  2 * gpos_ligatures_weight v + 2 * (131070 + (2 + e) * e) <= e * (131070 + (2 + e) * e).
Proof.
  destruct v as [c offsets records]. unfold gpos_ligatures_extent, gpos_ligatures_weight.
  cbn [gpos_ligatures_wf gpos_ligatures_fits gpos_ligatures_count gpos_ligatures_offsets
    gpos_ligatures_records].
  intros (L1 & L2 & W) (_ & R) H.
  pieces_of (fun x => gpos_ligature_wf n x /\ gpos_ligature_fits x); [|exact L1|exact L2| |..]; ceil.
  - intros x [? ?] Hx. apply (gpos_ligature_held e n); assumption.
  - revert W R. apply Forall_imp2. auto.
Qed.

Lemma mark1s_held e o f p v : mark1s_at o f p v -> mark1s_extent o v <= e -> 2 * mark1s_weight v <= e * e.
Proof.
  destruct v as [c records]. unfold mark1s_extent, mark1s_weight. cbn [mark1s_at mark1s_records].
  intros (_ & W) H.
  assert (M : Forall (fun r => mark1_links o r <= e) records) by (apply most_within; lia).
  assert (X : Forall (fun r => anchor_weight (mark1_anchor r) <= e) records).
  { apply (vec_Forall _ (fun r => mark1_links o r <= e -> anchor_weight (mark1_anchor r) <= e)) in W.
    - revert W M. apply Forall_imp2. auto.
    - intros q [id offset anchor] (_ & _ & Wx) Hx. unfold mark1_links in Hx.
      cbn [mark1_anchor mark1_anchor_offset] in *. destruct Wx as [(_ & _ & ->)|(C & _)]; [cbn; lia|].
      apply anchor_held. destruct (ignore_incomplete_marks o); [|cbn in Hx; lia].
      destruct C as [C|C]; [|discriminate C]. rewrite (proj2 (N.eqb_neq _ _) C) in Hx. cbn in Hx. lia. }
  apply load_le in X. unfold count in *.
  assert (N.of_nat (length records) * (1 + e) * 4 + 2 * (1 + e) <= e * (1 + e)).
  { assert ((2 + 4 * N.of_nat (length records)) * (1 + e) <= e * (1 + e)) by (apply N.mul_le_mono_r;
    lia). lia. }
  pose proof (double_ge e ltac:(lia)). lia.
Qed.

Lemma connections_held e l : 6 + 4 * N.of_nat (length l) <= e -> most (map connection_links l) <= e ->
  2 * load connection_weight l <= e * e.
Proof.
  intros L H. apply most_within in H.
  assert (X : Forall (fun r => connection_weight r <= 2 * e) l).
  { revert H. apply Forall_impl. intros [a b x y]. unfold connection_links, connection_weight.
    cbn [connection_start_anchor_offset connection_end_anchor_offset connection_start_anchor
      connection_end_anchor].
    intros H.
    assert (K : forall o x, maybe_far o (option_map anchor_extent x) <= e -> maybe_weight anchor_weight x <= e).
    { intros o [z|] Hz; cbn [maybe_far option_map maybe_weight] in *; [|lia]. apply anchor_held. lia. }
    pose proof (K a x ltac:(lia)). pose proof (K b y ltac:(lia)). lia. }
  apply load_le in X. unfold count in *.
  assert ((6 + 4 * N.of_nat (length l)) * (1 + 2 * e) <= e * (1 + 2 * e)) by (apply N.mul_le_mono_r; lia).
  pose proof (double_ge e ltac:(lia)). lia.
Qed.

(** Both the shape of a subtable and where it is: an anchor that is not there holds nothing. *)
Definition placed (o : options) (t : N) (v : GposType) : Prop :=
  gpos_type_wf o t v /\ exists f p, gpos_type_at o t f p v.

Lemma gpos_type_held e o t v : placed o t v -> gpos_type_fits o v -> gpos_type_extent o v <= e ->
  gpos_type_weight v <= 2 ^ 32 + e * (e * e).
Proof.
  change (2 ^ 32) with 4294967296. intros (W & f & p & D) R H.
  assert (S : 6 <= e).
  { destruct v as [[v|v]|[v|v]|v|v|v|v|[v|v|v]|[v|v|v]|v]; cbn -[N.max N.add N.mul] in H; lia. }
  pose proof (N.mul_le_mono_r 6 e e S) as S2. pose proof (N.mul_le_mono_r 6 e (e * e) S) as S3.
  destruct v as [[[format o1 flags value coverage]|[format o1 flags n values coverage]]|
    [[format o1 flags1 flags2 n offsets coverage records]|
     [format o1 flags1 flags2 o2 o3 n m records coverage class1 class2]]|
    [format o1 n connections coverage]|[format o1 o2 n o3 o4 coverage1 coverage2 marks bases]|
    [format o1 o2 n o3 o4 coverage1 coverage2 marks ligatures]|
    [format o1 o2 n o3 o4 coverage1 coverage2 mark1s mark2s]|v|v|[format type_ offset]].
  - destruct W as (_ & _ & W & _). cbn
    [gpos_type_extent gpos_type_weight single_adjustment1_value single_adjustment1_coverage
      single_adjustment1_coverage_offset] in *.
    pose proof (coverage_plain coverage). pose proof (single_held e flags value W ltac:(lia)).
    assert (e * single_end value <= e * e) by (apply N.mul_le_mono_l; lia). lia.
  - destruct W as (_ & _ & L & W & _), R as (_ & R & _).
    cbn [gpos_type_extent gpos_type_weight single_adjustment2_values single_adjustment2_coverage
      single_adjustment2_coverage_offset] in *.
    pose proof (coverage_plain coverage).
    assert (M : Forall (fun r => single_links r <= e) values) by (apply most_within; lia).
    assert (X : Forall (fun r => 4 * single_weight r <= e * single_end r) values).
    { revert W M. apply Forall_imp2. apply single_held. }
    apply load_four in X. assert (e * sum (map single_end values) <= e * e) by (apply N.mul_le_mono_l; lia).
    unfold counts, count, u16 in *. lia.
  - destruct W as (_ & _ & L1 & L2 & W & _).
    cbn [gpos_type_extent gpos_type_weight pair_adjustment1_record_count pair_adjustment1_coverage_offset
      pair_adjustment1_coverage pair_adjustment1_record_offsets pair_adjustment1_records] in *.
    pose proof (coverage_plain coverage).
    cut (2 * (count offsets + load pair1s_weight records) + 2 * (e * e) <= e * (e * e)); [lia|].
    pieces; [|exact L1|exact L2|exact W|..]; ceil. intros x Wx Hx. exact (pair1s_held e _ _ x Wx Hx).
  - destruct W as (_ & _ & L & W & _), R as (_ & _ & R1 & R2 & _).
    cbn [gpos_type_extent gpos_type_weight pair_adjustment2_records pair_adjustment2_coverage_offset
      pair_adjustment2_coverage pair_adjustment2_class1_offset pair_adjustment2_class1
      pair_adjustment2_class2_offset pair_adjustment2_class2] in *.
    pose proof (coverage_plain coverage). pose proof (class_plain class1). pose proof (class_plain class2).
    assert (M : Forall (fun r => pair2s_links r <= e) records) by (apply most_within; lia).
    assert (X : Forall (fun r => 4 * pair2s_weight r <= 4 * m + e * pair2s_end r) records).
    { revert W M. apply Forall_imp2. intros x. apply pair2s_held. }
    assert (Y : 4 * load pair2s_weight records <= count records * (4 + 4 * m) + e * sum
      (map pair2s_end records)).
    { clear - X. induction X as [|x l Hx _ IH]; [cbn; lia|]. rewrite load_cons, count_cons.
      cbn [map sum fold_right] in *. unfold sum in *. lia. }
    assert (e * sum (map pair2s_end records) <= e * e) by (apply N.mul_le_mono_l; lia).
    unfold counts, count, u16 in *. rewrite <- L in *.
    assert (n * (4 + 4 * m) <= 65535 * (4 + 4 * m)) by (apply N.mul_le_mono_r; lia). lia.
  - cbn [gpos_type_extent gpos_type_weight cursive_attachment_connections cursive_attachment_coverage_offset
      cursive_attachment_coverage] in *.
    pose proof (coverage_plain coverage).
    pose proof (connections_held e connections ltac:(lia) ltac:(lia)). lia.
  - destruct W as (_ & _ & _ & _ & _ & W), R as (_ & _ & _ & _ & R).
    destruct D as (_ & _ & _ & _ & _ & _ & _ & _ & _ & _ & D & _).
    cbn [gpos_type_extent gpos_type_weight mark_to_base_attachment_mark_coverage_offset
      mark_to_base_attachment_mark_coverage mark_to_base_attachment_base_coverage_offset
      mark_to_base_attachment_base_coverage mark_to_base_attachment_marks_offset mark_to_base_attachment_marks
      mark_to_base_attachment_bases_offset mark_to_base_attachment_bases] in *.
    pose proof (coverage_plain coverage1). pose proof (coverage_plain coverage2).
    pose proof (mark1s_held e o _ _ marks D ltac:(lia)). pose proof (bases_held e n bases W R ltac:(lia)). lia.
  - destruct W as (_ & _ & _ & _ & _ & W), R as (_ & _ & _ & _ & R).
    destruct D as (_ & _ & _ & _ & _ & _ & _ & _ & _ & _ & D & _).
    cbn [gpos_type_extent gpos_type_weight mark_to_ligature_attachment_mark_coverage_offset
      mark_to_ligature_attachment_mark_coverage mark_to_ligature_attachment_ligature_coverage_offset
      mark_to_ligature_attachment_ligature_coverage mark_to_ligature_attachment_marks_offset
      mark_to_ligature_attachment_marks mark_to_ligature_attachment_ligatures_offset
      mark_to_ligature_attachment_ligatures] in *.
    pose proof (coverage_plain coverage1). pose proof (coverage_plain coverage2).
    pose proof (mark1s_held e o _ _ marks D ltac:(lia)).
    pose proof (gpos_ligatures_held e n ligatures W R ltac:(lia)).
    destruct (N.le_gt_cases e 400) as [C|C]; [lia|].
    pose proof (N.mul_le_mono 400 e 400 e ltac:(lia) ltac:(lia)) as C2.
    pose proof (N.mul_le_mono_l _ _ e C2). lia.
  - destruct W as (_ & _ & _ & _ & _ & W), R as (_ & _ & _ & _ & R).
    destruct D as (_ & _ & _ & _ & _ & _ & _ & _ & _ & _ & D & _).
    cbn [gpos_type_extent gpos_type_weight mark_to_mark_attachment_mark1_coverage_offset
      mark_to_mark_attachment_mark1_coverage mark_to_mark_attachment_mark2_coverage_offset
      mark_to_mark_attachment_mark2_coverage mark_to_mark_attachment_mark1s_offset
        mark_to_mark_attachment_mark1s
      mark_to_mark_attachment_mark2s_offset mark_to_mark_attachment_mark2s] in *.
    pose proof (coverage_plain coverage1). pose proof (coverage_plain coverage2).
    pose proof (mark1s_held e o _ _ mark1s D ltac:(lia)).
    pose proof (mark2s_held e n mark2s W R ltac:(lia)). lia.
  - destruct W as (_ & W). pose proof (context_held e v W H) as X. cbn [gpos_type_weight]. lia.
  - destruct W as (_ & W). pose proof (chained_context_held e v W H) as X. cbn [gpos_type_weight]. lia.
  - cbn [gpos_type_weight]. lia.
Qed.

(** ** All reads *)

Theorem weight_by_extent {A} (r : request A) o f p v :
  bounded f -> reads o (reader r) f p v -> weight r v <= capacity r (extent o r v).
Proof.
  intros Hb H. pose proof (request_shape r o f p v Hb H) as W. pose proof (read_in_range r o f p v Hb H) as R.
  apply request_reads in H; [|exact Hb].
  destruct r; cbn [weight capacity extent well_formed in_range conforms reader] in *.
  - destruct (file_fonts v) as [|font [|]]; [destruct W| |destruct W].
    cbn [flat_map]. rewrite app_nil_r, <- offsets_plain. unfold font_weight. rewrite load_cons.
    cbn [load map sum fold_right]. lia.
  - rewrite <- offsets_plain. unfold font_weight. lia.
  - replace (definition_extent v ^ 3) with (definition_extent v * (definition_extent v * definition_extent v))
      by (change 3 with (N.succ (N.succ (N.succ 0))); rewrite !N.pow_succ_r', N.pow_0_r; lia).
    apply definition_held; [exact W|apply N.le_refl].
  - set (e := directory_extent o (gpos_type_extent o) v).
    assert (W' : directory_wf (placed o) v).
    { eapply directory_shape; [|exact H]. intros t g q x Hx. split; [|eauto].
    eapply gpos_type_shape; exact Hx. }
    cut (2 * directory_weight gpos_type_weight v <= e * (e * (2 * (2 ^ 32 + e * (e * e))))).
    { replace (e ^ 5) with (e * e * (e * (e * e)))
        by (change 5 with (N.succ (N.succ (N.succ (N.succ (N.succ 0)))));
          rewrite !N.pow_succ_r', N.pow_0_r; lia).
      replace (e ^ 2) with (e * e) by (change 2 with (N.succ (N.succ 0));
        rewrite !N.pow_succ_r', N.pow_0_r; lia).
      lia. }
    eapply (directory_held (placed o) (gpos_type_fits o) gpos_type_weight (gpos_type_extent o));
      [| |exact H|exact W'|exact R|apply N.le_refl].
    + intros t x Wx Rx Hx. pose proof (gpos_type_held e o t x Wx Rx Hx). lia.
    + assert (6 <= e). { unfold e, directory_extent. destruct (directory_minor_version v =? 1); lia. }
      pose proof (N.mul_le_mono_r 6 e e ltac:(lia)). pose proof (N.mul_le_mono_r 6 e (e * e) ltac:(lia)). lia.
  - set (e := directory_extent o gsub_type_extent v).
    replace (e ^ 5) with (e * (e * (e * (e * e))))
      by (change 5 with (N.succ (N.succ (N.succ (N.succ (N.succ 0))))); rewrite !N.pow_succ_r', N.pow_0_r; lia).
    cut (2 * directory_weight gsub_type_weight v <= e * (e * (e * (e * e)))); [lia|].
    eapply (directory_held gsub_type_wf gsub_type_fits gsub_type_weight gsub_type_extent);
      [| |exact H|exact W|exact R|apply N.le_refl].
    + intros t x Wx _ Hx. exact (gsub_type_held e t x Wx Hx).
    + assert (6 <= e). { unfold e, directory_extent. destruct (directory_minor_version v =? 1); lia. }
      pose proof (N.mul_le_mono_r 6 e e ltac:(lia)). pose proof (N.mul_le_mono_r 6 e (e * e) ltac:(lia)). lia.
  - apply color_held; [exact W|apply N.le_refl].
  - eapply variation_held; [exact W|exact R|apply N.le_refl].
Qed.
