(** Lemmas behind PropertiesPlain.v. *)

From Verif Require Import ReadsTactics ProofFindings ProofRequests ProofPieces ProofReads ProofFlags.
From Verif Require Export ProofUnused SpecPlain.

(** ** Flags *)

Lemma high_byte n : n / 256 <> 0 <-> 256 <= n.
Proof.
  split; intros H.
  - destruct (N.lt_ge_cases n 256) as [L|L]; [|exact L]. elim H. apply N.div_small. exact L.
  - intros E. apply N.div_small_iff in E; lia.
Qed.

Lemma plain_agree {T} (l : LookupRecord T) d d' : plain l -> agree_for l d d'.
Proof.
  intros (A & B & C & D & E). unfold agree_for. rewrite A, B, C, E.
  split; [discriminate|]. split; [discriminate|]. split; [intros [H|[H|H]]; [discriminate H|lia|elim H; reflexivity]|].
  split; [lia|discriminate].
Qed.

Lemma agree_skips_into {T} (v : Directory T) d d' k g :
  (forall l, entry (lookups_records (directory_lookups v)) k = Some l -> agree_for l d d') -> skips v d k g -> skips v d' k g.
Proof.
  intros A (l & E & H). exists l. split; [exact E|]. destruct (A l E) as (B & L & M & C & S). cbn zeta in *.
  destruct (flag_bits (lookup_record_flags l)) as (_ & F1 & F2 & F3 & _). rewrite F1, F2, F3 in *.
  destruct H as [(H & G)|[(H & G)|(H & G)]].
  - left. split; [apply B; assumption|exact G].
  - right; left. split; [apply L; assumption|exact G].
  - right; right. split.
    + apply M; [|exact H]. destruct G as [G|[(s & G & _)|(G & _)]]; [auto|right; right; congruence|].
      right; left. apply high_byte. exact G.
    + destruct G as [G|[(s & G & N)|(G & N)]]; [left; exact G|right; left; exists s|right; right].
      * split; [exact G|]. intros K. apply N, (S s G). exact K.
      * split; [exact G|]. intros K. apply N. apply (C (proj1 (high_byte _) G)). exact K.
Qed.

Lemma agree_for_sym {T} (l : LookupRecord T) d d' : agree_for l d d' -> agree_for l d' d.
Proof.
  intros (B & L & M & C & S). split; [intros H g; symmetry; exact (B H g)|]. split; [intros H g; symmetry; exact (L H g)|].
  split; [intros H g; symmetry; exact (M H g)|]. split; [intros H g; symmetry; exact (C H g)|].
  intros s H g. symmetry. exact (S s H g).
Qed.

Lemma agree_skips {T} (v : Directory T) d d' k g :
  (forall l, entry (lookups_records (directory_lookups v)) k = Some l -> agree_for l d d') -> (skips v d k g <-> skips v d' k g).
Proof.
  intros A. split; apply agree_skips_into; [exact A|]. intros l E. apply agree_for_sym. exact (A l E).
Qed.

(** ** Lookups that are not plain *)

Definition no_definitions : GlyphDefinition :=
  mkGlyphDefinition (GdefVersion1 (mkGdefHeader1 1 0 0 0 0 0)) None None None None None None.
Definition one_definition (c : N) : GlyphDefinition :=
  mkGlyphDefinition (GdefVersion1 (mkGdefHeader1 1 0 12 0 0 0)) (Some (ClassFormat1 (mkClass1 1 0 1 [c]))) None None None None None.

Lemma plain_exactly {T} (v : Directory T) k l : entry (lookups_records (directory_lookups v)) k = Some l ->
  (plain l <-> forall d d' g, skips v d k g <-> skips v d' k g).
Proof.
  intros E. split.
  { intros P d d' g. apply agree_skips. intros l' E'. rewrite E in E'. injection E' as <-. apply plain_agree. exact P. }
  intros H. assert (K : forall d g, ~ skips v d k g).
  { intros d g S. apply (H d no_definitions) in S. destruct S as (l' & _ & S). cbn zeta in S.
    destruct S as [((t & S & _) & _)|[((t & S & _) & _)|((t & S & _) & _)]]; discriminate S. }
  assert (D : forall c, defined_class (glyph_definition_glyph_class (one_definition c)) 0 c).
  { intros c. eexists. split; [reflexivity|]. split; [cbn; lia|reflexivity]. }
  destruct (flag_bits (lookup_record_flags l)) as (_ & F1 & F2 & F3 & _).
  split; [|split; [|split; [|split]]].
  - apply Bool.not_true_iff_false. intros B. apply (K (one_definition 1) 0). exists l. split; [exact E|]. left.
    split; [apply D|]. rewrite F1. exact B.
  - apply Bool.not_true_iff_false. intros B. apply (K (one_definition 2) 0). exists l. split; [exact E|]. right; left.
    split; [apply D|]. rewrite F2. exact B.
  - apply Bool.not_true_iff_false. intros B. apply (K (one_definition 3) 0). exists l. split; [exact E|]. right; right.
    split; [apply D|]. left. rewrite F3. exact B.
  - apply N.nle_gt. intros B. apply (K (one_definition 3) 0). exists l. split; [exact E|]. right; right.
    split; [apply D|]. right; right. split; [apply high_byte; exact B|]. intros (t & X & _). discriminate X.
  - destruct (lookup_record_mark_filtering_set l) as [s|] eqn:B; [exfalso|reflexivity].
    apply (K (one_definition 3) 0). exists l. split; [exact E|]. right; right. split; [apply D|]. right; left. exists s.
    split; [exact B|]. intros (t & c & i & X & _). discriminate X.
Qed.

(** ** Texts *)

Lemma shaped_skips depth (on : N -> Prop) (s s' : N -> N -> Prop) (sub : N -> N -> GsubType -> Prop) n text out :
  (forall k g, reached (gsub_asks sub) on n k -> (s k g <-> s' k g)) ->
  shaped depth on s (fun k j r xs ys => exists t, sub k j t /\ replaces_as t r xs ys)
    (fun k j r before xs after actions => exists t, sub k j t /\ gsub_rule_as t r before xs after actions)
    (fun k j before x after y => exists t, sub k j t /\ gsub_reverse t before x after y) n text out ->
  shaped depth on s' (fun k j r xs ys => exists t, sub k j t /\ replaces_as t r xs ys)
    (fun k j r before xs after actions => exists t, sub k j t /\ gsub_rule_as t r before xs after actions)
    (fun k j before x after y => exists t, sub k j t /\ gsub_reverse t before x after y) n text out.
Proof.
  intros E. apply (shaped_into depth (reached (gsub_asks sub) on n)); [reflexivity|apply reached_on|exact E| |reflexivity].
  apply does_within; [exact E|reflexivity|reflexivity|].
  intros k i q b xs a l x J (t & L & H) X. apply (reached_by _ _ _ k _ J). exists i, t, b, xs, a, l, x.
  pose proof (as_rule _ _ _ _ _ _ H). auto.
Qed.

Lemma kerned_skips depth (on : N -> Prop) (s s' : N -> N -> Prop) (sub : N -> N -> GposType -> Prop) text n m :
  (forall k g, reached (gpos_asks sub) on n k -> (s k g <-> s' k g)) ->
  kerned depth on s (fun k j xs past => exists t, sub k j t /\ minds t xs past)
    (fun k j xs second c z => exists t, sub k j t /\ adjusts t xs second c z)
    (fun k j r before xs after actions => exists t, sub k j t /\ gpos_rule_as t r before xs after actions) text n m ->
  kerned depth on s' (fun k j xs past => exists t, sub k j t /\ minds t xs past)
    (fun k j xs second c z => exists t, sub k j t /\ adjusts t xs second c z)
    (fun k j r before xs after actions => exists t, sub k j t /\ gpos_rule_as t r before xs after actions) text n m.
Proof.
  intros E. apply (kerned_into depth (reached (gpos_asks sub) on n)); [reflexivity|apply reached_on|].
  apply nudges_within; [exact E|reflexivity|reflexivity|reflexivity|].
  intros k i q b xs a l x J (t & L & H) X. apply (reached_by _ _ _ k _ J). exists i, t, b, xs, a, l, x.
  pose proof (as_gpos_rule _ _ _ _ _ _ H). auto.
Qed.

Lemma texts_agree v d d' script language wanted depth n text out :
  every v (reached (gsub_asks (in_lookup v)) (turned_on v script language wanted) n) (fun l => agree_for l d d') ->
  (shaped_by v d script language wanted depth n text out <-> shaped_by v d' script language wanted depth n text out).
Proof.
  intros E. split; apply shaped_skips; intros k g R; [|symmetry]; apply agree_skips; intros l L; exact (E k l R L).
Qed.

Lemma kerning_agrees v d d' script language wanted depth text n m :
  every v (reached (gpos_asks (in_lookup v)) (turned_on v script language wanted) n) (fun l => agree_for l d d') ->
  (kerned_by v d script language wanted depth text n m <-> kerned_by v d' script language wanted depth text n m).
Proof.
  intros E. split; apply kerned_skips; intros k g R; [|symmetry]; apply agree_skips; intros l L; exact (E k l R L).
Qed.

Lemma texts_agree_beyond o f p v d d' script language wanted depth n text out :
  every v (reached (gsub_asks (subtable_for o Substitution f p v)) (turned_on v script language wanted) n)
    (fun l => agree_for l d d') ->
  (shaped_beyond o f p v d script language wanted depth n text out <->
   shaped_beyond o f p v d' script language wanted depth n text out).
Proof.
  intros E. split; apply shaped_skips; intros k g R; [|symmetry]; apply agree_skips; intros l L; exact (E k l R L).
Qed.

Lemma kerning_agrees_beyond o f p v d d' script language wanted depth text n m :
  every v (reached (gpos_asks (subtable_for o Positioning f p v)) (turned_on v script language wanted) n)
    (fun l => agree_for l d d') ->
  (kerned_beyond o f p v d script language wanted depth text n m <->
   kerned_beyond o f p v d' script language wanted depth text n m).
Proof.
  intros E. split; apply kerned_skips; intros k g R; [|symmetry]; apply agree_skips; intros l L; exact (E k l R L).
Qed.

Lemma every_plain {T} (v : Directory T) which d d' : every v which plain -> every v which (fun l => agree_for l d d').
Proof. intros P k l W E. apply plain_agree. exact (P k l W E). Qed.

Lemma texts_plain_at o f p v pd d f' p' pd' d' script language wanted depth n text out :
  bounded f -> reads o read_glyph_substitution f p v -> reads o read_glyph_definition f pd d ->
  bounded f' -> reads o read_glyph_substitution f' p' v -> reads o read_glyph_definition f' pd' d' ->
  every v (reached (gsub_asks (in_lookup v)) (turned_on v script language wanted) n) plain ->
  (shaped_at o f p pd script language wanted depth n text out <-> shaped_at o f' p' pd' script language wanted depth n text out).
Proof.
  intros B H G B' H' G' E.
  rewrite <- (texts_mean o f p v pd d _ _ _ _ _ _ _ B H G), <- (texts_mean o f' p' v pd' d' _ _ _ _ _ _ _ B' H' G').
  apply texts_agree, every_plain, E.
Qed.

Lemma kerning_plain_at o f p v pd d f' p' pd' d' script language wanted depth text n m :
  bounded f -> reads o read_glyph_positioning f p v -> reads o read_glyph_definition f pd d ->
  bounded f' -> reads o read_glyph_positioning f' p' v -> reads o read_glyph_definition f' pd' d' ->
  every v (reached (gpos_asks (in_lookup v)) (turned_on v script language wanted) n) plain ->
  (kerned_at o f p pd script language wanted depth text n m <-> kerned_at o f' p' pd' script language wanted depth text n m).
Proof.
  intros B H G B' H' G' E.
  rewrite <- (kerning_means o f p v pd d _ _ _ _ _ _ _ B H G), <- (kerning_means o f' p' v pd' d' _ _ _ _ _ _ _ B' H' G').
  apply kerning_agrees, every_plain, E.
Qed.
