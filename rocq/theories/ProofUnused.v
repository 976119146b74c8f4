(** Lemmas behind PropertiesUnused.v. *)

From Verif Require Import ReadsTactics ProofFindings ProofRequests ProofPieces ProofReads.
From Verif Require Export ProofDepth SpecUnused.

(** ** Texts *)

Section Texts.
  Context (C : N -> Prop).

  Lemma does_into depth (s s' : N -> N -> Prop) (r r' : N -> N -> N -> list N -> list N -> Prop)
      (u u' : N -> N -> N -> list N -> list N -> list N -> list Action -> Prop) k left text ys rest :
    (forall k g, C k -> (s k g <-> s' k g)) -> (forall k i q xs ys, C k -> (r k i q xs ys <-> r' k i q xs ys)) ->
    (forall k i q b xs a l, C k -> (u k i q b xs a l <-> u' k i q b xs a l)) ->
    (forall k i q b xs a l x, C k -> u k i q b xs a l -> In x l -> C (action_lookup_index x)) ->
    (forall k l t y z, C k -> (does depth s r u k l t y z <-> does depth s' r' u' k l t y z)) -> C k ->
    does (S depth) s r u k left text ys rest -> does (S depth) s' r' u' k left text ys rest.
  Proof.
    intros E F K Q W I (j & rk & M & H). exists j, rk. split.
    { intros i q L R. apply (M i q L). refine (ready_same (s' k) (s k) (r' k) (r k) (u' k) (u k) _ _ _ _ _ _ _ R);
        intros; symmetry; auto. }
    destruct H as [(kept & behind & H & T)|(actions & behind & n & text' & H & A & T)]; [left|right].
    - exists kept, behind. split; [|exact T]. refine (fires_same (s k) (s' k) (r k) (r' k) _ _ _ _ _ _ _ _ H); auto.
    - exists actions, behind, n, text'.
      split; [refine (ruled_same (s k) (s' k) (u k) (u' k) _ _ _ _ _ _ _ _ H); auto|]. split; [|exact T].
      apply (acted_agree _ (does depth s r u)).
      + intros x l t y z J. apply W.
        destruct H as (x' & xs & tail & b & a & k1 & k2 & r1 & k3 & r2 & _ & _ & _ & _ & _ & H). exact (Q _ _ _ _ _ _ _ _ I H J).
      + refine (acted_same (s k) (s' k) _ _ _ _ _ _ _ _ _ _ A); [auto|reflexivity].
  Qed.

  Context (s s' : N -> N -> Prop) (r r' : N -> N -> N -> list N -> list N -> Prop)
    (u u' : N -> N -> N -> list N -> list N -> list N -> list Action -> Prop)
    (t t' : N -> N -> list N -> N -> list N -> N -> Prop).

  Lemma does_within depth :
    (forall k g, C k -> (s k g <-> s' k g)) -> (forall k i q xs ys, C k -> (r k i q xs ys <-> r' k i q xs ys)) ->
    (forall k i q b xs a l, C k -> (u k i q b xs a l <-> u' k i q b xs a l)) ->
    (forall k i q b xs a l x, C k -> u k i q b xs a l -> In x l -> C (action_lookup_index x)) ->
    forall k left text ys rest, C k -> (does depth s r u k left text ys rest <-> does depth s' r' u' k left text ys rest).
  Proof.
    intros E F K Q. induction depth as [|depth IH]; intros k left text ys rest I; [reflexivity|]. split.
    - apply does_into; auto.
    - apply does_into; try (intros; symmetry; auto; fail); auto.
      intros k' i q b xs a l x J H. apply K in H; [|exact J]. exact (Q _ _ _ _ _ _ _ _ J H).
  Qed.
End Texts.

Lemma shaped_into depth (C on on' : N -> Prop) (s s' : N -> N -> Prop) (r r' : N -> N -> N -> list N -> list N -> Prop)
    (u u' : N -> N -> N -> list N -> list N -> list N -> list Action -> Prop)
    (t t' : N -> N -> list N -> N -> list N -> N -> Prop) n text out :
  (forall k, k < n -> (on k <-> on' k)) -> (forall k, on k -> k < n -> C k) ->
  (forall k g, C k -> (s k g <-> s' k g)) ->
  (forall k l x y z, C k -> (does (S depth) s r u k l x y z <-> does (S depth) s' r' u' k l x y z)) ->
  (forall k i b x a y, C k -> (t k i b x a y <-> t' k i b x a y)) ->
  shaped depth on s r u t n text out -> shaped depth on' s' r' u' t' n text out.
Proof.
  intros O I E D T H. induction H as [text|n text mid mid' out H IH K G B|n text out H IH K]; [apply shaped_none| |].
  - assert (Cn : C n) by (apply I; [exact K|lia]).
    eapply shaped_on; [apply IH; intros; [apply O|apply I]; try assumption; lia|apply O; [lia|exact K]| |].
    + refine (ProofText.goes_same _ _ _ _ _ _ G). intros. apply D. exact Cn.
    + refine (ProofText.back_same (s n) (s' n) (t n) (t' n) _ _ _ _ _ B); auto.
  - apply shaped_off; [apply IH; intros; [apply O|apply I]; try assumption; lia|]. intros K'. apply K. apply O; [lia|exact K'].
Qed.

Lemma lookup_same {T} (v w : Directory T) k j t : same_lookup v w k -> (in_lookup v k j t <-> in_lookup w k j t).
Proof. unfold same_lookup, in_lookup. intros ->. reflexivity. Qed.

Lemma skips_same {T} (v w : Directory T) d k g : same_lookup v w k -> (skips v d k g <-> skips w d k g).
Proof. unfold same_lookup, skips. intros ->. reflexivity. Qed.

Lemma same_of {T} (v w : Directory T) k j (P : T -> Prop) : same_lookup v w k ->
  ((exists t, in_lookup v k j t /\ P t) <-> (exists t, in_lookup w k j t /\ P t)).
Proof. intros E. split; intros (t & I & H); exists t; (split; [|exact H]); apply (lookup_same v w _ _ _ E); exact I. Qed.

Lemma texts_used v w d script language wanted depth n text out :
  (forall k, k < n -> (turned_on v script language wanted k <-> turned_on w script language wanted k)) ->
  (forall k, reached (gsub_asks (in_lookup v)) (turned_on v script language wanted) n k -> same_lookup v w k) ->
  (shaped_by v d script language wanted depth n text out <-> shaped_by w d script language wanted depth n text out).
Proof.
  intros O E. set (C := reached (gsub_asks (in_lookup v)) (turned_on v script language wanted) n) in *.
  assert (I : forall k, turned_on v script language wanted k -> k < n -> C k) by apply reached_on.
  pose proof (does_within C (skips v d) (skips w d)
    (fun k j r xs ys => exists t, in_lookup v k j t /\ replaces_as t r xs ys)
    (fun k j r xs ys => exists t, in_lookup w k j t /\ replaces_as t r xs ys)
    (fun k j r before xs after actions => exists t, in_lookup v k j t /\ gsub_rule_as t r before xs after actions)
    (fun k j r before xs after actions => exists t, in_lookup w k j t /\ gsub_rule_as t r before xs after actions) (S depth)) as D.
  specialize (D (fun k g J => skips_same v w d k g (E k J))).
  specialize (D (fun k i q xs ys J => same_of v w k i (fun t => replaces_as t q xs ys) (E k J))).
  specialize (D (fun k i q b xs a l J => same_of v w k i (fun t => gsub_rule_as t q b xs a l) (E k J))).
  assert (Q : forall k i q b xs a l x, C k -> (exists t, in_lookup v k i t /\ gsub_rule_as t q b xs a l) -> In x l ->
    C (action_lookup_index x)).
  { intros k i q b xs a l x J (t & L & H) X. apply (reached_by _ _ _ k _ J). exists i, t, b, xs, a, l, x.
    pose proof (as_rule _ _ _ _ _ _ H). auto. }
  specialize (D Q). split.
  - apply (shaped_into depth C); [exact O|exact I|intros; apply skips_same; auto|intros; apply D; assumption|].
    intros k i b x a y J. exact (same_of v w k i (fun t => gsub_reverse t b x a y) (E k J)).
  - apply (shaped_into depth C).
    + intros k L. symmetry. exact (O k L).
    + intros k K L. apply I; [apply O; assumption|exact L].
    + intros k g J. symmetry. apply skips_same; auto.
    + intros k l x y z J. symmetry. apply D. exact J.
    + intros k i b x a y J. symmetry. exact (same_of v w k i (fun t => gsub_reverse t b x a y) (E k J)).
Qed.

(** ** Movements *)

Lemma nudges_into (C : N -> Prop) depth (s s' : N -> N -> Prop) (r r' : N -> N -> list N -> bool -> Prop)
    (a a' : N -> N -> list N -> bool -> nat -> Z -> Prop)
    (u u' : N -> N -> N -> list N -> list N -> list N -> list Action -> Prop) k left text m m' n :
  (forall k g, C k -> (s k g <-> s' k g)) -> (forall k i xs past, C k -> (r k i xs past <-> r' k i xs past)) ->
  (forall k i xs b c z, C k -> (a k i xs b c z <-> a' k i xs b c z)) ->
  (forall k i q b xs a l, C k -> (u k i q b xs a l <-> u' k i q b xs a l)) ->
  (forall k i q b xs a l x, C k -> u k i q b xs a l -> In x l -> C (action_lookup_index x)) ->
  (forall k l t y z q, C k -> (nudges depth s r a u k l t y z q <-> nudges depth s' r' a' u' k l t y z q)) -> C k ->
  nudges (S depth) s r a u k left text m m' n -> nudges (S depth) s' r' a' u' k left text m m' n.
Proof.
  intros E F A K Q W I (j & rk & M & H). exists j, rk. split.
  { intros i q L R. apply (M i q L). refine (heeds_same (s' k) (s k) (r' k) (r k) (u' k) (u k) _ _ _ _ _ _ _ R);
      intros; symmetry; auto. }
  destruct H as [(Z & H)|(actions & rest & H & L & X)]; [left|right].
  - split; [exact Z|]. refine (kerns_same (s k) (s' k) (r k) (r' k) (a k) (a' k) _ _ _ _ _ _ _ _ _ H); auto.
  - exists actions, rest. split; [refine (ruled_same (s k) (s' k) (u k) (u' k) _ _ _ _ _ _ _ _ H); auto|]. split; [exact L|].
    apply (enacted_agree _ (nudges depth s r a u)).
    + intros x l t y z q J. apply W.
      destruct H as (x' & xs & tail & b & a0 & k1 & k2 & r1 & k3 & r2 & _ & _ & _ & _ & _ & H). exact (Q _ _ _ _ _ _ _ _ I H J).
    + refine (enacted_same (s k) (s' k) _ _ _ _ _ _ _ _ _ _ X); [auto|reflexivity].
Qed.

Lemma nudges_within (C : N -> Prop) (s s' : N -> N -> Prop) (r r' : N -> N -> list N -> bool -> Prop)
    (a a' : N -> N -> list N -> bool -> nat -> Z -> Prop)
    (u u' : N -> N -> N -> list N -> list N -> list N -> list Action -> Prop) depth :
  (forall k g, C k -> (s k g <-> s' k g)) -> (forall k i xs past, C k -> (r k i xs past <-> r' k i xs past)) ->
  (forall k i xs b c z, C k -> (a k i xs b c z <-> a' k i xs b c z)) ->
  (forall k i q b xs a l, C k -> (u k i q b xs a l <-> u' k i q b xs a l)) ->
  (forall k i q b xs a l x, C k -> u k i q b xs a l -> In x l -> C (action_lookup_index x)) ->
  forall k left text m m' n, C k -> (nudges depth s r a u k left text m m' n <-> nudges depth s' r' a' u' k left text m m' n).
Proof.
  intros E F A K Q. induction depth as [|depth IH]; intros k left text m m' n I; [reflexivity|]. split.
  - apply (nudges_into C); auto.
  - apply (nudges_into C); try (intros; symmetry; auto; fail); auto.
    intros k' i q b xs l acts x J H. apply K in H; [|exact J]. exact (Q _ _ _ _ _ _ _ _ J H).
Qed.

Lemma kerned_into depth (C on on' : N -> Prop) (s s' : N -> N -> Prop) (r r' : N -> N -> list N -> bool -> Prop)
    (a a' : N -> N -> list N -> bool -> nat -> Z -> Prop)
    (u u' : N -> N -> N -> list N -> list N -> list N -> list Action -> Prop) text n m :
  (forall k, k < n -> (on k <-> on' k)) -> (forall k, on k -> k < n -> C k) ->
  (forall k l t y z q, C k -> (nudges (S depth) s r a u k l t y z q <-> nudges (S depth) s' r' a' u' k l t y z q)) ->
  kerned depth on s r a u text n m -> kerned depth on' s' r' a' u' text n m.
Proof.
  intros O I D H. induction H as [|n m m' H IH K G|n m H IH K]; [apply kerned_none| |].
  - assert (Cn : C n) by (apply I; [exact K|lia]).
    eapply kerned_on; [apply IH; intros; [apply O|apply I]; try assumption; lia|apply O; [lia|exact K]|].
    refine (ProofKerning.runs_same _ _ _ _ _ _ _ G). intros. apply D. exact Cn.
  - apply kerned_off; [apply IH; intros; [apply O|apply I]; try assumption; lia|]. intros K'. apply K. apply O; [lia|exact K'].
Qed.

Lemma kerning_used v w d script language wanted depth text n m :
  (forall k, k < n -> (turned_on v script language wanted k <-> turned_on w script language wanted k)) ->
  (forall k, reached (gpos_asks (in_lookup v)) (turned_on v script language wanted) n k -> same_lookup v w k) ->
  (kerned_by v d script language wanted depth text n m <-> kerned_by w d script language wanted depth text n m).
Proof.
  intros O E. set (C := reached (gpos_asks (in_lookup v)) (turned_on v script language wanted) n) in *.
  assert (I : forall k, turned_on v script language wanted k -> k < n -> C k) by apply reached_on.
  pose proof (nudges_within C (skips v d) (skips w d)
    (fun k j xs past => exists t, in_lookup v k j t /\ minds t xs past)
    (fun k j xs past => exists t, in_lookup w k j t /\ minds t xs past)
    (fun k j xs second c z => exists t, in_lookup v k j t /\ adjusts t xs second c z)
    (fun k j xs second c z => exists t, in_lookup w k j t /\ adjusts t xs second c z)
    (fun k j r before xs after actions => exists t, in_lookup v k j t /\ gpos_rule_as t r before xs after actions)
    (fun k j r before xs after actions => exists t, in_lookup w k j t /\ gpos_rule_as t r before xs after actions) (S depth)) as D.
  specialize (D (fun k g J => skips_same v w d k g (E k J))).
  specialize (D (fun k i xs past J => same_of v w k i (fun t => minds t xs past) (E k J))).
  specialize (D (fun k i xs b c z J => same_of v w k i (fun t => adjusts t xs b c z) (E k J))).
  specialize (D (fun k i q b xs a l J => same_of v w k i (fun t => gpos_rule_as t q b xs a l) (E k J))).
  assert (Q : forall k i q b xs a l x, C k -> (exists t, in_lookup v k i t /\ gpos_rule_as t q b xs a l) -> In x l ->
    C (action_lookup_index x)).
  { intros k i q b xs a l x J (t & L & H) X. apply (reached_by _ _ _ k _ J). exists i, t, b, xs, a, l, x.
    pose proof (as_gpos_rule _ _ _ _ _ _ H). auto. }
  specialize (D Q). split.
  - apply (kerned_into depth C); [exact O|exact I|intros; apply D; assumption].
  - apply (kerned_into depth C).
    + intros k L. symmetry. exact (O k L).
    + intros k K L. apply I; [apply O; assumption|exact L].
    + intros k l t y z q J. symmetry. apply D. exact J.
Qed.

(** ** Files *)

Lemma texts_used_at o f p v pd d f' p' w pd' script language wanted depth n text out :
  bounded f -> reads o read_glyph_substitution f p v -> reads o read_glyph_definition f pd d ->
  bounded f' -> reads o read_glyph_substitution f' p' w -> reads o read_glyph_definition f' pd' d ->
  (forall k, k < n -> (turned_on v script language wanted k <-> turned_on w script language wanted k)) ->
  (forall k, reached (gsub_asks (in_lookup v)) (turned_on v script language wanted) n k -> same_lookup v w k) ->
  (shaped_at o f p pd script language wanted depth n text out <-> shaped_at o f' p' pd' script language wanted depth n text out).
Proof.
  intros B H G B' H' G' O E. rewrite <- (texts_mean o f p v pd d _ _ _ _ _ _ _ B H G), <- (texts_mean o f' p' w pd' d _ _ _ _ _ _ _ B' H' G').
  exact (texts_used v w d _ _ _ _ _ _ _ O E).
Qed.

Lemma kerning_used_at o f p v pd d f' p' w pd' script language wanted depth text n m :
  bounded f -> reads o read_glyph_positioning f p v -> reads o read_glyph_definition f pd d ->
  bounded f' -> reads o read_glyph_positioning f' p' w -> reads o read_glyph_definition f' pd' d ->
  (forall k, k < n -> (turned_on v script language wanted k <-> turned_on w script language wanted k)) ->
  (forall k, reached (gpos_asks (in_lookup v)) (turned_on v script language wanted) n k -> same_lookup v w k) ->
  (kerned_at o f p pd script language wanted depth text n m <-> kerned_at o f' p' pd' script language wanted depth text n m).
Proof.
  intros B H G B' H' G' O E. rewrite <- (kerning_means o f p v pd d _ _ _ _ _ _ _ B H G), <- (kerning_means o f' p' w pd' d _ _ _ _ _ _ _ B' H' G').
  exact (kerning_used v w d _ _ _ _ _ _ _ O E).
Qed.
