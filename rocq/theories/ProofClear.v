(** Lemmas behind PropertiesClear.v. *)

From Verif Require Import ReadsTactics ProofFindings ProofRequests ProofPieces ProofReads.
From Verif Require Export ProofText ProofKerning SpecClear.

(** ** Texts *)

Lemma begins_one s xs kept rest text xs' kept' rest' :
  begins s xs kept rest text -> begins s xs' kept' rest' text -> length xs = length xs' ->
  xs = xs' /\ kept = kept' /\ rest = rest'.
Proof.
  intros H. revert xs' kept' rest'. induction H as [rest|x xs kept rest text N H IH|y x xs kept rest text N H IH];
    intros xs' kept' rest' H' L.
  - destruct xs' as [|x xs']; [|discriminate L]. inversion H'; subst. auto.
  - inversion H' as [|x' xs'' k r t N' G|y' x' xs'' k r t N' G]; subst; [discriminate L| |contradiction].
    injection L as L. destruct (IH _ _ _ G L) as (-> & -> & ->). auto.
  - inversion H' as [|x' xs'' k r t N' G|y' x' xs'' k r t N' G]; subst; [discriminate L|contradiction|].
    destruct (IH _ _ _ G L) as (-> & -> & ->). auto.
Qed.

Lemma reaches_one s i before here before' here' :
  reaches s i before here -> reaches s i before' here' -> before ++ here = before' ++ here' ->
  before = before' /\ here = here'.
Proof.
  intros H. revert before' here'. induction H as [x here N|x i before here N H IH|y i before here N H IH];
    intros before' here' H' E.
  - inversion H' as [x' h N'|x' i' b h N' G|y' i' b h N' G]; subst; cbn [app] in E.
    + rewrite E. auto.
    + lia.
    + injection E as -> E. contradiction.
  - inversion H' as [x' h N' Ei|x' i' b h N' G Ei|y' i' b h N' G Ei]; subst; cbn [app] in E.
    + lia.
    + assert (i' = i) as -> by lia. injection E as -> E. destruct (IH _ _ G E) as (-> & ->). auto.
    + injection E as -> E. contradiction.
  - inversion H' as [x' h N' Ei|x' i' b h N' G Ei|y' i' b h N' G Ei]; subst; cbn [app] in E.
    + injection E as -> E. contradiction.
    + injection E as -> E. contradiction.
    + injection E as -> E. destruct (IH _ _ G E) as (-> & ->). auto.
Qed.

Lemma acted_one s (w : N -> list N -> list N -> list N -> list N -> Prop) left actions n text m out m' out' :
  (forall k l t y r y' r', w k l t y r -> w k l t y' r' -> y = y' /\ r = r') ->
  acted s w left actions n text m out -> acted s w left actions n text m' out' -> m = m' /\ out = out'.
Proof.
  intros W H. revert m' out'.
  induction H as [n text|a actions n text before here ys rest m out P D A IH|a actions n text m out F A IH]; intros m' out' H'.
  - inversion H'; subst. auto.
  - inversion H' as [|a' l n' t b h y r m'' o' P' D' A'|a' l n' t m'' o' F' A']; subst.
    + assert (E : before = b /\ here = h).
      { destruct P as (-> & P & _). destruct P' as (E & P' & _). exact (reaches_one _ _ _ _ _ _ P P' E). }
      destruct E as (-> & ->). destruct (W _ _ _ _ _ _ _ D D') as (-> & ->). exact (IH _ _ A').
    + exfalso. exact (F' _ _ _ _ P D).
  - inversion H' as [|a' l n' t b h y r m'' o' P' D' A'|a' l n' t m'' o' F' A']; subst.
    + exfalso. exact (F _ _ _ _ P' D').
    + exact (IH _ _ A').
Qed.

Lemma earlier_or i s j r : earlier i s j r \/ (i = j /\ s = r) \/ earlier j r i s.
Proof. unfold earlier. lia. Qed.

Section One.
  Context (s : N -> N -> Prop) (r : N -> N -> N -> list N -> list N -> Prop)
    (u : N -> N -> N -> list N -> list N -> list N -> list Action -> Prop) (t : N -> N -> list N -> N -> list N -> N -> Prop).

  Definition one_replaced : Prop := forall k j rk x xs ys xs' ys', r k j rk (x :: xs) ys -> r k j rk (x :: xs') ys' ->
    length xs = length xs' /\ ys = ys'.
  Definition one_ruled : Prop := forall k j rk x b xs a l b' xs' a' l', u k j rk b (x :: xs) a l ->
    u k j rk b' (x :: xs') a' l' -> length xs = length xs' /\ l = l'.
  Definition one_kind : Prop := forall k j rk rk' xs ys b xs' a l, r k j rk xs ys -> ~ u k j rk' b xs' a l.
  Definition one_turned : Prop := forall k j b x a y b' a' y', t k j b x a y -> t k j b' x a' y' -> y = y'.

  Lemma does_one depth k left text ys rest ys' rest' : one_replaced -> one_ruled -> one_kind ->
    does depth s r u k left text ys rest -> does depth s r u k left text ys' rest' -> ys = ys' /\ rest = rest'.
  Proof.
    intros R U K. revert k left text ys rest ys' rest'. induction depth as [|depth IH]; intros k left text ys rest ys' rest'; [intros []|].
    intros (j & rk & F & H) (j' & rk' & F' & H').
    assert (Y : ready (s k) (r k) (u k) j rk left text).
    { destruct H as [(kept & behind & H & _)|(l & behind & n & text' & H & _)]; [left|right]; eauto. }
    assert (Y' : ready (s k) (r k) (u k) j' rk' left text).
    { destruct H' as [(kept & behind & H' & _)|(l & behind & n & text' & H' & _)]; [left|right]; eauto. }
    destruct (earlier_or j rk j' rk') as [E|[(<- & <-)|E]]; [exfalso; exact (F' _ _ E Y)| |exfalso; exact (F _ _ E Y')].
    destruct H as [(kept & behind & H & ->)|(l & behind & n & text' & H & A & -> & ->)];
      destruct H' as [(kept' & behind' & H' & ->)|(l' & behind' & n' & text'' & H' & A' & -> & ->)].
    - destruct H as (x & xs & tail & E & _ & B & H). destruct H' as (x' & xs' & tail' & E' & _ & B' & H').
      rewrite E in E'. injection E' as <- <-. destruct (R _ _ _ _ _ _ _ _ H H') as (L & ->).
      destruct (begins_one _ _ _ _ _ _ _ _ B B') as (_ & -> & ->); [cbn; lia|]. auto.
    - exfalso. destruct H as (x & xs & tail & _ & _ & _ & H).
      destruct H' as (x' & xs' & tail' & b & a & k1 & k2 & r1 & k3 & r2 & _ & _ & _ & _ & _ & H'). exact (K _ _ _ _ _ _ _ _ _ _ H H').
    - exfalso. destruct H' as (x' & xs' & tail' & _ & _ & _ & H').
      destruct H as (x & xs & tail & b & a & k1 & k2 & r1 & k3 & r2 & _ & _ & _ & _ & _ & H). exact (K _ _ _ _ _ _ _ _ _ _ H' H).
    - destruct H as (x & xs & tail & b & a & k1 & k2 & r1 & k3 & r2 & E & _ & B & _ & _ & H).
      destruct H' as (x' & xs' & tail' & b' & a' & k1' & k2' & r1' & k3' & r2' & E' & _ & B' & _ & _ & H').
      rewrite E in E'. injection E' as <- <-. destruct (U _ _ _ _ _ _ _ _ _ _ _ _ H H') as (L & ->).
      destruct (begins_one _ _ _ _ _ _ _ _ B B') as (_ & _ & ->); [cbn; lia|].
      destruct (acted_one _ _ _ _ _ _ _ _ _ _ IH A A') as (-> & ->). auto.
  Qed.

  Lemma does_nothing depth k left ys rest : ~ does depth s r u k left [] ys rest.
  Proof. intros H. apply does_length in H. cbn in H. lia. Qed.

  Lemma goes_one depth k left text out out' : one_replaced -> one_ruled -> one_kind ->
    goes_through (does depth s r u k) left text out -> goes_through (does depth s r u k) left text out' -> out = out'.
  Proof.
    intros R U K H. revert out'. induction H as [left|left text ys rest out D G IH|left x text out F G IH]; intros out' H'.
    - inversion H' as [|l t' y r' o D' G'|]; subst; [reflexivity|]. destruct (does_nothing _ _ _ _ _ D').
    - inversion H' as [l|l t' y r' o D' G'|l x t' o F' G']; subst.
      + destruct (does_nothing _ _ _ _ _ D).
      + destruct (does_one _ _ _ _ _ _ _ _ R U K D D') as (-> & ->). exact (IH _ G').
      + destruct (F' _ _ D).
    - inversion H' as [l|l t' y r' o D' G'|l x' t' o F' G']; subst.
      + destruct (F _ _ D').
      + exact (IH _ G').
  Qed.

  Lemma back_one k left right out out' : one_turned ->
    goes_back (s k) (t k) left right out -> goes_back (s k) (t k) left right out' -> out = out'.
  Proof.
    intros T H. revert out'. induction H as [right|j x left right y out D F G IH|x left right out F G IH]; intros out' H'.
    - inversion H'; subst. reflexivity.
    - inversion H' as [|j' x' l' r' y' o' D' F' G'|x' l' r' o' F' G']; subst.
      + assert (j = j') as <-.
        { destruct (N.lt_trichotomy j j') as [L|[E|L]]; [destruct (F' _ _ L D)|exact E|destruct (F _ _ L D')]. }
        destruct D as (b & a & k1 & r1 & k2 & r2 & _ & _ & _ & D).
        destruct D' as (b' & a' & k1' & r1' & k2' & r2' & _ & _ & _ & D'). rewrite (T _ _ _ _ _ _ _ _ _ D D') in *.
        exact (IH _ G').
      + destruct (F' _ _ D).
    - inversion H' as [|j' x' l' r' y' o' D' F' G'|x' l' r' o' F' G']; subst; [destruct (F _ _ D')|exact (IH _ G')].
  Qed.

  Lemma shaped_one depth on n text out out' : one_replaced -> one_ruled -> one_kind -> one_turned ->
    shaped depth on s r u t n text out -> shaped depth on s r u t n text out' -> out = out'.
  Proof.
    intros R U K T H. revert out'.
    induction H as [text|n text mid mid' out H IH O G B|n text out H IH O]; intros out' H'.
    - inversion H' as [|n' t' m m' o H1 O1 G1 B1 E1|n' t' o H1 O1 E1]; subst; [reflexivity|lia|lia].
    - inversion H' as [|n' t' m m' o H1 O1 G1 B1 E1|n' t' o H1 O1 E1]; subst; [lia| |].
      + assert (n' = n) as -> by lia. rewrite (IH _ H1) in *. rewrite (goes_one _ _ _ _ _ _ R U K G G1) in *.
        exact (back_one _ _ _ _ _ T B B1).
      + assert (n' = n) as -> by lia. contradiction.
    - inversion H' as [|n' t' m m' o H1 O1 G1 B1 E1|n' t' o H1 O1 E1]; subst; [lia| |].
      + assert (n' = n) as -> by lia. contradiction.
      + assert (n' = n) as -> by lia. exact (IH _ H1).
  Qed.
End One.

(** ** Values *)

Lemma by_class_one c x d d' : clear_class c -> by_class c d x -> by_class c d' x -> d = d'.
Proof.
  intros C [H|(-> & H)] [H'|(-> & H')]; [exact (C _ _ _ H H')|destruct (H' _ H)|destruct (H _ H')|reflexivity].
Qed.

Lemma forall2_lengths {A B} (P Q : A -> B -> Prop) l xs ys : Forall2 P l xs -> Forall2 Q l ys -> length xs = length ys.
Proof.
  intros H. revert ys. induction H as [|a x l xs _ H IH]; intros ys G; inversion G; subst; [reflexivity|].
  cbn [length]. f_equal. auto.
Qed.

Ltac same_entry := repeat match goal with
  | A : entry ?l ?i = Some ?x, B : entry ?l ?i = Some ?y |- _ => rewrite A in B; injection B as B; subst
  end.

Lemma context_one v rank x xs l xs' l' : clear_context v ->
  applies_as v rank (x :: xs) l -> applies_as v rank (x :: xs') l' -> length xs = length xs' /\ l = l'.
Proof.
  destruct v as [t|t|t]; cbn [clear_context applies_as]; intros C.
  - intros (g & i & set & r & G & S & E & [= <- ->] & ->) (g' & i' & set' & r' & G' & S' & E' & [= <- ->] & ->).
    rewrite (C _ _ _ G' G) in *. same_entry. auto.
  - intros (g & rest & i & c & set & r & _ & G & S & E & [= <- <-] & F & ->)
      (g' & rest' & i' & c' & set' & r' & _ & G' & S' & E' & [= <- <-] & F' & ->).
    rewrite (by_class_one _ _ _ _ C G' G) in *. same_entry. split; [exact (forall2_lengths _ _ _ _ _ F F')|reflexivity].
  - intros (_ & F & ->) (_ & F' & ->). apply (forall2_lengths _ _ _ _ _ F) in F'. injection F' as F'. auto.
Qed.

Lemma chained_one v rank x b xs a l b' xs' a' l' : clear_chained_context v ->
  applies_between_as v rank b (x :: xs) a l -> applies_between_as v rank b' (x :: xs') a' l' -> length xs = length xs' /\ l = l'.
Proof.
  destruct v as [t|t|t]; cbn [clear_chained_context applies_between_as]; intros C.
  - intros (g & i & set & r & G & S & E & _ & [= <- ->] & _ & ->) (g' & i' & set' & r' & G' & S' & E' & _ & [= <- ->] & _ & ->).
    rewrite (C _ _ _ G' G) in *. same_entry. auto.
  - intros (g & rest & i & c & set & r & _ & G & S & E & [= <- <-] & _ & F & _ & ->)
      (g' & rest' & i' & c' & set' & r' & _ & G' & S' & E' & [= <- <-] & _ & F' & _ & ->).
    rewrite (by_class_one _ _ _ _ C G' G) in *. same_entry. split; [exact (forall2_lengths _ _ _ _ _ F F')|reflexivity].
  - intros (_ & _ & F & _ & ->) (_ & _ & F' & _ & ->). apply (forall2_lengths _ _ _ _ _ F) in F'. injection F' as F'. auto.
Qed.

Lemma replaces_one v rank x xs ys xs' ys' : clear_substitution v ->
  replaces_as v rank (x :: xs) ys -> replaces_as v rank (x :: xs') ys' -> length xs = length xs' /\ ys = ys'.
Proof.
  destruct v as [[t|t]|t|t|t|t|t|t|t]; cbn [clear_substitution replaces_as replaces]; intros C; try (intros (_ & []); fail).
  - intros (_ & g & i & _ & [= <- ->] & ->) (_ & g' & i' & _ & [= <- ->] & ->). auto.
  - intros (_ & g & i & y & G & E & [= <- ->] & ->) (_ & g' & i' & y' & G' & E' & [= <- ->] & ->).
    rewrite (C _ _ _ G' G) in *. same_entry. auto.
  - intros (_ & g & i & r & G & E & [= <- ->] & ->) (_ & g' & i' & r' & G' & E' & [= <- ->] & ->).
    rewrite (C _ _ _ G' G) in *. same_entry. auto.
  - destruct C as (C & A).
    intros (_ & g & i & r & y & G & E & I & [= <- ->] & ->) (_ & g' & i' & r' & y' & G' & E' & I' & [= <- ->] & ->).
    rewrite (C _ _ _ G' G) in *. same_entry. split; [reflexivity|]. apply nth_error_In in E. apply A in E.
    destruct (alternates_glyph_ids r') as [|z [|z' l]]; cbn in *; [easy| |lia].
    destruct I as [->|[]], I' as [->|[]]. reflexivity.
  - intros (g & i & r & l & G & S & E & [= <- ->] & ->) (g' & i' & r' & l' & G' & S' & E' & [= <- ->] & ->).
    rewrite (C _ _ _ G' G) in *. same_entry. auto.
Qed.

Lemma rule_one v rank x b xs a l b' xs' a' l' : clear_substitution v ->
  gsub_rule_as v rank b (x :: xs) a l -> gsub_rule_as v rank b' (x :: xs') a' l' -> length xs = length xs' /\ l = l'.
Proof.
  destruct v as [t|t|t|t|t|t|t|t]; cbn [clear_substitution gsub_rule_as]; intros C; try (intros []; fail).
  - intros (_ & _ & H) (_ & _ & H'). exact (context_one _ _ _ _ _ _ _ C H H').
  - exact (chained_one _ _ _ _ _ _ _ _ _ _ _ C).
Qed.

Lemma rule_or_replaces v rank rank' xs ys b xs' a l : replaces_as v rank xs ys -> ~ gsub_rule_as v rank' b xs' a l.
Proof. destruct v; cbn; try tauto. Qed.

Lemma reverse_one v b x a y b' a' y' : clear_substitution v ->
  gsub_reverse v b x a y -> gsub_reverse v b' x a' y' -> y = y'.
Proof.
  destruct v as [t|t|t|t|t|t|t|t]; cbn [clear_substitution gsub_reverse]; intros C; try (intros []; fail).
  intros (i & G & _ & _ & E) (i' & G' & _ & _ & E'). rewrite (C _ _ _ G' G) in *. same_entry. reflexivity.
Qed.

Lemma in_lookup_one {T} (v : Directory T) k j t t' : in_lookup v k j t -> in_lookup v k j t' -> t = t'.
Proof. intros (l & L & E) (l' & L' & E'). same_entry. reflexivity. Qed.

Lemma shaped_clear depth on s (sub : N -> N -> GsubType -> Prop) n text out out' :
  (forall k j t t', sub k j t -> sub k j t' -> t = t') -> (forall k j t, sub k j t -> clear_substitution t) ->
  shaped depth on s (fun k j r xs ys => exists t, sub k j t /\ replaces_as t r xs ys)
    (fun k j r before xs after actions => exists t, sub k j t /\ gsub_rule_as t r before xs after actions)
    (fun k j before x after y => exists t, sub k j t /\ gsub_reverse t before x after y) n text out ->
  shaped depth on s (fun k j r xs ys => exists t, sub k j t /\ replaces_as t r xs ys)
    (fun k j r before xs after actions => exists t, sub k j t /\ gsub_rule_as t r before xs after actions)
    (fun k j before x after y => exists t, sub k j t /\ gsub_reverse t before x after y) n text out' -> out = out'.
Proof.
  intros F C. apply shaped_one.
  - intros k j rk x xs ys xs' ys' (t & I & H) (t' & I' & H'). rewrite <- (F _ _ _ _ I I') in H'.
    exact (replaces_one _ _ _ _ _ _ _ (C _ _ _ I) H H').
  - intros k j rk x b xs a l b' xs' a' l' (t & I & H) (t' & I' & H'). rewrite <- (F _ _ _ _ I I') in H'.
    exact (rule_one _ _ _ _ _ _ _ _ _ _ _ (C _ _ _ I) H H').
  - intros k j rk rk' xs ys b xs' a l (t & I & H) (t' & I' & H'). rewrite <- (F _ _ _ _ I I') in H'.
    exact (rule_or_replaces _ _ _ _ _ _ _ _ _ H H').
  - intros k j b x a y b' a' y' (t & I & H) (t' & I' & H'). rewrite <- (F _ _ _ _ I I') in H'.
    exact (reverse_one _ _ _ _ _ _ _ _ (C _ _ _ I) H H').
Qed.

Lemma texts_one v d script language wanted depth n text out out' :
  clear_substitutions v -> shaped_by v d script language wanted depth n text out ->
  shaped_by v d script language wanted depth n text out' -> out = out'.
Proof. exact (shaped_clear depth _ _ (in_lookup v) n text out out' (in_lookup_one v)). Qed.

Lemma texts_one_at o f p v pd d script language wanted depth n text out out' :
  bounded f -> reads o read_glyph_substitution f p v -> reads o read_glyph_definition f pd d -> clear_substitutions v ->
  shaped_at o f p pd script language wanted depth n text out ->
  shaped_at o f p pd script language wanted depth n text out' -> out = out'.
Proof.
  intros B R D C. rewrite <- !(texts_mean o f p v pd d) by assumption. exact (texts_one _ _ _ _ _ _ _ _ _ _ C).
Qed.

(** ** Kerning *)

Definition alike (m m' : moved) : Prop := forall i c, m i c = m' i c.

Lemma alike_sym m m' : alike m m' -> alike m' m.
Proof. intros H i c. symmetry. exact (H i c). Qed.

Lemma adds_alike a i m m' m0 : alike m m0 -> adds a i m m' -> adds a i m0 m'.
Proof.
  intros S H h c. destruct (H h c) as [(E & z & Z & F)|(E & F)]; rewrite S in F; [left|right]; eauto.
Qed.

Lemma adds_one (a : nat -> Z -> Prop) i m m' m'' : (forall c z z', a c z -> a c z' -> z = z') ->
  adds a i m m' -> adds a i m m'' -> alike m' m''.
Proof.
  intros A H G h c. destruct (H h c) as [(E & z & Z & F)|(E & F)]; destruct (G h c) as [(E' & z' & Z' & F')|(E' & F')];
    rewrite F, F'; [rewrite (A _ _ _ Z Z'); reflexivity| | |reflexivity].
  - destruct E' as [E'|E']; [contradiction|destruct (E' _ Z)].
  - destruct E as [E|E]; [contradiction|destruct (E _ Z')].
Qed.

Section Enacted.
  Context (s : N -> Prop) (w : N -> list N -> list N -> moved -> moved -> nat -> Prop) (left text : list N) (n : nat)
    (one : forall k l t m mid i m0 mid0 i0, alike m m0 -> w k l t m mid i -> w k l t m0 mid0 i0 -> alike mid mid0 /\ i = i0)
    (some : forall k l t m mid i m0, alike m m0 -> w k l t m mid i -> exists mid0, w k l t m0 mid0 i).

  Lemma placed_one a before here before' here' :
    placed s n text a before here -> placed s n text a before' here' -> before = before' /\ here = here'.
  Proof. intros (-> & P & _) (E & P' & _). exact (reaches_one _ _ _ _ _ _ P P' E). Qed.

  Lemma enacted_one actions m m' m0 m0' : alike m m0 ->
    enacted s w left text n actions m m' -> enacted s w left text n actions m0 m0' -> alike m' m0'.
  Proof.
    intros S H. revert m0 m0' S.
    induction H as [m|a actions before here m mid l m' P D H IH|a actions m m' F H IH]; intros m0 m0' S H'.
    - inversion H'; subst. exact S.
    - inversion H' as [|a' l' b h m1 mid1 i1 m1' P' D' G'|a' l' m1 m1' F' G']; subst.
      + destruct (placed_one _ _ _ _ _ P P') as (<- & <-). destruct (one _ _ _ _ _ _ _ _ _ S D D') as (S' & _).
        exact (IH _ _ S' G').
      + exfalso. destruct (some _ _ _ _ _ _ _ S D) as (mid0 & D0). exact (F' _ _ _ _ P D0).
    - inversion H' as [|a' l' b h m1 mid1 i1 m1' P' D' G'|a' l' m1 m1' F' G']; subst.
      + exfalso. destruct (some _ _ _ _ _ _ _ (alike_sym _ _ S) D') as (mid0 & D0). exact (F _ _ _ _ P' D0).
      + exact (IH _ _ S G').
  Qed.

  Lemma enacted_alike actions m m' m0 : alike m m0 ->
    enacted s w left text n actions m m' -> exists m0', enacted s w left text n actions m0 m0'.
  Proof.
    intros S H. revert m0 S.
    induction H as [m|a actions before here m mid l m' P D H IH|a actions m m' F H IH]; intros m0 S.
    - exists m0. apply enacted_none.
    - destruct (some _ _ _ _ _ _ _ S D) as (mid0 & D0). destruct (one _ _ _ _ _ _ _ _ _ S D D0) as (S' & _).
      destruct (IH _ S') as (m0' & H'). exists m0'. exact (enacted_done _ _ _ _ _ _ _ _ _ _ _ _ _ P D0 H').
    - destruct (IH _ S) as (m0' & H'). exists m0'. apply enacted_not; [|exact H'].
      intros before here mid l P D. destruct (some _ _ _ _ _ _ _ (alike_sym _ _ S) D) as (mid0 & D0). exact (F _ _ _ _ P D0).
  Qed.
End Enacted.

Section OneMoved.
  Context (s : N -> N -> Prop) (r : N -> N -> list N -> bool -> Prop) (a : N -> N -> list N -> bool -> nat -> Z -> Prop)
    (u : N -> N -> N -> list N -> list N -> list N -> list Action -> Prop)
    (one_minded : forall k j x xs past xs' past', r k j (x :: xs) past -> r k j (x :: xs') past' ->
      length xs = length xs' /\ past = past')
    (one_adjusted : forall k j xs second c z z', a k j xs second c z -> a k j xs second c z' -> z = z')
    (one_rule : one_ruled u) (one_sort : forall k j rk xs past b xs' c l, r k j xs past -> ~ u k j rk b xs' c l).

  Lemma kerns_alike k j i text m m' n m0 : alike m m0 ->
    kerns (s k) (r k) (a k) j i text m m' n -> kerns (s k) (r k) (a k) j i text m0 m' n.
  Proof.
    intros S (xs & rest & past & mid & H & A & A' & E). exists xs, rest, past, mid.
    split; [exact H|]. split; [exact (adds_alike _ _ _ _ _ S A)|]. split; [exact A'|exact E].
  Qed.

  Lemma kerns_one k j i text m m' n m0' n0 :
    kerns (s k) (r k) (a k) j i text m m' n -> kerns (s k) (r k) (a k) j i text m m0' n0 -> alike m' m0' /\ n = n0.
  Proof.
    intros (xs & rest & past & mid & (x & ys & tail & kept & E & _ & -> & B & H) & A & A' & ->).
    intros (xs0 & rest0 & past0 & mid0 & (x0 & ys0 & tail0 & kept0 & E0 & _ & -> & B0 & H0) & A0 & A0' & ->).
    rewrite E in E0. injection E0 as <- <-. destruct (one_minded _ _ _ _ _ _ _ H H0) as (L & <-).
    destruct (begins_one _ _ _ _ _ _ _ _ B B0) as (EX & _ & <-); [cbn; lia|]. injection EX as <-.
    split; [|reflexivity]. pose proof (adds_one _ _ _ _ _ (one_adjusted k j (x :: ys) false) A A0) as S.
    apply (adds_alike _ _ _ _ _ S) in A'. exact (adds_one _ _ _ _ _ (one_adjusted k j (x :: ys) true) A' A0').
  Qed.

  Lemma nudges_alone depth :
    (forall k l t m mid i m0 mid0 i0, alike m m0 -> nudges depth s r a u k l t m mid i ->
      nudges depth s r a u k l t m0 mid0 i0 -> alike mid mid0 /\ i = i0) /\
    (forall k l t m mid i m0, alike m m0 -> nudges depth s r a u k l t m mid i ->
      exists mid0, nudges depth s r a u k l t m0 mid0 i).
  Proof.
    induction depth as [|depth (one & some)]; [split; intros; contradiction|]. split.
    - intros k l t m mid i m0 mid0 i0 S (j & rk & F & H) (j' & rk' & F' & H').
      assert (Y : heeds (s k) (r k) (u k) j rk l t).
      { destruct H as [(-> & xs & rest & past & x & H & _)|(actions & rest & H & _)]; [left|right]; eauto 6. }
      assert (Y' : heeds (s k) (r k) (u k) j' rk' l t).
      { destruct H' as [(-> & xs & rest & past & x & H' & _)|(actions & rest & H' & _)]; [left|right]; eauto 6. }
      destruct (earlier_or j rk j' rk') as [E|[(<- & <-)|E]]; [exfalso; exact (F' _ _ E Y)| |exfalso; exact (F _ _ E Y')].
      destruct H as [(_ & H)|(actions & rest & H & -> & A)]; destruct H' as [(_ & H')|(actions' & rest' & H' & -> & A')].
      + exact (kerns_one _ _ _ _ _ _ _ _ _ (kerns_alike _ _ _ _ _ _ _ _ S H) H').
      + exfalso. destruct H as (xs & rest & past & x & (x0 & ys & tail & kept & _ & _ & _ & _ & H) & _).
        destruct H' as (x' & xs' & tail' & b & c & k1 & k2 & r1 & k3 & r2 & _ & _ & _ & _ & _ & H'). exact (one_sort _ _ _ _ _ _ _ _ _ H H').
      + exfalso. destruct H' as (xs' & rest' & past & x' & (x0 & ys & tail' & kept & _ & _ & _ & _ & H') & _).
        destruct H as (x & xs & tail & b & c & k1 & k2 & r1 & k3 & r2 & _ & _ & _ & _ & _ & H). exact (one_sort _ _ _ _ _ _ _ _ _ H' H).
      + destruct H as (x & xs & tail & b & c & k1 & k2 & r1 & k3 & r2 & E & _ & B & _ & _ & H).
        destruct H' as (x' & xs' & tail' & b' & c' & k1' & k2' & r1' & k3' & r2' & E' & _ & B' & _ & _ & H').
        rewrite E in E'. injection E' as <- <-. destruct (one_rule _ _ _ _ _ _ _ _ _ _ _ _ H H') as (L & ->).
        destruct (begins_one _ _ _ _ _ _ _ _ B B') as (_ & _ & ->); [cbn; lia|].
        split; [|reflexivity]. exact (enacted_one _ _ _ _ _ one some _ _ _ _ _ S A A').
    - intros k l t m mid i m0 S (j & rk & F & H). destruct H as [(-> & H)|(actions & rest & H & -> & A)].
      + exists mid, j, 0. split; [exact F|]. left. split; [reflexivity|]. exact (kerns_alike _ _ _ _ _ _ _ _ S H).
      + destruct (enacted_alike _ _ _ _ _ one some _ _ _ _ S A) as (mid0 & A0). exists mid0, j, rk. split; [exact F|].
        right. exists actions, rest. auto.
  Qed.

  Lemma nudges_nothing depth k left m m' n : ~ nudges depth s r a u k left [] m m' n.
  Proof.
    destruct depth as [|depth]; [intros []|].
    intros (j & rk & _ & [(_ & xs & rest & past & mid & (x & ys & tail & kept & E & _) & _)|(actions & rest & (x & xs & tail & b & c & k1 & k2 & r1 & k3 & r2 & E & _) & _)]);
      discriminate E.
  Qed.

  Lemma runs_one depth k left text m m' m0 m0' : alike m m0 ->
    runs_through (nudges depth s r a u k) left text m m' -> runs_through (nudges depth s r a u k) left text m0 m0' ->
    alike m' m0'.
  Proof.
    destruct (nudges_alone depth) as (one & some). intros S H. revert m0 m0' S.
    induction H as [left m|left text m mid n m' D G IH|left x text m m' F G IH]; intros m0 m0' S H'.
    - inversion H' as [l q|l t q mid1 i q' D' G'|]; subst; [exact S|]. destruct (nudges_nothing _ _ _ _ _ _ D').
    - inversion H' as [l q|l t q mid1 i q' D' G'|l y t q q' F' G']; subst.
      + destruct (nudges_nothing _ _ _ _ _ _ D).
      + destruct (one _ _ _ _ _ _ _ _ _ S D D') as (S' & <-). exact (IH _ _ S' G').
      + destruct (some _ _ _ _ _ _ _ S D) as (mid0 & D0). destruct (F' _ _ D0).
    - inversion H' as [l q|l t q mid1 i q' D' G'|l y t q q' F' G']; subst.
      + destruct (some _ _ _ _ _ _ _ (alike_sym _ _ S) D') as (mid0 & D0). destruct (F _ _ D0).
      + exact (IH _ _ S G').
  Qed.

  Lemma kerned_one depth on text n m m' :
    kerned depth on s r a u text n m -> kerned depth on s r a u text n m' -> alike m m'.
  Proof.
    intros H. revert m'. induction H as [|n m mid H IH O G|n m H IH O]; intros m' H'.
    - inversion H' as [E|n' q q' H1 O1 G1 E1|n' q H1 O1 E1]; subst; [intros i c; reflexivity|lia|lia].
    - inversion H' as [E|n' q q' H1 O1 G1 E1|n' q H1 O1 E1]; subst; [lia| |].
      + assert (n' = n) as -> by lia. exact (runs_one _ _ _ _ _ _ _ _ (IH _ H1) G G1).
      + assert (n' = n) as -> by lia. contradiction.
    - inversion H' as [E|n' q q' H1 O1 G1 E1|n' q H1 O1 E1]; subst; [lia| |].
      + assert (n' = n) as -> by lia. contradiction.
      + assert (n' = n) as -> by lia. exact (IH _ H1).
  Qed.
End OneMoved.

Lemma minds_one v x xs past xs' past' : minds v (x :: xs) past -> minds v (x :: xs') past' ->
  length xs = length xs' /\ past = past'.
Proof.
  assert (P : forall n, (past = true <-> n <> 0) -> (past' = true <-> n <> 0) -> past = past').
  { intros n H H'. destruct past, past'; try reflexivity; intuition congruence. }
  destruct v as [[t|t]|[t|t]|t|t|t|t|t|t|t]; cbn [minds]; try (intros []; fail).
  - intros (-> & g & i & _ & [= <- ->]) (-> & g' & i' & _ & [= <- ->]). auto.
  - intros (-> & g & i & y & _ & [= <- ->] & _) (-> & g' & i' & y' & _ & [= <- ->] & _). auto.
  - intros (E & g & i & q & y & _ & _ & _ & [= <- ->]) (E' & g' & i' & q' & y' & _ & _ & _ & [= <- ->]). split; [reflexivity|eauto].
  - intros (E & g & i & h & c1 & c2 & q & y & _ & _ & _ & _ & _ & [= <- ->])
      (E' & g' & i' & h' & c1' & c2' & q' & y' & _ & _ & _ & _ & _ & [= <- ->]). split; [reflexivity|eauto].
Qed.

Lemma moves_one q c z z' : moves q c z -> moves q c z' -> z = z'.
Proof. intros (x & -> & E) (x' & [= <-] & E'). congruence. Qed.

Lemma nodup_same {A B} (h : A -> B) l x y : NoDup (map h l) -> In x l -> In y l -> h x = h y -> x = y.
Proof.
  induction l as [|z l IH]; cbn; [easy|]. intros D. inversion D as [|b m N D']; subst.
  intros [->|X] [->|Y] E; [reflexivity| | |auto].
  - destruct N. rewrite E. apply in_map. exact Y.
  - destruct N. rewrite <- E. apply in_map. exact X.
Qed.

Lemma adjusts_one v xs second c z z' : clear_positioning v ->
  adjusts v xs second c z -> adjusts v xs second c z' -> z = z'.
Proof.
  destruct v as [[t|t]|[t|t]|t|t|t|t|t|t|t]; cbn [adjusts clear_positioning]; intros C; try (intros []; fail).
  - intros (g & i & _ & _ & _ & E) (g' & i' & _ & _ & _ & E'). congruence.
  - intros (g & i & G & -> & _ & E) (g' & i' & G' & [= <-] & _ & E'). rewrite (C _ _ _ G' G) in E'. exact (moves_one _ _ _ _ E E').
  - destruct C as (C & D).
    intros (g & i & q & y & G & R & I & -> & E) (g' & i' & q' & y' & G' & R' & I' & [= <- EY] & E').
    rewrite (C _ _ _ G' G) in *. same_entry. apply nth_error_In in R. apply D in R.
    rewrite (nodup_same _ _ _ _ R I' I (eq_sym EY)) in E'. exact (moves_one _ _ _ _ E E').
  - destruct C as (C & D).
    intros (g & i & h & c1 & c2 & q & y & _ & G & H & R & Y & -> & E)
      (g' & i' & h' & c1' & c2' & q' & y' & _ & G' & H' & R' & Y' & [= <- <-] & E').
    rewrite (by_class_one _ _ _ _ C G' G) in *. rewrite (by_class_one _ _ _ _ D H' H) in *. same_entry.
    exact (moves_one _ _ _ _ E E').
Qed.

Lemma gpos_rule_one v rank x b xs a l b' xs' a' l' : clear_positioning v ->
  gpos_rule_as v rank b (x :: xs) a l -> gpos_rule_as v rank b' (x :: xs') a' l' -> length xs = length xs' /\ l = l'.
Proof.
  destruct v as [t|t|t|t|t|t|t|t|t]; cbn [clear_positioning gpos_rule_as]; intros C; try (intros []; fail).
  - intros (_ & _ & H) (_ & _ & H'). exact (context_one _ _ _ _ _ _ _ C H H').
  - exact (chained_one _ _ _ _ _ _ _ _ _ _ _ C).
Qed.

Lemma rule_or_minds v rank xs past b xs' a l : minds v xs past -> ~ gpos_rule_as v rank b xs' a l.
Proof. destruct v; cbn; tauto. Qed.

Lemma kerned_clear depth on s (sub : N -> N -> GposType -> Prop) text n m m' i c :
  (forall k j t t', sub k j t -> sub k j t' -> t = t') -> (forall k j t, sub k j t -> clear_positioning t) ->
  kerned depth on s (fun k j xs past => exists t, sub k j t /\ minds t xs past)
    (fun k j xs second c z => exists t, sub k j t /\ adjusts t xs second c z)
    (fun k j r before xs after actions => exists t, sub k j t /\ gpos_rule_as t r before xs after actions) text n m ->
  kerned depth on s (fun k j xs past => exists t, sub k j t /\ minds t xs past)
    (fun k j xs second c z => exists t, sub k j t /\ adjusts t xs second c z)
    (fun k j r before xs after actions => exists t, sub k j t /\ gpos_rule_as t r before xs after actions) text n m' ->
  m i c = m' i c.
Proof.
  intros F C H H'. revert i c. change (alike m m'). revert H H'. apply kerned_one.
  - intros k j x xs past xs' past' (t & I & H) (t' & I' & H'). rewrite <- (F _ _ _ _ I I') in H'.
    exact (minds_one _ _ _ _ _ _ H H').
  - intros k j xs second c z z' (t & I & H) (t' & I' & H'). rewrite <- (F _ _ _ _ I I') in H'.
    exact (adjusts_one _ _ _ _ _ _ (C _ _ _ I) H H').
  - intros k j rk x b xs a l b' xs' a' l' (t & I & H) (t' & I' & H'). rewrite <- (F _ _ _ _ I I') in H'.
    exact (gpos_rule_one _ _ _ _ _ _ _ _ _ _ _ (C _ _ _ I) H H').
  - intros k j rk xs past b xs' a l (t & I & H) (t' & I' & H'). rewrite <- (F _ _ _ _ I I') in H'.
    exact (rule_or_minds _ _ _ _ _ _ _ _ H H').
Qed.

Lemma kerning_one v d script language wanted depth text n m m' i c :
  clear_positionings v -> kerned_by v d script language wanted depth text n m ->
  kerned_by v d script language wanted depth text n m' -> m i c = m' i c.
Proof. exact (kerned_clear depth _ _ (in_lookup v) text n m m' i c (in_lookup_one v)). Qed.

Lemma kerning_one_at o f p v pd d script language wanted depth text n m m' i c :
  bounded f -> reads o read_glyph_positioning f p v -> reads o read_glyph_definition f pd d -> clear_positionings v ->
  kerned_at o f p pd script language wanted depth text n m ->
  kerned_at o f p pd script language wanted depth text n m' -> m i c = m' i c.
Proof.
  intros B R D C. rewrite <- !(kerning_means o f p v pd d) by assumption. exact (kerning_one _ _ _ _ _ _ _ _ _ _ _ _ C).
Qed.

(** ** Ascending order *)

Lemma coverage_clear f p v : coverage_at f p v -> ascending_coverage_at f p -> clear_coverage v.
Proof.
  intros R (n & N & A) g i j. rewrite !(covers_iff f p v) by assumption.
  intros [(F & m & M & I & G)|(F & m & k & first & last & start & M & I & F1 & L1 & S1 & G & ->)]
    [(F' & m' & M' & J & G')|(F' & m' & k' & first' & last' & start' & M' & J & F1' & L1' & S1' & G' & ->)];
    try (pose proof (u16_fun _ _ _ _ F F'); discriminate);
    rewrite (u16_fun _ _ _ _ M N) in *; rewrite (u16_fun _ _ _ _ M' N) in *;
    destruct A as [(F2 & A)|(F2 & A)]; try (pose proof (u16_fun _ _ _ _ F F2); discriminate).
  - destruct (N.lt_trichotomy i j) as [L|[E|L]]; [|exact E|].
    + specialize (A i j g g (conj L J) G G'). lia.
    + specialize (A j i g g (conj L I) G' G). lia.
  - destruct (N.lt_trichotomy k k') as [L|[E|L]].
    + specialize (A k k' _ _ (conj L J) L1 F1'). lia.
    + subst k'. rewrite (u16_fun _ _ _ _ F1' F1), (u16_fun _ _ _ _ S1' S1). reflexivity.
    + specialize (A k' k _ _ (conj L I) L1' F1). lia.
Qed.

Lemma coverage_ascends o f p v :
  bounded f -> reads o read_coverage f p v -> ascending_coverage_at f p -> clear_coverage v.
Proof. intros B H. apply coverage_clear. exact (proj1 (piece_reads PieceCoverage o f p v B eq_refl) H). Qed.

Lemma class_clear f p v : class_at f p v -> ascending_class_at f p -> clear_class v.
Proof.
  intros R A g c d. rewrite !(classifies_iff f p v) by assumption.
  intros [(F & first & m & S & M & I & G)|(F & m & k & first & last & M & I & F1 & L1 & S1 & G)]
    [(F' & first' & m' & S' & M' & I' & G')|(F' & m' & k' & first' & last' & M' & J & F1' & L1' & S1' & G')];
    try (pose proof (u16_fun _ _ _ _ F F'); discriminate).
  - rewrite (u16_fun _ _ _ _ S' S) in G'. exact (u16_fun _ _ _ _ G G').
  - destruct A as [F2|(_ & n & N & A)]; [pose proof (u16_fun _ _ _ _ F F2); discriminate|].
    rewrite (u16_fun _ _ _ _ M N) in *. rewrite (u16_fun _ _ _ _ M' N) in *.
    destruct (N.lt_trichotomy k k') as [L|[E|L]].
    + specialize (A k k' _ _ (conj L J) L1 F1'). lia.
    + subst k'. exact (u16_fun _ _ _ _ S1 S1').
    + specialize (A k' k _ _ (conj L I) L1' F1). lia.
Qed.

Lemma class_ascends o f p v :
  bounded f -> reads o read_class f p v -> ascending_class_at f p -> clear_class v.
Proof. intros B H. apply class_clear. exact (proj1 (piece_reads PieceClass o f p v B eq_refl) H). Qed.

Lemma covered_clear f p q c v : u16_at f q c -> coverage_at f (p + c) v -> covered_in_order_at f p q -> clear_coverage v.
Proof. intros C V (c' & C' & A). rewrite (u16_fun _ _ _ _ C' C) in A. exact (coverage_clear _ _ _ V A). Qed.

Lemma classes_clear f p q c v : u16_at f q c -> class_at f (p + c) v -> classes_in_order_at f p q -> clear_class v.
Proof. intros C V (c' & C' & A). rewrite (u16_fun _ _ _ _ C' C) in A. exact (class_clear _ _ _ V A). Qed.

Lemma context_clear f p v : context_at f p v -> context_in_order_at f p (p + 4) -> clear_context v.
Proof.
  destruct v as [[format c n offsets coverage records]|[format c d n offsets coverage class records]|t];
    cbn [context_at clear_context]; [| |intros _ _; exact I].
  - cbn. intros (-> & Hf & Hc & Hn & Ho & C & L) [(_ & A)|[(Hf' & _)|Hf']];
      [exact (covered_clear _ _ _ _ _ Hc C A)|discriminate (u16_fun _ _ _ _ Hf Hf')..].
  - cbn. intros (-> & Hf & Hc & Hd & Hn & Ho & C & K & L) [(Hf' & _)|[(_ & A)|Hf']];
      [discriminate (u16_fun _ _ _ _ Hf Hf')|exact (classes_clear _ _ _ _ _ Hd K A)|discriminate (u16_fun _ _ _ _ Hf Hf')].
Qed.

Lemma chained_clear f p v : chained_context_at f p v -> context_in_order_at f p (p + 6) -> clear_chained_context v.
Proof.
  destruct v as [[format c n offsets coverage records]|[format c d1 d2 d3 n offsets coverage class1 class2 class3 records]|t];
    cbn [chained_context_at clear_chained_context]; [| |intros _ _; exact I].
  - cbn. intros (-> & Hf & Hc & Hn & Ho & C & L) [(_ & A)|[(Hf' & _)|Hf']];
      [exact (covered_clear _ _ _ _ _ Hc C A)|discriminate (u16_fun _ _ _ _ Hf Hf')..].
  - cbn. intros (-> & Hf & Hc & Hd1 & Hd2 & Hd3 & Hn & Ho & C & K1 & K2 & K3 & L) [(Hf' & _)|[(_ & A)|Hf']];
      [discriminate (u16_fun _ _ _ _ Hf Hf')|exact (classes_clear _ _ _ _ _ Hd2 K2 A)|discriminate (u16_fun _ _ _ _ Hf Hf')].
Qed.

Lemma substitution_clear f p ty t : gsub_type_at ty f p t -> substitution_in_order_at f p ty -> clear_substitution t.
Proof.
  intros T (C & A & X & Y). revert T.
  destruct t as [[t|[format c n ids coverage]]|[format c n os coverage records]|[format c n os coverage records]|
    [format c n os coverage records]|t|t|t|[format c a1 os1 a2 os2 n ids coverage cs1 cs2]];
    cbn [gsub_type_at clear_substitution]; intros (-> & H); try exact I.
  - cbn in H |- *. destruct H as (_ & _ & Hc & _ & _ & V). exact (covered_clear _ _ _ _ _ Hc V (C ltac:(lia))).
  - cbn in H |- *. destruct H as (_ & _ & Hc & _ & _ & V & _). exact (covered_clear _ _ _ _ _ Hc V (C ltac:(lia))).
  - cbn in H |- *. destruct H as (_ & _ & Hc & Hn & Ho & V & L). split; [exact (covered_clear _ _ _ _ _ Hc V (C ltac:(lia)))|].
    intros r Hr. apply in_entry in Hr. destruct Hr as (i & Hr).
    destruct (link_down _ _ _ _ _ _ _ _ _ Ho L Hr) as (x & Hi & Hx & Hs). destruct r as [m ids]. cbn in Hs |- *.
    destruct Hs as (Hm & E & _). pose proof (A eq_refl _ _ _ _ Hn Hi Hx Hm). lia.
  - cbn in H |- *. destruct H as (_ & _ & Hc & _ & _ & V & _). exact (covered_clear _ _ _ _ _ Hc V (C ltac:(lia))).
  - exact (context_clear _ _ _ H (X eq_refl)).
  - exact (chained_clear _ _ _ H (Y eq_refl)).
  - cbn in H |- *. destruct H as (_ & Hc & _ & _ & _ & _ & _ & _ & V & _). exact (covered_clear _ _ _ _ _ Hc V (C ltac:(lia))).
Qed.

Lemma positioning_clear o f p ty t : gpos_type_at o ty f p t -> positioning_in_order_at f p ty -> clear_positioning t.
Proof.
  intros T (C & S & D & X & Y). revert T.
  destruct t as [[t|[format a flags n values coverage]]|
    [[format a flags1 flags2 n offsets coverage records]|[format a flags1 flags2 a1 a2 n1 n2 records coverage class1 class2]]|
    t|t|t|t|t|t|t]; cbn [gpos_type_at clear_positioning]; try (intros _; exact I).
  - cbn. intros (-> & -> & Hf & Ha & _ & Hn & Hv & Hcov). exact (covered_clear _ _ _ _ _ Ha Hcov (C ltac:(lia))).
  - cbn. intros (-> & -> & Hf & Ha & (Hs1 & _) & (Hs2 & _) & Hn & Ho & Hcov & H).
    split; [exact (covered_clear _ _ _ _ _ Ha Hcov (C ltac:(lia)))|].
    intros r Hr. apply in_entry in Hr. destruct Hr as (i & Hr).
    destruct (link_down _ _ _ _ _ _ _ _ _ Ho H Hr) as (x & Hi & Hx & Hp). destruct r as [m l]. cbn in Hp |- *.
    destruct Hp as (Hm & Hl). apply NoDup_nth_error. intros j k Hj E. rewrite map_length in Hj.
    rewrite !nth_error_map in E. destruct (nth_error l j) as [[g v1 v2]|] eqn:Ej; [|apply nth_error_None in Ej; lia].
    destruct (nth_error l k) as [[h w1 w2]|] eqn:Ek; [|discriminate E]. cbn in E. injection E as <-.
    pose proof Hl as (Len & _). assert (Lk : (k < length l)%nat) by (apply nth_error_Some; congruence).
    destruct Hl as (_ & Hl). pose proof (Hl _ _ Ej) as Gj. pose proof (Hl _ _ Ek) as Gk. cbn in Gj, Gk.
    destruct Gj as (Gj & _). destruct Gk as (Gk & _).
    destruct (Nat.lt_trichotomy j k) as [Q|[Q|Q]]; [|exact Q|]; exfalso.
    + pose proof (S eq_refl Hf _ _ _ _ _ _ (N.of_nat j) (N.of_nat k) _ _ Hs1 Hs2 Hn Hi Hx Hm ltac:(lia) Gj Gk). lia.
    + pose proof (S eq_refl Hf _ _ _ _ _ _ (N.of_nat k) (N.of_nat j) _ _ Hs1 Hs2 Hn Hi Hx Hm ltac:(lia) Gk Gj). lia.
  - cbn. intros (-> & -> & Hf & Ha & (Hs1 & _) & (Hs2 & _) & Ha1 & Ha2 & Hn1 & Hn2 & H & Hcov & Hc1 & Hc2).
    destruct (D eq_refl Hf) as (D1 & D2). split; [exact (classes_clear _ _ _ _ _ Ha1 Hc1 D1)|exact (classes_clear _ _ _ _ _ Ha2 Hc2 D2)].
  - intros (-> & H). exact (context_clear _ _ _ H (X eq_refl)).
  - intros (-> & H). exact (chained_clear _ _ _ H (Y eq_refl)).
Qed.

Lemma substitutions_ordered o f p v :
  bounded f -> reads o read_glyph_substitution f p v ->
  (forall k j q ty, in_lookup_at o f p k j q ty -> substitution_in_order_at f q ty) -> clear_substitutions v.
Proof.
  intros B H O k j t K. apply (request_reads RequestGsub o f p v B) in H.
  destruct (lookup_down _ _ _ _ _ _ _ _ H K) as (q & ty & L & T). exact (substitution_clear _ _ _ _ T (O _ _ _ _ L)).
Qed.

Lemma positionings_ordered o f p v :
  bounded f -> reads o read_glyph_positioning f p v ->
  (forall k j q ty, in_lookup_at o f p k j q ty -> positioning_in_order_at f q ty) -> clear_positionings v.
Proof.
  intros B H O k j t K. apply (request_reads RequestGpos o f p v B) in H.
  destruct (lookup_down _ _ _ _ _ _ _ _ H K) as (q & ty & L & T). exact (positioning_clear _ _ _ _ _ T (O _ _ _ _ L)).
Qed.

(** ** Extensions *)

Lemma subtable_for_one {T} o (kind : family T) f p (v : Directory T) k j t t' :
  subtable_for o kind f p v k j t -> subtable_for o kind f p v k j t' -> t = t'.
Proof.
  intros (x & I & H) (x' & I' & H'). rewrite <- (in_lookup_one _ _ _ _ _ I I') in H'.
  destruct (extension kind x) as [(type_ & offset)|]; [|congruence].
  destruct H as (q & P & R). destruct H' as (q' & P' & R'). rewrite (place_unique _ _ _ _ _ _ P' P) in R'.
  destruct R as (e & R). destruct R' as (e' & R'). congruence.
Qed.

Lemma texts_beyond_one o f p v d script language wanted depth n text out out' :
  clear_substitutions_beyond o f p v -> shaped_beyond o f p v d script language wanted depth n text out ->
  shaped_beyond o f p v d script language wanted depth n text out' -> out = out'.
Proof. exact (shaped_clear depth _ _ (subtable_for o Substitution f p v) n text out out' (subtable_for_one o Substitution f p v)). Qed.

Lemma kerning_beyond_one o f p v d script language wanted depth text n m m' i c :
  clear_positionings_beyond o f p v -> kerned_beyond o f p v d script language wanted depth text n m ->
  kerned_beyond o f p v d script language wanted depth text n m' -> m i c = m' i c.
Proof. exact (kerned_clear depth _ _ (subtable_for o Positioning f p v) text n m m' i c (subtable_for_one o Positioning f p v)). Qed.

Lemma beyond_down {T} o (kind : family T) f p v k j u :
  bounded f -> directory_at o (kind_at o kind) f p v -> subtable_for o kind f p v k j u ->
  exists q ty, subtable_for_at o kind f p k j q ty /\ kind_at o kind ty f q u.
Proof.
  intros B D (t & I & E). destruct (lookup_down _ _ _ _ _ _ _ _ D I) as (q & ty & I' & Ht).
  destruct (kind_extension _ _ _ _ _ _ Ht) as [(N & X)|(X & type_ & offset & X' & H1 & H2)].
  - rewrite X in E. subst u. exists q, ty. split; [exists q, ty; auto|exact Ht].
  - rewrite X' in E. destruct E as (q' & L & R). rewrite (place_unique _ _ _ _ _ _ L (lookup_places _ _ _ _ _ _ _ _ _ D I')) in R.
    exists (q + offset), type_. split; [exists q, ty; split; [exact I'|]; right; eauto 10|]. apply (kind_reads _ _ _ _ _ _ B), R.
Qed.

Lemma substitutions_beyond_ordered o f p v :
  bounded f -> reads o read_glyph_substitution f p v ->
  (forall k j q ty, subtable_for_at o Substitution f p k j q ty -> substitution_in_order_at f q ty) ->
  clear_substitutions_beyond o f p v.
Proof.
  intros B H O k j u K. apply (request_reads RequestGsub o f p v B) in H.
  destruct (beyond_down o Substitution _ _ _ _ _ _ B H K) as (q & ty & L & T). exact (substitution_clear _ _ _ _ T (O _ _ _ _ L)).
Qed.

Lemma positionings_beyond_ordered o f p v :
  bounded f -> reads o read_glyph_positioning f p v ->
  (forall k j q ty, subtable_for_at o Positioning f p k j q ty -> positioning_in_order_at f q ty) ->
  clear_positionings_beyond o f p v.
Proof.
  intros B H O k j u K. apply (request_reads RequestGpos o f p v B) in H.
  destruct (beyond_down o Positioning _ _ _ _ _ _ B H K) as (q & ty & L & T). exact (positioning_clear _ _ _ _ _ T (O _ _ _ _ L)).
Qed.

(** ** Files of a few words *)

Ltac word := do 2 eexists; do 2 (split; [vm_compute; reflexivity|]); vm_compute; reflexivity.

Ltac known H :=
  let b := fresh in let c := fresh in let Hb := fresh in let Hc := fresh in
  destruct H as (b & c & Hb & Hc & H); vm_compute in Hb, Hc; injection Hb as <-; injection Hc as <-; vm_compute in H.

Ltac ascends :=
  let i := fresh in let j := fresh in let x := fresh in let y := fresh in
  let I := fresh in let X := fresh in let Y := fresh in let E := fresh in
  intros i j x y I X Y; assert (E : i = 0 /\ j = 1) by lia; destruct E as (-> & ->); known X; known Y; lia.
