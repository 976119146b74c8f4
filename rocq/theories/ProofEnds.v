(** Lemmas behind PropertiesEnds.v. *)

From Coq Require Import Lia.
From Verif Require Import ReadsTactics ProofFindings ProofRequests ProofPieces ProofReads.
From Verif Require Export ProofPlain.

(** ** What is first *)

Lemma first_one (P : N -> Prop) : (forall j, P j -> (forall i, i < j -> ~ P i) -> False) -> forall j, ~ P j.
Proof. intros H j. induction j as [j IH] using (well_founded_induction N.lt_wf_0). intros Pj. exact (H j Pj IH). Qed.

Lemma first_two (P : N -> N -> Prop) :
  (forall j r, P j r -> (forall i s, earlier i s j r -> ~ P i s) -> False) -> forall j r, ~ P j r.
Proof.
  intros H j r Pj. apply (first_one (fun j => exists r, P j r)) with (j := j); [|eauto].
  intros j' (r' & Pj') M. apply (first_one (P j')) with (j := r'); [|exact Pj'].
  intros q Pq L. apply (H j' q Pq). intros i s [E|(-> & E)] Pi; [apply (M i E); eauto|exact (L s E Pi)].
Qed.

(** ** Texts become shorter *)

Lemma begins_length s xs kept rest text : begins s xs kept rest text ->
  length text = (length xs + length kept + length rest)%nat.
Proof. intros H. induction H; cbn [length] in *; lia. Qed.

Lemma acted_length s w left actions n text n' text' : acted s w left actions n text n' text' ->
  (length text' + n <= length text + n')%nat.
Proof.
  intros H. induction H as [n text|a actions n text before here ys rest n' text' P D A IH|a actions n text n' text' N A IH]; [lia| |exact IH].
  pose proof (Nat.le_max_r (length before) (n + length (before ++ ys ++ rest) - length text)). lia.
Qed.

Lemma does_shorter depth s r u k left text ys rest : does depth s r u k left text ys rest -> (length rest < length text)%nat.
Proof.
  destruct depth as [|depth]; [intros []|].
  intros (j & q & _ & [(kept & behind & (x & xs & tail & E & _ & B & _) & ->)|
    (actions & behind & n & text' & (x & xs & tail & b & a & k1 & k2 & r1 & k3 & r2 & E & _ & B & _) & A & _ & ->)]);
    apply begins_length in B; cbn [length] in B.
  - rewrite app_length. lia.
  - apply acted_length in A. rewrite skipn_length. lia.
Qed.

Lemma through_ends (w : list N -> list N -> list N -> list N -> Prop) :
  (forall left text ys rest, w left text ys rest -> (length rest < length text)%nat) ->
  forall m left text, (length text <= m)%nat -> ~ forall out, ~ goes_through w left text out.
Proof.
  intros S m. induction m as [|m IH]; intros left text L H.
  { destruct text; [|cbn in L; lia]. exact (H _ (goes_end w left)). }
  destruct text as [|x text]; [exact (H _ (goes_end w left))|].
  assert (N : forall ys rest, ~ w left (x :: text) ys rest).
  { intros ys rest W. apply (IH (rev ys ++ left) rest); [apply S in W; cbn [length] in *; lia|].
    intros out G. exact (H out (goes_does w left (x :: text) ys rest out W G)). }
  apply (IH (x :: left) text); [cbn in L; lia|]. intros out G. exact (H out (goes_on w left x text out N G)).
Qed.

Lemma back_ends s t left : forall right, ~ forall out, ~ goes_back s t left right out.
Proof.
  induction left as [|x left IH]; intros right H; [exact (H _ (back_end s t right))|].
  assert (N : forall j, ~ exists y, turns s t j left x right y).
  { apply first_one. intros j (y & T) M. apply (IH (y :: right)). intros out G. apply (H out).
    refine (back_turns s t j x left right y out T _ G). intros i z L K. apply (M i L). eauto. }
  apply (IH (x :: right)). intros out G. apply (H out). refine (back_on s t x left right out _ G).
  intros i z K. apply (N i). eauto.
Qed.

Lemma shaped_ends depth on s r u t n : forall text, ~ forall out, ~ shaped depth on s r u t n text out.
Proof.
  induction n as [|n IH] using N.peano_ind; intros text H; [exact (H _ (shaped_none depth on s r u t text))|].
  rewrite <- N.add_1_r in H. apply (IH text). intros mid G.
  assert (O : ~ on n).
  { intros O. apply (through_ends (does (S depth) s r u n) (does_shorter (S depth) s r u n) _ [] mid (le_n _)).
    intros mid' T. apply (back_ends (s n) (t n) (rev mid') []). intros out B.
    exact (H out (shaped_on depth on s r u t n text mid mid' out G O T B)). }
  exact (H mid (shaped_off depth on s r u t n text mid G O)).
Qed.

(** ** Where a subtable has something to do, it is done *)

Lemma acted_ends s w left actions : forall n text, ~ forall n' text', ~ acted s w left actions n text n' text'.
Proof.
  induction actions as [|a actions IH]; intros n text H; [exact (H _ _ (acted_none s w left n text))|].
  assert (N : forall before here ys rest, placed s n text a before here ->
    ~ w (action_lookup_index a) (rev before ++ left) here ys rest).
  { intros before here ys rest P D.
    apply (IH (Nat.max (length before) (n + length (before ++ ys ++ rest) - length text)) (before ++ ys ++ rest)).
    intros n' text' A. exact (H n' text' (acted_done s w left a actions n text before here ys rest n' text' P D A)). }
  apply (IH n text). intros n' text' A. exact (H n' text' (acted_not s w left a actions n text n' text' N A)).
Qed.

Lemma ready_does depth s r u k j q left text : ready (s k) (r k) (u k) j q left text ->
  ~ forall ys rest, ~ does (S depth) s r u k left text ys rest.
Proof.
  intros R H. revert j q R. apply (first_two (fun j q => ready (s k) (r k) (u k) j q left text)).
  intros j q [(ys & kept & rest & F)|(actions & rest & F)] M.
  - apply (H ys (kept ++ rest)). exists j, q. split; [exact M|]. left. eauto.
  - apply (acted_ends (s k) (does depth s r u) left actions (length text - length rest) text). intros n text' A.
    apply (H (firstn n text') (skipn n text')). exists j, q. split; [exact M|]. right. exists actions, rest, n, text'. auto.
Qed.

(** ** Movements *)

Lemma adds_ends (adjusted : nat -> Z -> Prop) i m (top : nat) :
  (forall c z, adjusted c z -> (c < top)%nat) -> ~ forall m', ~ adds adjusted i m m'.
Proof.
  revert adjusted. induction top as [|top IH]; intros adjusted B H.
  { apply (H m). intros h c. right. split; [|reflexivity]. right. intros z A. apply B in A. lia. }
  apply (IH (fun c z => adjusted c z /\ (c < top)%nat)); [intros c z A; apply A|]. intros m' A.
  assert (N : forall z, ~ adjusted top z).
  { intros z Az. apply (H (fun h c => if (Nat.eqb h i && Nat.eqb c top)%bool then (m h c + z)%Z else m' h c)).
    intros h c. destruct (Nat.eqb_spec h i) as [->|E]; cbn [andb].
    - destruct (Nat.eqb_spec c top) as [->|F]; [left; split; [reflexivity|]; exists z; auto|].
      destruct (A i c) as [(_ & y & (Ay & _) & Ey)|(Ay & Ey)]; [left; eauto|]. right. split; [|exact Ey].
      destruct Ay as [Ay|Ay]; [left; exact Ay|]. right. intros y X. apply (Ay y). split; [exact X|]. apply B in X. lia.
    - right. split; [left; exact E|]. destruct (A h c) as [(Eh & _)|(_ & Ey)]; [contradiction|exact Ey]. }
  apply (H m'). intros h c. destruct (A h c) as [(E & y & (Ay & _) & Ey)|(Ay & Ey)]; [left; eauto|]. right. split; [|exact Ey].
  destruct Ay as [Ay|Ay]; [left; exact Ay|]. right. intros y X. pose proof (B _ _ X) as L.
  apply (Ay y). split; [exact X|]. destruct (Nat.eq_dec c top) as [->|F]; [elim (N y X)|lia].
Qed.

Lemma nudges_done depth s r a u k left text m m' n : nudges depth s r a u k left text m m' n ->
  (0 < n <= length text)%nat.
Proof.
  destruct depth as [|depth]; [intros []|].
  intros (j & q & _ & [(_ & xs & rest & past & mid & (x & ys & tail & kept & -> & _ & -> & B & _) & _ & _ & ->)|
    (actions & rest & (x & xs & tail & b & a' & k1 & k2 & r1 & k3 & r2 & -> & _ & B & _) & -> & _)]);
    apply begins_length in B; cbn [length] in *; [destruct past|]; lia.
Qed.

Lemma runs_ends (w : list N -> list N -> moved -> moved -> nat -> Prop) :
  (forall left text m m' n, w left text m m' n -> (0 < n <= length text)%nat) ->
  forall l left text m, (length text <= l)%nat -> ~ forall m', ~ runs_through w left text m m'.
Proof.
  intros S l. induction l as [|l IH]; intros left text m L H.
  { destruct text; [|cbn in L; lia]. exact (H _ (runs_end w left m)). }
  destruct text as [|x text]; [exact (H _ (runs_end w left m))|].
  assert (N : forall mid n, ~ w left (x :: text) m mid n).
  { intros mid n W. apply (IH (rev (firstn n (x :: text)) ++ left) (skipn n (x :: text)) mid).
    - pose proof (S _ _ _ _ _ W). rewrite skipn_length. cbn [length] in *. lia.
    - intros m' G. exact (H m' (runs_does w left (x :: text) m mid n m' W G)). }
  apply (IH (x :: left) text m); [cbn in L; lia|]. intros m' G. exact (H m' (runs_on w left x text m m' N G)).
Qed.

Lemma kerned_ends depth on s r a u text n : ~ forall m, ~ kerned depth on s r a u text n m.
Proof.
  induction n as [|n IH] using N.peano_ind; intros H; [exact (H _ (kerned_none depth on s r a u text))|].
  rewrite <- N.add_1_r in H. apply IH. intros m G.
  assert (O : ~ on n).
  { intros O. apply (runs_ends (nudges (S depth) s r a u n) (nudges_done (S depth) s r a u n) _ [] text m (le_n _)).
    intros m' T. exact (H m' (kerned_on depth on s r a u text n m m' G O T)). }
  exact (H m (kerned_off depth on s r a u text n m G O)).
Qed.

Lemma enacted_ends s w left text n actions : forall m, ~ forall m', ~ enacted s w left text n actions m m'.
Proof.
  induction actions as [|a actions IH]; intros m H; [exact (H _ (enacted_none s w left text n m))|].
  assert (N : forall before here mid l, placed s n text a before here ->
    ~ w (action_lookup_index a) (rev before ++ left) here m mid l).
  { intros before here mid l P D. apply (IH mid). intros m' A.
    exact (H m' (enacted_done s w left text n a actions before here m mid l m' P D A)). }
  apply (IH m). intros m' A. exact (H m' (enacted_not s w left text n a actions m m' N A)).
Qed.

Lemma heeds_nudges depth s r (a : N -> N -> list N -> bool -> nat -> Z -> Prop) u k j q left text m (top : nat) :
  (forall j xs second c z, a k j xs second c z -> (c < top)%nat) -> heeds (s k) (r k) (u k) j q left text ->
  ~ forall m' n, ~ nudges (S depth) s r a u k left text m m' n.
Proof.
  intros B R H. revert j q R. apply (first_two (fun j q => heeds (s k) (r k) (u k) j q left text)).
  intros j q [(-> & xs & rest & past & F)|(actions & rest & F)] M.
  - apply (adds_ends (a k j xs false) (length left) m top (B j xs false)). intros mid A.
    apply (adds_ends (a k j xs true) (length left + length text - length rest - 1) mid top (B j xs true)). intros m' A'.
    apply (H m' (if past then (length text - length rest)%nat else 1%nat)). exists j, 0. split; [exact M|]. left.
    split; [reflexivity|]. exists xs, rest, past, mid. auto.
  - apply (enacted_ends (s k) (nudges depth s r a u) left text (length text - length rest) actions m). intros m' A.
    apply (H m' (length text - length rest)%nat). exists j, q. split; [exact M|]. right. exists actions, rest. auto.
Qed.

Lemma component_below s c z : component s c = Some z -> (c < 4)%nat.
Proof. destruct c as [|[|[|[|c]]]]; [lia..|discriminate]. Qed.

Lemma adjusts_below t xs second c z : adjusts t xs second c z -> (c < 4)%nat.
Proof.
  destruct t as [[t|t]|[t|t]| | | | | | |]; cbn [adjusts]; try (intros H; contradiction H).
  - intros (g & i & _ & _ & _ & H). exact (component_below _ _ _ H).
  - intros (g & i & _ & _ & _ & s & _ & H). exact (component_below _ _ _ H).
  - intros (g & i & q & e & _ & _ & _ & _ & s & _ & H). exact (component_below _ _ _ H).
  - intros (g & i & h & c1 & c2 & q & e & _ & _ & _ & _ & _ & _ & s & _ & H). exact (component_below _ _ _ H).
Qed.

Lemma heeds_nudges_by depth (sub : N -> N -> GposType -> Prop) s r u k j q left text m :
  heeds (s k) (r k) (u k) j q left text ->
  ~ forall m' n, ~ nudges (S depth) s r (fun k j xs second c z => exists t, sub k j t /\ adjusts t xs second c z) u k left text m m' n.
Proof. apply heeds_nudges with (top := 4%nat). intros i xs second c z (t & _ & H). exact (adjusts_below _ _ _ _ _ H). Qed.

(** ** Texts of which just one thing becomes *)

Lemma texts_just_one v d script language wanted depth n text : clear_substitutions v ->
  ~ forall out, ~ forall out', shaped_by v d script language wanted depth n text out' <-> out' = out.
Proof.
  intros C H. apply (shaped_ends depth _ _ _ _ _ n text : ~ forall out, ~ shaped_by v d script language wanted depth n text out).
  intros out S. apply (H out). intros out'. split; [|intros ->; exact S].
  intros S'. exact (texts_one v d _ _ _ _ _ _ _ _ C S' S).
Qed.

Lemma kerning_just_one v d script language wanted depth text n : clear_positionings v ->
  ~ forall m, ~ (kerned_by v d script language wanted depth text n m /\
    forall m', kerned_by v d script language wanted depth text n m' -> forall i c, m' i c = m i c).
Proof.
  intros C H. apply (kerned_ends depth _ _ _ _ _ text n : ~ forall m, ~ kerned_by v d script language wanted depth text n m).
  intros m S. apply (H m). split; [exact S|]. intros m' S' i c. exact (kerning_one v d _ _ _ _ _ _ _ _ _ _ C S' S).
Qed.
