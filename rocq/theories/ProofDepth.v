(** Lemmas behind PropertiesDepth.v. *)

From Verif Require Import ReadsTactics ProofFindings ProofRequests ProofPieces ProofReads.
From Verif Require Export ProofSources SpecDepth.

Lemma nests_ranked (asks : N -> N -> Prop) (h : N -> nat) : (forall k l, asks k l -> (h l < h k)%nat) -> forall d k, (h k <= d)%nat -> nests asks d k.
Proof.
  intros H d. induction d as [|d IH]; intros k L l A; specialize (H _ _ A); [lia|]. apply IH. lia.
Qed.

Lemma nests_self (asks : N -> N -> Prop) k : asks k k -> forall d, ~ nests asks d k.
Proof. intros A d. induction d as [|d IH]; intros H; [exact (H _ A)|exact (IH (H _ A))]. Qed.

(** ** Texts *)

Lemma acted_agree s (w w' : N -> list N -> list N -> list N -> list N -> Prop) left actions n text m out :
  (forall a l t ys rest, In a actions -> (w (action_lookup_index a) l t ys rest <-> w' (action_lookup_index a) l t ys rest)) ->
  acted s w left actions n text m out -> acted s w' left actions n text m out.
Proof.
  intros W H. induction H as [n text|a actions n text before here ys rest m out L D A IH|a actions n text m out F A IH].
  - apply acted_none.
  - eapply acted_done; [exact L|apply W; [left; reflexivity|exact D]|]. apply IH. intros; apply W. right. assumption.
  - apply acted_not.
    + intros before here ys rest P D. apply (F before here ys rest P). apply W; [left; reflexivity|exact D].
    + apply IH. intros; apply W. right. assumption.
Qed.

Lemma goes_agree (w w' : list N -> list N -> list N -> list N -> Prop) left text out :
  (forall l t ys rest, w l t ys rest <-> w' l t ys rest) -> goes_through w left text out -> goes_through w' left text out.
Proof.
  intros W H. induction H as [left|left text ys rest out D G IH|left x text out F G IH].
  - apply goes_end.
  - exact (goes_does _ _ _ _ _ _ (proj1 (W _ _ _ _) D) IH).
  - apply goes_on; [|exact IH]. intros ys rest D. exact (F _ _ (proj2 (W _ _ _ _) D)).
Qed.

Section Depth.
  Context (s : N -> N -> Prop) (r : N -> N -> N -> list N -> list N -> Prop)
    (u : N -> N -> N -> list N -> list N -> list N -> list Action -> Prop) (t : N -> N -> list N -> N -> list N -> N -> Prop)
    (asks : N -> N -> Prop).

  Definition all_asked : Prop := forall k j rk b xs a l x, u k j rk b xs a l -> In x l -> asks k (action_lookup_index x).

  Lemma does_deeper d e k left text ys rest : all_asked -> nests asks d k ->
    (does (S d) s r u k left text ys rest <-> does (S (d + e)) s r u k left text ys rest).
  Proof.
    intros Q. revert k left text ys rest. induction d as [|d IH]; intros k left text ys rest N.
    - split; intros (j & rk & F & [H|(l & behind & n & text' & H & A & E)]); exists j, rk; (split; [exact F|]);
        [left; exact H| |left; exact H|]; right; exists l, behind, n, text'; (split; [exact H|]); (split; [|exact E]);
        (eapply acted_agree; [|exact A]); intros x l' t' ys' rest' I; exfalso;
        destruct H as (x' & xs & tail & b & a & k1 & k2 & r1 & k3 & r2 & _ & _ & _ & _ & _ & H); exact (N _ (Q _ _ _ _ _ _ _ _ H I)).
    - change (S d + e)%nat with (S (d + e)).
      split; intros (j & rk & F & [H|(l & behind & n & text' & H & A & E)]); exists j, rk; (split; [exact F|]);
        [left; exact H| |left; exact H|]; right; exists l, behind, n, text'; (split; [exact H|]); (split; [|exact E]);
        (eapply acted_agree; [|exact A]); intros x l' t' ys' rest' I;
        destruct H as (x' & xs & tail & b & a & k1 & k2 & r1 & k3 & r2 & _ & _ & _ & _ & _ & H);
        pose proof (IH _ l' t' ys' rest' (N _ (Q _ _ _ _ _ _ _ _ H I))) as G; [exact G|symmetry; exact G].
  Qed.

  Lemma shaped_deeper d e (on : N -> Prop) n text out : all_asked -> (forall k, on k -> k < n -> nests asks d k) ->
    (shaped d on s r u t n text out <-> shaped (d + e) on s r u t n text out).
  Proof.
    intros Q O. split; intros H; (induction H as [text|n text mid mid' out H IH K G B|n text out H IH K];
      [apply shaped_none| |apply shaped_off; [apply IH; intros; apply O; [assumption|lia]|exact K]]);
      (eapply shaped_on; [apply IH; intros; apply O; [assumption|lia]|exact K| |exact B]);
      (eapply goes_agree; [|exact G]); intros l x ys rest;
      pose proof (does_deeper d e n l x ys rest Q (O n K ltac:(lia))) as E; [exact E|symmetry; exact E].
  Qed.
End Depth.

Lemma shaped_depth d e (on : N -> Prop) s (sub : N -> N -> GsubType -> Prop) n text out :
  (forall k, on k -> k < n -> nests (gsub_asks sub) d k) ->
  (shaped d on s (fun k j r xs ys => exists t, sub k j t /\ replaces_as t r xs ys)
    (fun k j r before xs after actions => exists t, sub k j t /\ gsub_rule_as t r before xs after actions)
    (fun k j before x after y => exists t, sub k j t /\ gsub_reverse t before x after y) n text out <->
   shaped (d + e) on s (fun k j r xs ys => exists t, sub k j t /\ replaces_as t r xs ys)
    (fun k j r before xs after actions => exists t, sub k j t /\ gsub_rule_as t r before xs after actions)
    (fun k j before x after y => exists t, sub k j t /\ gsub_reverse t before x after y) n text out).
Proof.
  intros O. apply (shaped_deeper _ _ _ _ (gsub_asks sub)); [|exact O].
  intros k j rk b xs a l x (t & I & H) J. exists j, t, b, xs, a, l, x. pose proof (as_rule _ _ _ _ _ _ H). auto.
Qed.

Lemma texts_depth v d script language wanted depth more n text out :
  (forall k, turned_on v script language wanted k -> k < n -> nests (gsub_asks (in_lookup v)) depth k) ->
  (shaped_by v d script language wanted depth n text out <-> shaped_by v d script language wanted (depth + more) n text out).
Proof. exact (shaped_depth depth more _ _ (in_lookup v) n text out). Qed.

Lemma texts_depth_beyond o f p v d script language wanted depth more n text out :
  (forall k, turned_on v script language wanted k -> k < n -> nests (gsub_asks (subtable_for o Substitution f p v)) depth k) ->
  (shaped_beyond o f p v d script language wanted depth n text out <->
   shaped_beyond o f p v d script language wanted (depth + more) n text out).
Proof. exact (shaped_depth depth more _ _ (subtable_for o Substitution f p v) n text out). Qed.

Lemma texts_depth_at o f p v pd d script language wanted depth more n text out :
  bounded f -> reads o read_glyph_substitution f p v -> reads o read_glyph_definition f pd d ->
  (forall k, turned_on v script language wanted k -> k < n -> nests (gsub_asks (in_lookup v)) depth k) ->
  (shaped_at o f p pd script language wanted depth n text out <-> shaped_at o f p pd script language wanted (depth + more) n text out).
Proof.
  intros B H G N. rewrite <- !(texts_mean o f p v pd d _ _ _ _ _ _ _ B H G). exact (texts_depth _ _ _ _ _ _ _ _ _ _ N).
Qed.

(** ** Movements *)

Lemma enacted_agree s (w w' : N -> list N -> list N -> moved -> moved -> nat -> Prop) left text n actions m m' :
  (forall a l t x y q, In a actions -> (w (action_lookup_index a) l t x y q <-> w' (action_lookup_index a) l t x y q)) ->
  enacted s w left text n actions m m' -> enacted s w' left text n actions m m'.
Proof.
  intros W H. induction H as [m|a actions before here m mid q m' L D E IH|a actions m m' F E IH].
  - apply enacted_none.
  - eapply enacted_done; [exact L|apply W; [left; reflexivity|exact D]|]. apply IH. intros; apply W. right. assumption.
  - apply enacted_not.
    + intros before here mid q P D. apply (F before here mid q P). apply W; [left; reflexivity|exact D].
    + apply IH. intros; apply W. right. assumption.
Qed.

Lemma runs_agree (w w' : list N -> list N -> moved -> moved -> nat -> Prop) left text m m' :
  (forall l t x y q, w l t x y q <-> w' l t x y q) -> runs_through w left text m m' -> runs_through w' left text m m'.
Proof.
  intros W H. induction H as [left m|left text m mid n m' D G IH|left x text m m' F G IH].
  - apply runs_end.
  - exact (runs_does _ _ _ _ _ _ _ (proj1 (W _ _ _ _ _) D) IH).
  - apply runs_on; [|exact IH]. intros mid n D. exact (F _ _ (proj2 (W _ _ _ _ _) D)).
Qed.

Section Deep.
  Context (s : N -> N -> Prop) (r : N -> N -> list N -> bool -> Prop) (a : N -> N -> list N -> bool -> nat -> Z -> Prop)
    (u : N -> N -> N -> list N -> list N -> list N -> list Action -> Prop) (asks : N -> N -> Prop).

  Lemma nudges_deeper d e k left text m m' q : all_asked u asks -> nests asks d k ->
    (nudges (S d) s r a u k left text m m' q <-> nudges (S (d + e)) s r a u k left text m m' q).
  Proof.
    intros Q. revert k left text m m' q. induction d as [|d IH]; intros k left text m m' q N.
    - split; intros (j & rk & F & [H|(l & rest & H & E & A)]); exists j, rk; (split; [exact F|]);
        [left; exact H| |left; exact H|]; right; exists l, rest; (split; [exact H|]); (split; [exact E|]);
        (eapply enacted_agree; [|exact A]); intros x l' t' y' z' q' I; exfalso;
        destruct H as (x' & xs & tail & b & a' & k1 & k2 & r1 & k3 & r2 & _ & _ & _ & _ & _ & H); exact (N _ (Q _ _ _ _ _ _ _ _ H I)).
    - change (S d + e)%nat with (S (d + e)).
      split; intros (j & rk & F & [H|(l & rest & H & E & A)]); exists j, rk; (split; [exact F|]);
        [left; exact H| |left; exact H|]; right; exists l, rest; (split; [exact H|]); (split; [exact E|]);
        (eapply enacted_agree; [|exact A]); intros x l' t' y' z' q' I;
        destruct H as (x' & xs & tail & b & a' & k1 & k2 & r1 & k3 & r2 & _ & _ & _ & _ & _ & H);
        pose proof (IH _ l' t' y' z' q' (N _ (Q _ _ _ _ _ _ _ _ H I))) as G; [exact G|symmetry; exact G].
  Qed.

  Lemma kerned_deeper d e (on : N -> Prop) text n m : all_asked u asks -> (forall k, on k -> k < n -> nests asks d k) ->
    (kerned d on s r a u text n m <-> kerned (d + e) on s r a u text n m).
  Proof.
    intros Q O. split; intros H; (induction H as [|n m m' H IH K G|n m H IH K];
      [apply kerned_none| |apply kerned_off; [apply IH; intros; apply O; [assumption|lia]|exact K]]);
      (eapply kerned_on; [apply IH; intros; apply O; [assumption|lia]|exact K|]);
      (eapply runs_agree; [|exact G]); intros l t x y q;
      pose proof (nudges_deeper d e n l t x y q Q (O n K ltac:(lia))) as E; [exact E|symmetry; exact E].
  Qed.
End Deep.

Lemma kerned_depth d e (on : N -> Prop) s a (sub : N -> N -> GposType -> Prop) text n m :
  (forall k, on k -> k < n -> nests (gpos_asks sub) d k) ->
  (kerned d on s (fun k j xs past => exists t, sub k j t /\ minds t xs past) a
    (fun k j r before xs after actions => exists t, sub k j t /\ gpos_rule_as t r before xs after actions) text n m <->
   kerned (d + e) on s (fun k j xs past => exists t, sub k j t /\ minds t xs past) a
    (fun k j r before xs after actions => exists t, sub k j t /\ gpos_rule_as t r before xs after actions) text n m).
Proof.
  intros O. apply (kerned_deeper _ _ _ _ (gpos_asks sub)); [|exact O].
  intros k j rk b xs l acts x (t & I & H) J. exists j, t, b, xs, l, acts, x. pose proof (as_gpos_rule _ _ _ _ _ _ H). auto.
Qed.

Lemma kerning_depth v d script language wanted depth more text n m :
  (forall k, turned_on v script language wanted k -> k < n -> nests (gpos_asks (in_lookup v)) depth k) ->
  (kerned_by v d script language wanted depth text n m <-> kerned_by v d script language wanted (depth + more) text n m).
Proof. exact (kerned_depth depth more _ _ _ (in_lookup v) text n m). Qed.

Lemma kerning_depth_beyond o f p v d script language wanted depth more text n m :
  (forall k, turned_on v script language wanted k -> k < n -> nests (gpos_asks (subtable_for o Positioning f p v)) depth k) ->
  (kerned_beyond o f p v d script language wanted depth text n m <->
   kerned_beyond o f p v d script language wanted (depth + more) text n m).
Proof. exact (kerned_depth depth more _ _ _ (subtable_for o Positioning f p v) text n m). Qed.

Lemma kerning_depth_at o f p v pd d script language wanted depth more text n m :
  bounded f -> reads o read_glyph_positioning f p v -> reads o read_glyph_definition f pd d ->
  (forall k, turned_on v script language wanted k -> k < n -> nests (gpos_asks (in_lookup v)) depth k) ->
  (kerned_at o f p pd script language wanted depth text n m <-> kerned_at o f p pd script language wanted (depth + more) text n m).
Proof.
  intros B H G N. rewrite <- !(kerning_means o f p v pd d _ _ _ _ _ _ _ B H G). exact (kerning_depth _ _ _ _ _ _ _ _ _ _ N).
Qed.
