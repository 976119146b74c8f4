(** Following extension subtables, for property C85. *)

From Coq Require Import Lia.
From Verif Require Import ProofPieces ProofDepartures Samples.
From Verif Require Export SpecExtensions.

Section Extensions.
Context {T} (o : options) (k : family T) (f : file) (Hb : bounded f).

(** What an extension is, in bytes. *)
Lemma leads_iff x y : leads o k f x y <->
  fst x = extension_type k /\ u16_at f (snd x) 1 /\ u16_at f (snd x + 2) (fst y) /\
  exists offset, u32_at f (snd x + 4) offset /\ snd y = snd x + offset.
Proof.
  destruct x as [t a], y as [u b]. unfold leads. cbn [fst snd]. split.
  - intros (v & offset & R & E & P). destruct k; cbn [subtable extension extension_type] in *;
      [apply (proj1 (piece_reads (PieceGsubType t) _ _ _ _ Hb eq_refl)) in R
      |apply (proj1 (piece_reads (PieceGposType t) _ _ _ _ Hb eq_refl)) in R]; destruct v; try discriminate;
      destruct value as [format t' d]; injection E as -> ->; destruct R as [-> (H1 & -> & H2 & H3)]; eauto 10.
  - intros (-> & H1 & H2 & offset & H3 & P). destruct k; cbn [subtable extension_type].
    + exists (GsubExtensionSubstitution (mkExtensionSubstitution 1 u offset)), offset.
      split; [|auto]. apply (proj2 (piece_reads (PieceGsubType 7) _ _ _ _ Hb eq_refl)).
      repeat split; assumption.
    + exists (GposExtensionPositioning (mkExtensionPositioning 1 u offset)), offset.
      split; [|auto]. apply (proj2 (piece_reads (PieceGposType 9) _ _ _ _ Hb eq_refl)).
      repeat split; assumption.
Qed.

Lemma u16_same p v w : u16_at f p v -> u16_at f p w -> v = w.
Proof. intros (b & c & E & F & ->) (b' & c' & E' & F' & ->). congruence. Qed.

Lemma u32_same p v w : u32_at f p v -> u32_at f p w -> v = w.
Proof.
  intros (h & l & H & L & ->) (h' & l' & H' & L' & ->). rewrite (u16_same _ _ _ H H'), (u16_same _ _ _ L L').
  reflexivity.
Qed.

Lemma leads_functional x y z : leads o k f x y -> leads o k f x z -> y = z.
Proof.
  rewrite !leads_iff. intros (_ & _ & A & d & B & C) (_ & _ & A' & d' & B' & C').
  pose proof (u16_same _ _ _ A A'). pose proof (u32_same _ _ _ B B'). destruct y, z; cbn in *; congruence.
Qed.

(** It leads on, to itself, or to something that is not an extension. *)
Lemma leads_cases x y : leads o k f x y -> snd x < snd y \/ y = x \/ forall z, ~ leads o k f y z.
Proof.
  intros H. pose proof H as G. rewrite leads_iff in G. destruct G as (Ht & _ & _ & d & _ & E).
  destruct (N.eq_dec d 0) as [->|Hd]; [|left; lia]. right.
  destruct (N.eq_dec (fst y) (extension_type k)) as [Ey|Ey].
  - left. destruct x, y. cbn in *. f_equal; [congruence|lia].
  - right. intros z Z. rewrite leads_iff in Z. tauto.
Qed.

Lemma follows_end n m x y z :
  follows o k f n x y -> follows o k f m x z -> (forall w, ~ leads o k f y w) -> (m <= n)%nat.
Proof.
  intros F. revert m z. induction F as [x|n x x' y L _ IH]; intros m z G E.
  - inversion G as [|m' ? x' ? L _]; subst; [lia|]. exfalso. apply (E _ L).
  - inversion G as [|m' ? x'' ? L' G']; subst; [lia|]. rewrite (leads_functional _ _ _ L L') in *.
    specialize (IH _ _ G' E). lia.
Qed.

Lemma loops_on x : leads o k f x x -> forall n, follows o k f n x x.
Proof. intros L n. induction n as [|n IH]; [constructor|]. exact (follows_more o k f n x x x L IH). Qed.

Lemma follows_trans n m x y z : follows o k f n x y -> follows o k f m y z -> follows o k f (n + m) x z.
Proof. induction 1; cbn; intros; [assumption|]. econstructor; eauto. Qed.

Lemma loops_endless x : loops o k f x -> ~ ends o k f x.
Proof.
  intros (n & y & F & L) (m & z & G & E).
  pose proof (follows_end _ _ _ _ _ G (follows_trans _ (S m) _ _ _ F (loops_on y L (S m))) E). lia.
Qed.

Lemma leads_dec x : (exists y, leads o k f x y) \/ forall y, ~ leads o k f x y.
Proof.
  destruct x as [t a]. destruct (N.eq_dec t (extension_type k)) as [->|Ht].
  2:{ right. intros y L. rewrite leads_iff in L. cbn in L. tauto. }
  assert (D : forall p, (exists v, u16_at f p v) \/ forall v, ~ u16_at f p v).
  { intros p. destruct (f p) as [b|] eqn:E.
    - destruct (f (p + 1)) as [c|] eqn:F.
      + left. exists (256 * Byte.to_N b + Byte.to_N c), b, c. auto.
      + right. intros v (b' & c' & _ & F' & _). congruence.
    - right. intros v (b' & c' & E' & _). congruence. }
  destruct (D a) as [[v H1]|N1]; [|right; intros y L; rewrite leads_iff in L;
    destruct L as (_ & H & _); exact (N1 _ H)].
  destruct (N.eq_dec v 1) as [->|Hv].
  2:{ right. intros y L. rewrite leads_iff in L. cbn in L. destruct L as (_ & H & _).
      pose proof (u16_same _ _ _ H1 H). congruence. }
  destruct (D (a + 2)) as [[u H2]|N2];
    [|right; intros y L; rewrite leads_iff in L; destruct L as (_ & _ & H & _); exact (N2 _ H)].
  destruct (D (a + 4)) as [[h H3]|N3].
  2:{ right. intros y L. rewrite leads_iff in L. cbn in L.
      destruct L as (_ & _ & _ & d & (h & l & H & _) & _). exact (N3 _ H). }
  destruct (D (a + 4 + 2)) as [[l H4]|N4].
  2:{ right. intros y L. rewrite leads_iff in L. cbn in L.
      destruct L as (_ & _ & _ & d & (h' & l & _ & H & _) & _). exact (N4 _ H). }
  left. exists (u, a + (65536 * h + l)). rewrite leads_iff. cbn. repeat split; auto.
  exists (65536 * h + l). split; [|reflexivity]. exists h, l. auto.
Qed.

(** An extension takes eight bytes. *)
Lemma leads_size size x y : (forall p, size <= p -> f p = None) -> leads o k f x y -> snd x + 8 <= size.
Proof.
  intros S L. rewrite leads_iff in L. destruct L as (_ & _ & _ & d & (h & l & _ & (b & c & _ & E & _) & _) & _).
  destruct (N.le_gt_cases size (snd x + 4 + 2 + 1)) as [H|H]; [rewrite (S _ H) in E; discriminate|lia].
Qed.

Lemma follows_size size n x y : (forall p, size <= p -> f p = None) -> ~ loops o k f x ->
  follows o k f n x y -> n = 0%nat \/ snd x + 7 + N.of_nat n <= size.
Proof.
  intros S H F. induction F as [x|n x y z L F IH]; [left; reflexivity|right].
  assert (G : ~ loops o k f y).
  { intros (m & w & G & W). apply H. exists (Datatypes.S m), w. split; [econstructor; eauto|exact W]. }
  pose proof (leads_size size _ _ S L) as E. destruct (IH G) as [->|I]; [lia|].
  destruct (leads_cases x y L) as [X|[->|X]].
  - lia.
  - exfalso. apply H. exists 0%nat, x. split; [constructor|exact L].
  - destruct F as [|n y w z L' F']; [lia|]. exfalso. exact (X _ L').
Qed.

Lemma follows_or_ends n x : (exists y, follows o k f n x y) \/ ends o k f x.
Proof.
  revert x. induction n as [|n IH]; intros x; [left; exists x; constructor|].
  destruct (leads_dec x) as [[y L]|N].
  - destruct (IH y) as [[z F]|(m & z & F & E)].
    + left. exists z. econstructor; eauto.
    + right. exists (S m), z. split; [econstructor; eauto|exact E].
  - right. exists 0%nat, x. split; [constructor|exact N].
Qed.

Lemma ends_iff x : ends o k f x <-> ~ loops o k f x.
Proof.
  split.
  - intros E L. exact (loops_endless x L E).
  - intros H. assert (M : exists m, N.of_nat m = 2 ^ 63) by (exists (N.to_nat (2 ^ 63)); apply N2Nat.id).
    destruct M as [m M]. destruct (follows_or_ends (S m) x) as [[y F]|E]; [|exact E].
    destruct (follows_size (2 ^ 63) _ _ _ Hb H F) as [E|E]; exfalso; [discriminate|].
    rewrite Nat2N.inj_succ, M in E. lia.
Qed.

(** An extension leads to itself if it is of its own type and its offset is zero. *)
Lemma leads_self t a : leads o k f (t, a) (t, a) <->
  t = extension_type k /\ u16_at f a 1 /\ u16_at f (a + 2) (extension_type k) /\ u32_at f (a + 4) 0.
Proof.
  rewrite leads_iff. cbn [fst snd]. split.
  - intros (-> & H1 & H2 & d & H3 & E). assert (d = 0) as -> by lia. auto.
  - intros (-> & H1 & H2 & H3). repeat split; auto. exists 0. split; [exact H3|lia].
Qed.

(** As the OpenType specification has it, one step is enough. *)
Lemma leads_once x y : leads o k f x y -> fst y <> extension_type k -> forall z, ~ leads o k f y z.
Proof. intros _ H z L. rewrite leads_iff in L. tauto. Qed.

End Extensions.

(** ** An extension that leads to itself *)

Lemma endless_refuted :
  ~ forall T o (k : family T) f x, bounded f -> ends o k f x.
Proof.
  intros H. assert (B : bounded (words [1; 7; 0; 0])) by (apply words_bounded; vm_compute; reflexivity).
  refine (loops_endless debug_build Substitution _ B (7, 0) _ (H _ _ _ _ _ B)).
  exists 0%nat, (7, 0). split; [constructor|]. do 2 eexists. split; [|split]; [| |reflexivity].
  - eexists. vm_compute. reflexivity.
  - reflexivity.
Qed.
