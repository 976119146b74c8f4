(** Lemmas behind PropertiesListed.v. *)

From Verif Require Import ReadsTactics ProofFindings ProofRequests ProofPieces ProofReads.
From Verif Require Export ProofLast SpecListed.

Lemma offered_on_into {T} (v : Directory T) script language (wanted wanted' : tag -> Prop) k :
  (forall t, offers v script language t -> wanted t -> wanted' t) ->
  turned_on v script language wanted k -> turned_on v script language wanted' k.
Proof.
  intros E (feature & [H|(W & H)]); exists feature; [left; exact H|right]. split; [|exact H]. apply E; [|exact W].
  destruct H as (i & h & s & l & x & g & r & A1 & A2 & A3 & A4 & A5 & A6 & A7 & _). exists i, h, s, l, x, g. auto 10.
Qed.

Lemma offered_on {T} (v : Directory T) script language (wanted wanted' : tag -> Prop) k :
  (forall t, offers v script language t -> (wanted t <-> wanted' t)) ->
  (turned_on v script language wanted k <-> turned_on v script language wanted' k).
Proof. intros E. split; apply offered_on_into; intros t H; apply E; exact H. Qed.

Lemma texts_listed v d script language (wanted wanted' : tag -> Prop) depth n text out :
  (forall t, offers v script language t -> (wanted t <-> wanted' t)) ->
  (shaped_by v d script language wanted depth n text out <-> shaped_by v d script language wanted' depth n text out).
Proof.
  intros E. split; apply ProofText.shaped_same; try reflexivity; intros k; [|symmetry]; apply offered_on; exact E.
Qed.

Lemma texts_listed_beyond o f p v d script language (wanted wanted' : tag -> Prop) depth n text out :
  (forall t, offers v script language t -> (wanted t <-> wanted' t)) ->
  (shaped_beyond o f p v d script language wanted depth n text out <->
   shaped_beyond o f p v d script language wanted' depth n text out).
Proof.
  intros E. split; apply ProofText.shaped_same; try reflexivity; intros k; [|symmetry]; apply offered_on; exact E.
Qed.

Lemma kerning_listed v d script language (wanted wanted' : tag -> Prop) depth text n m :
  (forall t, offers v script language t -> (wanted t <-> wanted' t)) ->
  (kerned_by v d script language wanted depth text n m <-> kerned_by v d script language wanted' depth text n m).
Proof.
  intros E. split; apply ProofKerning.kerned_same; try reflexivity; intros k; [|symmetry]; apply offered_on; exact E.
Qed.

Lemma kerning_listed_beyond o f p v d script language (wanted wanted' : tag -> Prop) depth text n m :
  (forall t, offers v script language t -> (wanted t <-> wanted' t)) ->
  (kerned_beyond o f p v d script language wanted depth text n m <->
   kerned_beyond o f p v d script language wanted' depth text n m).
Proof.
  intros E. split; apply ProofKerning.kerned_same; try reflexivity; intros k; [|symmetry]; apply offered_on; exact E.
Qed.

Lemma texts_listed_at o f p v pd d script language (wanted wanted' : tag -> Prop) depth n text out :
  bounded f -> reads o read_glyph_substitution f p v -> reads o read_glyph_definition f pd d ->
  (forall t, offers v script language t -> (wanted t <-> wanted' t)) ->
  (shaped_at o f p pd script language wanted depth n text out <-> shaped_at o f p pd script language wanted' depth n text out).
Proof. intros B H G. rewrite <- !(texts_mean o f p v pd d _ _ _ _ _ _ _ B H G). apply texts_listed. Qed.

Lemma kerning_listed_at o f p v pd d script language (wanted wanted' : tag -> Prop) depth text n m :
  bounded f -> reads o read_glyph_positioning f p v -> reads o read_glyph_definition f pd d ->
  (forall t, offers v script language t -> (wanted t <-> wanted' t)) ->
  (kerned_at o f p pd script language wanted depth text n m <-> kerned_at o f p pd script language wanted' depth text n m).
Proof. intros B H G. rewrite <- !(kerning_means o f p v pd d _ _ _ _ _ _ _ B H G). apply kerning_listed. Qed.

(** ** Scripts that are not there *)

Lemma script_off {T} (v : Directory T) script language wanted k : ~ has_script v script -> ~ turned_on v script language wanted k.
Proof.
  intros N (feature & [(i & h & s & l & x & g & r & A1 & A2 & _)|(_ & i & h & s & l & x & g & r & A1 & A2 & _)]);
    apply N; exists h; (split; [exact (nth_error_In _ _ A1)|exact A2]).
Qed.

Lemma shaped_idle depth (on : N -> Prop) s r u t n : (forall k, ~ on k) -> forall text out,
  shaped depth on s r u t n text out <-> out = text.
Proof.
  intros N text out. split.
  - intros H. induction H as [text|n text mid mid' out H IH K|n text out H IH K]; [reflexivity|elim (N _ K)|exact IH].
  - intros ->. induction n as [|n IH] using N.peano_ind; [apply shaped_none|]. rewrite <- N.add_1_r. apply shaped_off; auto.
Qed.

Lemma kerned_idle depth (on : N -> Prop) s r a u text n : (forall k, ~ on k) -> forall m,
  kerned depth on s r a u text n m <-> m = fun _ _ => 0%Z.
Proof.
  intros N m. split.
  - intros H. induction H as [|n m m' H IH K|n m H IH K]; [reflexivity|elim (N _ K)|exact IH].
  - intros ->. induction n as [|n IH] using N.peano_ind; [apply kerned_none|]. rewrite <- N.add_1_r. apply kerned_off; auto.
Qed.

Lemma texts_no_script v d script language wanted depth n text out : ~ has_script v script ->
  (shaped_by v d script language wanted depth n text out <-> out = text).
Proof. intros N. apply shaped_idle. intros k. apply script_off. exact N. Qed.

Lemma kerning_no_script v d script language wanted depth text n m : ~ has_script v script ->
  (kerned_by v d script language wanted depth text n m <-> m = fun _ _ => 0%Z).
Proof. intros N. apply kerned_idle. intros k. apply script_off. exact N. Qed.
