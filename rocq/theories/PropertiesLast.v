(** Property C117: nothing changes after the last lookup. *)

From Verif Require Import ProofLast.

(** C117: features may name lookups that are not in the table, but what becomes of a text by more lookups than there are
    has become of it by those in the table, and the other way round. *)
Theorem C117_texts v d script language wanted depth n more text out :
  N.of_nat (length (lookups_records (directory_lookups v))) <= n ->
  (shaped_by v d script language wanted depth (n + more) text out -> shaped_by v d script language wanted depth n text out) /\
  (shaped_by v d script language wanted depth n text out -> ~ ~ shaped_by v d script language wanted depth (n + more) text out).
Proof. exact (texts_last v d script language wanted depth n more text out). Qed.
Print Assumptions C117_texts.

Theorem C117_texts_at o f p v pd d script language wanted depth n more text out :
  bounded f -> reads o read_glyph_substitution f p v -> reads o read_glyph_definition f pd d ->
  N.of_nat (length (lookups_records (directory_lookups v))) <= n ->
  (shaped_at o f p pd script language wanted depth (n + more) text out -> shaped_at o f p pd script language wanted depth n text out) /\
  (shaped_at o f p pd script language wanted depth n text out ->
    ~ ~ shaped_at o f p pd script language wanted depth (n + more) text out).
Proof. exact (texts_last_at o f p v pd d script language wanted depth n more text out). Qed.
Print Assumptions C117_texts_at.

Theorem C117_texts_beyond o f p v d script language wanted depth n more text out :
  N.of_nat (length (lookups_records (directory_lookups v))) <= n ->
  (shaped_beyond o f p v d script language wanted depth (n + more) text out ->
    shaped_beyond o f p v d script language wanted depth n text out) /\
  (shaped_beyond o f p v d script language wanted depth n text out ->
    ~ ~ shaped_beyond o f p v d script language wanted depth (n + more) text out).
Proof. exact (texts_last_beyond o f p v d script language wanted depth n more text out). Qed.
Print Assumptions C117_texts_beyond.

(** The same for the movements of glyphs. *)
Theorem C117_kerning v d script language wanted depth text n more m :
  N.of_nat (length (lookups_records (directory_lookups v))) <= n ->
  (kerned_by v d script language wanted depth text (n + more) m -> kerned_by v d script language wanted depth text n m) /\
  (kerned_by v d script language wanted depth text n m -> ~ ~ kerned_by v d script language wanted depth text (n + more) m).
Proof. exact (kerning_last v d script language wanted depth text n more m). Qed.
Print Assumptions C117_kerning.

Theorem C117_kerning_at o f p v pd d script language wanted depth text n more m :
  bounded f -> reads o read_glyph_positioning f p v -> reads o read_glyph_definition f pd d ->
  N.of_nat (length (lookups_records (directory_lookups v))) <= n ->
  (kerned_at o f p pd script language wanted depth text (n + more) m -> kerned_at o f p pd script language wanted depth text n m) /\
  (kerned_at o f p pd script language wanted depth text n m ->
    ~ ~ kerned_at o f p pd script language wanted depth text (n + more) m).
Proof. exact (kerning_last_at o f p v pd d script language wanted depth text n more m). Qed.
Print Assumptions C117_kerning_at.

Theorem C117_kerning_beyond o f p v d script language wanted depth text n more m :
  N.of_nat (length (lookups_records (directory_lookups v))) <= n ->
  (kerned_beyond o f p v d script language wanted depth text (n + more) m ->
    kerned_beyond o f p v d script language wanted depth text n m) /\
  (kerned_beyond o f p v d script language wanted depth text n m ->
    ~ ~ kerned_beyond o f p v d script language wanted depth text (n + more) m).
Proof. exact (kerning_last_beyond o f p v d script language wanted depth text n more m). Qed.
Print Assumptions C117_kerning_beyond.

(** If it can be told of each feature whether it is wanted, this is an equivalence. *)
Theorem C117_texts_decided v d script language wanted depth n more text out : (forall t, wanted t \/ ~ wanted t) ->
  N.of_nat (length (lookups_records (directory_lookups v))) <= n ->
  (shaped_by v d script language wanted depth (n + more) text out <-> shaped_by v d script language wanted depth n text out).
Proof. exact (texts_last_decided v d script language wanted depth n more text out). Qed.
Print Assumptions C117_texts_decided.

Theorem C117_texts_decided_at o f p v pd d script language wanted depth n more text out : (forall t, wanted t \/ ~ wanted t) ->
  bounded f -> reads o read_glyph_substitution f p v -> reads o read_glyph_definition f pd d ->
  N.of_nat (length (lookups_records (directory_lookups v))) <= n ->
  (shaped_at o f p pd script language wanted depth (n + more) text out <-> shaped_at o f p pd script language wanted depth n text out).
Proof. exact (texts_last_decided_at o f p v pd d script language wanted depth n more text out). Qed.
Print Assumptions C117_texts_decided_at.

Theorem C117_kerning_decided v d script language wanted depth text n more m : (forall t, wanted t \/ ~ wanted t) ->
  N.of_nat (length (lookups_records (directory_lookups v))) <= n ->
  (kerned_by v d script language wanted depth text (n + more) m <-> kerned_by v d script language wanted depth text n m).
Proof. exact (kerning_last_decided v d script language wanted depth text n more m). Qed.
Print Assumptions C117_kerning_decided.

Theorem C117_kerning_decided_at o f p v pd d script language wanted depth text n more m : (forall t, wanted t \/ ~ wanted t) ->
  bounded f -> reads o read_glyph_positioning f p v -> reads o read_glyph_definition f pd d ->
  N.of_nat (length (lookups_records (directory_lookups v))) <= n ->
  (kerned_at o f p pd script language wanted depth text (n + more) m <-> kerned_at o f p pd script language wanted depth text n m).
Proof. exact (kerning_last_decided_at o f p v pd d script language wanted depth text n more m). Qed.
Print Assumptions C117_kerning_decided_at.

(** A table of one lookup, which replaces 30 by 31, and a feature that names it and the one after it, which is not there. *)
Example C117_example :
  let f := words [1; 0; 0; 0; 0; 0;  1; 0; 10; 28; 44;  1; 27745; 29806; 8; 4; 0; 0; 0; 0;  1; 27753; 26465; 8; 0; 2; 0; 1;
    1; 4;  1; 0; 1; 8;  2; 8; 1; 31;  1; 1; 30] in
  exists v d, bounded f /\ reads debug_build read_glyph_substitution f 12 v /\ reads debug_build read_glyph_definition f 0 d /\
    length (lookups_records (directory_lookups v)) = 1%nat /\
    turned_on v (Tag "l" "a" "t" "n") None (fun _ => False) 0 /\ turned_on v (Tag "l" "a" "t" "n") None (fun _ => False) 1 /\
    shaped_by v d (Tag "l" "a" "t" "n") None (fun _ => False) 1 0 [30] [30] /\
    shaped_by v d (Tag "l" "a" "t" "n") None (fun _ => False) 1 1 [30] [31] /\
    shaped_by v d (Tag "l" "a" "t" "n") None (fun _ => False) 1 2 [30] [31] /\
    ~ shaped_by v d (Tag "l" "a" "t" "n") None (fun _ => False) 1 2 [30] [30].
Proof.
  intros f. do 2 eexists. split; [apply file_of_bounded; vm_compute; discriminate|].
  do 2 (split; [eexists; vm_compute; reflexivity|]).
  match goal with |- _ /\ _ /\ _ /\ shaped_by ?v ?d _ _ _ _ _ _ _ /\ _ => set (w := v); set (e := d) end.
  assert (O : forall k, k = 0 \/ k = 1 -> turned_on w (Tag "l" "a" "t" "n") None (fun _ => False) k).
  { intros k K. exists (Tag "l" "i" "g" "a"); left; exists 0; do 3 eexists; exists 0; do 2 eexists;
      do 3 (split; [reflexivity|]); split; [reflexivity|]; do 4 (split; [reflexivity|]).
    destruct K as [-> | ->]; [left|right; left]; reflexivity. }
  assert (S : forall k g, ~ skips w e k g).
  { intros k g (l & _ & [((t & E & _) & _)|[((t & E & _) & _)|((t & E & _) & _)]]); discriminate E. }
  assert (Z : forall k j b g a z, ~ exists t, in_lookup w k j t /\ gsub_reverse t b g a z).
  { intros k j b g a z (t & (l & El & Et) & H). apply nth_error_In in El. destruct El as [<-|[]].
    apply nth_error_In in Et. destruct Et as [<-|[]]. exact H. }
  assert (F : fires (skips w e 0) (fun j r xs ys => exists t, in_lookup w 0 j t /\ replaces_as t r xs ys) 0 0 [30] [31] [] []).
  { exists 30, [], []. split; [reflexivity|]. split; [apply S|]. split; [apply begins_glyph; [apply S|apply begins_end]|].
    eexists. split; [eexists; split; reflexivity|]. split; [reflexivity|]. exists 30, 0, 31. do 3 (split; [reflexivity|]). reflexivity. }
  assert (H1 : shaped_by w e (Tag "l" "a" "t" "n") None (fun _ => False) 1 1 [30] [31]).
  { apply (shaped_on _ _ _ _ _ _ 0 _ [30] [31]); [apply shaped_none|apply O; auto| |].
    - apply (goes_does _ _ _ [31] []); [exact (does_fires 1 _ _ _ 0 [] [30] [31] [] [] F)|exact (goes_end _ [31])].
    - apply (back_none (skips w e 0) _ [31] []). apply Z. }
  split; [reflexivity|]. split; [apply O; auto|]. split; [apply O; auto|]. split; [apply shaped_none|]. split; [exact H1|].
  split.
  { apply (shaped_on _ _ _ _ _ _ 1 _ [31] [31]); [exact H1|apply O; auto| |].
    - apply (goes_none _ [] [31]). intros. apply does_idle; intros * (t0 & L & _); apply lookup_below in L; discriminate L.
    - apply (back_none (skips w e 1) _ [31] []). apply Z. }
  intros H. apply (texts_last w e _ _ _ _ 1 1) in H; [|vm_compute; discriminate].
  inversion H as [|n' text' mid mid' out' G K T B E|n' text' out' G K E].
  - assert (n' = 0) by lia. subst n'. inversion G; subst; [|lia|lia].
    apply back_idle in B; [|apply Z]. rewrite rev_involutive, app_nil_r in B. subst mid'.
    inversion T as [|left text ys rest out D T' |left x text out N T']; subst.
    + pose proof (does_shorter _ _ _ _ _ _ _ _ _ D) as L. destruct rest; [|cbn in L; lia]. inversion T'; subst.
      * destruct D as (j & q & _ & [(kept & behind & (x & xs & tail & _ & _ & _ & t & (l & El & Et) & R) & _)|
          (actions & behind & n & text' & (x & xs & tail & b & a & k1 & k2 & r1 & k3 & r2 & _ & _ & _ & _ & _ & t & (l & El & Et) & R) & _)]);
          injection El as <-; apply nth_error_In in Et; destruct Et as [<-|[]]; [|exact R].
        destruct R as (_ & g & i & y & C & Ei & Ex & Ey). apply nth_error_In in Ei. destruct Ei as [<-|[]]. subst ys.
        match goal with X : _ = [30] |- _ => cbn in X; discriminate X end.
      * match goal with X : does _ _ _ _ _ _ [] _ _ |- _ => apply does_shorter in X; cbn in X; lia end.
    + apply (N [31] []). exact (does_fires 1 _ _ _ 0 [] [30] [31] [] [] F).
  - assert (n' = 0) by lia. subst n'. apply K. apply O. auto.
Qed.
