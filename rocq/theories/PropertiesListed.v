(** Property C118: only features that the language lists can be turned on. *)

From Verif Require Import ProofListed.

(** C118: whether features are wanted that the language does not list makes no difference. *)
Theorem C118_texts v d script language (wanted wanted' : tag -> Prop) depth n text out :
  (forall t, offers v script language t -> (wanted t <-> wanted' t)) ->
  (shaped_by v d script language wanted depth n text out <-> shaped_by v d script language wanted' depth n text out).
Proof. exact (texts_listed v d script language wanted wanted' depth n text out). Qed.
Print Assumptions C118_texts.

Theorem C118_texts_at o f p v pd d script language (wanted wanted' : tag -> Prop) depth n text out :
  bounded f -> reads o read_glyph_substitution f p v -> reads o read_glyph_definition f pd d ->
  (forall t, offers v script language t -> (wanted t <-> wanted' t)) ->
  (shaped_at o f p pd script language wanted depth n text out <-> shaped_at o f p pd script language wanted' depth n text out).
Proof. exact (texts_listed_at o f p v pd d script language wanted wanted' depth n text out). Qed.
Print Assumptions C118_texts_at.

Theorem C118_texts_beyond o f p v d script language (wanted wanted' : tag -> Prop) depth n text out :
  (forall t, offers v script language t -> (wanted t <-> wanted' t)) ->
  (shaped_beyond o f p v d script language wanted depth n text out <->
   shaped_beyond o f p v d script language wanted' depth n text out).
Proof. exact (texts_listed_beyond o f p v d script language wanted wanted' depth n text out). Qed.
Print Assumptions C118_texts_beyond.

(** The same for the movements of glyphs. *)
Theorem C118_kerning v d script language (wanted wanted' : tag -> Prop) depth text n m :
  (forall t, offers v script language t -> (wanted t <-> wanted' t)) ->
  (kerned_by v d script language wanted depth text n m <-> kerned_by v d script language wanted' depth text n m).
Proof. exact (kerning_listed v d script language wanted wanted' depth text n m). Qed.
Print Assumptions C118_kerning.

Theorem C118_kerning_at o f p v pd d script language (wanted wanted' : tag -> Prop) depth text n m :
  bounded f -> reads o read_glyph_positioning f p v -> reads o read_glyph_definition f pd d ->
  (forall t, offers v script language t -> (wanted t <-> wanted' t)) ->
  (kerned_at o f p pd script language wanted depth text n m <-> kerned_at o f p pd script language wanted' depth text n m).
Proof. exact (kerning_listed_at o f p v pd d script language wanted wanted' depth text n m). Qed.
Print Assumptions C118_kerning_at.

Theorem C118_kerning_beyond o f p v d script language (wanted wanted' : tag -> Prop) depth text n m :
  (forall t, offers v script language t -> (wanted t <-> wanted' t)) ->
  (kerned_beyond o f p v d script language wanted depth text n m <->
   kerned_beyond o f p v d script language wanted' depth text n m).
Proof. exact (kerning_listed_beyond o f p v d script language wanted wanted' depth text n m). Qed.
Print Assumptions C118_kerning_beyond.

(** A text in a script that the table does not have stays as it is, and its glyphs stay where they are. *)
Theorem C118_no_script v d script language wanted depth n text out : ~ has_script v script ->
  (shaped_by v d script language wanted depth n text out <-> out = text).
Proof. exact (texts_no_script v d script language wanted depth n text out). Qed.
Print Assumptions C118_no_script.

Theorem C118_no_script_kerning v d script language wanted depth text n m : ~ has_script v script ->
  (kerned_by v d script language wanted depth text n m <-> m = fun _ _ => 0%Z).
Proof. exact (kerning_no_script v d script language wanted depth text n m). Qed.
Print Assumptions C118_no_script_kerning.

(** Two features with a lookup each.  Cyrillic lists the first one, [liga]; Latin lists the second one, [salt], by default,
    and the first one for Romanian.  None is required. *)
Example C118_example :
  let f := words [1; 0; 10; 62; 88;  2; 25465; 29292; 14; 27745; 29806; 26;  4; 0; 0; 65535; 1; 0;
    10; 1; 21071; 19744; 18; 0; 65535; 1; 1; 0; 65535; 1; 0;  2; 27753; 26465; 14; 29537; 27764; 20; 0; 1; 0; 0; 1; 1;
    2; 6; 28; 1; 0; 1; 8; 2; 8; 1; 31; 1; 1; 30; 1; 0; 1; 8; 2; 8; 1; 32; 1; 1; 30] in
  exists v, bounded f /\ reads debug_build read_glyph_substitution f 0 v /\
    length (lookups_records (directory_lookups v)) = 2%nat /\
    (forall t, offers v (Tag "l" "a" "t" "n") None t <-> t = Tag "s" "a" "l" "t") /\
    (forall t, offers v (Tag "l" "a" "t" "n") (Some (Tag "R" "O" "M" " ")) t <-> t = Tag "l" "i" "g" "a") /\
    (forall t, offers v (Tag "c" "y" "r" "l") None t <-> t = Tag "l" "i" "g" "a") /\
    (forall t, ~ offers v (Tag "l" "a" "t" "n") (Some (Tag "D" "E" "U" " ")) t) /\
    (forall wanted k, turned_on v (Tag "l" "a" "t" "n") None wanted k <-> wanted (Tag "s" "a" "l" "t") /\ k = 1) /\
    has_script v (Tag "l" "a" "t" "n") /\ has_script v (Tag "c" "y" "r" "l") /\ ~ has_script v (Tag "g" "r" "e" "k") /\
    (forall d depth text out, shaped_by v d (Tag "l" "a" "t" "n") None (fun t => t = Tag "l" "i" "g" "a") depth 2 text out <->
      shaped_by v d (Tag "l" "a" "t" "n") None (fun _ => False) depth 2 text out) /\
    (forall d depth text, shaped_by v d (Tag "g" "r" "e" "k") None (fun _ => True) depth 2 text text).
Proof.
  intros f. eexists. split; [apply file_of_bounded; vm_compute; discriminate|]. split; [eexists; vm_compute; reflexivity|].
  split; [reflexivity|]. match goal with |- (forall t, offers ?v _ _ t <-> _) /\ _ => set (w := v) end.
  assert (P : forall {X} (a b : X) i z, entry [a; b] i = Some z -> i = 0 /\ z = a \/ i = 1 /\ z = b).
  { intros X a b i z H. unfold entry in H. destruct (N.to_nat i) as [|[|[|j]]] eqn:E; cbn in H; try discriminate H; injection H as <-;
      [left|right]; (split; [lia|reflexivity]). }
  assert (F : forall t, offers w (Tag "l" "a" "t" "n") None t <-> t = Tag "s" "a" "l" "t").
  { intros t. split.
    - intros (i & h & s & l & x & g & A1 & A2 & A3 & A4 & A5 & A6 & A7). apply P in A1.
      destruct A1 as [(-> & ->)|(-> & ->)]; [discriminate A2|]. injection A3 as <-. injection A4 as <-.
      destruct A5 as [<-|[]]. injection A6 as <-. symmetry. exact A7.
    - intros ->. exists 1. do 3 eexists. exists 1. eexists. do 4 (split; [reflexivity|]). split; [left; reflexivity|]. split; reflexivity. }
  split; [exact F|]. split.
  { intros t. split.
    - intros (i & h & s & l & x & g & A1 & A2 & A3 & (j & e & B1 & B2 & B3) & A5 & A6 & A7). apply P in A1.
      destruct A1 as [(-> & ->)|(-> & ->)]; [discriminate A2|]. injection A3 as <-. apply nth_error_In in B3. destruct B3 as [<-|[]].
      destruct A5 as [<-|[]]. injection A6 as <-. symmetry. exact A7.
    - intros ->. exists 1. do 3 eexists. exists 0. eexists. do 3 (split; [reflexivity|]).
      split; [exists 0; eexists; do 2 (split; [reflexivity|]); reflexivity|]. split; [left; reflexivity|]. split; reflexivity. }
  split.
  { intros t. split.
    - intros (i & h & s & l & x & g & A1 & A2 & A3 & A4 & A5 & A6 & A7). apply P in A1.
      destruct A1 as [(-> & ->)|(-> & ->)]; [|discriminate A2]. injection A3 as <-. injection A4 as <-.
      destruct A5 as [<-|[]]. injection A6 as <-. symmetry. exact A7.
    - intros ->. exists 0. do 3 eexists. exists 0. eexists. do 4 (split; [reflexivity|]). split; [left; reflexivity|]. split; reflexivity. }
  split.
  { intros t (i & h & s & l & x & g & A1 & A2 & A3 & (j & e & B1 & B2 & B3) & _). apply P in A1.
    destruct A1 as [(-> & ->)|(-> & ->)]; [discriminate A2|]. injection A3 as <-. apply nth_error_In in B1. destruct B1 as [<-|[]].
    discriminate B2. }
  split.
  { intros wanted k. split.
    - intros (t & [(i & h & s & l & x & g & r & A1 & A2 & A3 & A4 & A5 & A6 & _)|
        (W & i & h & s & l & x & g & r & A1 & A2 & A3 & A4 & A5 & A6 & A7 & A8 & A9)]);
        apply P in A1; (destruct A1 as [(-> & ->)|(-> & ->)]; [discriminate A2|]); injection A3 as <-; injection A4 as <-.
      + cbn in A5. subst x. vm_compute in A6. discriminate A6.
      + destruct A5 as [<-|[]]. injection A6 as <-. injection A8 as <-. destruct A9 as [<-|[]]. subst t. auto.
    - intros (W & ->). exists (Tag "s" "a" "l" "t"). right. split; [exact W|]. exists 1. do 3 eexists. exists 1. do 2 eexists.
      do 4 (split; [reflexivity|]). split; [left; reflexivity|]. do 3 (split; [reflexivity|]). left. reflexivity. }
  split; [eexists; split; [right; left; reflexivity|reflexivity]|]. split; [eexists; split; [left; reflexivity|reflexivity]|].
  assert (C : ~ has_script w (Tag "g" "r" "e" "k")) by (intros (h & [<-|[<-|[]]] & H); discriminate H).
  split; [exact C|]. split.
  - intros d depth text out. apply texts_listed. intros t H. apply F in H. subst t. split; [discriminate|intros []].
  - intros d depth text. apply texts_no_script; [exact C|reflexivity].
Qed.
