(** What becomes of a text. *)

From Verif Require Import ProofRequests.
From Verif Require Export SpecText ProofSkips ProofThrough ProofBeyond ProofRanks.

Lemma begins_same (s s' : N -> Prop) xs kept rest text :
  (forall g, s g <-> s' g) -> begins s xs kept rest text -> begins s' xs kept rest text.
Proof.
  intros E H. induction H as [rest|x xs kept rest text N _ IH|y x xs kept rest text Y _ IH].
  - apply begins_end.
  - apply begins_glyph; [|exact IH]. intros Y. apply N, E, Y.
  - apply begins_skipped; [|exact IH]. apply E, Y.
Qed.

Lemma fires_same (s s' : N -> Prop) (r r' : N -> N -> list N -> list N -> Prop) j rk text ys kept rest :
  (forall g, s g <-> s' g) -> (forall i q xs ys, r i q xs ys <-> r' i q xs ys) ->
  fires s r j rk text ys kept rest -> fires s' r' j rk text ys kept rest.
Proof.
  intros E F (x & xs & tail & -> & N & G & H). exists x, xs, tail. split; [reflexivity|].
  split; [intros Y; apply N, E, Y|]. split; [exact (begins_same s s' _ _ _ _ E G)|]. apply F, H.
Qed.

Lemma ruled_same (s s' : N -> Prop) (u u' : N -> N -> list N -> list N -> list N -> list Action -> Prop) j rk left text actions rest :
  (forall g, s g <-> s' g) -> (forall i q before xs after l, u i q before xs after l <-> u' i q before xs after l) ->
  ruled_by s u j rk left text actions rest -> ruled_by s' u' j rk left text actions rest.
Proof.
  intros E F (x & xs & tail & before & after & k & k' & r' & k'' & r'' & T & N & G & G' & G'' & H).
  exists x, xs, tail, before, after, k, k', r', k'', r''. split; [exact T|]. split; [intros Y; apply N, E, Y|].
  split; [exact (begins_same s s' _ _ _ _ E G)|]. split; [exact (begins_same s s' _ _ _ _ E G')|].
  split; [exact (begins_same s s' _ _ _ _ E G'')|]. apply F, H.
Qed.

Lemma reaches_same (s s' : N -> Prop) i before here :
  (forall g, s g <-> s' g) -> reaches s i before here -> reaches s' i before here.
Proof.
  intros E H. induction H as [x here N|x i before here N _ IH|y i before here Y _ IH].
  - apply reaches_here. intros Y. apply N, E, Y.
  - apply reaches_glyph; [|exact IH]. intros Y. apply N, E, Y.
  - apply reaches_skipped; [|exact IH]. apply E, Y.
Qed.

Lemma placed_same (s s' : N -> Prop) n text a before here :
  (forall g, s g <-> s' g) -> placed s n text a before here -> placed s' n text a before here.
Proof. intros E (T & R & L). exact (conj T (conj (reaches_same s s' _ _ _ E R) L)). Qed.

Lemma acted_same (s s' : N -> Prop) (w w' : N -> list N -> list N -> list N -> list N -> Prop) left actions n text n' text' :
  (forall g, s g <-> s' g) -> (forall k l t y r, w k l t y r <-> w' k l t y r) ->
  acted s w left actions n text n' text' -> acted s' w' left actions n text n' text'.
Proof.
  intros E F H. assert (E' : forall g, s' g <-> s g) by (intros g; symmetry; apply E).
  induction H as [n text|a actions n text before here ys rest n' text' P D _ IH|a actions n text n' text' M _ IH].
  - apply acted_none.
  - apply (acted_done _ _ _ a actions n text before here ys rest n' text'); [exact (placed_same s s' _ _ _ _ _ E P)|apply F, D|exact IH].
  - apply acted_not; [|exact IH]. intros before here ys rest P D.
    apply (M before here ys rest (placed_same s' s _ _ _ _ _ E' P)), F, D.
Qed.

Lemma ready_same (s s' : N -> Prop) (r r' : N -> N -> list N -> list N -> Prop)
    (u u' : N -> N -> list N -> list N -> list N -> list Action -> Prop) j rk left text :
  (forall g, s g <-> s' g) -> (forall i q xs ys, r i q xs ys <-> r' i q xs ys) ->
  (forall i q before xs after l, u i q before xs after l <-> u' i q before xs after l) ->
  ready s r u j rk left text -> ready s' r' u' j rk left text.
Proof.
  intros E F K [(ys & kept & rest & H)|(actions & rest & H)]; [left|right].
  - exists ys, kept, rest. exact (fires_same s s' r r' _ _ _ _ _ _ E F H).
  - exists actions, rest. exact (ruled_same s s' u u' _ _ _ _ _ _ E K H).
Qed.

Lemma does_step (s s' : N -> N -> Prop) (r r' : N -> N -> N -> list N -> list N -> Prop)
    (u u' : N -> N -> N -> list N -> list N -> list N -> list Action -> Prop)
    (w w' : N -> list N -> list N -> list N -> list N -> Prop) k left text ys rest :
  (forall k g, s k g <-> s' k g) -> (forall k i q xs ys, r k i q xs ys <-> r' k i q xs ys) ->
  (forall k i q before xs after l, u k i q before xs after l <-> u' k i q before xs after l) ->
  (forall k l t y r, w k l t y r <-> w' k l t y r) ->
  (exists j rk, (forall i q, earlier i q j rk -> ~ ready (s k) (r k) (u k) i q left text) /\
    ((exists kept behind, fires (s k) (r k) j rk text ys kept behind /\ rest = kept ++ behind) \/
     (exists actions behind n text', ruled_by (s k) (u k) j rk left text actions behind /\
       acted (s k) w left actions (length text - length behind) text n text' /\
       ys = firstn n text' /\ rest = skipn n text'))) ->
  (exists j rk, (forall i q, earlier i q j rk -> ~ ready (s' k) (r' k) (u' k) i q left text) /\
    ((exists kept behind, fires (s' k) (r' k) j rk text ys kept behind /\ rest = kept ++ behind) \/
     (exists actions behind n text', ruled_by (s' k) (u' k) j rk left text actions behind /\
       acted (s' k) w' left actions (length text - length behind) text n text' /\
       ys = firstn n text' /\ rest = skipn n text'))).
Proof.
  intros E F K W (j & rk & M & H). exists j, rk. split.
  { intros i q I R. apply (M i q I). refine (ready_same (s' k) (s k) (r' k) (r k) (u' k) (u k) _ _ _ _ _ _ _ R); intros; symmetry; auto. }
  destruct H as [(kept & behind & H & T)|(actions & behind & n & text' & H & A & T)]; [left|right].
  - exists kept, behind. split; [|exact T]. exact (fires_same (s k) (s' k) (r k) (r' k) _ _ _ _ _ _ (E k) (F k) H).
  - exists actions, behind, n, text'. split; [exact (ruled_same (s k) (s' k) (u k) (u' k) _ _ _ _ _ _ (E k) (K k) H)|].
    split; [|exact T]. exact (acted_same (s k) (s' k) w w' _ _ _ _ _ _ (E k) W A).
Qed.
Lemma does_same depth (s s' : N -> N -> Prop) (r r' : N -> N -> N -> list N -> list N -> Prop)
    (u u' : N -> N -> N -> list N -> list N -> list N -> list Action -> Prop) :
  (forall k g, s k g <-> s' k g) -> (forall k i q xs ys, r k i q xs ys <-> r' k i q xs ys) ->
  (forall k i q before xs after l, u k i q before xs after l <-> u' k i q before xs after l) ->
  forall k left text ys rest, does depth s r u k left text ys rest <-> does depth s' r' u' k left text ys rest.
Proof.
  intros E F K. induction depth as [|depth IH]; intros k left text ys rest; [reflexivity|]. split.
  - apply does_step; assumption.
  - apply does_step; intros; symmetry; auto.
Qed.

Lemma goes_same (w w' : list N -> list N -> list N -> list N -> Prop) left text out :
  (forall l t y r, w l t y r <-> w' l t y r) -> goes_through w left text out -> goes_through w' left text out.
Proof.
  intros E H. induction H as [left|left text ys rest out D _ IH|left x text out M _ IH].
  - apply goes_end.
  - apply (goes_does _ left text ys rest out); [apply E, D|exact IH].
  - apply goes_on; [|exact IH]. intros ys rest D. apply (M ys rest), E, D.
Qed.

Lemma turns_same (s s' : N -> Prop) (t t' : N -> list N -> N -> list N -> N -> Prop) j left x right y :
  (forall g, s g <-> s' g) -> (forall i before x after y, t i before x after y <-> t' i before x after y) ->
  turns s t j left x right y -> turns s' t' j left x right y.
Proof.
  intros E F (before & after & kept & rest & kept' & rest' & N & G & G' & H).
  exists before, after, kept, rest, kept', rest'. split; [intros Y; apply N, E, Y|].
  split; [exact (begins_same s s' _ _ _ _ E G)|]. split; [exact (begins_same s s' _ _ _ _ E G')|]. apply F, H.
Qed.

Lemma back_same (s s' : N -> Prop) (t t' : N -> list N -> N -> list N -> N -> Prop) left right out :
  (forall g, s g <-> s' g) -> (forall i before x after y, t i before x after y <-> t' i before x after y) ->
  goes_back s t left right out -> goes_back s' t' left right out.
Proof.
  intros E F H. assert (E' : forall g, s' g <-> s g) by (intros g; symmetry; apply E).
  assert (F' : forall i before x after y, t' i before x after y <-> t i before x after y) by (intros; symmetry; apply F).
  induction H as [right|j x left right y out G M _ IH|x left right out M _ IH].
  - apply back_end.
  - apply (back_turns _ _ j x left right y out); [exact (turns_same s s' t t' _ _ _ _ _ E F G)| |exact IH].
    intros i z I G'. exact (M _ _ I (turns_same s' s t' t _ _ _ _ _ E' F' G')).
  - apply back_on; [|exact IH]. intros i z G'. exact (M _ _ (turns_same s' s t' t _ _ _ _ _ E' F' G')).
Qed.

Lemma shaped_same depth (a a' : N -> Prop) (s s' : N -> N -> Prop) (r r' : N -> N -> N -> list N -> list N -> Prop)
    (u u' : N -> N -> N -> list N -> list N -> list N -> list Action -> Prop)
    (t t' : N -> N -> list N -> N -> list N -> N -> Prop) n text out :
  (forall k, a k <-> a' k) -> (forall k g, s k g <-> s' k g) -> (forall k i q xs ys, r k i q xs ys <-> r' k i q xs ys) ->
  (forall k i q before xs after l, u k i q before xs after l <-> u' k i q before xs after l) ->
  (forall k i before x after y, t k i before x after y <-> t' k i before x after y) ->
  shaped depth a s r u t n text out -> shaped depth a' s' r' u' t' n text out.
Proof.
  intros D E F U K H. induction H as [text|n text mid mid' out _ IH O G G'|n text out _ IH O].
  - apply shaped_none.
  - apply (shaped_on _ _ _ _ _ _ n text mid mid' out IH); [apply D, O| |].
    + exact (goes_same _ _ _ _ _ (does_same (S depth) s s' r r' u u' E F U n) G).
    + exact (back_same (s n) (s' n) (t n) (t' n) (rev mid') [] out (E n) (K n) G').
  - apply (shaped_off _ _ _ _ _ _ n text out IH). intros O'. apply O, D, O'.
Qed.

Lemma turned_iff o f p v script language wanted k :
  bounded f -> reads o read_glyph_substitution f p v ->
  (turned_on v script language wanted k <-> turned_on_at o f p script language wanted k).
Proof.
  intros B R. split; intros (feature & H); exists feature; (destruct H as [H|(W & H)]; [left|right; split; [exact W|]]);
    apply (proj1 (enabled_means o f p script language _ feature k B) v R), H.
Qed.

Lemma texts_mean o f p v pd d script language wanted depth n text out :
  bounded f -> reads o read_glyph_substitution f p v -> reads o read_glyph_definition f pd d ->
  (shaped_by v d script language wanted depth n text out <-> shaped_at o f p pd script language wanted depth n text out).
Proof.
  intros B R D. split; apply shaped_same; intros.
  - apply turned_iff; assumption.
  - apply gsub_skips; assumption.
  - apply (gsub_ranks o f p v k i B R).
  - apply (gsub_ranks o f p v k i B R).
  - apply (gsub_rules_mean o f p v k i B R).
  - symmetry. apply turned_iff; assumption.
  - symmetry. apply gsub_skips; assumption.
  - symmetry. apply (gsub_ranks o f p v k i B R).
  - symmetry. apply (gsub_ranks o f p v k i B R).
  - symmetry. apply (gsub_rules_mean o f p v k i B R).
Qed.

Lemma font_texts_mean ds o f p w u script language wanted depth n text out :
  bounded f -> reads o (open_take ds TableGlyphSubstitution read_glyph_substitution) f p w ->
  reads o (open_take ds TableGlyphDefinition read_glyph_definition) f p u ->
  (taken_says w (fun v => taken_says u (fun d => shaped_by v d script language wanted depth n text out)) <->
   font_says f p (Tag "G" "S" "U" "B") (fun q => font_says f p (Tag "G" "D" "E" "F") (fun r =>
     shaped_at o f q r script language wanted depth n text out))).
Proof.
  intros B H U. revert H. apply through. intros q v R. revert U.
  apply (through ds o TableGlyphDefinition). intros r d D. exact (texts_mean o f q v r d script language wanted depth n text out B R D).
Qed.

Lemma beyond_gsub_ranks o f p v k j rank xs ys :
  bounded f -> reads o read_glyph_substitution f p v ->
  ((exists u, subtable_for o Substitution f p v k j u /\ replaces_as u rank xs ys) <->
   (exists q ty, subtable_for_at o Substitution f p k j q ty /\ readable o Substitution f q ty /\
     replaces_as_at f q ty rank xs ys)).
Proof.
  intros B H. apply (request_reads RequestGsub o f p v B) in H. cbn in H. apply (beyond o Substitution f p v k j _ _ B); [|exact H].
  intros q ty u R. apply (kind_reads _ _ _ _ _ _ B) in R. exact (replaces_as_iff _ _ _ _ _ _ _ R).
Qed.

Lemma beyond_gsub_rule_ranks o f p v k j rank before xs after actions :
  bounded f -> reads o read_glyph_substitution f p v ->
  ((exists u, subtable_for o Substitution f p v k j u /\ gsub_rule_as u rank before xs after actions) <->
   (exists q ty, subtable_for_at o Substitution f p k j q ty /\ readable o Substitution f q ty /\
     rule_as_at f q 5 ty rank before xs after actions)).
Proof.
  intros B H. apply (request_reads RequestGsub o f p v B) in H. cbn in H. apply (beyond o Substitution f p v k j _ _ B); [|exact H].
  intros q ty u R. apply (kind_reads _ _ _ _ _ _ B) in R. exact (gsub_rule_as_iff _ _ _ _ _ _ _ _ _ R).
Qed.

Lemma texts_beyond o f p v pd d script language wanted depth n text out :
  bounded f -> reads o read_glyph_substitution f p v -> reads o read_glyph_definition f pd d ->
  (shaped_beyond o f p v d script language wanted depth n text out <-> shaped_beyond_at o f p pd script language wanted depth n text out).
Proof.
  intros B R D. split; apply shaped_same; intros.
  - apply turned_iff; assumption.
  - apply gsub_skips; assumption.
  - apply beyond_gsub_ranks; assumption.
  - apply beyond_gsub_rule_ranks; assumption.
  - apply beyond_gsub_reverse; assumption.
  - symmetry. apply turned_iff; assumption.
  - symmetry. apply gsub_skips; assumption.
  - symmetry. apply beyond_gsub_ranks; assumption.
  - symmetry. apply beyond_gsub_rule_ranks; assumption.
  - symmetry. apply beyond_gsub_reverse; assumption.
Qed.

(** Something becomes of every text. *)
Lemma begins_length s xs kept rest text :
  begins s xs kept rest text -> (length xs + length (kept ++ rest) = length text)%nat.
Proof. intros H. induction H; cbn [length app] in *; lia. Qed.

Lemma acted_length s w left actions n text n' text' :
  acted s w left actions n text n' text' -> (length text' - n' <= length text - n)%nat.
Proof. intros H. induction H; lia. Qed.

Lemma does_length depth s r u k left text ys rest :
  does depth s r u k left text ys rest -> (length rest < length text)%nat.
Proof.
  destruct depth as [|depth]; [intros []|]. intros (j & rk & _ & [(kept & behind & H & ->)|(actions & behind & n & text' & H & A & _ & ->)]).
  - destruct H as (x & xs & tail & _ & _ & G & _). apply begins_length in G. cbn [length] in G. lia.
  - destruct H as (x & xs & tail & before & after & k0 & k' & r' & k'' & r'' & _ & _ & G & _). apply begins_length in G.
    rewrite app_length in G. cbn [length] in G. apply acted_length in A. rewrite skipn_length. lia.
Qed.

Lemma goes_some (w : list N -> list N -> list N -> list N -> Prop) left text :
  (forall l t y r, w l t y r -> (length r < length t)%nat) -> ~ ~ exists out, goes_through w left text out.
Proof.
  intros W. remember (length text) as n eqn:E. assert (L : (length text <= n)%nat) by lia. clear E. revert left text L.
  induction n as [|n IH]; intros left text L C.
  - destruct text as [|x text]; [|cbn in L; lia]. apply C. eexists. apply goes_end.
  - destruct text as [|x text]; [apply C; eexists; apply goes_end|].
    assert (F : forall ys rest, ~ w left (x :: text) ys rest).
    { intros ys rest D. pose proof (W _ _ _ _ D) as LD. apply (IH (rev ys ++ left) rest); [lia|]. intros (out & O).
      apply C. exists out. exact (goes_does _ _ _ _ _ _ D O). }
    cbn in L. apply (IH (x :: left) text); [lia|]. intros (out & O). apply C. exists out. exact (goes_on _ _ _ _ _ F O).
Qed.

Lemma acted_some s w left actions n text : ~ ~ exists n' text', acted s w left actions n text n' text'.
Proof.
  revert n text. induction actions as [|a actions IH]; intros n text C; [apply C; eexists _, _; apply acted_none|].
  assert (M : forall before here ys rest, placed s n text a before here ->
    ~ w (action_lookup_index a) (rev before ++ left) here ys rest).
  { intros before here ys rest P D.
    apply (IH (Nat.max (length before) (n + length (before ++ ys ++ rest) - length text)) (before ++ ys ++ rest)).
    intros (n' & text' & A). apply C. exists n', text'. exact (acted_done _ _ _ _ _ _ _ _ _ _ _ _ _ P D A). }
  apply (IH n text). intros (n' & text' & A). apply C. exists n', text'. exact (acted_not _ _ _ _ _ _ _ _ _ M A).
Qed.

(** Where a subtable is ready, something is done. *)
Lemma earlier_ind (P : N -> N -> Prop) :
  (forall j r, (forall i s, earlier i s j r -> P i s) -> P j r) -> forall j r, P j r.
Proof.
  intros H j. induction (N.lt_wf_0 j) as [j _ IH]. intros r. induction (N.lt_wf_0 r) as [r _ IH'].
  apply H. intros i s [I|(-> & S)]; [exact (IH i I s)|exact (IH' s S)].
Qed.

Lemma does_some depth s r u k left text j rank :
  ready (s k) (r k) (u k) j rank left text -> ~ forall ys rest, ~ does (S depth) s r u k left text ys rest.
Proof.
  revert j rank. assert (X : (forall ys rest, ~ does (S depth) s r u k left text ys rest) ->
    forall j rank, ~ ready (s k) (r k) (u k) j rank left text).
  { intros C. apply earlier_ind. intros j rank IH [(ys & kept & rest & H)|(actions & rest & H)].
    - apply (C ys (kept ++ rest)). exists j, rank. split; [exact IH|]. left. eauto.
    - apply (acted_some (s k) (does depth s r u) left actions (length text - length rest) text).
      intros (n & text' & A). apply (C (firstn n text') (skipn n text')). exists j, rank. split; [exact IH|]. right.
      exists actions, rest, n, text'. auto. }
  intros j rank R C. exact (X C j rank R).
Qed.

Lemma back_some s t left right : ~ ~ exists out, goes_back s t left right out.
Proof.
  revert right. induction left as [|x left IH]; intros right C; [apply C; exists right; apply back_end|].
  assert (F : forall j, ~ exists y, turns s t j left x right y).
  { intros j. induction (N.lt_wf_0 j) as [j _ IHj]. intros (y & G). apply (IH (y :: right)). intros (out & O). apply C.
    exists out. apply (back_turns _ _ j x left right y out G); [|exact O]. intros i z I G'. apply (IHj i I). eauto. }
  apply (IH (x :: right)). intros (out & O). apply C. exists out. apply back_on; [|exact O]. intros i z G. apply (F i). eauto.
Qed.

Lemma shaped_some depth a s r u t n text : ~ ~ exists out, shaped depth a s r u t n text out.
Proof.
  induction n as [|n IH] using N.peano_ind; intros C.
  - apply C. exists text. apply shaped_none.
  - rewrite <- N.add_1_r in C. apply IH. intros (mid & M). assert (O : ~ a n).
    { intros O. apply (goes_some (does (S depth) s r u n) [] mid); [intros l t' y r'; apply does_length|]. intros (mid' & G).
      apply (back_some (s n) (t n) (rev mid') []).
      intros (out & G'). apply C. exists out. exact (shaped_on _ _ _ _ _ _ n text mid mid' out M O G G'). }
    apply C. exists mid. exact (shaped_off _ _ _ _ _ _ n text mid M O).
Qed.

Lemma texts_some o f p pd script language wanted depth n text :
  ~ (forall out, ~ shaped_at o f p pd script language wanted depth n text out).
Proof.
  intros C. unfold shaped_at in C. match type of C with forall out, ~ shaped ?depth ?a ?s ?r ?u ?t ?n ?text out =>
    apply (shaped_some depth a s r u t n text) end. intros (out & H). exact (C out H).
Qed.

(** What comes first is done. *)
Lemma does_fires depth s r u k left text ys kept behind :
  fires (s k) (r k) 0 0 text ys kept behind -> does (S depth) s r u k left text ys (kept ++ behind).
Proof. intros H. exists 0, 0. split; [unfold earlier; lia|]. left. eauto. Qed.

Lemma does_acted depth s r u k left text actions behind n text' :
  ruled_by (s k) (u k) 0 0 left text actions behind ->
  acted (s k) (does depth s r u) left actions (length text - length behind) text n text' ->
  does (S depth) s r u k left text (firstn n text') (skipn n text').
Proof. intros H A. exists 0, 0. split; [unfold earlier; lia|]. right. exists actions, behind, n, text'. auto. Qed.

Lemma does_not depth s r u k left text ys rest :
  (forall j rank, ~ ready (s k) (r k) (u k) j rank left text) -> ~ does (S depth) s r u k left text ys rest.
Proof.
  intros H (j & rank & _ & [(kept & behind & G & _)|(actions & behind & n & text' & G & _)]); apply (H j rank); [left|right]; eauto.
Qed.

(** Where nothing is replaced a text stays as it is. *)
Lemma goes_none (w : list N -> list N -> list N -> list N -> Prop) left text :
  (forall l t y r, ~ w l t y r) -> goes_through w left text (rev left ++ text).
Proof.
  intros H. revert left. induction text as [|x text IH]; intros left; [rewrite app_nil_r; apply goes_end|].
  apply goes_on; [intros ys rest; apply H|]. specialize (IH (x :: left)). cbn [rev] in IH. rewrite <- app_assoc in IH. exact IH.
Qed.

Lemma back_none s (t : N -> list N -> N -> list N -> N -> Prop) left right :
  (forall j before x after y, ~ t j before x after y) -> goes_back s t left right (rev left ++ right).
Proof.
  intros H. revert right. induction left as [|x left IH]; intros right; [apply back_end|].
  cbn [rev]. rewrite <- app_assoc. apply back_on; [|apply IH].
  intros i z (before & after & k & r & k' & r' & _ & _ & _ & F). exact (H _ _ _ _ _ F).
Qed.

(** An action is for one of the glyphs to which the rule applies. *)
Lemma placed_within s n text a before here :
  placed s n text a before here -> exists x, nth_error (firstn n text) (length before) = Some x /\ ~ s x.
Proof.
  intros (-> & R & L). assert (X : exists x tail, here = x :: tail /\ ~ s x) by (clear L; induction R; eauto).
  destruct X as (x & tail & -> & X). exists x. split; [|exact X]. rewrite firstn_app, firstn_all2 by lia.
  rewrite nth_error_app2 by lia. rewrite Nat.sub_diag. destruct (n - length before)%nat eqn:E; [lia|reflexivity].
Qed.
