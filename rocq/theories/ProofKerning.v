(** By how much the glyphs of a text are moved. *)

From Verif Require Import ReadsTactics ProofFindings ProofRequests ProofPieces ProofReads.
From Verif Require Export SpecKerning ProofText.

Lemma minds_iff o f p ty t xs past : gpos_type_at o ty f p t -> (minds t xs past <-> minds_at f p ty xs past).
Proof.
  destruct t as [[[format a flags value coverage]|[format a flags n values coverage]]|
    [[format a flags1 flags2 n offsets coverage records]|[format a flags1 flags2 a1 a2 n1 n2 records coverage class1 class2]]|
    t|t|t|t|t|t|t]; cbn [gpos_type_at minds].
  - cbn. intros (-> & -> & Hf & Ha & _ & Hv & Hcov). split.
    + intros (-> & g & i & Hg & ->). apply (covers_iff _ _ _ _ _ Hcov) in Hg. exists g, a, i. auto 10.
    + intros (g & a' & i & Ha' & Hg & [(_ & -> & -> & _)|(Ht & _)]); [|lia].
      rewrite (u16_fun _ _ _ _ Ha' Ha) in Hg. apply (covers_iff _ _ _ _ _ Hcov) in Hg. eauto.
  - cbn. intros (-> & -> & Hf & Ha & _ & Hn & Hv & Hcov). split.
    + intros (-> & g & i & s & Hg & -> & Es). apply (covers_iff _ _ _ _ _ Hcov) in Hg.
      destruct (vec_entry _ _ _ _ _ _ _ Hv Es) as (Hi & _). exists g, a, i. eauto 15.
    + intros (g & a' & i & Ha' & Hg & [(_ & -> & -> & [Hf'|(_ & n' & Hn' & Hi)])|(Ht & _)]);
        [discriminate (u16_fun _ _ _ _ Hf Hf')| |lia].
      rewrite (u16_fun _ _ _ _ Ha' Ha) in Hg. rewrite (u16_fun _ _ _ _ Hn' Hn) in Hi.
      destruct (vec_nth _ _ _ _ _ _ Hv Hi) as (s & Es & _). apply (covers_iff _ _ _ _ _ Hcov) in Hg.
      split; [reflexivity|]. exists g, i, s. auto.
  - cbn. intros (-> & -> & Hf & Ha & (Hs1 & _) & (Hs2 & _) & Hn & Ho & Hcov & H). split.
    + intros (Hp & g & i & r & s & Hg & Er & Hin & ->). apply (covers_iff _ _ _ _ _ Hcov) in Hg.
      destruct (link_down _ _ _ _ _ _ _ _ _ Ho H Er) as (x & Hi & Hx & Hr). destruct r as [m l]. cbn in Hr, Hin.
      destruct Hr as (Hm & Hl). apply in_entry in Hin. destruct Hin as (j & Ej).
      destruct (vec_entry _ _ _ _ _ _ _ Hl Ej) as (Hj & Hq). destruct s as [h v1 v2]. cbn in Hq |- *.
      destruct Hq as (Hh & _). exists g, a, i. do 2 (split; [assumption|]). right. split; [reflexivity|].
      exists h, flags1, flags2. do 4 (split; [assumption || reflexivity|]). left. split; [exact Hf|].
      exists n, x, m, j. auto 10.
    + intros (g & a' & i & Ha' & Hg & [(Ht & _)|(_ & h & flags1' & flags2' & -> & Hs1' & Hs2' & Hp & [(_ & n' & x & m & j & Hn' & Hi & Hx & Hm & Hj & Hh)|(Hf' & _)])]);
        [lia| |discriminate (u16_fun _ _ _ _ Hf Hf')].
      rewrite (u16_fun _ _ _ _ Ha' Ha) in Hg. rewrite (u16_fun _ _ _ _ Hs1' Hs1), (u16_fun _ _ _ _ Hs2' Hs2) in *.
      rewrite (u16_fun _ _ _ _ Hn' Hn) in Hi. destruct (link_up _ _ _ _ _ _ _ _ _ Ho H Hi Hx) as ([m' l] & Er & Hm' & Hl).
      rewrite (u16_fun _ _ _ _ Hm Hm') in Hj. destruct (vec_nth _ _ _ _ _ _ Hl Hj) as ([h' v1 v2] & Ej & Hh' & _).
      rewrite (u16_fun _ _ _ _ Hh Hh'). apply (covers_iff _ _ _ _ _ Hcov) in Hg. split; [exact Hp|].
      exists g, i, (mkPair1s m' l), (mkPair1 h' v1 v2). cbn. split; [exact Hg|]. split; [exact Er|].
      split; [apply in_entry; exists j; exact Ej|]. reflexivity.
  - cbn. intros (-> & -> & Hf & Ha & (Hs1 & _) & (Hs2 & _) & Ha1 & Ha2 & Hn1 & Hn2 & H & Hcov & Hc1 & Hc2). split.
    + intros (Hp & g & i & h & c1 & c2 & r & s & Hg & Hg1 & Hg2 & Er & Es & ->). apply (covers_iff _ _ _ _ _ Hcov) in Hg.
      apply (or_zero_iff _ _ _ _ _ Hc1) in Hg1. apply (or_zero_iff _ _ _ _ _ Hc2) in Hg2.
      destruct (vec_entry _ _ _ _ _ _ _ H Er) as (Hi1 & Hr). destruct r as [l]. cbn in Hr, Es.
      destruct (vec_entry _ _ _ _ _ _ _ Hr Es) as (Hi2 & _).
      exists g, a, i. do 2 (split; [assumption|]). right. split; [reflexivity|]. exists h, flags1, flags2.
      do 4 (split; [assumption || reflexivity|]). right. split; [exact Hf|]. exists a1, a2, n1, n2, c1, c2. auto 10.
    + intros (g & a' & i & Ha' & Hg & [(Ht & _)|(_ & h & flags1' & flags2' & -> & Hs1' & Hs2' & Hp & [(Hf' & _)|(_ & a1' & a2' & n1' & n2' & c1 & c2 & Ha1' & Ha2' & Hn1' & Hn2' & Hg1 & Hi1 & Hg2 & Hi2)])]);
        [lia|discriminate (u16_fun _ _ _ _ Hf Hf')|].
      rewrite (u16_fun _ _ _ _ Ha' Ha) in Hg. rewrite (u16_fun _ _ _ _ Hs2' Hs2) in Hp.
      rewrite (u16_fun _ _ _ _ Ha1' Ha1) in Hg1. rewrite (u16_fun _ _ _ _ Ha2' Ha2) in Hg2.
      rewrite (u16_fun _ _ _ _ Hn1' Hn1) in Hi1. rewrite (u16_fun _ _ _ _ Hn2' Hn2) in Hi2.
      destruct (vec_nth _ _ _ _ _ _ H Hi1) as ([l] & Er & Hr).
      destruct (vec_nth _ _ _ _ _ _ Hr Hi2) as (s & Es & _).
      apply (covers_iff _ _ _ _ _ Hcov) in Hg. apply (or_zero_iff _ _ _ _ _ Hc1) in Hg1.
      apply (or_zero_iff _ _ _ _ _ Hc2) in Hg2. split; [exact Hp|].
      exists g, i, h, c1, c2, (mkPair2s l), s. auto 10.
  - intros (-> & _). split; [contradiction|]. intros (g & a' & i & _ & _ & [(Ht & _)|(Ht & _)]); lia.
  - intros (-> & _). split; [contradiction|]. intros (g & a' & i & _ & _ & [(Ht & _)|(Ht & _)]); lia.
  - intros (-> & _). split; [contradiction|]. intros (g & a' & i & _ & _ & [(Ht & _)|(Ht & _)]); lia.
  - intros (-> & _). split; [contradiction|]. intros (g & a' & i & _ & _ & [(Ht & _)|(Ht & _)]); lia.
  - intros (-> & _). split; [contradiction|]. intros (g & a' & i & _ & _ & [(Ht & _)|(Ht & _)]); lia.
  - intros (-> & _). split; [contradiction|]. intros (g & a' & i & _ & _ & [(Ht & _)|(Ht & _)]); lia.
  - intros (-> & _). split; [contradiction|]. intros (g & a' & i & _ & _ & [(Ht & _)|(Ht & _)]); lia.
Qed.

(** What is adjusted is minded. *)
Lemma adjusts_minds v xs second c z : adjusts v xs second c z -> exists past, minds v xs past.
Proof.
  assert (P : forall flags, exists past, past = true <-> flags <> 0).
  { intros flags. exists (negb (flags =? 0)). rewrite Bool.negb_true_iff, N.eqb_neq. reflexivity. }
  destruct v as [[t|t]|[t|t]|t|t|t|t|t|t|t]; try (intros []; fail); cbn [adjusts minds].
  - intros (g & i & Hg & E & _). eauto 10.
  - intros (g & i & Hg & E & _ & s & Es & _). eauto 15.
  - intros (g & i & r & s & Hg & Er & Hs & E & _). destruct (P (pair_adjustment1_value2_flags t)) as (past & Hp).
    exists past. split; [exact Hp|]. exists g, i, r, s. auto.
  - intros (g & i & h & c1 & c2 & r & s & Hg & H1 & H2 & Er & Es & E & _).
    destruct (P (pair_adjustment2_value2_flags t)) as (past & Hp). exists past. split; [exact Hp|].
    exists g, i, h, c1, c2, r, s. auto 10.
Qed.

Lemma minds_mean o f p v k j xs past :
  bounded f -> reads o read_glyph_positioning f p v ->
  ((exists t, in_lookup v k j t /\ minds t xs past) <->
   (exists q ty, in_lookup_at o f p k j q ty /\ minds_at f q ty xs past)).
Proof.
  intros B H. apply (request_reads RequestGpos o f p v B) in H. cbn in H. split.
  - intros (t & I & R). destruct (lookup_down _ _ _ _ _ _ _ _ H I) as (q & ty & I' & Ht).
    exists q, ty. split; [exact I'|]. apply (minds_iff _ _ _ _ _ _ _ Ht), R.
  - intros (q & ty & I & R). destruct (lookup_up _ _ _ _ _ _ _ _ _ H I) as (t & I' & Ht).
    exists t. split; [exact I'|]. apply (minds_iff _ _ _ _ _ _ _ Ht), R.
Qed.

Lemma minds_beyond o f p v k j xs past :
  bounded f -> reads o read_glyph_positioning f p v ->
  ((exists u, subtable_for o Positioning f p v k j u /\ minds u xs past) <->
   (exists q ty, subtable_for_at o Positioning f p k j q ty /\ readable o Positioning f q ty /\ minds_at f q ty xs past)).
Proof.
  intros B H. apply (request_reads RequestGpos o f p v B) in H. cbn in H. apply (beyond o Positioning f p v k j _ _ B); [|exact H].
  intros q ty u R. apply (kind_reads _ _ _ _ _ _ B) in R. exact (minds_iff _ _ _ _ _ _ _ R).
Qed.

(** ** The same by values as by bytes *)

Lemma adds_same (a a' : nat -> Z -> Prop) i m m' : (forall c z, a c z <-> a' c z) -> adds a i m m' -> adds a' i m m'.
Proof.
  intros E H h c. destruct (H h c) as [(-> & z & A & M)|(A & M)]; [left|right].
  - split; [reflexivity|]. exists z. split; [apply E, A|exact M].
  - split; [|exact M]. destruct A as [A|A]; [left; exact A|right]. intros z A'. apply (A z), E, A'.
Qed.

Lemma meets_same (s s' : N -> Prop) (r r' : N -> list N -> bool -> Prop) j text xs rest past :
  (forall g, s g <-> s' g) -> (forall i xs past, r i xs past <-> r' i xs past) ->
  meets s r j text xs rest past -> meets s' r' j text xs rest past.
Proof.
  intros E F (x & ys & tail & kept & T & N & X & G & H). exists x, ys, tail, kept. split; [exact T|].
  split; [intros Y; apply N, E, Y|]. split; [exact X|]. split; [exact (begins_same s s' _ _ _ _ E G)|]. apply F, H.
Qed.

Lemma kerns_same (s s' : N -> Prop) (r r' : N -> list N -> bool -> Prop)
    (a a' : N -> list N -> bool -> nat -> Z -> Prop) j i text m m' n :
  (forall g, s g <-> s' g) -> (forall i xs past, r i xs past <-> r' i xs past) ->
  (forall i xs b c z, a i xs b c z <-> a' i xs b c z) ->
  kerns s r a j i text m m' n -> kerns s' r' a' j i text m m' n.
Proof.
  intros E F K (xs & rest & past & mid & G & A & A' & ->). exists xs, rest, past, mid.
  split; [exact (meets_same s s' r r' _ _ _ _ _ E F G)|].
  split; [exact (adds_same _ _ _ _ _ (K j xs false) A)|]. split; [exact (adds_same _ _ _ _ _ (K j xs true) A')|reflexivity].
Qed.

Lemma enacted_same (s s' : N -> Prop) (w w' : N -> list N -> list N -> moved -> moved -> nat -> Prop) left text n actions m m' :
  (forall g, s g <-> s' g) -> (forall k l t m m' n, w k l t m m' n <-> w' k l t m m' n) ->
  enacted s w left text n actions m m' -> enacted s' w' left text n actions m m'.
Proof.
  intros E F H. assert (E' : forall g, s' g <-> s g) by (intros g; symmetry; apply E).
  induction H as [m|a actions before here m mid l m' P D _ IH|a actions m m' M _ IH].
  - apply enacted_none.
  - apply (enacted_done _ _ _ _ _ a actions before here m mid l m'); [exact (placed_same s s' _ _ _ _ _ E P)|apply F, D|exact IH].
  - apply enacted_not; [|exact IH]. intros before here mid l P D.
    apply (M before here mid l (placed_same s' s _ _ _ _ _ E' P)), F, D.
Qed.

Lemma heeds_same (s s' : N -> Prop) (r r' : N -> list N -> bool -> Prop)
    (u u' : N -> N -> list N -> list N -> list N -> list Action -> Prop) j rk left text :
  (forall g, s g <-> s' g) -> (forall i xs past, r i xs past <-> r' i xs past) ->
  (forall i q before xs after l, u i q before xs after l <-> u' i q before xs after l) ->
  heeds s r u j rk left text -> heeds s' r' u' j rk left text.
Proof.
  intros E F K [(Z & xs & rest & past & H)|(actions & rest & H)]; [left|right].
  - split; [exact Z|]. exists xs, rest, past. exact (meets_same s s' r r' _ _ _ _ _ E F H).
  - exists actions, rest. exact (ruled_same s s' u u' _ _ _ _ _ _ E K H).
Qed.

Lemma nudges_step (s s' : N -> N -> Prop) (r r' : N -> N -> list N -> bool -> Prop)
    (a a' : N -> N -> list N -> bool -> nat -> Z -> Prop)
    (u u' : N -> N -> N -> list N -> list N -> list N -> list Action -> Prop)
    (w w' : N -> list N -> list N -> moved -> moved -> nat -> Prop) k left text m m' n :
  (forall k g, s k g <-> s' k g) -> (forall k i xs past, r k i xs past <-> r' k i xs past) ->
  (forall k i xs b c z, a k i xs b c z <-> a' k i xs b c z) ->
  (forall k i q before xs after l, u k i q before xs after l <-> u' k i q before xs after l) ->
  (forall k l t m m' n, w k l t m m' n <-> w' k l t m m' n) ->
  (exists j rk, (forall i q, earlier i q j rk -> ~ heeds (s k) (r k) (u k) i q left text) /\
    ((rk = 0 /\ kerns (s k) (r k) (a k) j (length left) text m m' n) \/
     (exists actions rest, ruled_by (s k) (u k) j rk left text actions rest /\ n = (length text - length rest)%nat /\
       enacted (s k) w left text n actions m m'))) ->
  (exists j rk, (forall i q, earlier i q j rk -> ~ heeds (s' k) (r' k) (u' k) i q left text) /\
    ((rk = 0 /\ kerns (s' k) (r' k) (a' k) j (length left) text m m' n) \/
     (exists actions rest, ruled_by (s' k) (u' k) j rk left text actions rest /\ n = (length text - length rest)%nat /\
       enacted (s' k) w' left text n actions m m'))).
Proof.
  intros E F A K W (j & rk & M & H). exists j, rk. split.
  { intros i q I R. apply (M i q I). refine (heeds_same (s' k) (s k) (r' k) (r k) (u' k) (u k) _ _ _ _ _ _ _ R); intros; symmetry; auto. }
  destruct H as [(Z & H)|(actions & rest & H & L & X)]; [left|right].
  - split; [exact Z|]. exact (kerns_same (s k) (s' k) (r k) (r' k) (a k) (a' k) _ _ _ _ _ _ (E k) (F k) (A k) H).
  - exists actions, rest. split; [exact (ruled_same (s k) (s' k) (u k) (u' k) _ _ _ _ _ _ (E k) (K k) H)|].
    split; [exact L|]. exact (enacted_same (s k) (s' k) w w' _ _ _ _ _ _ (E k) W X).
Qed.

Lemma nudges_same depth (s s' : N -> N -> Prop) (r r' : N -> N -> list N -> bool -> Prop)
    (a a' : N -> N -> list N -> bool -> nat -> Z -> Prop)
    (u u' : N -> N -> N -> list N -> list N -> list N -> list Action -> Prop) :
  (forall k g, s k g <-> s' k g) -> (forall k i xs past, r k i xs past <-> r' k i xs past) ->
  (forall k i xs b c z, a k i xs b c z <-> a' k i xs b c z) ->
  (forall k i q before xs after l, u k i q before xs after l <-> u' k i q before xs after l) ->
  forall k left text m m' n, nudges depth s r a u k left text m m' n <-> nudges depth s' r' a' u' k left text m m' n.
Proof.
  intros E F A K. induction depth as [|depth IH]; intros k left text m m' n; [reflexivity|]. split.
  - apply nudges_step; assumption.
  - apply nudges_step; intros; symmetry; auto.
Qed.

Lemma runs_same (w w' : list N -> list N -> moved -> moved -> nat -> Prop) left text m m' :
  (forall l t m m' n, w l t m m' n <-> w' l t m m' n) -> runs_through w left text m m' -> runs_through w' left text m m'.
Proof.
  intros E H. induction H as [left m|left text m mid n m' D _ IH|left x text m m' M _ IH].
  - apply runs_end.
  - apply (runs_does _ left text m mid n m'); [apply E, D|exact IH].
  - apply runs_on; [|exact IH]. intros mid n D. apply (M mid n), E, D.
Qed.

Lemma kerned_same depth (b b' : N -> Prop) (s s' : N -> N -> Prop) (r r' : N -> N -> list N -> bool -> Prop)
    (a a' : N -> N -> list N -> bool -> nat -> Z -> Prop)
    (u u' : N -> N -> N -> list N -> list N -> list N -> list Action -> Prop) text n m :
  (forall k, b k <-> b' k) -> (forall k g, s k g <-> s' k g) -> (forall k i xs past, r k i xs past <-> r' k i xs past) ->
  (forall k i xs b c z, a k i xs b c z <-> a' k i xs b c z) ->
  (forall k i q before xs after l, u k i q before xs after l <-> u' k i q before xs after l) ->
  kerned depth b s r a u text n m -> kerned depth b' s' r' a' u' text n m.
Proof.
  intros D E F A K H. induction H as [|n m m' _ IH O G|n m _ IH O].
  - apply kerned_none.
  - apply (kerned_on _ _ _ _ _ _ _ n m m' IH); [apply D, O|].
    exact (runs_same _ _ _ _ _ _ (nudges_same (S depth) s s' r r' a a' u u' E F A K n) G).
  - apply (kerned_off _ _ _ _ _ _ _ n m IH). intros O'. apply O, D, O'.
Qed.

Lemma turned_gpos o f p v script language wanted k :
  bounded f -> reads o read_glyph_positioning f p v ->
  (turned_on v script language wanted k <-> turned_on_at o f p script language wanted k).
Proof.
  intros B R. split; intros (feature & H); exists feature; (destruct H as [H|(W & H)]; [left|right; split; [exact W|]]);
    apply (proj2 (enabled_means o f p script language _ feature k B) v R), H.
Qed.

Lemma kerning_means o f p v pd d script language wanted depth text n m :
  bounded f -> reads o read_glyph_positioning f p v -> reads o read_glyph_definition f pd d ->
  (kerned_by v d script language wanted depth text n m <-> kerned_at o f p pd script language wanted depth text n m).
Proof.
  intros B R D. split; apply kerned_same; intros.
  - apply turned_gpos; assumption.
  - apply gpos_skips; assumption.
  - apply minds_mean; assumption.
  - apply (gpos_means o f p v k i B R).
  - apply gpos_ranks; assumption.
  - symmetry. apply turned_gpos; assumption.
  - symmetry. apply gpos_skips; assumption.
  - symmetry. apply minds_mean; assumption.
  - symmetry. apply (gpos_means o f p v k i B R).
  - symmetry. apply gpos_ranks; assumption.
Qed.

Lemma beyond_gpos_rule_ranks o f p v k j rank before xs after actions :
  bounded f -> reads o read_glyph_positioning f p v ->
  ((exists u, subtable_for o Positioning f p v k j u /\ gpos_rule_as u rank before xs after actions) <->
   (exists q ty, subtable_for_at o Positioning f p k j q ty /\ readable o Positioning f q ty /\
     rule_as_at f q 7 ty rank before xs after actions)).
Proof.
  intros B H. apply (request_reads RequestGpos o f p v B) in H. cbn in H. apply (beyond o Positioning f p v k j _ _ B); [|exact H].
  intros q ty u R. apply (kind_reads _ _ _ _ _ _ B) in R. exact (gpos_rule_as_iff _ _ _ _ _ _ _ _ _ _ R).
Qed.

Lemma kerning_beyond o f p v pd d script language wanted depth text n m :
  bounded f -> reads o read_glyph_positioning f p v -> reads o read_glyph_definition f pd d ->
  (kerned_beyond o f p v d script language wanted depth text n m <->
   kerned_beyond_at o f p pd script language wanted depth text n m).
Proof.
  intros B R D. split; apply kerned_same; intros.
  - apply turned_gpos; assumption.
  - apply gpos_skips; assumption.
  - apply minds_beyond; assumption.
  - apply beyond_gpos; assumption.
  - apply beyond_gpos_rule_ranks; assumption.
  - symmetry. apply turned_gpos; assumption.
  - symmetry. apply gpos_skips; assumption.
  - symmetry. apply minds_beyond; assumption.
  - symmetry. apply beyond_gpos; assumption.
  - symmetry. apply beyond_gpos_rule_ranks; assumption.
Qed.

Lemma font_kerning_means ds o f p w u script language wanted depth text n m :
  bounded f -> reads o (open_take ds TableGlyphPositioning read_glyph_positioning) f p w ->
  reads o (open_take ds TableGlyphDefinition read_glyph_definition) f p u ->
  (taken_says w (fun v => taken_says u (fun d => kerned_by v d script language wanted depth text n m)) <->
   font_says f p (Tag "G" "P" "O" "S") (fun q => font_says f p (Tag "G" "D" "E" "F") (fun r =>
     kerned_at o f q r script language wanted depth text n m))).
Proof.
  intros B H U. revert H. apply through. intros q v R. revert U.
  apply (through ds o TableGlyphDefinition). intros r d D. exact (kerning_means o f q v r d script language wanted depth text n m B R D).
Qed.

(** ** Every text is moved somehow *)

Lemma adds_some (a : nat -> Z -> Prop) i m :
  (forall c, (4 <= c)%nat -> forall z, ~ a c z) -> ~ ~ exists m', adds a i m m'.
Proof.
  intros A. assert (X : forall k, ~ ~ exists m' : moved, forall h c, (c < k)%nat ->
    (h = i /\ exists z, a c z /\ m' h c = (m h c + z)%Z) \/ ((h <> i \/ forall z, ~ a c z) /\ m' h c = m h c)).
  { intros k. induction k as [|k IH]; intros C; [apply C; exists m; intros h c; lia|].
    apply IH. intros (m' & M). assert (Y : forall z, ~ a k z).
    { intros z Z. apply C. exists (fun h c => if Nat.eqb c k then (if Nat.eqb h i then (m h c + z)%Z else m h c) else m' h c).
      intros h c L. destruct (Nat.eqb_spec c k) as [->|N]; [|apply M; lia].
      destruct (Nat.eqb_spec h i) as [->|N]; [left; eauto|right; auto]. }
    apply C. exists (fun h c => if Nat.eqb c k then m h c else m' h c). intros h c L.
    destruct (Nat.eqb_spec c k) as [->|N]; [right; auto|apply M; lia]. }
  intros C. apply (X 4%nat). intros (m' & M). apply C. exists (fun h c => if Nat.ltb c 4 then m' h c else m h c).
  intros h c. destruct (Nat.ltb_spec c 4) as [L|L]; [apply M, L|right]. split; [|reflexivity]. right. exact (A c L).
Qed.

Lemma nudges_positive depth s r a u k left text m m' n : nudges depth s r a u k left text m m' n -> (0 < n)%nat.
Proof.
  destruct depth as [|depth]; [intros []|]. intros (j & rk & _ & [(_ & xs & rest & past & mid & G & _ & _ & ->)|(actions & rest & G & -> & _)]).
  - destruct G as (x & ys & tail & kept & _ & _ & -> & G & _). apply begins_length in G. rewrite app_length in G. cbn [length] in G.
    destruct past; lia.
  - destruct G as (x & xs & tail & before & after & k0 & k' & r' & k'' & r'' & _ & _ & G & _). apply begins_length in G.
    rewrite app_length in G. cbn [length] in G. lia.
Qed.

Lemma enacted_some s w left text n actions m : ~ ~ exists m', enacted s w left text n actions m m'.
Proof.
  revert m. induction actions as [|a actions IH]; intros m C; [apply C; eexists; apply enacted_none|].
  assert (M : forall before here mid l, placed s n text a before here ->
    ~ w (action_lookup_index a) (rev before ++ left) here m mid l).
  { intros before here mid l P D. apply (IH mid). intros (m' & A). apply C. exists m'.
    exact (enacted_done _ _ _ _ _ _ _ _ _ _ _ _ _ P D A). }
  apply (IH m). intros (m' & A). apply C. exists m'. exact (enacted_not _ _ _ _ _ _ _ _ _ M A).
Qed.

Definition four (a : N -> N -> list N -> bool -> nat -> Z -> Prop) : Prop :=
  forall k j xs b c z, a k j xs b c z -> (c < 4)%nat.

(** Where a subtable has something to do, something is done. *)
Lemma nudges_some depth s r a u k left text m j rank :
  four a -> heeds (s k) (r k) (u k) j rank left text -> ~ forall m' n, ~ nudges (S depth) s r a u k left text m m' n.
Proof.
  intros A. revert j rank. assert (X : (forall m' n, ~ nudges (S depth) s r a u k left text m m' n) ->
    forall j rank, ~ heeds (s k) (r k) (u k) j rank left text).
  { intros C. apply earlier_ind. intros j rank IH [(Z & xs & rest & past & H)|(actions & rest & H)].
    - apply (adds_some (a k j xs false) (length left) m); [intros c L z Y; apply A in Y; lia|]. intros (mid & M).
      apply (adds_some (a k j xs true) (length left + length text - length rest - 1) mid);
        [intros c L z Y; apply A in Y; lia|]. intros (m' & M').
      apply (C m' (if past then (length text - length rest)%nat else 1%nat)). exists j, rank. split; [exact IH|]. left.
      split; [exact Z|]. exists xs, rest, past, mid. auto.
    - apply (enacted_some (s k) (nudges depth s r a u) left text (length text - length rest) actions m).
      intros (m' & E). apply (C m' (length text - length rest)%nat). exists j, rank. split; [exact IH|]. right.
      exists actions, rest. auto. }
  intros j rank R C. exact (X C j rank R).
Qed.

Lemma runs_some (w : list N -> list N -> moved -> moved -> nat -> Prop) left text m :
  (forall l t m m' n, w l t m m' n -> (0 < n)%nat) -> ~ ~ exists m', runs_through w left text m m'.
Proof.
  intros W. remember (length text) as n eqn:E. assert (L : (length text <= n)%nat) by lia. clear E. revert left text m L.
  induction n as [|n IH]; intros left text m L C.
  - destruct text as [|x text]; [|cbn in L; lia]. apply C. eexists. apply runs_end.
  - destruct text as [|x text]; [apply C; eexists; apply runs_end|].
    assert (F : forall mid i, ~ w left (x :: text) m mid i).
    { intros mid i D. pose proof (W _ _ _ _ _ D) as P.
      apply (IH (rev (firstn i (x :: text)) ++ left) (skipn i (x :: text)) mid); [rewrite skipn_length; cbn [length] in *; lia|].
      intros (m' & O). apply C. exists m'. exact (runs_does _ _ _ _ _ _ _ D O). }
    cbn in L. apply (IH (x :: left) text m); [lia|]. intros (m' & O). apply C. exists m'. exact (runs_on _ _ _ _ _ _ F O).
Qed.

Lemma kerned_some depth b s r a u text n : ~ ~ exists m, kerned depth b s r a u text n m.
Proof.
  induction n as [|n IH] using N.peano_ind; intros C.
  - apply C. eexists. apply kerned_none.
  - rewrite <- N.add_1_r in C. apply IH. intros (m & M). assert (O : ~ b n).
    { intros O. apply (runs_some (nudges (S depth) s r a u n) [] text m); [intros l t' m0 m1 i; apply nudges_positive|].
      intros (m' & G). apply C. exists m'. exact (kerned_on _ _ _ _ _ _ _ n m m' M O G). }
    apply C. exists m. exact (kerned_off _ _ _ _ _ _ _ n m M O).
Qed.

Lemma adjusts_four f p ty xs second c z : adjusts_at f p ty xs second c z -> (c < 4)%nat.
Proof.
  intros (g & a & i & flags1 & _ & _ & _ & [(_ & _ & _ & [(_ & (L & _))|(_ & n & _ & _ & (L & _))])|(_ & h & flags2 & _ & _ & [(_ & n & x & m & j & q & _ & _ & _ & _ & _ & _ & _ & L)|(_ & a1 & a2 & n1 & n2 & c1 & c2 & _ & _ & _ & _ & _ & _ & _ & _ & L)])]);
    try exact L; destruct second; apply L.
Qed.

Lemma kerning_some o f p pd script language wanted depth text n :
  ~ (forall m, ~ kerned_at o f p pd script language wanted depth text n m).
Proof.
  intros C. unfold kerned_at in C. match type of C with forall m, ~ kerned ?depth ?b ?s ?r ?a ?u ?text ?n m =>
    apply (kerned_some depth b s r a u text n) end. intros (m & H). exact (C m H).
Qed.

(** ** Single steps *)

Definition shift (m : moved) (i c : nat) (z : Z) : moved :=
  fun h e => if Nat.eqb h i && Nat.eqb e c then (m h e + z)%Z else m h e.

Lemma adds_shift (a : nat -> Z -> Prop) i m c z :
  a c z -> (forall e y, a e y -> e = c) -> adds a i m (shift m i c z).
Proof.
  intros A U h e. unfold shift. destruct (Nat.eqb_spec h i) as [->|N]; cbn [andb]; [|right; auto].
  destruct (Nat.eqb_spec e c) as [->|N]; [left; eauto|right]. split; [|reflexivity]. right. intros y Y. exact (N (U e y Y)).
Qed.

Lemma adds_still (a : nat -> Z -> Prop) i m : (forall c z, ~ a c z) -> adds a i m m.
Proof. intros A h c. right. split; [right; apply A|reflexivity]. Qed.

(** What comes first is done. *)
Lemma nudges_kerns depth s r a u k left text m m' n :
  kerns (s k) (r k) (a k) 0 (length left) text m m' n -> nudges (S depth) s r a u k left text m m' n.
Proof. intros H. exists 0, 0. split; [unfold earlier; lia|]. left. auto. Qed.

Lemma nudges_enacted depth s r a u k left text actions rest m m' :
  ruled_by (s k) (u k) 0 0 left text actions rest ->
  enacted (s k) (nudges depth s r a u) left text (length text - length rest) actions m m' ->
  nudges (S depth) s r a u k left text m m' (length text - length rest).
Proof. intros H E. exists 0, 0. split; [unfold earlier; lia|]. right. exists actions, rest. auto. Qed.

Lemma nudges_not depth s r a u k left text m m' n :
  (forall j rank, ~ heeds (s k) (r k) (u k) j rank left text) -> ~ nudges (S depth) s r a u k left text m m' n.
Proof.
  intros H (j & rank & _ & [(Z & xs & rest & past & mid & G & _)|(actions & rest & G & _)]); apply (H j rank); [left|right]; eauto.
Qed.
