(** What subtables that extensions lead to say. *)

From Verif Require Import ReadsTactics ProofFindings ProofRequests ProofPieces ProofReads.
From Verif Require ProofOpen.
From Verif Require Export SpecBeyond ProofMeaning ProofRules ProofThrough.

Definition kind_at {T} (o : options) (kind : family T) : N -> file -> N -> T -> Prop :=
  match kind in family T return N -> file -> N -> T -> Prop with
  | Substitution => gsub_type_at
  | Positioning => gpos_type_at o
  end.

Lemma kind_reads {T} o (kind : family T) f q ty u :
  bounded f -> (reads o (subtable kind ty) f q u <-> kind_at o kind ty f q u).
Proof.
  intros B. destruct kind.
  - exact (piece_reads (PieceGsubType ty) o f q u B eq_refl).
  - exact (piece_reads (PieceGposType ty) o f q u B eq_refl).
Qed.

Lemma kind_extension {T} o (kind : family T) f q ty t :
  kind_at o kind ty f q t ->
  (ty <> extension_type kind /\ extension kind t = None) \/
  (ty = extension_type kind /\ exists type_ offset, extension kind t = Some (type_, offset) /\
    u16_at f (q + 2) type_ /\ u32_at f (q + 4) offset).
Proof.
  destruct kind.
  - destruct t as [t|t|t|t|t|t|[format type_ offset]|t]; cbn; try (intros (-> & _); left; split; [discriminate|reflexivity]).
    intros (-> & _ & _ & Ht & Ho). right. split; [reflexivity|]. eauto.
  - destruct t as [t|t|t|t|t|t|t|t|[format type_ offset]]; cbn; try (intros (-> & _); left; split; [discriminate|reflexivity]).
    intros (-> & _ & _ & Ht & Ho). right. split; [reflexivity|]. eauto.
Qed.

Lemma place_unique {T} (v : Directory T) p k j q r : subtable_place v p k j q -> subtable_place v p k j r -> q = r.
Proof. intros (l & x & s & El & Ex & Es & ->) (l' & x' & s' & El' & Ex' & Es' & ->). congruence. Qed.

Lemma lookup_places {T} o (table_at : N -> file -> N -> T -> Prop) f p v k j q ty :
  directory_at o table_at f p v -> in_lookup_at o f p k j q ty -> subtable_place v p k j q.
Proof.
  destruct v as [major minor so fo lo vo scripts features lookups variations]. cbn [directory_at].
  intros (_ & _ & _ & _ & _ & _ & Hl & _ & _ & _ & _ & L & _)
    (lo' & n' & x & m' & y & Hl' & Hz & Hn' & Hk & Hx & Hty' & Hm' & Hj & Hy & ->).
  rewrite (u16_fun _ _ _ _ Hl' Hl) in *.
  destruct L as [(-> & I & _)|(_ & L)]; [destruct Hz; congruence|].
  destruct lookups as [n offsets records]. cbn in L. destruct L as (Hn & Ho & H).
  rewrite (u16_fun _ _ _ _ Hn' Hn) in Hk. destruct (link_up _ _ _ _ _ _ _ _ _ Ho H Hk Hx) as (r & Er & Hr).
  destruct (vec_nth _ _ _ _ _ _ Ho Hk) as (x' & Ex & Hx'). rewrite (u16_fun _ _ _ _ Hx Hx') in *.
  destruct r as [ty'' flags m os set tables]. cbn in Hr. destruct Hr as (Hty & _ & Hm & Hos & _ & Hts).
  rewrite (u16_fun _ _ _ _ Hm' Hm) in Hj. destruct (vec_nth _ _ _ _ _ _ Hos Hj) as (y' & Ey & Hy').
  rewrite (u16_fun _ _ _ _ Hy Hy'). eexists _, _, _. split; [exact Ex|]. split; [exact Er|]. split; [exact Ey|reflexivity].
Qed.

Lemma beyond {T} o (kind : family T) f p v k j (P : T -> Prop) (Q : N -> N -> Prop) :
  bounded f -> (forall q ty u, reads o (subtable kind ty) f q u -> (P u <-> Q q ty)) ->
  directory_at o (kind_at o kind) f p v ->
  ((exists u, subtable_for o kind f p v k j u /\ P u) <->
   (exists q ty, subtable_for_at o kind f p k j q ty /\ readable o kind f q ty /\ Q q ty)).
Proof.
  intros B H D. split.
  - intros (u & (t & I & E) & HP). destruct (lookup_down _ _ _ _ _ _ _ _ D I) as (q & ty & I' & Ht).
    destruct (kind_extension _ _ _ _ _ _ Ht) as [(N & X)|(X & type_ & offset & X' & H1 & H2)].
    + rewrite X in E. subst u. apply (kind_reads _ _ _ _ _ _ B) in Ht. exists q, ty.
      split; [exists q, ty; auto|]. split; [exists t; exact Ht|]. apply (H _ _ _ Ht), HP.
    + rewrite X' in E. destruct E as (q' & L & R). rewrite (place_unique _ _ _ _ _ _ L (lookup_places _ _ _ _ _ _ _ _ _ D I')) in R.
      exists (q + offset), type_. split; [exists q, ty; split; [exact I'|]; right; eauto 10|]. split; [exists u; exact R|].
      apply (H _ _ _ R), HP.
  - intros (q & ty & (r & t & I & E) & (u & R) & HQ). destruct (lookup_up _ _ _ _ _ _ _ _ _ D I) as (x & I' & Hx).
    exists u. split; [|apply (H _ _ _ R), HQ]. exists x. split; [exact I'|].
    destruct (kind_extension _ _ _ _ _ _ Hx) as [(N & X)|(X & type_ & offset & X' & H1 & H2)].
    + rewrite X. destruct E as [(_ & -> & ->)|(E & _)]; [|contradiction].
      apply (kind_reads _ _ _ _ _ _ B) in Hx. destruct R as (e & R), Hx as (e' & Hx). congruence.
    + rewrite X'. destruct E as [(E & _)|(_ & offset' & H1' & H2' & ->)]; [contradiction|].
      rewrite (u16_fun _ _ _ _ H1' H1) in *. rewrite (ProofOpen.u32_at_unique _ _ _ _ H2' H2) in *.
      exists r. split; [exact (lookup_places _ _ _ _ _ _ _ _ _ D I)|exact R].
Qed.

Lemma beyond_gsub o f p v k j xs ys :
  bounded f -> reads o read_glyph_substitution f p v ->
  ((exists u, subtable_for o Substitution f p v k j u /\ replaces u xs ys) <->
   (exists q ty, subtable_for_at o Substitution f p k j q ty /\ readable o Substitution f q ty /\ replaces_at f q ty xs ys)).
Proof.
  intros B H. apply (request_reads RequestGsub o f p v B) in H. cbn in H. apply (beyond o Substitution f p v k j _ _ B); [|exact H].
  intros q ty u R. exact (substitution_means o ty f q u xs ys B R).
Qed.

Lemma beyond_gpos o f p v k j xs second c z :
  bounded f -> reads o read_glyph_positioning f p v ->
  ((exists u, subtable_for o Positioning f p v k j u /\ adjusts u xs second c z) <->
   (exists q ty, subtable_for_at o Positioning f p k j q ty /\ readable o Positioning f q ty /\
     adjusts_at f q ty xs second c z)).
Proof.
  intros B H. apply (request_reads RequestGpos o f p v B) in H. cbn in H. apply (beyond o Positioning f p v k j _ _ B); [|exact H].
  intros q ty u R. exact (adjustment_means o ty f q u xs second c z B R).
Qed.

Lemma beyond_gpos_anchors o f p v k j x y n a b :
  bounded f -> reads o read_glyph_positioning f p v ->
  ((exists u, subtable_for o Positioning f p v k j u /\ attaches u x y n a b) <->
   (exists q ty, subtable_for_at o Positioning f p k j q ty /\ readable o Positioning f q ty /\
     attaches_at o f q ty x y n a b)).
Proof.
  intros B H. apply (request_reads RequestGpos o f p v B) in H. cbn in H. apply (beyond o Positioning f p v k j _ _ B); [|exact H].
  intros q ty u R. exact (attachment_means o ty f q u x y n a b B R).
Qed.

Lemma beyond_gsub_rules o f p v k j before xs after actions :
  bounded f -> reads o read_glyph_substitution f p v ->
  ((exists u, subtable_for o Substitution f p v k j u /\ gsub_rule u before xs after actions) <->
   (exists q ty, subtable_for_at o Substitution f p k j q ty /\ readable o Substitution f q ty /\
     rule_of_at f q 5 ty before xs after actions)).
Proof.
  intros B H. apply (request_reads RequestGsub o f p v B) in H. cbn in H. apply (beyond o Substitution f p v k j _ _ B); [|exact H].
  intros q ty u R. apply (kind_reads _ _ _ _ _ _ B) in R. exact (gsub_rule_iff _ _ _ _ _ _ _ _ R).
Qed.

Lemma beyond_gpos_rules o f p v k j before xs after actions :
  bounded f -> reads o read_glyph_positioning f p v ->
  ((exists u, subtable_for o Positioning f p v k j u /\ gpos_rule u before xs after actions) <->
   (exists q ty, subtable_for_at o Positioning f p k j q ty /\ readable o Positioning f q ty /\
     rule_of_at f q 7 ty before xs after actions)).
Proof.
  intros B H. apply (request_reads RequestGpos o f p v B) in H. cbn in H. apply (beyond o Positioning f p v k j _ _ B); [|exact H].
  intros q ty u R. apply (kind_reads _ _ _ _ _ _ B) in R. exact (gpos_rule_iff _ _ _ _ _ _ _ _ _ R).
Qed.

Lemma beyond_gsub_reverse o f p v k j before x after y :
  bounded f -> reads o read_glyph_substitution f p v ->
  ((exists u, subtable_for o Substitution f p v k j u /\ gsub_reverse u before x after y) <->
   (exists q ty, subtable_for_at o Substitution f p k j q ty /\ readable o Substitution f q ty /\
     ty = 8 /\ replaces_between_at f q before x after y)).
Proof.
  intros B H. apply (request_reads RequestGsub o f p v B) in H. cbn in H. apply (beyond o Substitution f p v k j _ _ B); [|exact H].
  intros q ty u R. apply (kind_reads _ _ _ _ _ _ B) in R. exact (gsub_reverse_iff _ _ _ _ _ _ _ _ R).
Qed.

Lemma beyond_gpos_refines o f p v k j xs second c r :
  bounded f -> reads o read_glyph_positioning f p v ->
  ((exists u, subtable_for o Positioning f p v k j u /\ refines u xs second c r) <->
   (exists q ty, subtable_for_at o Positioning f p k j q ty /\ readable o Positioning f q ty /\
     refines_at f q ty xs second c r)).
Proof.
  intros B H. apply (request_reads RequestGpos o f p v B) in H. cbn in H. apply (beyond o Positioning f p v k j _ _ B); [|exact H].
  intros q ty u R. apply (kind_reads _ _ _ _ _ _ B) in R. exact (refines_iff _ _ _ _ _ _ _ _ _ R).
Qed.

Lemma font_beyond_gsub d o f p w q script language required feature k j xs ys :
  bounded f -> found_at f p (Tag "G" "S" "U" "B") q ->
  reads o (open_take d TableGlyphSubstitution read_glyph_substitution) f p w ->
  (taken_says w (fun v => enables v script language required feature k /\
     exists u, subtable_for o Substitution f q v k j u /\ replaces u xs ys) <->
   enables_at o f q script language required feature k /\
     exists r ty, subtable_for_at o Substitution f q k j r ty /\ readable o Substitution f r ty /\ replaces_at f r ty xs ys).
Proof.
  intros B F. apply (through_at _ _ TableGlyphSubstitution _ _ _ _ _ _ _ F). intros v R.
  rewrite (proj1 (enabled_means o f q script language required feature k B) v R).
  rewrite (beyond_gsub o f q v k j xs ys B R). reflexivity.
Qed.

Lemma font_beyond_gpos d o f p w q script language required feature k j xs second c z :
  bounded f -> found_at f p (Tag "G" "P" "O" "S") q ->
  reads o (open_take d TableGlyphPositioning read_glyph_positioning) f p w ->
  (taken_says w (fun v => enables v script language required feature k /\
     exists u, subtable_for o Positioning f q v k j u /\ adjusts u xs second c z) <->
   enables_at o f q script language required feature k /\
     exists r ty, subtable_for_at o Positioning f q k j r ty /\ readable o Positioning f r ty /\
       adjusts_at f r ty xs second c z).
Proof.
  intros B F. apply (through_at _ _ TableGlyphPositioning _ _ _ _ _ _ _ F). intros v R.
  rewrite (proj2 (enabled_means o f q script language required feature k B) v R).
  rewrite (beyond_gpos o f q v k j xs second c z B R). reflexivity.
Qed.
