(** Which glyphs lookups skip. *)

From Verif Require Import ReadsTactics ProofFindings ProofRequests ProofFlags.
From Verif Require Export SpecSkips ProofDetails ProofThrough.

Definition lookup_look (o : options) {T} (f : file) (q : N) (l : LookupRecord T) : Prop :=
  u16_at f (q + 2) (lookup_record_flags l) /\
  match lookup_record_mark_filtering_set l with
  | None => N.testbit (lookup_record_flags l) 4 = false
  | Some set => N.testbit (lookup_record_flags l) 4 = true /\ exists m, u16_at f (q + 4) m /\ u16_at f (q + 6 + 2 * m) set
  end.

Lemma lookup_looks {T} o (table_at : N -> file -> N -> T -> Prop) f q l :
  lookup_record_at o table_at f q l -> lookup_look o f q l.
Proof.
  destruct l as [ty flags m os set tables]. cbn. intros (_ & (Hf & _) & Hm & _ & S & _). split; [exact Hf|].
  cbn. destruct set as [set|]; [|exact S]. destruct S as (S & Hs). eauto.
Qed.

Lemma record_down {T} o (table_at : N -> file -> N -> T -> Prop) f p v k l :
  directory_at o table_at f p v -> entry (lookups_records (directory_lookups v)) k = Some l ->
  exists q, lookup_found_at o f p k q /\ lookup_look o f q l.
Proof.
  destruct v as [major minor so fo lo vo scripts features lookups variations]. cbn [directory_at].
  intros (_ & _ & _ & _ & _ & _ & Hl & _ & _ & _ & _ & L & _) Er. cbn in Er.
  destruct L as [(_ & _ & ->)|(Hz & L)]; [destruct (entry_nil _ _ Er)|].
  destruct lookups as [n offsets records]. cbn in L, Er. destruct L as (Hn & Ho & H).
  destruct (link_down _ _ _ _ _ _ _ _ _ Ho H Er) as (x & Hk & Hx & Hr). exists (p + lo + x).
  split; [exists lo, n, x; auto 10|]. exact (lookup_looks _ _ _ _ _ Hr).
Qed.

Lemma record_up {T} o (table_at : N -> file -> N -> T -> Prop) f p v k q :
  directory_at o table_at f p v -> lookup_found_at o f p k q ->
  exists l, entry (lookups_records (directory_lookups v)) k = Some l /\ lookup_look o f q l.
Proof.
  destruct v as [major minor so fo lo vo scripts features lookups variations]. cbn [directory_at].
  intros (_ & _ & _ & _ & _ & _ & Hl & _ & _ & _ & _ & L & _) (lo' & n' & x & Hl' & Hz & Hn' & Hk & Hx & ->).
  rewrite (u16_fun _ _ _ _ Hl' Hl) in *. destruct L as [(-> & I & _)|(_ & L)]; [destruct Hz; congruence|].
  destruct lookups as [n offsets records]. cbn in L. destruct L as (Hn & Ho & H).
  rewrite (u16_fun _ _ _ _ Hn' Hn) in Hk. destruct (link_up _ _ _ _ _ _ _ _ _ Ho H Hk Hx) as (r & Er & Hr).
  exists r. split; [exact Er|]. exact (lookup_looks _ _ _ _ _ Hr).
Qed.

Lemma filtered_iff {T} o f q (l : LookupRecord T) (P Q : N -> Prop) :
  lookup_look o f q l -> (forall set, P set <-> Q set) ->
  ((exists set, lookup_record_mark_filtering_set l = Some set /\ P set) <->
   (N.testbit (lookup_record_flags l) 4 = true /\ exists m set, u16_at f (q + 4) m /\ u16_at f (q + 6 + 2 * m) set /\ Q set)).
Proof.
  intros (_ & L) E. destruct (lookup_record_mark_filtering_set l) as [set|].
  - destruct L as (T4 & m & Hm & Hs). split.
    + intros (s & [= <-] & H). split; [exact T4|]. exists m, set. do 2 (split; [assumption|]). apply E, H.
    + intros (_ & m' & s & Hm' & Hs' & H). rewrite (u16_fun _ _ _ _ Hm' Hm) in *. rewrite (u16_fun _ _ _ _ Hs' Hs) in *.
      exists set. split; [reflexivity|]. apply E, H.
  - split; [intros (s & X & _); discriminate X|]. intros (X & _). congruence.
Qed.

Lemma skips_iff {T} o (table_at : N -> file -> N -> T -> Prop) f p v pd d k g :
  directory_at o table_at f p v -> bounded f -> reads o read_glyph_definition f pd d ->
  (skips v d k g <-> skips_at o f p pd k g).
Proof.
  intros D B R. destruct (gdef_means o f pd d B R) as (C & _ & M & S).
  assert (G : forall q (l : LookupRecord T), lookup_look o f q l ->
    (((defined_class (glyph_definition_glyph_class d) g 1 /\ should_ignore_base_glyphs (lookup_record_flags l) = true) \/
      (defined_class (glyph_definition_glyph_class d) g 2 /\ should_ignore_ligature (lookup_record_flags l) = true) \/
      (defined_class (glyph_definition_glyph_class d) g 3 /\
        (should_ignore_marks (lookup_record_flags l) = true \/
         (exists set, lookup_record_mark_filtering_set l = Some set /\ ~ gathered d set g) \/
         (lookup_record_flags l / 256 <> 0 /\ ~ defined_class (glyph_definition_mark_class d) g (lookup_record_flags l / 256))))) <->
     ((defined_class_at f pd 0 g 1 /\ N.testbit (lookup_record_flags l) 1 = true) \/
      (defined_class_at f pd 0 g 2 /\ N.testbit (lookup_record_flags l) 2 = true) \/
      (defined_class_at f pd 0 g 3 /\
        (N.testbit (lookup_record_flags l) 3 = true \/
         (N.testbit (lookup_record_flags l) 4 = true /\ exists m set,
           u16_at f (q + 4) m /\ u16_at f (q + 6 + 2 * m) set /\ ~ gathered_at f pd set g) \/
         (lookup_record_flags l / 256 <> 0 /\ ~ defined_class_at f pd 3 g (lookup_record_flags l / 256))))))).
  { intros q l L. destruct (flag_bits (lookup_record_flags l)) as (_ & E1 & E2 & E3 & _). rewrite E1, E2, E3.
    rewrite (C g 1), (C g 2), (C g 3), (M g (lookup_record_flags l / 256)).
    rewrite (filtered_iff o f q l _ (fun set => ~ gathered_at f pd set g) L (fun set => not_iff_compat (S set g))). reflexivity. }
  split.
  - intros (l & E & H). destruct (record_down _ _ _ _ _ _ _ D E) as (q & F & L). exists q, (lookup_record_flags l).
    split; [exact F|]. split; [exact (proj1 L)|]. apply (G q l L), H.
  - intros (q & flags & F & Hf & H). destruct (record_up _ _ _ _ _ _ _ D F) as (l & E & L).
    rewrite (u16_fun _ _ _ _ Hf (proj1 L)) in H. exists l. split; [exact E|]. apply (G q l L), H.
Qed.

Lemma gsub_skips o f p v pd d k g :
  bounded f -> reads o read_glyph_substitution f p v -> reads o read_glyph_definition f pd d ->
  (skips v d k g <-> skips_at o f p pd k g).
Proof. intros B H. apply (request_reads RequestGsub o f p v B) in H. cbn in H. exact (skips_iff _ _ _ _ _ _ _ _ _ H B). Qed.

Lemma gpos_skips o f p v pd d k g :
  bounded f -> reads o read_glyph_positioning f p v -> reads o read_glyph_definition f pd d ->
  (skips v d k g <-> skips_at o f p pd k g).
Proof. intros B H. apply (request_reads RequestGpos o f p v B) in H. cbn in H. exact (skips_iff _ _ _ _ _ _ _ _ _ H B). Qed.

(** Two tables of a font. *)
Lemma font_gsub_skips ds o f p w u k g :
  bounded f -> reads o (open_take ds TableGlyphSubstitution read_glyph_substitution) f p w ->
  reads o (open_take ds TableGlyphDefinition read_glyph_definition) f p u ->
  (taken_says w (fun v => taken_says u (fun d => skips v d k g)) <->
   font_says f p (Tag "G" "S" "U" "B") (fun q => font_says f p (Tag "G" "D" "E" "F") (fun r => skips_at o f q r k g))).
Proof.
  intros B H U. revert H. apply through. intros q v R. revert U.
  apply (through ds o TableGlyphDefinition). intros r d D. exact (gsub_skips o f q v r d k g B R D).
Qed.

Lemma font_gpos_skips ds o f p w u k g :
  bounded f -> reads o (open_take ds TableGlyphPositioning read_glyph_positioning) f p w ->
  reads o (open_take ds TableGlyphDefinition read_glyph_definition) f p u ->
  (taken_says w (fun v => taken_says u (fun d => skips v d k g)) <->
   font_says f p (Tag "G" "P" "O" "S") (fun q => font_says f p (Tag "G" "D" "E" "F") (fun r => skips_at o f q r k g))).
Proof.
  intros B H U. revert H. apply through. intros q v R. revert U.
  apply (through ds o TableGlyphDefinition). intros r d D. exact (gpos_skips o f q v r d k g B R D).
Qed.
