(** Subtables that fit their fields are read, whatever their coverages are. *)

From Verif Require Import ProofRequests ProofReads ProofWriter ProofWritten.
From Verif Require Export SpecEntries SpecFits SpecShape SpecErase Writer Written Samples ProofNull.

(** A table with one lookup of one subtable. *)
Definition only {T} (ty : N) (t : T) : Directory T :=
  mkDirectory 1 0 0 0 0 0 (mkScripts 0 [] []) (mkFeatures 0 [] [])
    (mkLookups 1 [0] [mkLookupRecord ty 0 1 [0] None [t]]) None.

Lemma only_fits {T} o (P : T -> Prop) ty t : u16 ty -> P t -> directory_fits o P (only ty t).
Proof.
  intros Hty Ht. cbn. split; [split; [reflexivity|constructor]|]. split; [split; [reflexivity|constructor]|].
  split; [|constructor]. split; [reflexivity|]. constructor; [|constructor].
  split; [exact Hty|]. split; [split; [reflexivity|intros _; reflexivity]|]. split; [reflexivity|].
  split; [exact I|]. constructor; [exact Ht|constructor].
Qed.

Lemma only_wf {T} (P : N -> T -> Prop) ty t : P ty t -> directory_wf P (only ty t).
Proof.
  intros Ht. cbn. split; [reflexivity|]. split; [left; reflexivity|].
  split; [split; [reflexivity|]; split; [reflexivity|constructor]|].
  split; [split; [reflexivity|]; split; [reflexivity|constructor]|].
  split.
  - split; [reflexivity|]. split; [reflexivity|]. constructor; [|constructor].
    split; [reflexivity|]. split; [reflexivity|]. split; [split; reflexivity|]. constructor; [exact Ht|constructor].
  - split; [split; reflexivity|]. split; [exact I|reflexivity].
Qed.

Lemma size_block ps : size (block ps) = width ps + span ps.
Proof. unfold block. rewrite size_app, size_front, size_back. reflexivity. Qed.

Lemma only_size {T} (enc : T -> list byte) ty t : size (directory_bytes enc (only ty t)) = 26 + size (enc t).
Proof.
  unfold only, directory_bytes, lookups_bytes, lookup_record_bytes, scripts_bytes, features_bytes.
  rewrite size_block. cbn -[size block be16]. rewrite !size_block. cbn -[size block be16].
  rewrite ?size_block. cbn -[size block be16]. unfold w16, tagged, links, size, be16. cbn. rewrite size_block. cbn [width span]. unfold size. cbn [length]. lia.
Qed.

Lemma only_erased {T} (erase : T -> T) ty t w :
  directory_erase erase w = directory_erase erase (only ty t) ->
  exists u, has_subtable w u /\ erase u = erase t.
Proof.
  destruct w as [a0 a1 s g l x scripts features [n offsets records] variations]. cbn. intros E.
  injection E as _ _ _ _ _ Er _.
  destruct records as [|[ty' fl m os set tables] [|]]; try discriminate Er. cbn in Er.
  injection Er as _ _ _ _ Et. destruct tables as [|u [|]]; try discriminate Et. injection Et as Eu.
  exists u. split; [|exact Eu]. exists (mkLookupRecord ty' fl m os set [u]). split; left; reflexivity.
Qed.

Lemma gsub_any o ty t :
  u16 ty -> gsub_type_fits t -> gsub_type_wf ty t -> size (gsub_type_bytes t) <= 65500 ->
  exists l v u, bounded (file_of l) /\ reads o read_glyph_substitution (file_of l) 0 v /\ has_subtable v u /\
    gsub_type_erase u = gsub_type_erase t.
Proof.
  intros Hty Hf Hw Hs. set (v := only ty t).
  assert (R : in_range o RequestGsub v) by exact (only_fits o _ ty t Hty Hf).
  assert (W : well_formed o RequestGsub v) by exact (only_wf _ ty t Hw).
  assert (S : writable RequestGsub v).
  { cbn [writable]. unfold glyph_substitution_bytes, v. rewrite only_size. lia. }
  assert (B := written_bounded RequestGsub o v R W S).
  destruct (written_reads RequestGsub o _ 0 v B R W S (bytes_at_file _)) as (w & H & E).
  destruct (only_erased _ ty t w E) as (u & Hu & Eu). exists (written RequestGsub v), w, u. auto.
Qed.

Lemma gpos_any o ty t :
  u16 ty -> gpos_type_fits o t -> gpos_type_wf o ty t -> size (gpos_type_bytes t) <= 65500 ->
  exists l v u, bounded (file_of l) /\ reads o read_glyph_positioning (file_of l) 0 v /\ has_subtable v u /\
    gpos_type_erase u = gpos_type_erase t.
Proof.
  intros Hty Hf Hw Hs. set (v := only ty t).
  assert (R : in_range o RequestGpos v) by exact (only_fits o _ ty t Hty Hf).
  assert (W : well_formed o RequestGpos v) by exact (only_wf _ ty t Hw).
  assert (S : writable RequestGpos v).
  { cbn [writable]. unfold glyph_positioning_bytes, v. rewrite only_size. lia. }
  assert (B := written_bounded RequestGpos o v R W S).
  destruct (written_reads RequestGpos o _ 0 v B R W S (bytes_at_file _)) as (w & H & E).
  destruct (only_erased _ ty t w E) as (u & Hu & Eu). exists (written RequestGpos v), w, u. auto.
Qed.

(** Offsets make no difference to what is compared. *)
Lemma gsub_balanced_erase t : gsub_balanced (gsub_type_erase t) <-> gsub_balanced t.
Proof.
  unfold gsub_balanced, balanced.
  destruct t as [[[]|[]]|[]|[]|[]|[[]|[]|[]]|[[]|[]|[]]|[]|[]]; cbn;
    (split; intros H m x c; intros En Ec; try discriminate En; try discriminate Ec;
     injection En as <-; injection Ec as _ <-; exact (H _ _ _ eq_refl eq_refl)).
Qed.

Lemma gpos_balanced_erase t : gpos_balanced (gpos_type_erase t) <-> gpos_balanced t.
Proof.
  unfold gpos_balanced, balanced.
  destruct t as [[[]|[]]|[[]|[]]|[]|[? ? ? ? ? ? ? ? [] []]|[? ? ? ? ? ? ? ? [] []]|[? ? ? ? ? ? ? ? [] []]
    |[[]|[]|[]]|[[]|[]|[]]|[]]; cbn;
    (split; intros [H H']; split; intros m x c; intros En Ec; try discriminate En; try discriminate Ec;
     injection En as <-; injection Ec as _ <-;
     try exact (H _ _ _ eq_refl eq_refl); exact (H' _ _ _ eq_refl eq_refl)).
Qed.

Lemma mark1s_erase_classes v :
  map mark1_class_id (mark1s_records (mark1s_erase v)) = map mark1_class_id (mark1s_records v).
Proof. destruct v as [n records]. cbn. rewrite map_map. apply map_ext. intros []. reflexivity. Qed.

Lemma classes_known_map t :
  classes_known t <-> (forall n k, mark_classes t = Some n -> In k (map mark1_class_id (marks_of t)) -> k < n).
Proof.
  split.
  - intros H n k Hn Hk. apply in_map_iff in Hk as (m & <- & Hm). exact (H n m Hn Hm).
  - intros H n m Hn Hm. apply (H n _ Hn). apply in_map, Hm.
Qed.

Lemma classes_known_erase t : classes_known (gpos_type_erase t) <-> classes_known t.
Proof.
  rewrite !classes_known_map.
  assert (Ec : mark_classes (gpos_type_erase t) = mark_classes t)
    by (destruct t as [[[]|[]]|[[]|[]]|[]|[]|[]|[]|[[]|[]|[]]|[[]|[]|[]]|[]]; reflexivity).
  assert (Em : map mark1_class_id (marks_of (gpos_type_erase t)) = map mark1_class_id (marks_of t)).
  { destruct t as [[[]|[]]|[[]|[]]|[]|[]|[]|[]|[[]|[]|[]]|[[]|[]|[]]|[]]; try reflexivity;
      cbn; apply mark1s_erase_classes. }
  rewrite Ec, Em. tauto.
Qed.

Lemma gsub_unbalanced o ty t :
  u16 ty -> gsub_type_fits t -> gsub_type_wf ty t -> size (gsub_type_bytes t) <= 65500 ->
  exists l v u, bounded (file_of l) /\ reads o read_glyph_substitution (file_of l) 0 v /\ has_subtable v u /\
    gsub_type_erase u = gsub_type_erase t /\ (gsub_balanced u <-> gsub_balanced t).
Proof.
  intros Hty Hf Hw Hs. destruct (gsub_any o ty t Hty Hf Hw Hs) as (l & v & u & B & R & Hu & E).
  exists l, v, u. split; [exact B|]. split; [exact R|]. split; [exact Hu|]. split; [exact E|].
  rewrite <- (gsub_balanced_erase u), E. apply gsub_balanced_erase.
Qed.

Lemma gpos_unbalanced o ty t :
  u16 ty -> gpos_type_fits o t -> gpos_type_wf o ty t -> size (gpos_type_bytes t) <= 65500 ->
  exists l v u, bounded (file_of l) /\ reads o read_glyph_positioning (file_of l) 0 v /\ has_subtable v u /\
    gpos_type_erase u = gpos_type_erase t /\ (gpos_balanced u <-> gpos_balanced t) /\
    (classes_known u <-> classes_known t).
Proof.
  intros Hty Hf Hw Hs. destruct (gpos_any o ty t Hty Hf Hw Hs) as (l & v & u & B & R & Hu & E).
  exists l, v, u. split; [exact B|]. split; [exact R|]. split; [exact Hu|]. split; [exact E|]. split.
  - rewrite <- (gpos_balanced_erase u), E. apply gpos_balanced_erase.
  - rewrite <- (classes_known_erase u), E. apply classes_known_erase.
Qed.

Lemma size_flat_be16 l : size (flat_map be16 l) = 2 * N.of_nat (length l).
Proof. unfold size. induction l as [|x l IH]; [reflexivity|]. cbn [flat_map]. rewrite app_length. unfold be16 at 1. cbn [length]. lia. Qed.

(** Any substitutes for any glyphs. *)
Lemma substitutes_any o gs ids :
  Forall u16 gs -> Forall u16 ids -> N.of_nat (length gs + length ids) <= 32000 ->
  exists l v x n m, bounded (file_of l) /\ reads o read_glyph_substitution (file_of l) 0 v /\
    has_subtable v (GsubSingleSubstitution (SingleSubstitutionFormat2
      (mkSingleSubstitution2 2 x m ids (CoverageFormat1 (mkCoverage1 1 n gs))))).
Proof.
  intros Hg Hi Hn. set (n := N.of_nat (length gs)). set (m := N.of_nat (length ids)).
  assert (Hn' : n + m <= 32000) by (unfold n, m; lia).
  set (t := GsubSingleSubstitution (SingleSubstitutionFormat2
    (mkSingleSubstitution2 2 0 m ids (CoverageFormat1 (mkCoverage1 1 n gs))))).
  destruct (gsub_any o 1 t) as (l & v & u & B & R & Hu & E).
  - reflexivity.
  - cbn. unfold u16. repeat split; try assumption; lia.
  - cbn. repeat split; reflexivity.
  - cbn [gsub_type_bytes single_substitution_bytes t]. rewrite size_block. cbn [width span coverage_bytes].
    unfold w16, ws16. cbn [width span].
    rewrite !size_app, !size_flat_be16. unfold size, be16. cbn [length]. fold n m. lia.
  - destruct u as [[[]|[]]|[]|[]|[]|[]|[]|[]|[]]; cbn in E; try discriminate E.
    injection E as -> -> -> ->. eauto 10.
Qed.

(** A mark of any class where there are any number of classes. *)
Lemma classes_any o n k :
  u16 n -> u16 k ->
  exists l v t m, bounded (file_of l) /\ reads o read_glyph_positioning (file_of l) 0 v /\ has_subtable v t /\
    mark_classes t = Some n /\ In m (marks_of t) /\ mark1_class_id m = k.
Proof.
  intros Hn Hk.
  set (t := GposMarkToBaseAttachment (mkMarkToBaseAttachment 1 0 0 n 0 0 (CoverageFormat1 (mkCoverage1 1 1 [40]))
    (CoverageFormat1 (mkCoverage1 1 0 [])) (mkMark1s 1 [mkMark1 k 1 (AnchorFormat1 (mkAnchor1 1 3 4))])
    (mkBases 0 []))).
  destruct (gpos_any o 4 t) as (l & v & u & B & R & Hu & E).
  - reflexivity.
  - cbn. unfold u16, i16 in *. repeat split; repeat constructor; try reflexivity; try assumption; try discriminate.
  - cbn. repeat split; repeat constructor; try reflexivity; try discriminate.
  - vm_compute. discriminate.
  - destruct u as [[[]|[]]|[[]|[]]|[]|[? ? ? ? ? ? ? ? [? records] ?]|[]|[]|[[]|[]|[]]|[[]|[]|[]]|[]];
      cbn in E; try discriminate E.
    injection E as _ -> _ _ _ Er _.
    destruct records as [|[class offset anchor] [|]]; try discriminate Er. cbn in Er. injection Er as -> _.
    eexists l, v, _, _. split; [exact B|]. split; [exact R|]. split; [exact Hu|]. split; [reflexivity|].
    split; [left; reflexivity|reflexivity].
Qed.

(** Three glyphs with one substitute. *)
Definition scarce_words : list N := lookup_words 1 [2; 8; 1; 77;  1; 3; 5; 6; 7].

Definition scarce_substitution : GsubType :=
  GsubSingleSubstitution (SingleSubstitutionFormat2
    (mkSingleSubstitution2 2 8 1 [77] (CoverageFormat1 (mkCoverage1 1 3 [5; 6; 7])))).

Lemma scarce_read :
  bounded (words scarce_words) /\
  reads debug_build read_glyph_substitution (words scarce_words) 0 (lookup_table 1 scarce_substitution).
Proof. split; [apply file_of_bounded; vm_compute; discriminate|]. eexists. vm_compute. reflexivity. Qed.

Lemma lookup_has {T} type_ (t : T) : has_subtable (lookup_table type_ t) t.
Proof. exists (mkLookupRecord type_ 0 1 [8] None [t]). split; left; reflexivity. Qed.

(** A mark of class 5 where there is one class, and a base without anchors. *)
Definition stray_words : list N :=
  lookup_words 4 [1; 12; 18; 1; 24; 36;  1; 1; 40;  1; 1; 50;  1; 5; 6;  1; 3; 4;  0].

Definition stray_marks : GposType :=
  GposMarkToBaseAttachment (mkMarkToBaseAttachment 1 12 18 1 24 36 (CoverageFormat1 (mkCoverage1 1 1 [40]))
    (CoverageFormat1 (mkCoverage1 1 1 [50])) (mkMark1s 1 [mkMark1 5 6 (AnchorFormat1 (mkAnchor1 1 3 4))])
    (mkBases 0 [])).

Lemma stray_read :
  bounded (words stray_words) /\
  reads debug_build read_glyph_positioning (words stray_words) 0 (lookup_table 4 stray_marks).
Proof. split; [apply file_of_bounded; vm_compute; discriminate|]. eexists. vm_compute. reflexivity. Qed.

Lemma substitution_not_balanced :
  ~ forall o f p v t, bounded f -> reads o read_glyph_substitution f p v -> has_subtable v t -> gsub_balanced t.
Proof.
  intros H. destruct scarce_read as [B R].
  assert (K := H _ _ _ _ _ B R (lookup_has 1 scarce_substitution) _ _ _ eq_refl eq_refl). discriminate K.
Qed.

Lemma positioning_not_balanced :
  ~ forall o f p v t, bounded f -> reads o read_glyph_positioning f p v -> has_subtable v t -> gpos_balanced t.
Proof.
  intros H. destruct stray_read as [B R].
  destruct (H _ _ _ _ _ B R (lookup_has 4 stray_marks)) as [_ K]. specialize (K _ _ _ eq_refl eq_refl). discriminate K.
Qed.

Lemma classes_not_known :
  ~ forall o f p v t, bounded f -> reads o read_glyph_positioning f p v -> has_subtable v t -> classes_known t.
Proof.
  intros H. destruct stray_read as [B R].
  assert (K := H _ _ _ _ _ B R (lookup_has 4 stray_marks) _ _ eq_refl (or_introl eq_refl)). discriminate K.
Qed.

(** Ranges count for all their glyphs. *)
Definition ranges : Coverage := CoverageFormat2 (mkCoverage2 2 2 [mkCoverageRecord 10 12 0; mkCoverageRecord 20 20 3]).

Definition even_substitution : GsubType :=
  GsubSingleSubstitution (SingleSubstitutionFormat2 (mkSingleSubstitution2 2 0 4 [1; 2; 3; 4] ranges)).

Lemma even_balanced : gsub_balanced even_substitution.
Proof. intros n x c En Ec. injection En as <-. injection Ec as _ <-. reflexivity. Qed.

Definition tidy_anchor : Anchor := AnchorFormat1 (mkAnchor1 1 3 4).

Definition tidy_marks : GposType :=
  GposMarkToBaseAttachment (mkMarkToBaseAttachment 1 0 0 2 0 0 (CoverageFormat1 (mkCoverage1 1 2 [40; 41]))
    (CoverageFormat2 (mkCoverage2 2 1 [mkCoverageRecord 50 51 0]))
    (mkMark1s 2 [mkMark1 1 1 tidy_anchor; mkMark1 0 1 tidy_anchor])
    (mkBases 2 [mkBase [1; 0] [Some tidy_anchor; None]; mkBase [1; 1] [Some tidy_anchor; Some tidy_anchor]])).

Lemma tidy_known :
  gpos_balanced tidy_marks /\ classes_known tidy_marks /\
  u16 4 /\ gpos_type_fits debug_build tidy_marks /\ gpos_type_wf debug_build 4 tidy_marks /\
  size (gpos_type_bytes tidy_marks) <= 65500.
Proof.
  split.
  { split; intros n x c En Ec; injection En as <-; injection Ec as _ <-; reflexivity. }
  split.
  { intros n m En [<-|[<-|[]]]; injection En as <-; reflexivity. }
  split; [reflexivity|]. split.
  { cbn. unfold u16, i16. repeat split; repeat constructor; cbn; try reflexivity; try discriminate;
      repeat constructor; try reflexivity; try discriminate. }
  split.
  { cbn. repeat split; repeat constructor; cbn; try reflexivity; try discriminate. }
  vm_compute. discriminate.
Qed.
