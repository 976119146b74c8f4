(** A font with four tables laid out as the OpenType specification prescribes (C81). *)

From Verif Require Import ProofOpen ProofConform ProofStandard.
From Verif Require Export Samples SpecSupport SpecOpen.
From Coq Require Import NArith Lia List.
Local Open Scope N_scope.

(** A class, a value of two components, a substitution, and a hidden axis. *)
Definition four_gdef : list byte := flat_map be16 [1; 0; 12; 0; 0; 0; 1; 5; 2; 1; 3].
Definition four_gpos : list byte :=
  flat_map be16 [1; 0; 10; 12; 14; 0; 0; 1; 4; 1; 0x1A; 1; 10; 5; 1; 10; 5; 65533; 7; 1; 1; 9].
Definition four_gsub : list byte := flat_map be16 [1; 0; 10; 12; 14; 0; 0; 1; 4; 1; 0; 1; 8; 1; 6; 3; 1; 1; 5].
Definition four_fvar : list byte :=
  flat_map be16 [1; 0; 16; 2; 1; 20; 0; 10; 0x7767; 0x6874; 1; 0; 2; 0; 3; 0; 1; 256].

Definition four_records : list OffsetRecord :=
  [mkOffsetRecord (Tag "G" "D" "E" "F") 1245190 76 22; mkOffsetRecord (Tag "G" "P" "O" "S") 5242917 100 44;
   mkOffsetRecord (Tag "G" "S" "U" "B") 3211284 144 38; mkOffsetRecord (Tag "f" "v" "a" "r") 2004904340 184 36].

Definition four_bytes : list byte :=
  tag_bytes (Tag "O" "T" "T" "O") ++ be16 4 ++ be16 64 ++ be16 2 ++ be16 0 ++
  flat_map record_bytes four_records ++ four_gdef ++ be16 0 ++ four_gpos ++ four_gsub ++ be16 0 ++ four_fvar.


Definition four_file : file := file_of four_bytes.

Lemma four_bounded : bounded four_file.
Proof. apply file_of_bounded. vm_compute. discriminate. Qed.

Lemma four_opened :
  bounded four_file /\ font_in (truetype_accept sample_deps) four_file 0 4 /\
  (forall s, In s four_records -> lists four_file 0 4 (offset_record_tag s) s /\
    record_checksum sample_deps four_file s = Ok (offset_record_checksum s)) /\
  (exists v, std_glyph_definition_at four_file 76 v /\
    (forall o, supported_glyph_definition o four_file 76 v) /\
    glyph_definition_glyph_class v = Some (ClassFormat1 (mkClass1 1 5 2 [1; 3]))) /\
  (exists v, std_glyph_positioning_at four_file 100 v /\ supported_directory supported_gpos_type v /\
    map lookup_record_mark_filtering_set (lookups_records (directory_lookups v)) = [Some 5]) /\
  (exists v, std_glyph_substitution_at four_file 144 v /\
    map lookup_record_tables (lookups_records (directory_lookups v)) =
      [[GsubSingleSubstitution (SingleSubstitutionFormat1
        (mkSingleSubstitution1 1 6 3 (CoverageFormat1 (mkCoverage1 1 1 [5]))))]]) /\
  (exists v, std_font_variations_at four_file 184 v /\
    map axis_record_tag (font_variations_axis_records v) = [Tag "w" "g" "h" "t"]).
Proof.
  assert (R : exists q, read_file sample_deps (mkEnv four_file debug_build) 0 = Ok (mkFile [mkFont
    (mkOffsets (mkOffsetsHeader (Tag "O" "T" "T" "O") 4 64 2 0) four_records)], q))
    by (eexists; vm_compute; reflexivity).
  assert (Ho : offsets_at four_file 0 (mkOffsets (mkOffsetsHeader (Tag "O" "T" "T" "O") 4 64 2 0) four_records)).
  { apply (proj1 (file_exactly sample_deps debug_build four_file 0)) in R as (offsets & E & _ & _ & H).
    injection E as <-. exact H. }
  split; [exact four_bounded|]. split.
  { destruct (file_or_error sample_deps debug_build four_file 0) as [(offsets & q & E & _ & H)|[[x E] _]].
    - destruct R as [q' R]. rewrite R in E. injection E as <- _. exact H.
    - destruct R as [q' R]. congruence. }
  split.
  { intros s [<-|[<-|[<-|[<-|[]]]]]; (split; [|vm_compute; reflexivity]);
      apply (proj2 (directory_lists four_file 0 _ _ _ Ho)); cbn [offsets_records].
    - exists 0%nat. repeat split. intros [|j] r Hj; lia.
    - exists 1%nat. repeat split. intros [|[|j]] r Hj; [intros [= <-]; discriminate|lia..].
    - exists 2%nat. repeat split. intros [|[|[|j]]] r Hj; [intros [= <-]; discriminate..|lia|lia].
    - exists 3%nat. repeat split. intros [|[|[|[|j]]]] r Hj; [intros [= <-]; discriminate..|lia|lia]. }
  assert (forall A (r : request A) p (P : A -> Prop),
    match reader r (mkEnv four_file debug_build) p with Ok (v, _) => P v | _ => False end ->
    exists v, reads debug_build (reader r) four_file p v /\ P v) as read.
  { intros A r p P H. destruct (reader r (mkEnv four_file debug_build) p) as [[v q]|x|] eqn:E; [|destruct H..].
    exists v. split; [exists q; exact E|exact H]. }
  repeat apply conj.
  - destruct (read _ RequestGdef 76 (fun v => ((given supported_gdef_ligatures (glyph_definition_ligatures v) /\
       glyph_definition_variations v = None /\
       gdef_variation_offset (glyph_definition_header v) =
       standard_variation_offset (glyph_definition_header v)) /\ strict_glyph_definition v) /\
       glyph_definition_glyph_class v = Some (ClassFormat1 (mkClass1 1 5 2 [1; 3]))))
      as (v & Hr & ((Hs & Hv & He) & Ht) & H); [settle|].
    exists v. assert (forall o, supported_glyph_definition o four_file 76 v) as S.
    { intros o. destruct v as [header gc at_ li mc ma va]. cbn in Hs, Hv, He. subst va.
      split; [exact Hs|]. split; [exact I|]. rewrite He. reflexivity. }
    split; [|split; [exact S|exact H]].
    apply (proj2 (gdef_standard debug_build _ 76 v four_bounded) Hr (S _)), Ht.
  - destruct (read _ RequestGpos 100 (fun v => (supported_directory supported_gpos_type v /\
        strict_directory strict_gpos_type v) /\
        map lookup_record_mark_filtering_set (lookups_records (directory_lookups v)) = [Some 5]))
      as (v & Hr & (Hs & Ht) & H); [settle|].
    exists v. split; [|split; assumption].
    apply (proj2 (gpos_standard debug_build _ 100 v four_bounded) Hr Hs), Ht.
  - destruct (read _ RequestGsub 144 (fun v => (supported_features (directory_features v) /\
        strict_directory strict_gsub_type v) /\
        map lookup_record_tables (lookups_records (directory_lookups v)) =
      [[GsubSingleSubstitution (SingleSubstitutionFormat1
        (mkSingleSubstitution1 1 6 3 (CoverageFormat1 (mkCoverage1 1 1 [5]))))]]))
      as (v & Hr & (Hs & Ht) & H); [settle|].
    exists v. split; [|assumption].
    apply (proj2 (gsub_standard debug_build _ 144 v four_bounded) Hr Hs), Ht.
  - destruct (read _ RequestFvar 184 (fun v => strict_font_variations v /\
        map axis_record_tag (font_variations_axis_records v) = [Tag "w" "g" "h" "t"]))
      as (v & Hr & Ht & H); [settle|].
    exists v. split; [|assumption].
    apply (proj2 (fvar_standard debug_build _ 184 v four_bounded) Hr), Ht.
Qed.
