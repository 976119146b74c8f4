(** Parts at the same address are equal. *)

From Verif Require Export SpecSharing SpecBuilds Requests Encode.
From Verif Require Import Reads ReadsTactics ProofLayout ProofGpos ProofGsub ProofRequests.

Lemma linked_paired {A} (elem : N -> A -> Prop) base offsets l a x :
  linked_at elem base offsets l -> paired offsets l a x -> elem (base + a) x.
Proof.
  intros H (i & Ha & Hx). revert i Ha Hx.
  induction H as [|o v os vs Ho Hl IH]; intros [|i] Ha Hx; cbn in *; try discriminate.
  - congruence.
  - eauto.
Qed.

Lemma linked_map {A B} (elem : N -> A -> Prop) (offset : B -> N) base headers l h x :
  linked_at elem base (map offset headers) l -> paired headers l h x -> elem (base + offset h) x.
Proof.
  intros H (i & Hh & Hx). eapply linked_paired; [exact H|]. exists i.
  split; [|exact Hx]. rewrite nth_error_map, Hh. reflexivity.
Qed.

Lemma script_address f p v a r :
  scripts_at f p v -> script_in v a r -> script_record_at f (p + a) r.
Proof.
  destruct v as [n headers records]. intros (_ & _ & H) (h & Hh & ->).
  eapply linked_map in H; eauto.
Qed.

Lemma language_address f p v a r :
  scripts_at f p v -> language_in v a r -> language_record_at f (p + a) r.
Proof.
  intros H (s & b & c & Hs & Hc & ->).
  pose proof (script_address _ _ _ _ _ H Hs) as Hat.
  rewrite N.add_assoc. destruct s as [d n headers dr records].
  destruct Hat as (_ & _ & _ & Hd & Hl).
  destruct Hc as [[Hc ->]|(h & Hh & ->)]; cbn in *.
  - rewrite Hc in Hd. apply Hd.
  - eapply linked_map in Hl; eauto.
Qed.

Lemma feature_address f p v a r :
  features_at f p v -> feature_in v a r -> feature_record_at f (p + a) r.
Proof.
  destruct v as [n headers records]. intros (_ & _ & H) (h & Hh & ->).
  eapply linked_map in H; eauto.
Qed.

Lemma lookup_address {T} o (table_at : N -> file -> N -> T -> Prop) f p v a r :
  lookups_at o table_at f p v -> lookup_in v a r -> lookup_record_at o table_at f (p + a) r.
Proof.
  destruct v as [n offsets records]. intros (_ & _ & H) Hh. eapply linked_paired in H; eauto.
Qed.

Lemma subtable_address {T} o (table_at : N -> file -> N -> T -> Prop) f p v type_ a t :
  lookups_at o table_at f p v -> subtable_in v type_ a t -> table_at type_ f (p + a) t.
Proof.
  intros H (r & b & c & Hr & <- & Hc & ->).
  pose proof (lookup_address _ _ _ _ _ _ _ H Hr) as Hat.
  rewrite N.add_assoc. destruct r as [ty fl n offsets set tables].
  destruct Hat as (_ & _ & _ & _ & _ & Hl). cbn in *. eapply linked_paired in Hl; eauto.
Qed.

Lemma directory_sharing {T} (read_table : N -> M T) o (table_at : N -> file -> N -> T -> Prop) f p v :
  bounded f ->
  (forall t q, finds False (read_table t) (mkEnv f o) q (table_at t f q)) ->
  directory_at o table_at f p v -> shared_directory v.
Proof.
  intros B Ht. destruct v as [a0 a1 s t l x scripts features lookups variations].
  intros (_ & _ & _ & _ & _ & _ & _ & _ & _ & Hs & Hf & Hl & _).
  assert (Es : exists q, scripts_at f q scripts \/ scripts = mkScripts 0 [] []).
  { destruct Hs as [(_ & _ & Hs)|[_ Hs]]; [exists 0; auto|eauto]. }
  assert (Ef : exists q, features_at f q features \/ features = mkFeatures 0 [] []).
  { destruct Hf as [(_ & _ & Hf)|[_ Hf]]; [exists 0; auto|eauto]. }
  assert (El : exists q, lookups_at o table_at f q lookups \/ lookups = mkLookups 0 [] []).
  { destruct Hl as [(_ & _ & Hl)|[_ Hl]]; [exists 0; auto|eauto]. }
  clear Hs Hf Hl. destruct Es as [qs Es], Ef as [qf Ef], El as [ql El].
  unfold shared_directory, shared; cbn.
  split; [|split; [|split; [|split]]].
  - intros a y z Hy Hz. destruct Es as [Es| ->].
    + refine (finds_functional False read_script_record (mkEnv f o) (qs + a) _ y z _
        (script_address _ _ _ _ _ Es Hy) (script_address _ _ _ _ _ Es Hz)).
      apply read_script_record_finds; exact B.
    + destruct Hy as (h & (i & Hh & _) & _). destruct i; discriminate.
  - intros a y z Hy Hz. destruct Es as [Es| ->].
    + refine (finds_functional False read_language_record (mkEnv f o) (qs + a) _ y z _
        (language_address _ _ _ _ _ Es Hy) (language_address _ _ _ _ _ Es Hz)).
      apply read_language_record_finds; exact B.
    + destruct Hy as (r & b & c & (h & (i & Hh & _) & _) & _). destruct i; discriminate.
  - intros a y z Hy Hz. destruct Ef as [Ef| ->].
    + refine (finds_functional False read_feature_record (mkEnv f o) (qf + a) _ y z _
        (feature_address _ _ _ _ _ Ef Hy) (feature_address _ _ _ _ _ Ef Hz)).
      apply read_feature_record_finds; exact B.
    + destruct Hy as (h & (i & Hh & _) & _). destruct i; discriminate.
  - intros a y z Hy Hz. destruct El as [El| ->].
    + refine (finds_functional False (read_lookup_record read_table) (mkEnv f o) (ql + a) _ y z _
        (lookup_address _ _ _ _ _ _ _ El Hy) (lookup_address _ _ _ _ _ _ _ El Hz)).
      apply read_lookup_record_finds; [exact B|exact Ht].
    + destruct Hy as (i & Hh & _). destruct i; discriminate.
  - intros ty a y z Hy Hz. destruct El as [El| ->].
    + exact (finds_functional False (read_table ty) (mkEnv f o) (ql + a) _ y z (Ht _ _)
        (subtable_address _ _ _ _ _ _ _ _ El Hy) (subtable_address _ _ _ _ _ _ _ _ El Hz)).
    + destruct Hy as (r & b & c & (i & Hh & _) & _). destruct i; discriminate.
Qed.

Lemma gsub_sharing o f p v :
  bounded f -> reads o read_glyph_substitution f p v -> shared_directory v.
Proof.
  intros B H. apply (request_reads RequestGsub) in H; [|exact B].
  eapply directory_sharing; [exact B| |exact H].
  intros t q. apply read_gsub_type_finds. exact B.
Qed.

Lemma gpos_sharing o f p v :
  bounded f -> reads o read_glyph_positioning f p v -> shared_directory v.
Proof.
  intros B H. apply (request_reads RequestGpos) in H; [|exact B].
  eapply directory_sharing; [exact B| |exact H].
  intros t q. apply read_gpos_type_finds. exact B.
Qed.

(** A substitution table in which everything is there twice, at the same address. *)
Definition sample_shared : list byte :=
  flat_map be16 [1; 0; 10; 42; 62;
    2; 0x4446; 0x4C54; 14; 0x6C61; 0x746E; 14;
    10; 1; 0x454E; 0x4720; 10; 0; 0xFFFF; 1; 0;
    2; 0x6C69; 0x6761; 14; 0x646C; 0x6967; 14; 0; 1; 0;
    2; 6; 6; 1; 0; 2; 10; 10; 1; 6; 5; 1; 1; 7].

Definition sample_shared_table : GlyphSubstitution :=
  let language := mkLanguageRecord 0 0xFFFF 1 [0] in
  let script := mkScriptRecord 10 1 [mkLanguageHeader (Tag "E" "N" "G" " ") 10] (Some language) [language] in
  let feature := mkFeatureRecord 0 1 [0] None in
  let single := GsubSingleSubstitution
    (SingleSubstitutionFormat1 (mkSingleSubstitution1 1 6 5 (CoverageFormat1 (mkCoverage1 1 1 [7])))) in
  let lookup := mkLookupRecord 1 0 2 [10; 10] None [single; single] in
  mkDirectory 1 0 10 42 62 0
    (mkScripts 2 [mkScriptHeader (Tag "D" "F" "L" "T") 14; mkScriptHeader (Tag "l" "a" "t" "n") 14]
      [script; script])
    (mkFeatures 2 [mkFeatureHeader (Tag "l" "i" "g" "a") 14; mkFeatureHeader (Tag "d" "l" "i" "g") 14]
      [feature; feature])
    (mkLookups 2 [6; 6] [lookup; lookup]) None.

Lemma sample_shared_read : reads debug_build read_glyph_substitution (file_of sample_shared) 0
  sample_shared_table.
Proof. eexists. vm_compute. reflexivity. Qed.
