(** A value read by one build, in another one. *)

From Verif Require Export SpecPortable Written Encode.
From Verif Require Import ProofBuilds ProofRequests ProofWritten.

Lemma flags_builds c c' reserved f p v :
  flags_at c reserved f p v -> flags16 c' reserved v -> flags_at c' reserved f p v.
Proof. intros [H _] [_ Hf]. split; assumption. Qed.

Lemma linked_fits {A} (P Q : N -> A -> Prop) (R : A -> Prop) base offsets l :
  (forall p v, R v -> In v l -> P p v -> Q p v) -> Forall R l ->
  linked_at P base offsets l -> linked_at Q base offsets l.
Proof.
  unfold linked_at. intros H F L. induction L as [|o v os vs Ho Hl IH]; constructor.
  - apply H; [exact (Forall_inv F)|left; reflexivity|exact Ho].
  - apply IH; [|exact (Forall_inv_tail F)]. intros p w Hr Hw. apply H; [exact Hr|right; exact Hw].
Qed.

Lemma vec_fits {A} (P Q : N -> A -> Prop) (R : A -> Prop) s p n l :
  (forall p v, R v -> P p v -> Q p v) -> Forall R l -> vec_at P s p n l -> vec_at Q s p n l.
Proof.
  intros H F [Hn Hv]. split; [exact Hn|]. intros i v Hi. apply H; [|apply Hv, Hi].
  rewrite Forall_forall in F. apply F. eapply nth_error_In, Hi.
Qed.

Section Builds.
Context (o o' : options) (f : file).

Lemma directory_portable {T} (table_at table_at' : N -> file -> N -> T -> Prop) (P : T -> Prop) p v :
  (forall l t, In l (lookups_records (directory_lookups v)) -> In t (lookup_record_tables l) ->
    P t -> forall type_ q, table_at type_ f q t -> table_at' type_ f q t) ->
  complete_directory v -> directory_fits o' P v ->
  directory_at o table_at f p v -> directory_at o' table_at' f p v.
Proof.
  destruct v as [a0 a1 s t l x scripts features lookups variations].
  unfold complete_directory, directory_fits, directory_at. cbn.
  intros Ht (Hs & Hf & Hl) (_ & _ & Fl & _). rewrite !list_present by assumption.
  intros (H0 & H1 & H2 & H3 & H4 & H5 & H6 & H7 & H8 & H9 & H10 & H11 & H12).
  repeat (apply conj; [assumption|]). apply conj; [|assumption].
  destruct lookups as [n offsets records]. destruct H11 as (Hn & Ho & Hr).
  destruct Fl as [_ Fl]. repeat (apply conj; [assumption|]).
  revert Fl Hr. apply linked_fits. cbn in Ht.
  intros q [ty fl tc os set tables] Hfit Hin (G0 & G1 & G2 & G3 & G4 & G5).
  destruct Hfit as (_ & Ff & _ & _ & Ft).
  apply conj; [assumption|]. apply conj; [eapply flags_builds; eassumption|].
  repeat (apply conj; [assumption|]).
  revert Ft G5. apply linked_fits. intros q' w Hw Hi. exact (Ht _ _ Hin Hi Hw ty q').
Qed.

Lemma mark1s_portable p v :
  (forall m, In m (mark1s_records v) -> mark1_anchor_offset m <> 0) -> mark1s_at o f p v -> mark1s_at o' f p v.
Proof.
  destruct v as [n records]. intros H (Hn & Hl & Hv). cbn [mark1s_records] in H.
  split; [exact Hn|]. split; [exact Hl|].
  intros i m Hi. specialize (Hv i m Hi). specialize (H m (nth_error_In _ _ Hi)).
  destruct m as [k offset anchor]. cbn in *. tauto.
Qed.

Lemma gpos_type_portable type_ p v :
  (forall m, In m (marks_of v) -> mark1_anchor_offset m <> 0) -> gpos_type_fits o' v ->
  gpos_type_at o type_ f p v -> gpos_type_at o' type_ f p v.
Proof.
  destruct v as [t|t|t|t|t|t|t|t|t]; cbn [marks_of gpos_type_at]; intros H Ff [-> Hv];
    (split; [reflexivity|]); try assumption.
  - destruct t as [t|t]; destruct Hv as [E Hv]; (split; [exact E|]); destruct t.
    + destruct Hv as (? & ? & ? & ? & ?). destruct Ff as (? & _).
      repeat (apply conj; [first [assumption|eapply flags_builds; eassumption]|]). assumption.
    + destruct Hv as (? & ? & ? & ? & ? & ?). destruct Ff as (? & _).
      repeat (apply conj; [first [assumption|eapply flags_builds; eassumption]|]). assumption.
  - destruct t as [t|t]; destruct Hv as [E Hv]; (split; [exact E|]); destruct t.
    + destruct Hv as (? & ? & ? & ? & ? & ? & ? & ?). destruct Ff as (? & ? & _).
      repeat (apply conj; [first [assumption|eapply flags_builds; eassumption]|]). assumption.
    + destruct Hv as (? & ? & ? & ? & ? & ? & ? & ? & ? & ? & ? & ?). destruct Ff as (? & ? & _).
      repeat (apply conj; [first [assumption|eapply flags_builds; eassumption]|]). assumption.
  - destruct t. destruct Hv as (? & ? & ? & ? & ? & ? & ? & ? & ? & Hm & ?).
    repeat (apply conj; [first [assumption|apply mark1s_portable; assumption]|]). assumption.
  - destruct t. destruct Hv as (? & ? & ? & ? & ? & ? & ? & ? & ? & Hm & ?).
    repeat (apply conj; [first [assumption|apply mark1s_portable; assumption]|]). assumption.
  - destruct t. destruct Hv as (? & ? & ? & ? & ? & ? & ? & ? & ? & Hm & ?).
    repeat (apply conj; [first [assumption|apply mark1s_portable; assumption]|]). assumption.
Qed.

Lemma store_portable p v : store_fits o' v -> store_at o f p v -> store_at o' f p v.
Proof.
  destruct v as [format region n offsets records]. intros (_ & _ & Fs) (? & ? & ? & ? & ? & Hr).
  repeat (apply conj; [assumption|]). revert Fs Hr. apply linked_fits.
  intros q [a b c is ds] (_ & _ & _ & _ & _ & Hc) _ (? & ? & ? & ? & _ & ?).
  repeat (apply conj; [assumption|]). assumption.
Qed.

Lemma fvar_portable p v : font_variations_fits o' v -> font_variations_at o f p v ->
  font_variations_at o' f p v.
Proof.
  destruct v as [[a b c d n s m t] axes instances]. intros (_ & _ & _ & _ & Fa & Fi) (Hh & Ha & Hi).
  split; [exact Hh|]. split.
  - revert Fa Ha. apply vec_fits. intros q [? ? ? ? ? ?] (_ & _ & _ & Hf & _) (? & ? & ? & ? & ? & ?).
    repeat (apply conj; [first [assumption|eapply flags_builds; eassumption]|]). assumption.
  - revert Fi Hi. apply vec_fits. intros q [? ? ? ?] (_ & Hf & _) (? & ? & ? & ?).
    repeat (apply conj; [first [assumption|eapply flags_builds; eassumption]|]). assumption.
Qed.

Lemma request_portable {A} (r : request A) p v :
  complete r v -> in_range o' r v -> conforms o r f p v -> conforms o' r f p v.
Proof.
  destruct r; cbn [complete in_range conforms]; intros Hc Hr H; try assumption.
  - destruct v. destruct Hr as (_ & _ & _ & _ & _ & _ & Hs). revert H.
    unfold glyph_definition_at, glyph_definition_with.
    destruct (gdef_offsets glyph_definition_header) as [[[[[? ?] ?] ?] ?] ?].
    intros (? & ? & ? & ? & ? & ? & H). repeat (apply conj; [assumption|]).
    destruct glyph_definition_variations as [st|]; [|exact H].
    destruct H as [Hn H]. split; [exact Hn|]. apply store_portable; assumption.
  - destruct Hc as [Hc Hm]. revert Hr H. apply directory_portable; [|exact Hc].
    intros l t Hl Ht Hf type_ q. apply gpos_type_portable; [|exact Hf].
    intros m Hi. apply Hm. exists l, t. auto.
  - revert Hr H. apply directory_portable; [|exact Hc]. auto.
  - apply fvar_portable; assumption.
Qed.
End Builds.

Lemma reads_portable {A} (r : request A) o o' f p v :
  bounded f -> complete r v -> reads o (reader r) f p v ->
  (reads o' (reader r) f p v <-> in_range o' r v).
Proof.
  intros B Hc H. split; [apply read_in_range; exact B|].
  intros Hr. apply request_reads; [exact B|].
  apply (request_portable o); [exact Hc|exact Hr|]. apply request_reads; assumption.
Qed.

(** ** From a build that checks everything *)

Section Strict.
Context (o o' : options) (Hflags : checked_flags o = true) (Hchecks : overflow_checks o = true).

Lemma flags_strict reserved v : flags16 (checked_flags o) reserved v -> flags16 (checked_flags o') reserved v.
Proof. intros [H Hv]. split; [exact H|]. intros _. apply Hv, Hflags. Qed.
Hint Resolve flags_strict : core.

Lemma directory_strict {T} (P P' : T -> Prop) v :
  (forall t, P t -> P' t) -> directory_fits o P v -> directory_fits o' P' v.
Proof.
  intros Ht. destruct v as [a0 a1 s t l x scripts features lookups variations].
  intros (? & ? & Hl & ?). repeat (apply conj; [assumption|]). apply conj; [|assumption].
  destruct lookups as [n offsets records]. destruct Hl as [Hn Hl]. split; [exact Hn|].
  revert Hl. apply Forall_impl. intros [ty fl tc os set tables] (? & ? & ? & ? & Hf).
  repeat (apply conj; [auto|]). revert Hf. apply Forall_impl, Ht.
Qed.

Lemma gpos_type_strict v : gpos_type_fits o v -> gpos_type_fits o' v.
Proof.
  destruct v as [[t|t]|[t|t]|t|t|t|t|t|t|t]; try exact (fun H => H); destruct t;
    unfold gpos_type_fits, value_flags_fits.
  - intros (? & ?). auto.
  - intros (? & ?). auto.
  - intros (? & ? & ?). auto.
  - intros (? & ? & ?). auto.
Qed.

Lemma store_strict v : store_fits o v -> store_fits o' v.
Proof.
  destruct v as [format region n offsets records]. intros (? & ? & H).
  repeat (apply conj; [assumption|]). revert H. apply Forall_impl.
  intros [a b c is ds] (? & ? & ? & ? & ? & H). repeat (apply conj; [assumption|]). auto.
Qed.

Lemma fvar_strict v : font_variations_fits o v -> font_variations_fits o' v.
Proof.
  destruct v as [[a b c d n s m t] axes instances]. intros (? & ? & ? & ? & Ha & Hi).
  repeat (apply conj; [assumption|]). split.
  - revert Ha. apply Forall_impl. intros [? ? ? ? ? ?] (? & ? & ? & ? & ?).
    repeat (apply conj; [auto|]). assumption.
  - revert Hi. apply Forall_impl. intros [? ? ? ?] (? & ? & ? & ?). repeat (apply conj; [auto|]). assumption.
Qed.

Lemma in_range_strict {A} (r : request A) v : in_range o r v -> in_range o' r v.
Proof.
  destruct r; cbn [in_range]; intros H; try assumption.
  - destruct v. destruct H as (? & ? & ? & ? & ? & ? & H). repeat (apply conj; [assumption|]).
    destruct glyph_definition_variations as [st|]; [apply store_strict, H|exact H].
  - revert H. apply directory_strict, gpos_type_strict.
  - revert H. apply directory_strict. auto.
  - apply fvar_strict, H.
Qed.

Lemma reads_strict {A} (r : request A) f p v :
  bounded f -> complete r v -> reads o (reader r) f p v -> reads o' (reader r) f p v.
Proof.
  intros B Hc H. apply (reads_portable r o o' f p v B Hc H).
  apply in_range_strict. eapply read_in_range; eassumption.
Qed.
End Strict.

(** A positioning table with a mark, and a substitution table with a reserved flag. *)
Definition sample_marks : list byte := flat_map be16
  [1; 0; 10; 12; 14; 0; 0; 1; 4; 4; 0; 1; 8; 1; 12; 12; 1; 18; 30; 1; 1; 7; 1; 0; 6; 1; 3; 4; 1; 4; 1; 5; 6].

Definition sample_marks_table : GlyphPositioning :=
  let coverage := CoverageFormat1 (mkCoverage1 1 1 [7]) in
  mkDirectory 1 0 10 12 14 0 (mkScripts 0 [] []) (mkFeatures 0 [] [])
    (mkLookups 1 [4] [mkLookupRecord 4 0 1 [8] None [GposMarkToBaseAttachment
      (mkMarkToBaseAttachment 1 12 12 1 18 30 coverage coverage
        (mkMark1s 1 [mkMark1 0 6 (AnchorFormat1 (mkAnchor1 1 3 4))])
        (mkBases 1 [mkBase [4] [Some (AnchorFormat1 (mkAnchor1 1 5 6))]]))]]) None.

Definition sample_reserved : list byte := flat_map be16 [1; 0; 10; 12; 14; 0; 0; 1; 4; 1; 0x20; 0].

Definition sample_reserved_table : GlyphSubstitution :=
  mkDirectory 1 0 10 12 14 0 (mkScripts 0 [] []) (mkFeatures 0 [] [])
    (mkLookups 1 [4] [mkLookupRecord 1 0x20 0 [] None []]) None.
