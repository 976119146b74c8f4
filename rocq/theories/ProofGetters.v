(** The getters on arbitrary values. *)

From Verif Require Import Encode ProofPortable ProofFont ProofTags ProofReads ProofBuilds ProofShape
  ProofRequests.
From Verif Require Export SpecGetters Requests ModelTags Fixtures SpecShape Writer.

Section Getters.
Context {H R : Type} (tag_of : H -> tag) (records : list R).

Lemma first_index_unique headers t i j :
  first_index tag_of headers t i -> first_index tag_of headers t j -> i = j.
Proof.
  intros [(h & Hh & Ht) Hi] [(h' & Hh' & Ht') Hj].
  destruct (Nat.lt_trichotomy i j) as [L|[->|L]]; [|reflexivity|].
  - destruct (Hj _ _ L Hh Ht).
  - destruct (Hi _ _ L Hh' Ht').
Qed.

Lemma find_record_cases headers i t :
  (find_record tag_of headers records i t = Ok None /\ forall h, In h headers -> tag_of h <> t) \/
  exists j, first_index tag_of headers t j /\ find_record tag_of headers records i t =
    match nth_error records (i + j) with Some r => Ok (Some r) | None => Panic end.
Proof.
  revert i. induction headers as [|h headers IH]; intros i; cbn.
  - left. split; [reflexivity|]. intros _ [].
  - destruct (tag_eqb (tag_of h) t) eqn:E.
    + apply tag_eqb_eq in E. right. exists 0%nat. rewrite Nat.add_0_r. split; [|reflexivity].
      split; [exists h; auto|]. intros j h' L. lia.
    + assert (Hn : tag_of h <> t) by (intros Ht; apply tag_eqb_eq in Ht; congruence).
      destruct (IH (S i)) as [[Hg Ha]|(j & [(h' & Hh & Ht) Hj] & Hg)].
      * left. split; [exact Hg|]. intros h' [<-|Hh]; auto.
      * right. exists (S j). rewrite Nat.add_succ_r. split; [|exact Hg].
        split; [exists h'; auto|]. intros [|k] x L Hx; cbn in Hx.
        -- injection Hx as <-. exact Hn.
        -- apply (Hj k); [lia|exact Hx].
Qed.

Lemma find_record_gets headers : gets tag_of headers records (find_record tag_of headers records 0).
Proof.
  intros t. destruct (find_record_cases headers 0 t) as [[Hg Ha]|(j & Hj & Hg)]; rewrite Hg.
  - assert (Hno : forall i, first_index tag_of headers t i -> False).
    { intros i [(h & Hh & Ht) _]. apply nth_error_In in Hh. exact (Ha h Hh Ht). }
    apply conj; [split; auto|]. apply conj; [|apply conj; [|discriminate]].
    + intros r. split; [discriminate|]. intros (i & Hi & _). destruct (Hno i Hi).
    + split; [discriminate|]. intros (i & Hi & _). destruct (Hno i Hi).
  - cbn [Nat.add].
    assert (Hyes : (forall h, In h headers -> tag_of h <> t) -> False).
    { destruct Hj as [(h & Hh & Ht) _]. apply nth_error_In in Hh. intros Ha. exact (Ha h Hh Ht). }
    destruct (nth_error records j) as [r|] eqn:Hr.
    + apply conj; [split; [discriminate|intros Ha; destruct (Hyes Ha)]|].
      apply conj; [|apply conj; [|discriminate]].
      * intros r'. split.
        -- intros E. injection E as <-. eauto.
        -- intros (i & Hi & Hr'). rewrite (first_index_unique _ _ _ _ Hi Hj) in Hr'. congruence.
      * split; [discriminate|]. intros (i & Hi & L). rewrite (first_index_unique _ _ _ _ Hi Hj) in L.
        apply nth_error_None in L. congruence.
    + apply conj; [split; [discriminate|intros Ha; destruct (Hyes Ha)]|].
      apply conj; [|apply conj; [|discriminate]].
      * intros r'. split; [discriminate|].
        intros (i & Hi & Hr'). rewrite (first_index_unique _ _ _ _ Hi Hj) in Hr'. congruence.
      * split; [|auto]. intros _. exists j. split; [exact Hj|]. apply nth_error_None. exact Hr.
Qed.

Lemma first_index_shadowed headers i h : nth_error headers i = Some h ->
  first_index tag_of headers (tag_of h) i <-> ~ shadowed tag_of headers i.
Proof.
  intros Hh. split.
  - intros [_ Hf] (j & x & y & L & Hx & Hy & E). rewrite Hh in Hy. injection Hy as <-. exact (Hf j x L Hx E).
  - intros Hn. split; [eauto|]. intros j x L Hx E. apply Hn. exists j, x, h. auto.
Qed.
End Getters.

Lemma getters_get :
  (forall v, gets script_header_tag (scripts_headers v) (scripts_records v) (scripts_get v)) /\
  (forall v, gets language_header_tag (script_record_language_headers v)
    (script_record_language_records v) (script_record_get v)) /\
  (forall v, gets feature_header_tag (features_headers v) (features_records v) (features_get v)).
Proof. split; [|split]; intros v; apply find_record_gets. Qed.

Lemma getters_by_name default_language t :
  (forall v, scripts_get v (script_tag (script_from_tag t)) = scripts_get v t) /\
  (forall v, script_record_get v (language_tag (language_from_tag default_language t)) =
    script_record_get v t) /\
  (forall v, features_get v (feature_tag (feature_from_tag t)) = features_get v t).
Proof.
  split; [|split]; intros v.
  - rewrite script_of_tag_tag. reflexivity.
  - rewrite language_of_tag_tag. reflexivity.
  - rewrite feature_of_tag_tag. reflexivity.
Qed.

(** ** Several features with one tag *)

Definition twice (t : tag) (a b : byte) : list byte :=
  flat_map be16 [1; 0; 10; 12; 38; 0; 2] ++ tag_bytes t ++ be16 14 ++ tag_bytes t ++ be16 20 ++
  flat_map be16 [0; 1] ++ [x00; a] ++ flat_map be16 [0; 1] ++ [x00; b] ++ be16 0.

Definition twice_table (t : tag) (a b : N) : GlyphSubstitution :=
  mkDirectory 1 0 10 12 38 0 (mkScripts 0 [] [])
    (mkFeatures 2 [mkFeatureHeader t 14; mkFeatureHeader t 20]
      [mkFeatureRecord 0 1 [a] None; mkFeatureRecord 0 1 [b] None])
    (mkLookups 0 [] []) None.

Lemma twice_bounded t a b : bounded (file_of (twice t a b)).
Proof. destruct t. apply file_of_bounded. vm_compute. discriminate. Qed.

Lemma twice_read o t a b :
  reads o read_glyph_substitution (file_of (twice t a b)) 0 (twice_table t (Byte.to_N a) (Byte.to_N b)).
Proof.
  refine (reads_strict debug_build o eq_refl eq_refl RequestGsub _ _ _ _ _ _).
  - apply twice_bounded.
  - repeat apply conj; discriminate.
  - destruct t. eexists. vm_compute. reflexivity.
Qed.

Lemma twice_get t a b r t' :
  features_get (directory_features (twice_table t a b)) t' = Ok (Some r) -> r = mkFeatureRecord 0 1 [a] None.
Proof.
  cbn. destruct (tag_eqb t t'); [|discriminate]. intros H. injection H as <-. reflexivity.
Qed.

Lemma features_shadowed :
  ~ forall o f p v, bounded f -> reads o read_glyph_substitution f p v ->
    complete_get (features_records (directory_features v)) (features_get (directory_features v)).
Proof.
  intros H. specialize (H debug_build _ _ _ (twice_bounded (Tag "l" "o" "c" "l") x00 x01) (twice_read _ _ _ _)).
  destruct (H (mkFeatureRecord 0 1 [1] None)) as [t Ht].
  - right. left. reflexivity.
  - apply twice_get in Ht. discriminate Ht.
Qed.

Lemma reached {H R} (tag_of : H -> tag) headers (records : list R) get i h r :
  gets tag_of headers records get -> nth_error headers i = Some h -> nth_error records i = Some r ->
  ~ shadowed tag_of headers i -> get (tag_of h) = Ok (Some r).
Proof.
  intros Hg Hh Hr Hs. destruct (Hg (tag_of h)) as (_ & G & _). apply G. exists i. split; [|exact Hr].
  apply first_index_shadowed; assumption.
Qed.

Lemma gets_reach {H R} (tag_of : H -> tag) headers (records : list R) :
  length records = length headers -> reach tag_of headers records (find_record tag_of headers records 0).
Proof.
  intros L i h r Hh Hr. split.
  - apply (reached tag_of headers records); [apply find_record_gets|assumption|assumption].
  - intros Hs. split.
    + destruct (find_record_cases tag_of records headers 0 (tag_of h)) as [[_ Ha]|(j & Hj & Hg)].
      { destruct (Ha h (nth_error_In _ _ Hh) eq_refl). }
      cbn [Nat.add] in Hg. destruct (nth_error records j) as [r'|] eqn:E.
      * exists j, r'. split; [|auto].
        destruct Hs as (k & x & y & Hk & Hx & Hy & Exy). rewrite Hh in Hy. injection Hy as <-.
        destruct Hj as [_ Hj]. destruct (Nat.lt_ge_cases j i) as [?|Hge]; [assumption|].
        destruct (Hj k x); [lia|assumption|assumption].
      * apply nth_error_None in E. destruct Hj as [(x & Hx & _) _].
        assert (j < length headers)%nat by (apply nth_error_Some; congruence). lia.
    + intros t [(x & Hx & Ht) Hf]. rewrite Hh in Hx. injection Hx as <-. subst t.
      apply (first_index_shadowed tag_of headers i h Hh) in Hs; [exact Hs|]. split; eauto.
Qed.

Lemma directory_reach {T} (P : N -> T -> Prop) (v : Directory T) :
  directory_wf P v ->
  reach script_header_tag (scripts_headers (directory_scripts v)) (scripts_records (directory_scripts v))
    (scripts_get (directory_scripts v)) /\
  (forall script, In script (scripts_records (directory_scripts v)) ->
    reach language_header_tag (script_record_language_headers script)
      (script_record_language_records script) (script_record_get script)) /\
  reach feature_header_tag (features_headers (directory_features v)) (features_records (directory_features v))
    (features_get (directory_features v)).
Proof.
  destruct v. intros (_ & _ & Hs & Hf & _). cbn.
  split; [|split].
  - destruct directory_scripts. destruct Hs as (Hh & Hr & _). apply gets_reach.
    cbn. eapply counts_length; eassumption.
  - intros script Hin.
    destruct directory_scripts. destruct Hs as (_ & _ & Hs).
    rewrite Forall_forall in Hs. apply Hs in Hin.
    destruct script. destruct Hin as (Hh & Hr & _). apply gets_reach.
    cbn. eapply counts_length; eassumption.
  - destruct directory_features. destruct Hf as (Hh & Hr & _). apply gets_reach.
    cbn. eapply counts_length; eassumption.
Qed.

Lemma gsub_reach o f p v :
  bounded f -> reads o read_glyph_substitution f p v ->
  reach script_header_tag (scripts_headers (directory_scripts v)) (scripts_records (directory_scripts v))
    (scripts_get (directory_scripts v)) /\
  (forall script, In script (scripts_records (directory_scripts v)) ->
    reach language_header_tag (script_record_language_headers script)
      (script_record_language_records script) (script_record_get script)) /\
  reach feature_header_tag (features_headers (directory_features v)) (features_records (directory_features v))
    (features_get (directory_features v)).
Proof. intros Hb H. eapply directory_reach. exact (request_shape RequestGsub o f p v Hb H). Qed.

Lemma gpos_reach o f p v :
  bounded f -> reads o read_glyph_positioning f p v ->
  reach script_header_tag (scripts_headers (directory_scripts v)) (scripts_records (directory_scripts v))
    (scripts_get (directory_scripts v)) /\
  (forall script, In script (scripts_records (directory_scripts v)) ->
    reach language_header_tag (script_record_language_headers script)
      (script_record_language_records script) (script_record_get script)) /\
  reach feature_header_tag (features_headers (directory_features v)) (features_records (directory_features v))
    (features_get (directory_features v)).
Proof. intros Hb H. eapply directory_reach. exact (request_shape RequestGpos o f p v Hb H). Qed.

Lemma twice_any o t a b :
  bounded (file_of (twice t a b)) /\
  reads o read_glyph_substitution (file_of (twice t a b)) 0 (twice_table t (Byte.to_N a) (Byte.to_N b)) /\
  forall r t', features_get (directory_features (twice_table t (Byte.to_N a) (Byte.to_N b))) t' = Ok (Some r) ->
    r = mkFeatureRecord 0 1 [Byte.to_N a] None.
Proof. exact (conj (twice_bounded t a b) (conj (twice_read o t a b) (twice_get t _ _))). Qed.
