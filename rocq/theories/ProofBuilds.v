(** Getters of read tables, and builds that differ in one Cargo feature. *)

From Verif Require Export SpecAccess SpecBuilds Requests ModelLayout.
From Verif Require Import Reads ReadsTactics ProofGpos ProofGsub ProofAccess ProofShape ProofRequests.

(** ** Getters *)

Lemma counts_length {A B} n (xs : list A) (ys : list B) :
  counts n xs -> counts n ys -> length ys = length xs.
Proof. unfold counts. lia. Qed.

Lemma scripts_get_first v t :
  scripts_wf v ->
  exists found, scripts_get v t = Ok found /\
    first_match script_header_tag (scripts_headers v) (scripts_records v) t found.
Proof.
  destruct v as [n headers records]. intros (Hh & Hr & _).
  apply find_record_first. cbn. eapply counts_length; eassumption.
Qed.

Lemma script_record_get_first v t :
  script_record_wf v ->
  exists found, script_record_get v t = Ok found /\
    first_match language_header_tag (script_record_language_headers v)
      (script_record_language_records v) t found.
Proof.
  destruct v as [o n headers d records]. intros (Hh & Hr & _).
  apply find_record_first. cbn. eapply counts_length; eassumption.
Qed.

Lemma features_get_first v t :
  features_wf v ->
  exists found, features_get v t = Ok found /\
    first_match feature_header_tag (features_headers v) (features_records v) t found.
Proof.
  destruct v as [n headers records]. intros (Hh & Hr & _).
  apply find_record_first. cbn. eapply counts_length; eassumption.
Qed.

(** The getters of everything in a directory. *)
Lemma directory_getters {T} (P : N -> T -> Prop) (v : Directory T) t :
  directory_wf P v ->
  (exists found, scripts_get (directory_scripts v) t = Ok found /\
    first_match script_header_tag (scripts_headers (directory_scripts v))
      (scripts_records (directory_scripts v)) t found) /\
  (forall script, In script (scripts_records (directory_scripts v)) ->
    exists found, script_record_get script t = Ok found /\
      first_match language_header_tag (script_record_language_headers script)
        (script_record_language_records script) t found) /\
  (exists found, features_get (directory_features v) t = Ok found /\
    first_match feature_header_tag (features_headers (directory_features v))
      (features_records (directory_features v)) t found).
Proof.
  destruct v. intros (_ & _ & Hs & Hf & _). cbn.
  split; [|split].
  - apply scripts_get_first, Hs.
  - intros script Hin. apply script_record_get_first.
    destruct directory_scripts. destruct Hs as (_ & _ & Hs).
    rewrite Forall_forall in Hs. apply Hs, Hin.
  - apply features_get_first, Hf.
Qed.

Lemma gsub_getters o f p v t :
  bounded f -> reads o read_glyph_substitution f p v ->
  (exists found, scripts_get (directory_scripts v) t = Ok found /\
    first_match script_header_tag (scripts_headers (directory_scripts v))
      (scripts_records (directory_scripts v)) t found) /\
  (forall script, In script (scripts_records (directory_scripts v)) ->
    exists found, script_record_get script t = Ok found /\
      first_match language_header_tag (script_record_language_headers script)
        (script_record_language_records script) t found) /\
  (exists found, features_get (directory_features v) t = Ok found /\
    first_match feature_header_tag (features_headers (directory_features v))
      (features_records (directory_features v)) t found).
Proof. intros Hb H. exact (directory_getters _ v t (request_shape RequestGsub o f p v Hb H)). Qed.

Lemma gpos_getters o f p v t :
  bounded f -> reads o read_glyph_positioning f p v ->
  (exists found, scripts_get (directory_scripts v) t = Ok found /\
    first_match script_header_tag (scripts_headers (directory_scripts v))
      (scripts_records (directory_scripts v)) t found) /\
  (forall script, In script (scripts_records (directory_scripts v)) ->
    exists found, script_record_get script t = Ok found /\
      first_match language_header_tag (script_record_language_headers script)
        (script_record_language_records script) t found) /\
  (exists found, features_get (directory_features v) t = Ok found /\
    first_match feature_header_tag (features_headers (directory_features v))
      (features_records (directory_features v)) t found).
Proof. intros Hb H. exact (directory_getters _ v t (request_shape RequestGpos o f p v Hb H)). Qed.

(** ** Incomplete directories *)

Lemma list_present {A} o (elem : N -> A -> Prop) base offset default v :
  offset <> 0 -> (list_at o elem base offset default v <-> elem (base + offset) v).
Proof. unfold list_at. tauto. Qed.

Lemma directory_builds {T} o b c (table_at : N -> file -> N -> T -> Prop) f p v :
  complete_directory v ->
  (directory_at (with_directories b o) table_at f p v <->
   directory_at (with_directories c o) table_at f p v).
Proof.
  destruct v as [a0 a1 s t l x scripts features lookups variations]. unfold complete_directory. cbn.
  intros (Hs & Ht & Hl). rewrite !list_present by assumption. reflexivity.
Qed.

Lemma directory_complete {T} o (table_at : N -> file -> N -> T -> Prop) f p v :
  offsets_present f p -> directory_at o table_at f p v -> complete_directory v.
Proof.
  destruct v as [a0 a1 s t l x scripts features lookups variations].
  intros (H1 & H2 & H3) (_ & _ & _ & _ & Hs & Ht & Hl & _).
  repeat split; cbn; intros ->; tauto.
Qed.

Lemma gsub_conforms_builds o b c f p v :
  offsets_present f p ->
  (glyph_substitution_at (with_directories b o) f p v <->
   glyph_substitution_at (with_directories c o) f p v).
Proof.
  intros Hp. split; intros H; pose proof (directory_complete _ _ _ _ _ Hp H) as Hc;
    revert H; apply directory_builds, Hc.
Qed.

Lemma gpos_conforms_builds o b c f p v :
  offsets_present f p ->
  (glyph_positioning_at (with_directories b o) f p v <->
   glyph_positioning_at (with_directories c o) f p v).
Proof.
  intros Hp. split; intros H; pose proof (directory_complete _ _ _ _ _ Hp H) as Hc;
    revert H; apply (directory_builds o _ _ (gpos_type_at o)), Hc.
Qed.

Lemma gsub_builds o f p :
  bounded f -> offsets_present f p ->
  (forall v, reads (with_directories true o) read_glyph_substitution f p v <->
             reads (with_directories false o) read_glyph_substitution f p v) /\
  (fails (with_directories true o) read_glyph_substitution f p <->
   fails (with_directories false o) read_glyph_substitution f p).
Proof.
  intros Hb Hp. split.
  - intros v. rewrite !(request_reads RequestGsub) by assumption. apply gsub_conforms_builds, Hp.
  - rewrite !(request_fails RequestGsub) by auto.
    split; intros H [v Hv]; apply H; exists v; revert Hv; apply gsub_conforms_builds, Hp.
Qed.

Lemma gpos_builds o f p :
  bounded f -> offsets_present f p ->
  (forall v, reads (with_directories true o) read_glyph_positioning f p v <->
             reads (with_directories false o) read_glyph_positioning f p v) /\
  (fails (with_directories true o) read_glyph_positioning f p <->
   fails (with_directories false o) read_glyph_positioning f p).
Proof.
  intros Hb Hp. split.
  - intros v. rewrite !(request_reads RequestGpos) by assumption. apply gpos_conforms_builds, Hp.
  - rewrite !(request_fails RequestGpos) by auto.
    split; intros H [v Hv]; apply H; exists v; revert Hv; apply gpos_conforms_builds, Hp.
Qed.

Lemma list_missing {A} o (elem : N -> A -> Prop) base offset default v :
  ignore_incomplete_directories o = true -> list_at o elem base offset default v ->
  offset = 0 -> v = default.
Proof. unfold list_at. intros Ho [(_ & _ & H)|([H|H] & _)] E; congruence. Qed.

Lemma directory_missing {T} o (table_at : N -> file -> N -> T -> Prop) f p v :
  ignore_incomplete_directories o = true -> directory_at o table_at f p v ->
  (directory_script_offset v = 0 -> directory_scripts v = mkScripts 0 [] []) /\
  (directory_feature_offset v = 0 -> directory_features v = mkFeatures 0 [] []) /\
  (directory_lookup_offset v = 0 -> directory_lookups v = mkLookups 0 [] []).
Proof.
  destruct v as [a0 a1 s t l x scripts features lookups variations].
  intros Ho (_ & _ & _ & _ & _ & _ & _ & _ & _ & Hs & Ht & Hl & _). cbn.
  split; [|split]; eapply list_missing; eassumption.
Qed.

Lemma gsub_missing o f p v :
  bounded f -> reads (with_directories true o) read_glyph_substitution f p v ->
  (directory_script_offset v = 0 -> directory_scripts v = mkScripts 0 [] []) /\
  (directory_feature_offset v = 0 -> directory_features v = mkFeatures 0 [] []) /\
  (directory_lookup_offset v = 0 -> directory_lookups v = mkLookups 0 [] []).
Proof.
  intros Hb H. apply (request_reads RequestGsub) in H; [|exact Hb].
  eapply directory_missing; [|exact H]. reflexivity.
Qed.

Lemma gpos_missing o f p v :
  bounded f -> reads (with_directories true o) read_glyph_positioning f p v ->
  (directory_script_offset v = 0 -> directory_scripts v = mkScripts 0 [] []) /\
  (directory_feature_offset v = 0 -> directory_features v = mkFeatures 0 [] []) /\
  (directory_lookup_offset v = 0 -> directory_lookups v = mkLookups 0 [] []).
Proof.
  intros Hb H. apply (request_reads RequestGpos) in H; [|exact Hb].
  eapply directory_missing; [|exact H]. reflexivity.
Qed.

(** A directory with nothing in it is read. *)
Lemma directory_empty {T} o (table_at : N -> file -> N -> T -> Prop) f p :
  u16_at f p 1 -> u16_at f (p + 2) 0 -> u16_at f (p + 4) 0 -> u16_at f (p + 6) 0 -> u16_at f (p + 8) 0 ->
  directory_at (with_directories true o) table_at f p
    (mkDirectory 1 0 0 0 0 0 (mkScripts 0 [] []) (mkFeatures 0 [] []) (mkLookups 0 [] []) None).
Proof.
  intros. cbn. unfold list_at.
  repeat (split; [first [assumption | reflexivity | left; reflexivity | discriminate |
    left; repeat split; reflexivity]|]).
  reflexivity.
Qed.

(** Removing a list from a directory, that is setting its offset to zero, replaces it by
    the empty list and changes nothing else. *)
Lemma gsub_empty o f p :
  bounded f ->
  u16_at f p 1 -> u16_at f (p + 2) 0 -> u16_at f (p + 4) 0 -> u16_at f (p + 6) 0 -> u16_at f (p + 8) 0 ->
  reads (with_directories true o) read_glyph_substitution f p
    (mkDirectory 1 0 0 0 0 0 (mkScripts 0 [] []) (mkFeatures 0 [] []) (mkLookups 0 [] []) None).
Proof. intros. apply (request_reads RequestGsub); [assumption|]. apply directory_empty; assumption. Qed.

Lemma gpos_empty o f p :
  bounded f ->
  u16_at f p 1 -> u16_at f (p + 2) 0 -> u16_at f (p + 4) 0 -> u16_at f (p + 6) 0 -> u16_at f (p + 8) 0 ->
  reads (with_directories true o) read_glyph_positioning f p
    (mkDirectory 1 0 0 0 0 0 (mkScripts 0 [] []) (mkFeatures 0 [] []) (mkLookups 0 [] []) None).
Proof. intros. apply (request_reads RequestGpos); [assumption|]. apply directory_empty; assumption. Qed.

(** ** Incomplete marks *)

Lemma linked_ext {A} (P Q : N -> A -> Prop) base offsets l :
  (forall p v, In v l -> (P p v <-> Q p v)) ->
  (linked_at P base offsets l <-> linked_at Q base offsets l).
Proof.
  revert l. assert (E : forall (P Q : N -> A -> Prop) l,
    (forall p v, In v l -> P p v -> Q p v) -> linked_at P base offsets l -> linked_at Q base offsets l).
  { clear. intros P Q l H F. unfold linked_at in *.
    induction F; constructor; [apply H; [left; reflexivity|assumption]|].
    apply IHF. intros. apply H; [right; assumption|assumption]. }
  intros l H. split; apply E; intros p v Hv; apply H, Hv.
Qed.

Lemma vec_ext {A} (P Q : N -> A -> Prop) s p n l :
  (forall p v, In v l -> (P p v <-> Q p v)) -> (vec_at P s p n l <-> vec_at Q s p n l).
Proof.
  intros H. unfold vec_at. split; intros [Hn Hv]; (split; [exact Hn|]); intros i v Hi;
    (apply H; [eapply nth_error_In; exact Hi|]); apply Hv, Hi.
Qed.

Lemma mark1_builds o b c f base p v :
  mark1_anchor_offset v <> 0 ->
  (mark1_at (with_marks b o) f base p v <-> mark1_at (with_marks c o) f base p v).
Proof. destruct v as [i offset anchor]. cbn. tauto. Qed.

Lemma mark1s_builds o b c f p v :
  (forall m, In m (mark1s_records v) -> mark1_anchor_offset m <> 0) ->
  (mark1s_at (with_marks b o) f p v <-> mark1s_at (with_marks c o) f p v).
Proof.
  destruct v as [n records]. cbn [mark1s_records mark1s_at]. intros H.
  rewrite (vec_ext (mark1_at (with_marks b o) f p) (mark1_at (with_marks c o) f p)); [reflexivity|].
  intros q m Hm. apply mark1_builds, H, Hm.
Qed.

Lemma gpos_type_builds o b c type_ f p v :
  (forall m, In m (marks_of v) -> mark1_anchor_offset m <> 0) ->
  (gpos_type_at (with_marks b o) type_ f p v <-> gpos_type_at (with_marks c o) type_ f p v).
Proof.
  destruct v as [t|t|t|t|t|t|t|t|t]; cbn [marks_of gpos_type_at]; intros H; try reflexivity;
    destruct t; cbn in H; unfold mark_to_base_attachment_at, mark_to_ligature_attachment_at,
      mark_to_mark_attachment_at; rewrite (mark1s_builds o b c) by assumption; reflexivity.
Qed.

Lemma gpos_conforms_marks o b c f p v :
  (forall m, has_mark v m -> mark1_anchor_offset m <> 0) ->
  (glyph_positioning_at (with_marks b o) f p v <-> glyph_positioning_at (with_marks c o) f p v).
Proof.
  destruct v as [a0 a1 s t l x scripts features lookups variations]. intros H.
  unfold glyph_positioning_at, directory_at.
  assert (E : forall q, lookups_at (with_marks b o) (gpos_type_at (with_marks b o)) f q lookups <->
    lookups_at (with_marks c o) (gpos_type_at (with_marks c o)) f q lookups).
  { intros q. destruct lookups as [n offsets records]. unfold lookups_at.
    rewrite (linked_ext (lookup_record_at (with_marks b o) (gpos_type_at (with_marks b o)) f)
      (lookup_record_at (with_marks c o) (gpos_type_at (with_marks c o)) f)); [reflexivity|].
    intros r [ty fl tc os set tables] Hr. unfold lookup_record_at.
    rewrite (linked_ext (gpos_type_at (with_marks b o) ty f) (gpos_type_at (with_marks c o) ty f));
      [reflexivity|].
    intros u w Hw. apply gpos_type_builds. intros m Hm. apply H.
    exists (mkLookupRecord ty fl tc os set tables), w.
    auto. }
  unfold list_at. rewrite E. reflexivity.
Qed.

Lemma gpos_marks o f p v :
  bounded f -> (forall m, has_mark v m -> mark1_anchor_offset m <> 0) ->
  (reads (with_marks true o) read_glyph_positioning f p v <->
   reads (with_marks false o) read_glyph_positioning f p v).
Proof.
  intros Hb H. rewrite !(request_reads RequestGpos) by assumption. apply gpos_conforms_marks, H.
Qed.

(** A mark array whose offsets are not zero in the file. *)
Lemma mark1s_reads o f p v : bounded f -> (reads o read_mark1s f p v <-> mark1s_at o f p v).
Proof. intros Hb. apply (proj2 (read_mark1s_finds False (mkEnv f o) Hb p)). Qed.

Lemma mark1s_fails o f p : bounded f -> (fails o read_mark1s f p <-> ~ exists v, mark1s_at o f p v).
Proof. intros Hb. apply (finds_fails _ _ _ _ (read_mark1s_finds True (mkEnv f o) Hb p)). Qed.

Lemma mark1s_complete o f p v :
  (forall n i, u16_at f p n -> i < n -> ~ u16_at f (p + 2 + 4 * i + 2) 0) -> mark1s_at o f p v ->
  forall m, In m (mark1s_records v) -> mark1_anchor_offset m <> 0.
Proof.
  destruct v as [n records]. intros H (Hc & Hn & Hv) m Hm E. cbn [mark1s_records] in Hm.
  apply In_nth_error in Hm. destruct Hm as [i Hi]. specialize (Hv i m Hi).
  destruct m as [k offset anchor]. destruct Hv as (_ & Hu & _). cbn in E. subst offset.
  apply (H n (N.of_nat i) Hc); [|exact Hu].
  assert (i < length records)%nat by (apply nth_error_Some; congruence). lia.
Qed.

Lemma mark1s_same o f p :
  bounded f -> (forall n i, u16_at f p n -> i < n -> ~ u16_at f (p + 2 + 4 * i + 2) 0) ->
  (forall v, reads (with_marks true o) read_mark1s f p v <-> reads (with_marks false o) read_mark1s f p v) /\
  (fails (with_marks true o) read_mark1s f p <-> fails (with_marks false o) read_mark1s f p).
Proof.
  intros Hb H.
  assert (E : forall b c v, mark1s_at (with_marks b o) f p v -> mark1s_at (with_marks c o) f p v).
  { intros b c v Hv. pose proof (mark1s_complete _ _ _ _ H Hv) as Hc. revert Hv.
    apply mark1s_builds, Hc. }
  split.
  - intros v. rewrite !mark1s_reads by assumption. split; apply E.
  - rewrite !mark1s_fails by assumption. split; intros Hn [v Hv]; apply Hn; exists v; eapply E, Hv.
Qed.

Lemma gpos_mark_missing o f p v m :
  bounded f -> reads (with_marks true o) read_glyph_positioning f p v -> has_mark v m ->
  mark1_anchor_offset m = 0 -> mark1_anchor m = AnchorFormat1 (mkAnchor1 0 0 0).
Proof.
  intros Hb H (l & t & Hl & Ht & Hm) Hz.
  apply (request_reads RequestGpos) in H; [|exact Hb]. cbn [conforms] in H.
  destruct v as [a0 a1 s ft lo x scripts features lookups variations].
  destruct H as (_ & _ & _ & _ & _ & _ & _ & _ & _ & _ & _ & H & _). cbn in Hl.
  assert (Hr : exists q, lookups_at (with_marks true o) (gpos_type_at (with_marks true o)) f q lookups).
  { destruct H as [(_ & _ & ->)|[_ H]]; [destruct Hl|eauto]. }
  clear H. destruct Hr as [q Hr]. destruct lookups as [n offsets records]. destruct Hr as (_ & _ & Hr).
  cbn in Hl.
  assert (Hx : exists q, lookup_record_at (with_marks true o) (gpos_type_at (with_marks true o)) f q l).
  { clear -Hr Hl. induction Hr as [|? ? ? ? Hr _ IH]; [destruct Hl|]. destruct Hl as [<-|Hl]; eauto. }
  destruct Hx as [q' Hx]. destruct l as [ty fl tc os set tables]. destruct Hx as (_ & _ & _ & _ & _ & Hx).
  cbn in Ht.
  assert (Hy : exists q, gpos_type_at (with_marks true o) ty f q t).
  { clear -Hx Ht. induction Hx as [|? ? ? ? Hr _ IH]; [destruct Ht|]. destruct Ht as [<-|Ht]; eauto. }
  destruct Hy as [q'' Hy].
  assert (Hs : forall q v, mark1s_at (with_marks true o) f q v -> In m (mark1s_records v) ->
    mark1_anchor m = AnchorFormat1 (mkAnchor1 0 0 0)).
  { clear -Hz. intros q [k records] (_ & _ & Hv) Hi. cbn in Hi. apply In_nth_error in Hi.
    destruct Hi as [i Hi]. specialize (Hv i m Hi). destruct m as [c offset anchor].
    cbn in Hz, Hv |- *. subst. destruct Hv as (_ & _ & [(_ & _ & E)|([E|E] & _)]); congruence. }
  destruct t as [t|t|t|t|t|t|t|t|t]; cbn [marks_of] in Hm; try destruct Hm; destruct t; cbn in Hm;
    cbn in Hy; break; eapply Hs; eassumption.
Qed.
