(** How reading a part can go wrong for files (C82): all that SpecReports.v says is reported for some
    file, and nothing else. *)

From Verif Require Export ProofReported.
From Verif Require ProofPieces ProofErrors ProofSteps Steps ProofRequests.
From Verif Require Import ProofErrors ProofFlags Encode Reads ProofSpots Samples.

(** ** Files for parts without parameters *)

(** An anchor with a correction that is not one, and a context with an empty rule. *)
Definition bad_anchor : list N := [3; 0; 0; 10; 0; 1; 0; 1].
Definition bad_context : list N := [1; 8; 1; 12; 1; 0; 1; 4; 0; 0].

(** A file, two bytes at a time, for which the error is reported. *)
Definition piece_file {A} (r : piece A) (x : error) : list N :=
  match r, x with
  | (PieceDevice | PieceCorrection), UnknownFormat => [0; 0; 0]
  | (PieceDevice | PieceCorrection), Malformed => [1; 0; 1]
  | (PieceContextRecord | PieceContextClassRecord | PieceChainedRecord | PieceChainedClassRecord),
    Malformed => [0; 0]
  | (PieceContextRecords | PieceContextClassRecords | PieceChainedRecords
    | PieceChainedClassRecords), Malformed =>
      [1; 4; 0; 0]
  | (PieceContext1 | PieceChainedContext1), UnknownFormat => [1; 6; 0; 0]
  | (PieceContext1 | PieceContext | PieceChainedContext1 | PieceChainedContext), Malformed => bad_context
  | PieceContext2, UnknownFormat => [2; 8; 0; 0; 0]
  | PieceContext2, Malformed => [2; 10; 14; 1; 20; 1; 0; 1; 0; 0; 1; 4; 0; 0]
  | PieceContext3, UnknownFormat => [3; 1; 0; 8; 0]
  | PieceChainedContext2, UnknownFormat => [2; 12; 0; 0; 0; 0; 0]
  | PieceChainedContext2, Malformed => [2; 14; 18; 18; 18; 1; 24; 1; 0; 1; 0; 0; 1; 4; 0; 0]
  | PieceChainedContext3, UnknownFormat => [3; 0; 1; 12; 0; 0; 0]
  | PieceLanguageRecord, UnexpectedValue => [1]
  | PieceScriptRecord, UnexpectedValue => [4; 0; 1]
  | PieceScripts, UnexpectedValue => [1; 0; 0; 8; 4; 0; 1]
  | PieceFeatureVariations, UnexpectedValue => [0; 0]
  | PieceGsubLookupRecord, UnexpectedValue => [2; 0; 1; 8; 0]
  | PieceGsubLookupRecord, Malformed => [5; 0; 1; 8] ++ bad_context
  | PieceGposLookupRecord, UnexpectedValue => [3; 0; 1; 8; 0]
  | PieceGposLookupRecord, Malformed => [7; 0; 1; 8] ++ bad_context
  | (PieceGsubLookupRecord | PieceGposLookupRecord), UnknownFormat => [1; 0; 1; 8; 0]
  | (PieceGsubLookupRecord | PieceGposLookupRecord), UnknownType => [0; 0; 1; 8]
  | (PieceGsubLookupRecord | PieceGposLookupRecord), InvalidFlags => [1; 32]
  | PieceGsubLookups, UnexpectedValue => [1; 4; 2; 0; 1; 8; 0]
  | PieceGsubLookups, Malformed => [1; 4; 5; 0; 1; 8] ++ bad_context
  | PieceGposLookups, UnexpectedValue => [1; 4; 3; 0; 1; 8; 0]
  | PieceGposLookups, Malformed => [1; 4; 7; 0; 1; 8] ++ bad_context
  | (PieceGsubLookups | PieceGposLookups), UnknownFormat => [1; 4; 1; 0; 1; 8; 0]
  | (PieceGsubLookups | PieceGposLookups), UnknownType => [1; 4; 0; 0; 1; 8]
  | (PieceGsubLookups | PieceGposLookups), InvalidFlags => [1; 4; 1; 32]
  | PieceLigature, Malformed => [0; 0]
  | PieceLigatures, Malformed => [1; 4; 0; 0]
  | PieceSingleSubstitution1, UnknownFormat => [1; 6; 0; 0]
  | PieceSingleSubstitution2, UnknownFormat => [2; 6; 0; 0]
  | (PieceMultipleSubstitution | PieceAlternateSubstitution | PieceLigatureSubstitution), UnknownFormat =>
      [1; 6; 0; 0]
  | PieceLigatureSubstitution, Malformed => bad_context
  | PieceReverseChainedContextualSubstibution, UnknownFormat => [1; 10; 0; 0; 0; 0]
  | PieceAnchor3, UnknownFormat => [3; 0; 0; 10; 0; 0; 0; 0]
  | (PieceAnchor3 | PieceAnchor), Malformed => bad_anchor
  | PieceMark1s, UnknownFormat => [1; 0; 6; 0]
  | PieceMark1s, Malformed => [1; 0; 6] ++ bad_anchor
  | PieceSingleAdjustment1, UnknownFormat => [1; 6; 0; 0]
  | (PieceSingleAdjustment1 | PieceSingleAdjustment), Malformed => [1; 8; 16; 8; 1; 0; 1]
  | PieceSingleAdjustment2, UnknownFormat => [2; 8; 0; 0; 0]
  | PieceSingleAdjustment2, Malformed => [2; 8; 16; 1; 10; 1; 0; 1]
  | PiecePairAdjustment1, UnknownFormat => [1; 10; 0; 0; 0; 0]
  | (PiecePairAdjustment1 | PiecePairAdjustment), Malformed => [1; 12; 16; 0; 1; 16; 1; 0; 1; 0; 6; 1; 0; 1]
  | PiecePairAdjustment2, UnknownFormat => [2; 16; 0; 0; 0; 0; 0; 0; 0]
  | PiecePairAdjustment2, Malformed => [2; 16; 16; 0; 16; 16; 1; 1; 18; 1; 0; 1]
  | (PieceSingleAdjustment1 | PieceSingleAdjustment2 | PieceSingleAdjustment | PiecePairAdjustment1
    | PiecePairAdjustment2 | PiecePairAdjustment), InvalidFlags => [1; 1; 256; 0]
  | PieceCursiveAttachment, UnknownFormat => [1; 6; 0; 0]
  | PieceCursiveAttachment, Malformed => [1; 10; 1; 10; 0] ++ bad_anchor
  | (PieceMarkToBaseAttachment | PieceMarkToLigatureAttachment | PieceMarkToMarkAttachment), UnknownFormat =>
      [1; 12; 12; 0; 12; 12; 0]
  | (PieceMarkToBaseAttachment | PieceMarkToLigatureAttachment | PieceMarkToMarkAttachment), Malformed =>
      [1; 12; 12; 0; 16; 16; 1; 0; 1; 0; 6] ++ bad_anchor
  | PieceAttachments, UnknownFormat => [4; 0; 0]
  | PieceCaret3, UnknownFormat => [3; 0; 6; 0; 0; 0]
  | PieceCaret3, Malformed => [3; 0; 6; 1; 0; 1]
  | PieceCaret, UnknownFormat => [0; 0]
  | PieceCaret, Malformed => [0; 3; 6; 1; 0; 1]
  | PieceGdefLigature, UnknownFormat => [1; 4; 0; 0]
  | PieceGdefLigature, Malformed => [1; 4; 0; 3; 6; 1; 0; 1]
  | PieceGdefLigatures, UnknownFormat => [4; 0; 0]
  | PieceGdefLigatures, Malformed => [6; 1; 10; 1; 0; 1; 4; 0; 3; 6; 1; 0; 1]
  | PieceMarks, UnknownFormat => [1; 1; 0; 8; 0]
  | PieceGdefHeader, UnknownFormat => [0; 0]
  | PieceCpalHeader0, UnexpectedValue => [1]
  | PieceCpalHeader, UnknownVersion => [2]
  | PieceFvarHeader, UnexpectedValue => [0; 0; 0; 0]
  | PieceAxisRecord, InvalidFlags => [0; 0; 0; 0; 0; 0; 0; 0; 2]
  | PieceLookupFlags, InvalidFlags => [32]
  | PieceValueFlags, InvalidFlags => [256]
  | PieceAxisFlags, InvalidFlags => [2]
  | PieceInstanceFlags, InvalidFlags => [1]
  | _, (UnknownFormat | UnexpectedValue) => [0]
  | _, _ => []
  end.

Definition reported {A} (o : options) (m : M A) (x : error) : Prop := exists f p, bounded f /\
  refuses o m f p x.

Lemma listed {A} (m : M A) o l x : N.of_nat (length l) <= 2 ^ 63 -> m (mkEnv (file_of l) o) 0 = Err x ->
  reported o m x.
Proof. intros B H. exists (file_of l), 0. split; [apply file_of_bounded, B|exact H]. Qed.

Lemma plain_reported {A} (r : piece A) o x : plain r = true -> In x (piece_file_errors o r) ->
  reported o (piece_reader r) x.
Proof.
  intros P H. apply (listed _ o (flat_map be16 (piece_file r x))).
  - destruct r, x; vm_compute; discriminate.
  - destruct o as [o1 o2 o3 o4 o5].
    destruct r; try discriminate P; cbn [piece_file_errors piece_errors] in H;
      unfold lookup_errors, flags_errors in H; cbn [checked_flags] in H;
      try (destruct o5); cbn [app] in H;
      cases H; destruct o1, o2, o3; vm_compute; reflexivity.
Qed.

(** ** Parts with parameters *)

Lemma nothing {A} (m : M A) o x : m (mkEnv (file_of []) o) 0 = Err x -> reported o m x.
Proof. apply listed. discriminate. Qed.

Lemma anchored {A} (m : M A) o p x : p < 2 ^ 62 -> x = UnknownFormat \/ x = Malformed ->
  (forall f, f = spot p (anchor_words x) -> ModelGpos.read_anchor (mkEnv f o) (p + 257) = Err x ->
    m (mkEnv f o) p = Err x) -> reported o m x.
Proof.
  intros L X H. exists (spot p (anchor_words x)), p. split; [apply spot_bounded, L|].
  apply H; [reflexivity|]. apply anchor_spot; assumption.
Qed.

Lemma valued_report {A} (m : M A) o p x : p < 2 ^ 62 -> x = UnknownFormat \/ x = Malformed ->
  (forall f, f = spot p (correction_words x) -> ModelLayout.read_correction (mkEnv f o) (p + 257) = Err x ->
    m (mkEnv f o) p = Err x) -> reported o m x.
Proof.
  intros L X H. exists (spot p (correction_words x)), p. split; [apply spot_bounded, L|].
  apply H; [reflexivity|]. apply correction_spot; assumption.
Qed.

Lemma gsub_type_reported o n x : In x (gsub_type_errors n) -> reported o (ModelGsub.read_gsub_type n) x.
Proof.
  assert (K : forall A B (r : piece A) (k : A -> B), plain r = true -> In x (piece_file_errors o r) ->
    reported o (Tape.bind (piece_reader r) (fun v => Tape.ret (k v))) x).
  { intros A B r k P I. destruct (plain_reported r o x P I) as (f & p & F & R). exists f, p.
    split; [exact F|]. apply (ProofErrors.run_stop _ _ _ _ _ R). }
  intros H.
  destruct n as [|[[[[n|n|]|[n|n|]|]|[[n|n|]|[n|n|]|]|]|[[[n|n|]|[n|n|]|]|[[n|n|]|[n|n|]|]|]|]];
    cbn [gsub_type_errors] in H; try (destruct H as [<-|[]]; apply nothing; reflexivity);
    first [apply (K _ _ PieceSingleSubstitution) | apply (K _ _ PieceMultipleSubstitution)
    | apply (K _ _ PieceAlternateSubstitution) | apply (K _ _ PieceLigatureSubstitution)
    | apply (K _ _ PieceContext) | apply (K _ _ PieceChainedContext)
    | apply (K _ _ PieceExtensionSubstitution)
    | apply (K _ _ PieceReverseChainedContextualSubstibution)]; auto.
Qed.

Lemma gpos_type_reported o n x : In x (gpos_type_errors o n) -> reported o (ModelGpos.read_gpos_type n) x.
Proof.
  assert (K : forall A B (r : piece A) (k : A -> B), plain r = true -> In x (piece_file_errors o r) ->
    reported o (Tape.bind (piece_reader r) (fun v => Tape.ret (k v))) x).
  { intros A B r k P I. destruct (plain_reported r o x P I) as (f & p & F & R). exists f, p.
    split; [exact F|]. apply (ProofErrors.run_stop _ _ _ _ _ R). }
  intros H.
  destruct n as [|[[[[n|n|]|[n|n|]|]|[[n|n|]|[n|n|]|]|]|[[[n|n|]|[n|n|]|]|[[n|n|]|[n|n|]|]|]|]];
    cbn [gpos_type_errors] in H; try (destruct H as [<-|[]]; apply nothing; reflexivity);
    first [apply (K _ _ PieceSingleAdjustment) | apply (K _ _ PiecePairAdjustment)
    | apply (K _ _ PieceCursiveAttachment) | apply (K _ _ PieceMarkToBaseAttachment)
    | apply (K _ _ PieceMarkToLigatureAttachment) | apply (K _ _ PieceMarkToMarkAttachment)
    | apply (K _ _ PieceContext) | apply (K _ _ PieceChainedContext)
    | apply (K _ _ PieceExtensionPositioning)]; auto.
Qed.

Lemma valued_bits flags : valued flags = has_x_placement flags || (has_y_placement flags ||
  (has_x_advance flags || (has_y_advance flags || (has_x_placement_correction flags ||
  (has_y_placement_correction flags || (has_x_advance_correction flags ||
  (has_y_advance_correction flags || false))))))).
Proof.
  destruct (flag_bits flags) as (_ & _ & _ & _ & _ & _ & -> & -> & -> & -> & -> & -> & -> & ->).
  reflexivity.
Qed.

(** A value with fields is missing in an empty file, and one without never is. *)
Lemma single_end o position flags : valued flags = true ->
  ModelGpos.read_single position flags (mkEnv (file_of []) o) 0 = Err UnexpectedEnd.
Proof.
  rewrite valued_bits. unfold ModelGpos.read_single. intros H.
  destruct (has_x_placement flags); [reflexivity|]. destruct (has_y_placement flags); [reflexivity|].
  destruct (has_x_advance flags); [reflexivity|]. destruct (has_y_advance flags); [reflexivity|].
  destruct (has_x_placement_correction flags); [reflexivity|].
  destruct (has_y_placement_correction flags); [reflexivity|].
  destruct (has_x_advance_correction flags); [reflexivity|].
  destruct (has_y_advance_correction flags); [reflexivity|discriminate H].
Qed.

Lemma single_none e p position flags : valued flags = false ->
  exists v, ModelGpos.read_single position flags e p = Ok (v, p).
Proof.
  rewrite valued_bits. unfold ModelGpos.read_single. intros H.
  repeat (apply Bool.orb_false_elim in H as [-> H]). eexists. reflexivity.
Qed.

Lemma value_none e p position flags : valued flags = false ->
  exists v, (if 0 <? flags then
    Tape.bind (ModelGpos.read_single position flags) (fun v => Tape.ret (Some v)) else Tape.ret
      None) e p = Ok (v, p).
Proof.
  intros V. destruct (0 <? flags); [|eexists; reflexivity].
  destruct (single_none e p position flags V) as [v E]. exists (Some v).
  rewrite (ProofErrors.run_bind _ _ _ _ _ _ E). reflexivity.
Qed.

Lemma valued_some flags : valued flags = true -> 0 <? flags = true.
Proof. destruct flags; [intros H; discriminate H|reflexivity]. Qed.

Lemma pair2_none e p position flags1 flags2 : valued flags1 || valued flags2 = false ->
  exists v, ModelGpos.read_pair2 position flags1 flags2 e p = Ok (v, p).
Proof.
  intros H. apply Bool.orb_false_elim in H as [H1 H2]. unfold ModelGpos.read_pair2.
  destruct (value_none e p position flags1 H1) as [v1 E1].
  destruct (value_none e p position flags2 H2) as [v2 E2].
  rewrite (ProofErrors.run_bind _ _ _ _ _ _ E1), (ProofErrors.run_bind _ _ _ _ _ _ E2).
  eexists. reflexivity.
Qed.

Lemma pair2_missing o position flags1 flags2 : valued flags1 || valued flags2 = true ->
  ModelGpos.read_pair2 position flags1 flags2 (mkEnv (file_of []) o) 0 = Err UnexpectedEnd.
Proof.
  intros H. unfold ModelGpos.read_pair2. destruct (valued flags1) eqn:V1.
  - rewrite (valued_some _ V1). apply ProofErrors.run_stop, ProofErrors.run_stop, single_end, V1.
  - destruct (value_none (mkEnv (file_of []) o) 0 position flags1 V1) as [v1 E1].
    rewrite (ProofErrors.run_bind _ _ _ _ _ _ E1). cbn [orb] in H.
    rewrite (valued_some _ H). apply ProofErrors.run_stop, ProofErrors.run_stop, single_end, H.
Qed.

Lemma pair2s_none n e p position flags1 flags2 : valued flags1 || valued flags2 = false ->
  exists v, ModelGpos.read_pair2s position n flags1 flags2 e p = Ok (v, p).
Proof.
  intros H. unfold ModelGpos.read_pair2s.
  assert (exists v, Tape.for_n n (fun _ => ModelGpos.read_pair2 position flags1 flags2) e p = Ok (v, p))
    as [v E].
  { unfold Tape.for_n. generalize 0%nat. induction (N.to_nat n) as [|k IH]; intros i; [eexists; reflexivity|].
    destruct (pair2_none e p position flags1 flags2 H) as [v E]. destruct (IH (S i)) as [vs Es].
    exists (v :: vs). cbn [Tape.for_range].
    rewrite (ProofErrors.run_bind _ _ _ _ _ _ E), (ProofErrors.run_bind _ _ _ _ _ _ Es). reflexivity. }
  exists (mkPair2s v). rewrite (ProofErrors.run_bind _ _ _ _ _ _ E). reflexivity.
Qed.

Lemma words_missing {A} n o (k : list N -> M A) : 0 < n ->
  Tape.bind (Tape.take_vec n Tape.take_u16) k (mkEnv (file_of []) o) 0 = Err UnexpectedEnd.
Proof. intros H. apply ProofErrors.run_stop, for_stop; [exact H|reflexivity]. Qed.

Lemma piece_reported {A} (r : piece A) o x : piece_modest r -> In x (piece_file_errors o r) ->
  reported o (piece_reader r) x.
Proof.
  intros [L W] H. destruct (plain r) eqn:P; [exact (plain_reported r o x P H)|].
  assert (counts : forall n, 0 <? n = true -> n < 2 ^ 16 -> 0 < n < 65536).
  { intros n C D. apply N.ltb_lt in C. split; [exact C|exact D]. }
  assert (corrects : forall flags1 flags2, corrected flags1 || corrected flags2 = true ->
    correctable flags1 || correctable flags2 = true).
  { intros flags1 flags2. rewrite !corrected_bits. auto. }
  assert (triple : In x [UnexpectedEnd; UnknownFormat; Malformed] ->
    x = UnexpectedEnd \/ (x = UnknownFormat \/ x = Malformed)).
  { intros I. cases I; auto. }
  assert (values : forall flags1 flags2, In x (values_errors flags1 flags2) ->
    x = UnexpectedEnd /\ valued flags1 || valued flags2 = true \/
    corrected flags1 || corrected flags2 = true /\ (x = UnknownFormat \/ x = Malformed)).
  { intros flags1 flags2 I. apply in_app_or in I as [I|I]; [|right; apply in_if, I]. left.
    destruct (_ || _); [|contradiction I]. destruct I as [<-|[]]. auto. }
  destruct r; try discriminate P; clear P; cbn [piece_base] in L;
    cbn [piece_reader piece_file_errors piece_errors] in *.
  - apply gsub_type_reported, H.
  - destruct (0 <? mark_class_count) eqn:C; [|contradiction H]. pose proof (counts _ C W) as N.
    apply triple in H as [->|X]; [apply nothing, words_missing, N|].
    apply (anchored _ o position x L X). intros f -> E. apply base_stop; [exact L|exact N|lia|exact E].
  - destruct H as [<-|H]; [apply nothing; reflexivity|]. apply in_if in H as [C X].
    apply (anchored _ o 0 x eq_refl X). intros f -> E.
    apply bases_stop; [reflexivity|exact (counts _ C W)|exact E].
  - destruct (0 <? mark_class_count) eqn:C; [|contradiction H]. pose proof (counts _ C W) as N.
    apply triple in H as [->|X]; [apply nothing, words_missing, N|].
    apply (anchored _ o position x L X). intros f -> E. apply component_stop; [exact L|exact N|lia|exact E].
  - destruct H as [<-|H]; [apply nothing; reflexivity|]. apply in_if in H as [C X].
    apply (anchored _ o 0 x eq_refl X). intros f -> E.
    apply gpos_ligature_stop; [reflexivity|exact (counts _ C W)|exact E].
  - destruct H as [<-|H]; [apply nothing; reflexivity|]. apply in_if in H as [C X].
    exists (spot 0 (1 :: 4 :: anchor_words x)), 0. split; [apply spot_bounded; reflexivity|].
    apply gpos_ligatures_stop; [reflexivity| |exact (counts _ C W)|eexists; reflexivity|].
    + repeat (constructor; [reflexivity|]). apply anchor_words_small.
    + apply anchor_spot_deep; [reflexivity|exact X].
  - apply triple in H as [->|X]; [apply nothing; reflexivity|].
    apply (anchored _ o position x L X). intros f -> E. apply mark1_stop; [exact L|lia|exact E].
  - destruct (0 <? mark_class_count) eqn:C; [|contradiction H]. pose proof (counts _ C W) as N.
    apply triple in H as [->|X]; [apply nothing, words_missing, N|].
    apply (anchored _ o position x L X). intros f -> E. apply mark2_stop; [exact L|exact N|lia|exact E].
  - destruct H as [<-|H]; [apply nothing; reflexivity|]. apply in_if in H as [C X].
    apply (anchored _ o 0 x eq_refl X). intros f -> E.
    apply mark2s_stop; [reflexivity|exact (counts _ C W)|exact E].
  - apply triple in H as [->|X]; [apply nothing; reflexivity|].
    apply (anchored _ o position x L X). intros f -> E. apply connection_stop; [exact L|lia|exact E].
  - apply values in H as [[-> V]|[C X]].
    + rewrite Bool.orb_false_r in V. apply nothing, single_end, V.
    + apply corrects in C. rewrite Bool.orb_false_r in C.
      apply (valued_report _ o position x L X). intros f -> E.
      pose proof (single_run o position (correction_words x) L flags position x ltac:(lia) (fun _ => E)) as R.
      rewrite C in R. exact R.
  - destruct H as [<-|H]; [apply nothing; reflexivity|]. apply in_if in H as [C X]. apply corrects in C.
    apply (valued_report _ o position x L X). intros f -> E. apply pair1_stop; [exact L|lia|exact C|exact E].
  - destruct H as [<-|H]; [apply nothing; reflexivity|]. apply in_if in H as [C X]. apply corrects in C.
    apply (valued_report _ o 0 x eq_refl X). intros f -> E. apply pair1s_stop; [reflexivity|exact C|exact E].
  - apply values in H as [[-> V]|[C X]]; [apply nothing, pair2_missing, V|]. apply corrects in C.
    apply (valued_report _ o position x L X). intros f -> E. apply pair2_stop; [exact L|lia|exact C|exact E].
  - destruct (0 <? class2_count) eqn:Z; [|contradiction H]. apply N.ltb_lt in Z.
    apply values in H as [[-> V]|[C X]].
    + apply nothing. apply ProofErrors.run_stop, for_stop; [exact Z|]. apply pair2_missing, V.
    + apply corrects in C. apply (valued_report _ o position x L X). intros f -> E.
      apply pair2s_stop; [exact L|exact Z|lia|exact C|exact E].
  - apply gpos_type_reported, H.
  - destruct H as [<-|H]; [apply nothing; reflexivity|]. unfold flags_errors in H.
    destruct (checked_flags o) eqn:C; [|contradiction H]. destruct H as [<-|[]].
    exists (file_of (flat_map be16 [0; 1])), 0. split; [apply file_of_bounded; discriminate|].
    apply instance_flags_error with (s := 0) (v := 1); [| |exact C|discriminate].
    + exists Byte.x00, Byte.x00. repeat split.
    + exists Byte.x00, Byte.x01. repeat split.
Qed.

(** ** No others *)

Lemma const_run e p c : u16_at (content e) p c -> Tape.take_const Tape.take_u16 c e p = Ok (c, p + 2).
Proof.
  intros H. unfold Tape.take_const. rewrite (ProofErrors.run_bind _ _ _ _ _ _ (u16_run _ _ _ H)), N.eqb_refl.
  reflexivity.
Qed.

(** The version of the header is read twice, so that the second read finds it. *)
Lemma gdef_header_errors o f p x : refuses o ModelGdef.read_gdef_header f p x ->
  In x [UnexpectedEnd; UnknownFormat].
Proof.
  unfold refuses. set (e := mkEnv f o). unfold ModelGdef.read_gdef_header. intros H.
  destruct (u32_now e p) as [(n & Hn & E)|(E & Hn)].
  2: { unfold Tape.bind, Tape.peek, Tape.stay in H. rewrite E in H. injection H as <-. left. reflexivity. }
  rewrite (run_peek _ _ _ _ _ _ E) in H.
  destruct Hn as (h & l & Hh & Hl & ->).
  assert (Bl : l < 65536) by exact (u16_bound e _ _ Hl).
  assert (C : forall v, 65536 * h + l = 65536 + v -> v < 65536 -> h = 1 /\ l = v) by (intros; lia).
  assert (S : forall A v (k : N -> N -> M A), only [UnexpectedEnd; UnknownFormat] (k 1 v) ->
    65536 * h + l = 65536 + v -> v < 65536 ->
    (forall y, Tape.bind (Tape.take_const Tape.take_u16 1) (fun a =>
      Tape.bind (Tape.take_const Tape.take_u16 v) (fun b => k a b)) e p = Err y ->
      In y [UnexpectedEnd; UnknownFormat])).
  { intros A v k K D B y. destruct (C v D B) as [-> ->].
    rewrite (ProofErrors.run_bind _ _ _ _ _ _ (const_run e _ _ Hh)).
    rewrite (ProofErrors.run_bind _ _ _ _ _ _ (const_run e _ _ Hl)). apply K. }
  destruct (N.eq_dec (65536 * h + l) 0x00010000) as [D|D0].
  { rewrite D in H. revert H. apply only_stop. apply (S _ 0); [|exact D|reflexivity]. only_errors. }
  destruct (N.eq_dec (65536 * h + l) 0x00010002) as [D|D2].
  { rewrite D in H. revert H. apply only_stop. apply (S _ 2); [|exact D|reflexivity]. only_errors. }
  destruct (N.eq_dec (65536 * h + l) 0x00010003) as [D|D3].
  { rewrite D in H. revert H. apply only_stop. apply (S _ 3); [|exact D|reflexivity]. only_errors. }
  right. left. revert D0 D2 D3 H. generalize (65536 * h + l). intros n D0 D2 D3 H.
  repeat match type of H with
  | (match ?x with _ => _ end) _ _ = _ => destruct x
  end; first [unfold Tape.raise in H; congruence | destruct D0; reflexivity | destruct D2; reflexivity
    | destruct D3; reflexivity].
Qed.

Lemma piece_reported_only {A} (r : piece A) o x : piece_base r < 2 ^ 63 -> reported o (piece_reader r) x ->
  In x (piece_file_errors o r).
Proof.
  intros W (f & p & _ & H). assert (T : In x (piece_errors o r)).
  { unfold refuses in H. rewrite <- (ProofPieces.piece_same r) in H.
    exact (piece_within r o W (Some x) (run_stops _ (mkEnv f o) x p H)). }
  assert (values : forall flags1 flags2, valued flags1 || valued flags2 = true ->
    In x (UnexpectedEnd :: if_errors (corrected flags1 || corrected flags2)) ->
    In x (values_errors flags1 flags2)).
  { intros flags1 flags2 V I. unfold values_errors. rewrite V. exact I. }
  assert (pairs : forall flags1 flags2, valued flags1 || valued flags2 = true ->
    In x (pair2_errors flags1 flags2) -> In x (values_errors flags1 flags2)).
  { intros flags1 flags2 V I. apply values; [exact V|]. apply in_app_or in I as [I|I]; [|right; exact I].
    destruct (_ && _); [contradiction I|]. left. destruct I as [I|[]]. exact I. }
  destruct r; try exact T; unfold refuses in H; cbn [piece_file_errors piece_errors piece_reader] in *.
  - destruct (0 <? mark_class_count) eqn:C; [exact T|].
    apply N.ltb_ge in C. replace mark_class_count with 0 in H by lia. discriminate H.
  - destruct (0 <? mark_class_count) eqn:C; [exact T|].
    apply N.ltb_ge in C. replace mark_class_count with 0 in H by lia. discriminate H.
  - destruct (0 <? mark_class_count) eqn:C; [exact T|].
    apply N.ltb_ge in C. replace mark_class_count with 0 in H by lia. discriminate H.
  - destruct (valued flags) eqn:V.
    + apply values; [rewrite V; reflexivity|]. rewrite Bool.orb_false_r. exact T.
    + destruct (single_none (mkEnv f o) p position flags V) as [v E]. rewrite E in H. discriminate H.
  - destruct (valued value1_flags || valued value2_flags) eqn:V; [apply pairs; assumption|].
    destruct (pair2_none (mkEnv f o) p position _ _ V) as [v E]. rewrite E in H. discriminate H.
  - destruct (0 <? class2_count); [|exact T].
    destruct (valued value1_flags || valued value2_flags) eqn:V; [apply pairs; assumption|].
    destruct (pair2s_none class2_count (mkEnv f o) p position _ _ V) as [v E]. rewrite E in H. discriminate H.
  - exact (gdef_header_errors o f p x H).
  - refine (only_cpal_header [UnexpectedEnd; UnknownVersion] _ _ _ _ _ H); cbn; auto.
Qed.

Lemma piece_file_reports {A} (r : piece A) o x : piece_modest r ->
  ((exists f p, bounded f /\ refuses o (piece_reader r) f p x) <-> In x (piece_file_errors o r)).
Proof.
  intros W. split; [|exact (piece_reported r o x W)]. apply piece_reported_only. destruct W as [W _].
  revert W. lia.
Qed.

(** ** Panics *)

Lemma piece_file_crashes {A} (r : piece A) o : piece_base r < 2 ^ 63 ->
  ((exists f p, bounded f /\ panics o (piece_reader r) f p) <-> overflow_checks o = true /\ has_store r = true).
Proof.
  intros W. split.
  - intros (f & p & F & H).
    assert (K : has_store r = false \/ overflow_checks o = false -> False).
    { intros C. exact (proj2 (proj2 (ProofPieces.piece_exactly r o f p F W C)) H). }
    destruct (overflow_checks o), (has_store r); auto; exfalso; auto.
  - intros [O S]. destruct o as [o1 o2 o3 o4 o5]. cbn [overflow_checks] in O. subst o1.
    destruct r; try discriminate S.
    + exists (file_of (flat_map be16 [0; 65535; 1; 0])), 0.
      split; [apply file_of_bounded; discriminate|vm_compute; reflexivity].
    + exists (file_of (flat_map be16 [1; 0; 12; 1; 0; 12; 0; 65535; 1; 0])), 0.
      split; [apply file_of_bounded; discriminate|vm_compute; reflexivity].
Qed.

Lemma request_file_crashes {A} (r : request A) o :
  (exists f p, bounded f /\ panics o (reader r) f p) <-> overflow_checks o = true /\ is_gdef r = true.
Proof.
  split.
  - intros (f & p & F & H).
    assert (K : is_gdef r = false \/ overflow_checks o = false -> False).
    { intros C. exact (ProofRequests.request_no_panic r o f p F C H). }
    destruct (overflow_checks o), (is_gdef r); auto; exfalso; auto.
  - intros [O S]. destruct o as [o1 o2 o3 o4 o5]. cbn [overflow_checks] in O. subst o1.
    destruct r; try discriminate S. exists (file_of overflowing_gdef), 0.
    split; [apply file_of_bounded; vm_compute; discriminate|vm_compute; reflexivity].
Qed.
