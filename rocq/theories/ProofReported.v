(** How reading can go wrong (C80, C82): all that SpecReports.v says is reported by some tape. *)

From Verif Require Export ProofReports.
From Verif Require ProofPieces ProofLoose ProofErrors ProofSteps.
From Verif Require Import ProofRangesOnly ProofRangesCan ProofFlags Encode.
From Verif Require Import Steps StepsReaders.
Local Open Scope steps_scope.

(** ** Tapes *)

(** A tape that answers as it is told, also when it is asked to move, until there is no more. *)
Definition told : tape := {|
  state := list (unit + (N + byte));
  tell s := match s with inr (inl q) :: s => (Answer q, s) | _ => (Over, s) end;
  seek _ s := match s with inl u :: s => (Answer u, s) | _ => (Over, s) end;
  take s := match s with inr (inr b) :: s => (Answer b, s) | _ => (Over, s) end |}.

Lemma stops_exec {A} (m : steps A) o x : stops o m x -> exists s, exec told m o s = wrong x.
Proof.
  induction m as [a|y| |m IH|m IH|m IH|q m IH|m IH]; cbn [stops exec]; intros H.
  - contradiction.
  - exists []. rewrite H. reflexivity.
  - exists []. rewrite H. reflexivity.
  - exact (IH o H).
  - exact (IH H).
  - destruct H as [-> |[q H]]; [exists []; reflexivity|]. destruct (IH q H) as [s E].
    exists (inr (inl q) :: s). exact E.
  - destruct H as [-> |H]; [exists []; reflexivity|]. destruct (IH H) as [s E].
    exists (inl tt :: s). exact E.
  - destruct H as [-> |[b H]]; [exists []; reflexivity|]. destruct (IH b H) as [s E].
    exists (inr (inr b) :: s). exact E.
Qed.

(** A tape that gives one byte after the other and always says that it is at the same place. *)
Definition fed (p : N) : tape := {|
  state := list byte;
  tell s := (Answer p, s);
  seek _ s := (Answer tt, s);
  take s := match s with b :: s => (Answer b, s) | [] => (Over, s) end |}.

(** ** Scripts *)

(** Two bytes at a time, what to answer to make reading a part report the error. *)
Definition piece_script {A} (r : piece A) (x : error) : list N :=
  match r, x with
  | PieceCoverage, UnknownFormat => [0]
  | PieceClass, UnknownFormat => [0]
  | PieceDevice, Malformed => [1; 0]
  | PieceDevice, UnknownFormat => [0; 0; 0]
  | PieceCorrection, UnknownFormat => [0; 0; 0]
  | PieceCorrection, Malformed => [0; 0; 1; 1; 0]
  | PieceContextRecord, Malformed => [0; 0]
  | PieceContextRecords, Malformed => [1; 1; 0; 0]
  | PieceContextClassRecord, Malformed => [0; 0]
  | PieceContextClassRecords, Malformed => [1; 1; 0; 0]
  | PieceChainedRecord, Malformed => [0; 0]
  | PieceChainedRecords, Malformed => [1; 1; 0; 0]
  | PieceChainedClassRecord, Malformed => [0; 0]
  | PieceChainedClassRecords, Malformed => [1; 1; 0; 0]
  | PieceContext1, UnknownFormat => [1; 1; 0; 0]
  | PieceContext1, Malformed => [1; 1; 1; 1; 1; 1; 0; 1; 1; 0; 0]
  | PieceContext2, UnknownFormat => [2; 1; 1; 0; 0]
  | PieceContext2, Malformed => [2; 1; 1; 1; 1; 1; 1; 0; 1; 1; 0; 0; 1; 1; 0; 0]
  | PieceContext3, UnknownFormat => [3; 1; 0; 1; 0]
  | PieceContext, UnknownFormat => [0]
  | PieceContext, Malformed => [1; 1; 1; 1; 1; 1; 1; 0; 1; 1; 0; 0]
  | PieceChainedContext1, UnknownFormat => [1; 1; 0; 0]
  | PieceChainedContext1, Malformed => [1; 1; 1; 1; 1; 1; 0; 1; 1; 0; 0]
  | PieceChainedContext2, UnknownFormat => [2; 1; 1; 1; 1; 0; 0]
  | PieceChainedContext2, Malformed => [2; 1; 1; 1; 1; 1; 1; 1; 1; 0; 1; 1; 0; 0; 1; 1; 0; 0; 1; 1;
      0; 0; 1; 1; 0; 0]
  | PieceChainedContext3, UnknownFormat => [3; 0; 1; 1; 0; 0; 0]
  | PieceChainedContext, UnknownFormat => [0]
  | PieceChainedContext, Malformed => [1; 1; 1; 1; 1; 1; 1; 0; 1; 1; 0; 0]
  | PieceLanguageRecord, UnexpectedValue => [1]
  | PieceScriptRecord, UnexpectedValue => [1; 0; 1]
  | PieceScripts, UnexpectedValue => [1; 0; 0; 1; 1; 0; 1]
  | PieceFeatureVariations, UnexpectedValue => [0]
  | PieceGsubLookupRecord, UnexpectedValue => [2; 0; 1; 1; 0]
  | PieceGsubLookupRecord, UnknownFormat => [1; 0; 1; 1; 0]
  | PieceGsubLookupRecord, UnknownType => [0; 0; 1; 1]
  | PieceGsubLookupRecord, Malformed => [5; 0; 1; 1; 1; 1; 1; 1; 1; 1; 1; 0; 1; 1; 0; 0]
  | PieceGsubLookupRecord, InvalidFlags => [1; 32]
  | PieceGposLookupRecord, UnexpectedValue => [3; 0; 1; 1; 0]
  | PieceGposLookupRecord, UnknownFormat => [1; 0; 1; 1; 0]
  | PieceGposLookupRecord, UnknownType => [0; 0; 1; 1]
  | PieceGposLookupRecord, Malformed => [7; 0; 1; 1; 1; 1; 1; 1; 1; 1; 1; 0; 1; 1; 0; 0]
  | PieceGposLookupRecord, InvalidFlags => [1; 32]
  | PieceGsubLookups, UnexpectedValue => [1; 1; 2; 0; 1; 1; 0]
  | PieceGsubLookups, UnknownFormat => [1; 1; 1; 0; 1; 1; 0]
  | PieceGsubLookups, UnknownType => [1; 1; 0; 0; 1; 1]
  | PieceGsubLookups, Malformed => [1; 1; 5; 0; 1; 1; 1; 1; 1; 1; 1; 1; 1; 0; 1; 1; 0; 0]
  | PieceGsubLookups, InvalidFlags => [1; 1; 1; 32]
  | PieceGposLookups, UnexpectedValue => [1; 1; 3; 0; 1; 1; 0]
  | PieceGposLookups, UnknownFormat => [1; 1; 1; 0; 1; 1; 0]
  | PieceGposLookups, UnknownType => [1; 1; 0; 0; 1; 1]
  | PieceGposLookups, Malformed => [1; 1; 7; 0; 1; 1; 1; 1; 1; 1; 1; 1; 1; 0; 1; 1; 0; 0]
  | PieceGposLookups, InvalidFlags => [1; 1; 1; 32]
  | PieceStore, UnexpectedValue => [0]
  | PieceLigature, Malformed => [0; 0]
  | PieceLigatures, Malformed => [1; 1; 0; 0]
  | PieceSingleSubstitution1, UnknownFormat => [1; 1; 0; 0]
  | PieceSingleSubstitution2, UnknownFormat => [2; 1; 0; 0]
  | PieceSingleSubstitution, UnknownFormat => [0]
  | PieceMultipleSubstitution, UnexpectedValue => [0]
  | PieceMultipleSubstitution, UnknownFormat => [1; 1; 0; 0]
  | PieceAlternateSubstitution, UnexpectedValue => [0]
  | PieceAlternateSubstitution, UnknownFormat => [1; 1; 0; 0]
  | PieceLigatureSubstitution, UnexpectedValue => [0]
  | PieceLigatureSubstitution, UnknownFormat => [1; 1; 0; 0]
  | PieceLigatureSubstitution, Malformed => [1; 1; 1; 1; 1; 1; 0; 1; 1; 0; 0]
  | PieceExtensionSubstitution, UnexpectedValue => [0]
  | PieceReverseChainedContextualSubstibution, UnknownFormat => [1; 1; 0; 0; 0; 0]
  | PieceAnchor3, UnknownFormat => [3; 0; 0; 1; 0; 0; 0; 0]
  | PieceAnchor3, Malformed => [3; 0; 0; 1; 0; 0; 0; 1; 1; 0]
  | PieceAnchor, UnknownFormat => [0]
  | PieceAnchor, Malformed => [3; 3; 0; 0; 1; 0; 0; 0; 1; 1; 0]
  | PieceMark1s, UnknownFormat => [1; 0; 1; 0]
  | PieceMark1s, Malformed => [1; 0; 1; 3; 3; 0; 0; 1; 0; 0; 0; 1; 1; 0]
  | PieceSingleAdjustment1, UnknownFormat => [1; 1; 0; 0]
  | PieceSingleAdjustment1, Malformed => [1; 1; 16; 1; 0; 0; 1; 1; 0]
  | PieceSingleAdjustment1, InvalidFlags => [1; 1; 256]
  | PieceSingleAdjustment2, UnknownFormat => [2; 1; 0; 0; 0]
  | PieceSingleAdjustment2, Malformed => [2; 1; 16; 1; 1; 0; 0; 1; 1; 0]
  | PieceSingleAdjustment2, InvalidFlags => [2; 1; 256]
  | PieceSingleAdjustment, UnknownFormat => [0]
  | PieceSingleAdjustment, Malformed => [1; 1; 1; 16; 1; 0; 0; 1; 1; 0]
  | PieceSingleAdjustment, InvalidFlags => [1; 1; 1; 256]
  | PiecePairAdjustment1, UnknownFormat => [1; 1; 0; 0; 0; 0]
  | PiecePairAdjustment1, Malformed => [1; 1; 16; 0; 1; 1; 1; 1; 0; 1; 0; 1; 0; 0; 1; 1; 0]
  | PiecePairAdjustment1, InvalidFlags => [1; 1; 256]
  | PiecePairAdjustment2, UnknownFormat => [2; 1; 0; 0; 1; 1; 0; 0; 0]
  | PiecePairAdjustment2, Malformed => [2; 1; 16; 0; 1; 1; 1; 1; 1; 0; 0; 1; 1; 0]
  | PiecePairAdjustment2, InvalidFlags => [2; 1; 256]
  | PiecePairAdjustment, UnknownFormat => [0]
  | PiecePairAdjustment, Malformed => [1; 1; 1; 16; 0; 1; 1; 1; 1; 0; 1; 0; 1; 0; 0; 1; 1; 0]
  | PiecePairAdjustment, InvalidFlags => [1; 1; 1; 256]
  | PieceCursiveAttachment, UnexpectedValue => [0]
  | PieceCursiveAttachment, UnknownFormat => [1; 1; 0; 0]
  | PieceCursiveAttachment, Malformed => [1; 1; 1; 1; 0; 3; 3; 0; 0; 1; 0; 0; 0; 1; 1; 0]
  | PieceMarkToBaseAttachment, UnexpectedValue => [0]
  | PieceMarkToBaseAttachment, UnknownFormat => [1; 1; 1; 0; 1; 1; 0]
  | PieceMarkToBaseAttachment, Malformed => [1; 1; 1; 0; 1; 1; 1; 1; 0; 1; 1; 0; 1; 0; 1; 3; 3; 0;
      0; 1; 0; 0; 0; 1; 1; 0]
  | PieceMarkToLigatureAttachment, UnexpectedValue => [0]
  | PieceMarkToLigatureAttachment, UnknownFormat => [1; 1; 1; 0; 1; 1; 0]
  | PieceMarkToLigatureAttachment, Malformed => [1; 1; 1; 0; 1; 1; 1; 1; 0; 1; 1; 0; 1; 0; 1; 3; 3;
      0; 0; 1; 0; 0; 0; 1; 1; 0]
  | PieceMarkToMarkAttachment, UnexpectedValue => [0]
  | PieceMarkToMarkAttachment, UnknownFormat => [1; 1; 1; 0; 1; 1; 0]
  | PieceMarkToMarkAttachment, Malformed => [1; 1; 1; 0; 1; 1; 1; 1; 0; 1; 1; 0; 1; 0; 1; 3; 3; 0;
      0; 1; 0; 0; 0; 1; 1; 0]
  | PieceExtensionPositioning, UnexpectedValue => [0]
  | PieceAttachments, UnknownFormat => [1; 0; 0]
  | PieceCaret3, UnknownFormat => [3; 0; 1; 0; 0; 0]
  | PieceCaret3, Malformed => [3; 0; 1; 0; 0; 1; 1; 0]
  | PieceCaret, UnknownFormat => [0; 0]
  | PieceCaret, Malformed => [0; 3; 3; 0; 1; 0; 0; 1; 1; 0]
  | PieceGdefLigature, UnknownFormat => [1; 1; 0; 0]
  | PieceGdefLigature, Malformed => [1; 1; 0; 3; 3; 0; 1; 0; 0; 1; 1; 0]
  | PieceGdefLigatures, UnknownFormat => [1; 0; 0]
  | PieceGdefLigatures, Malformed => [1; 1; 1; 1; 1; 0; 1; 1; 0; 3; 3; 0; 1; 0; 0; 1; 1; 0]
  | PieceMarks, UnexpectedValue => [0]
  | PieceMarks, UnknownFormat => [1; 1; 0; 1; 0]
  | PieceGdefHeader1, UnexpectedValue => [0]
  | PieceGdefHeader12, UnexpectedValue => [0]
  | PieceGdefHeader13, UnexpectedValue => [0]
  | PieceGdefHeader, UnknownFormat => [0; 0]
  | PieceGdefHeader, UnexpectedValue => [1; 0; 0]
  | PieceCpalHeader0, UnexpectedValue => [1]
  | PieceCpalHeader1, UnexpectedValue => [0]
  | PieceCpalHeader, UnknownVersion => [2]
  | PieceCpalHeader, UnexpectedValue => [0; 1]
  | PieceFvarHeader, UnexpectedValue => [0; 0; 0; 0]
  | PieceAxisRecord, InvalidFlags => [0; 0; 0; 0; 0; 0; 0; 0; 2]
  | PieceLookupFlags, InvalidFlags => [32]
  | PieceValueFlags, InvalidFlags => [256]
  | PieceAxisFlags, InvalidFlags => [2]
  | PieceInstanceFlags, InvalidFlags => [1]
  | _, _ => []
  end.

(** The same for a panic; the tape says that it is at the last position there is. *)
Definition piece_crash {A} (r : piece A) : list N :=
  match r with
  | PieceContextRecords => [1; 1]
  | PieceContextClassRecords => [1; 1]
  | PieceChainedRecords => [1; 1]
  | PieceChainedClassRecords => [1; 1]
  | PieceContext1 => [1; 1; 0]
  | PieceContext2 => [2; 1; 1; 0]
  | PieceContext3 => [3; 1; 0; 1]
  | PieceContext => [1; 1; 1; 0]
  | PieceChainedContext1 => [1; 1; 0]
  | PieceChainedContext2 => [2; 1; 1; 1; 1; 0]
  | PieceChainedContext3 => [3; 0; 1; 1; 0; 0]
  | PieceChainedContext => [1; 1; 1; 0]
  | PieceScriptRecord => [1; 0]
  | PieceScripts => [1; 0; 0; 1]
  | PieceFeatureRecord => [1; 0]
  | PieceFeatures => [1; 0; 0; 1]
  | PieceGsubLookupRecord => [1; 0; 1; 1]
  | PieceGposLookupRecord => [1; 0; 1; 1]
  | PieceGsubLookups => [1; 1]
  | PieceGposLookups => [1; 1]
  | PieceStoreRecord => [0; 65535; 1; 0]
  | PieceStore => [1; 0; 0; 1; 0; 1]
  | PieceLigatures => [1; 1]
  | PieceSingleSubstitution1 => [1; 1; 0]
  | PieceSingleSubstitution2 => [2; 1; 0]
  | PieceSingleSubstitution => [1; 1; 1; 0]
  | PieceMultipleSubstitution => [1; 1; 0]
  | PieceAlternateSubstitution => [1; 1; 0]
  | PieceLigatureSubstitution => [1; 1; 0]
  | PieceReverseChainedContextualSubstibution => [1; 1; 0; 0; 0]
  | PieceAnchor3 => [3; 0; 0; 1; 0]
  | PieceAnchor => [3; 3; 0; 0; 1; 0]
  | PieceMark1s => [1; 0; 1]
  | PieceSingleAdjustment1 => [1; 1; 0]
  | PieceSingleAdjustment2 => [2; 1; 0; 0]
  | PieceSingleAdjustment => [1; 1; 1; 0]
  | PiecePairAdjustment1 => [1; 1; 0; 0; 0]
  | PiecePairAdjustment2 => [2; 1; 0; 0; 1; 1; 0; 0]
  | PiecePairAdjustment => [1; 1; 1; 0; 0; 0]
  | PieceCursiveAttachment => [1; 1; 0]
  | PieceMarkToBaseAttachment => [1; 1; 1; 0; 1; 1]
  | PieceMarkToLigatureAttachment => [1; 1; 1; 0; 1; 1]
  | PieceMarkToMarkAttachment => [1; 1; 1; 0; 1; 1]
  | PieceAttachments => [1; 0]
  | PieceCaret3 => [3; 0; 1]
  | PieceCaret => [0; 3; 3; 0; 1]
  | PieceGdefLigature => [1; 1]
  | PieceGdefLigatures => [1; 0]
  | PieceMarks => [1; 1; 0; 1]
  | _ => []
  end.

(** And for tables. *)
Definition request_script {A} (r : request A) (x : error) : list N :=
  match r, x with
  | RequestGdef, UnexpectedValue => [1; 0; 0]
  | RequestGdef, UnknownFormat => [0; 0]
  | RequestGdef, Malformed => [1; 0; 1; 0; 0; 0; 1; 0; 1; 1; 1; 1; 1; 0; 1; 1; 0; 3; 3; 0; 1; 0; 0;
      1; 1; 0]
  | RequestGsub, UnknownVersion => [0; 0]
  | RequestGsub, UnexpectedValue => [1; 0; 1; 1; 1; 1; 0; 0; 1; 1; 0; 1]
  | RequestGsub, UnknownFormat => [1; 0; 1; 1; 1; 0; 0; 1; 1; 1; 0; 1; 1; 0]
  | RequestGsub, UnknownType => [1; 0; 1; 1; 1; 0; 0; 1; 1; 0; 0; 1; 1]
  | RequestGsub, Malformed => [1; 0; 1; 1; 1; 0; 0; 1; 1; 5; 0; 1; 1; 1; 1; 1; 1; 1; 1; 1; 0; 1; 1;
      0; 0]
  | RequestGsub, InvalidFlags => [1; 0; 1; 1; 1; 0; 0; 1; 1; 1; 32]
  | RequestGpos, UnknownVersion => [0; 0]
  | RequestGpos, UnexpectedValue => [1; 0; 1; 1; 1; 1; 0; 0; 1; 1; 0; 1]
  | RequestGpos, UnknownFormat => [1; 0; 1; 1; 1; 0; 0; 1; 1; 1; 0; 1; 1; 0]
  | RequestGpos, UnknownType => [1; 0; 1; 1; 1; 0; 0; 1; 1; 0; 0; 1; 1]
  | RequestGpos, Malformed => [1; 0; 1; 1; 1; 0; 0; 1; 1; 7; 0; 1; 1; 1; 1; 1; 1; 1; 1; 1; 0; 1; 1;
      0; 0]
  | RequestGpos, InvalidFlags => [1; 0; 1; 1; 1; 0; 0; 1; 1; 1; 32]
  | RequestCpal, UnexpectedValue => [0; 1]
  | RequestCpal, UnknownVersion => [2]
  | RequestFvar, UnexpectedValue => [0; 0; 0; 0]
  | RequestFvar, InvalidFlags => [0; 0; 1; 2; 1; 20; 0; 0; 0; 0; 0; 0; 0; 0; 0; 0; 2]
  | RequestFile _, Unsupported => [0x7474; 0x6366]
  | _, _ => []
  end.

Definition request_crash {A} (r : request A) : list N :=
  match r with
  | RequestGdef => [1; 0; 1; 0; 1; 0; 0; 0]
  | RequestGsub => [1; 0; 1; 1; 1]
  | RequestGpos => [1; 0; 1; 1; 1]
  | RequestCpal => [0; 0; 0; 0; 0; 0; 1]
  | RequestFvar => [0; 0; 1; 2; 0; 0; 0; 0]
  | _ => []
  end.

(** The parts without parameters. *)
Definition plain {A} (r : piece A) : bool :=
  match r with
  | PieceGsubType _ | PieceGposType _ | PieceBase _ _ | PieceBases _ | PieceComponent _ _ | PieceGposLigature _
  | PieceGposLigatures _ | PieceMark1 _ | PieceMark2 _ _ | PieceMark2s _ | PieceConnection _ | PieceSingle _ _
  | PiecePair1 _ _ _ | PiecePair1s _ _ | PiecePair2 _ _ _ | PiecePair2s _ _ _ _ | PieceInstanceRecord _ => false
  | _ => true
  end.

Lemma fed_stops {A} (m : steps A) o p s x : exec (fed p) m o (flat_map be16 s) = wrong x -> stops o m x.
Proof. apply exec_stops. Qed.

Ltac cases H := repeat (destruct H as [<-|H]; [|]); try contradiction H.

Lemma plain_stops {A} (r : piece A) o x : plain r = true -> In x (piece_errors o r) ->
  stops o (piece_steps r) (Some x).
Proof.
  intros P H. apply (fed_stops _ o 0 (piece_script r x)). cbn [wrong].
  destruct o as [o1 o2 o3 o4 o5].
  destruct r; try discriminate P; cbn [piece_errors] in H;
    unfold lookup_errors, flags_errors in H; cbn [checked_flags] in H;
    try (destruct o5); cbn [app] in H;
    cases H; destruct o1, o2, o3; vm_compute; reflexivity.
Qed.

Lemma plain_crash {A} (r : piece A) o : plain r = true -> piece_sums r = true -> overflow_checks o = true ->
  stops o (piece_steps r) None.
Proof.
  intros P H C. apply (fed_stops _ o (2 ^ 64 - 1) (piece_crash r)). cbn [wrong].
  destruct o as [o1 o2 o3 o4 o5]. cbn in C. subst o1.
  destruct r; try discriminate P; try discriminate H; destruct o2, o3, o5; vm_compute; reflexivity.
Qed.

(** ** Steps *)

Lemma stops_here {A B} o (m : steps A) (k : A -> steps B) x : stops o m x -> stops o (bind m k) x.
Proof. intros H. apply stops_bind. left. exact H. Qed.

Lemma stops_next {A B} o (m : steps A) (k : A -> steps B) a x : can o m a -> stops o (k a) x ->
  stops o (bind m k) x.
Proof. intros H K. apply stops_bind. right. exists a. auto. Qed.

Lemma stops_n {A} o n (f : nat -> steps A) x : 0 < n -> stops o (f 0%nat) x -> stops o (for_n n f) x.
Proof.
  intros L H. unfold for_n. destruct (N.to_nat n) as [|k] eqn:K; [lia|].
  cbn [for_range stops]. apply stops_here. exact H.
Qed.

Lemma stops_jump {A} o p q (m : steps A) x : low p -> short q -> stops o m x -> stops o (jump_take p q m) x.
Proof.
  intros P Q H. unfold jump_take, add_u64, add_wrapping, short, low in *. cbn [bind ask stops].
  destruct (N.ltb_spec (p + q) (2 ^ 64)) as [L|L]; [right; exact H|]. lia.
Qed.

Lemma stops_maybe {A} o p (m : steps A) x : low p -> stops o m x -> stops o (jump_take_maybe p 1 m) x.
Proof.
  intros P H. unfold jump_take_maybe. cbn [N.ltb N.compare]. apply stops_here. apply stops_jump; auto.
  reflexivity.
Qed.

Lemma stops_stay {A} o (m : steps A) x : stops o m x -> stops o (stay m) x.
Proof.
  intros H. unfold stay. eapply (stops_next o _ _ 0); [exists 0; reflexivity|]. apply stops_here. exact H.
Qed.

(** ** Anchors *)

Definition stops_corrected (o : options) (x : option error) : Prop :=
  x = Some UnknownFormat \/ x = Some Malformed.

Definition stops_anchored (o : options) (x : option error) : Prop :=
  stops_corrected o x \/ (x = None /\ overflow_checks o = true).

Lemma stops_correction o x : stops_corrected o x -> stops o read_correction x.
Proof.
  intros [-> | ->]; apply (plain_stops PieceCorrection); cbn; auto.
Qed.

Lemma stops_anchor o x : stops_anchored o x -> stops o read_anchor x.
Proof.
  intros [[-> | ->]|[-> C]]; [apply (plain_stops PieceAnchor); cbn; auto..|].
  apply (plain_crash PieceAnchor); auto.
Qed.

Lemma can_ones o n : can o (take_vec n take_u16) (repeat 1 (N.to_nat n)).
Proof.
  apply can_vec.
  - unfold counts. rewrite repeat_length, N2Nat.id. reflexivity.
  - apply Forall_forall. intros v H. apply repeat_spec in H. subst v. apply can_u16. reflexivity.
Qed.

Lemma stops_anchors o p n x : low p -> 0 < n -> stops_anchored o x ->
  stops o (stay (jump_take_maybe_n p n (repeat 1 (N.to_nat n)) read_anchor)) x.
Proof.
  intros P L H. apply stops_stay. unfold jump_take_maybe_n. apply stops_n; [exact L|].
  apply stops_next with (a := 1).
  - unfold index. destruct (N.to_nat n) eqn:K; [lia|]. reflexivity.
  - apply stops_maybe; [exact P|apply stops_anchor, H].
Qed.

Lemma stops_base o p n x : low p -> 0 < n -> stops_anchored o x -> stops o (read_base p n) x.
Proof. intros. eapply stops_next; [apply can_ones|]. apply stops_here, stops_anchors; auto. Qed.

Lemma stops_component o p n x : low p -> 0 < n -> stops_anchored o x -> stops o (read_component p n) x.
Proof. intros. eapply stops_next; [apply can_ones|]. apply stops_here, stops_anchors; auto. Qed.

Lemma stops_mark2 o p n x : low p -> 0 < n -> stops_anchored o x -> stops o (read_mark2 p n) x.
Proof. intros. eapply stops_next; [apply can_ones|]. apply stops_here, stops_anchors; auto. Qed.

(** The position and a count of one. *)
Lemma stops_counted {A B} o (f : N -> N -> nat -> steps A) (g : N -> list A -> B) x :
  stops o (f 0 1 0%nat) x ->
  stops o (p <- get_position;; n <- take_u16;; l <- for_n n (f p n);; ret (g n l)) x.
Proof.
  intros H. apply stops_next with (a := 0); [exists 0; reflexivity|].
  apply stops_next with (a := 1); [apply can_u16; reflexivity|]. apply stops_here.
  apply stops_n; [reflexivity|exact H].
Qed.

Lemma stops_gpos_ligature o n x : 0 < n -> stops_anchored o x -> stops o (read_gpos_ligature n) x.
Proof.
  intros L H. apply (stops_counted o (fun p _ _ => read_component p n)).
  apply stops_component; auto. exact low0.
Qed.

(** ** Values *)

Definition taken {A} (flag : bool) (v : A) : option A := if flag then Some v else None.

Lemma can_taken {A} o flag (m : steps A) v : can o m v -> can o (take_if flag m) (taken flag v).
Proof. intros H. unfold take_if. destruct flag; [|reflexivity]. eapply can_next; [reflexivity|exact H]. Qed.

Lemma can_unlinked o p flag : can o (take_linked p (taken flag 0)) None.
Proof. destruct flag; reflexivity. Qed.

(** The first four fields, and offsets [a] for the corrections. *)
Lemma stops_value o p flags a x :
  stops o (stay (
    x1 <- take_linked p (taken (has_x_placement_correction flags) a);;
    x2 <- take_linked p (taken (has_y_placement_correction flags) a);;
    x3 <- take_linked p (taken (has_x_advance_correction flags) a);;
    x4 <- take_linked p (taken (has_y_advance_correction flags) a);;
    ret (x1, x2, x3, x4))) x -> u16 a -> stops o (read_single p flags) x.
Proof.
  intros H U. unfold read_single.
  do 4 (eapply stops_next; [apply (can_taken o _ take_i16 0%Z), can_i16; unfold i16; lia|]).
  do 4 (eapply stops_next; [apply (can_taken o _ take_u16 a), can_u16, U|]).
  apply stops_here. exact H.
Qed.

Lemma linked_low o p x : low p -> stops_corrected o x -> stops o (take_linked p (Some 1)) x.
Proof. intros P H. apply stops_maybe; [exact P|apply stops_correction, H]. Qed.

Lemma linked_far o : overflow_checks o = true -> stops o (take_linked (2 ^ 64 - 1) (Some 1)) None.
Proof.
  intros C. apply stops_here. unfold jump_take, add_u64, add_wrapping. cbn [bind ask stops]. rewrite C.
  reflexivity.
Qed.

Lemma stops_single o p flags x : corrected flags = true -> stops o (take_linked p (Some 1)) x ->
  stops o (read_single p flags) x.
Proof.
  intros C S. apply (stops_value o p flags 1); [|reflexivity]. apply stops_stay.
  rewrite corrected_bits in C. unfold taken.
  destruct (has_x_placement_correction flags); [apply stops_here, S|].
  eapply stops_next; [reflexivity|].
  destruct (has_y_placement_correction flags); [apply stops_here, S|].
  eapply stops_next; [reflexivity|].
  destruct (has_x_advance_correction flags); [apply stops_here, S|].
  eapply stops_next; [reflexivity|].
  destruct (has_y_advance_correction flags); [apply stops_here, S|]. discriminate C.
Qed.

Lemma some_single o p flags : exists v, can o (read_single p flags) v.
Proof.
  eexists. unfold read_single.
  do 4 (eapply can_next; [|apply (can_taken o _ take_i16 0%Z), can_i16; unfold i16; lia]).
  do 4 (eapply can_next; [|apply (can_taken o _ take_u16 0), can_u16; reflexivity]).
  eapply can_next; [|apply can_stay; do 4 (eapply can_next; [|apply can_unlinked]); reflexivity].
  reflexivity.
Qed.

Definition read_value (p flags : N) : steps (option Single) :=
  if 0 <? flags then v <- read_single p flags;; ret (Some v) else ret None.

Lemma some_value o p flags : exists v, can o (read_value p flags) v.
Proof.
  unfold read_value. destruct (0 <? flags); [|exists None; reflexivity].
  destruct (some_single o p flags) as [v V]. exists (Some v). eapply can_next; [reflexivity|exact V].
Qed.

Lemma corrected_positive flags : corrected flags = true -> 0 < flags.
Proof. destruct flags; [discriminate|reflexivity]. Qed.

Lemma stops_optional o p flags x : corrected flags = true -> stops o (take_linked p (Some 1)) x ->
  stops o (read_value p flags) x.
Proof.
  intros C H. unfold read_value. destruct (N.ltb_spec 0 flags) as [L|L].
  - apply stops_here, stops_single; auto.
  - apply corrected_positive in C. lia.
Qed.

Lemma stops_values {A} o p flags1 flags2 (k : option Single -> option Single -> steps A) x :
  corrected flags1 || corrected flags2 = true -> stops o (take_linked p (Some 1)) x ->
  stops o (v1 <- read_value p flags1;; v2 <- read_value p flags2;; k v1 v2) x.
Proof.
  intros C H. destruct (corrected flags1) eqn:C1.
  - apply stops_here, stops_optional; auto.
  - destruct (some_value o p flags1) as [v V]. eapply stops_next; [exact V|].
    apply stops_here, stops_optional; auto.
Qed.

Lemma stops_pair1 o p flags1 flags2 x : corrected flags1 || corrected flags2 = true ->
  stops o (take_linked p (Some 1)) x -> stops o (read_pair1 p flags1 flags2) x.
Proof.
  intros C H. eapply stops_next; [apply (can_u16 o 0); reflexivity|]. exact (stops_values o p _ _ _ x C H).
Qed.

Lemma stops_pair2 o p flags1 flags2 x : corrected flags1 || corrected flags2 = true ->
  stops o (take_linked p (Some 1)) x -> stops o (read_pair2 p flags1 flags2) x.
Proof. intros C H. exact (stops_values o p _ _ _ x C H). Qed.

Lemma pair2_end o p flags1 flags2 : (flags1 =? 0) && (flags2 =? 0) = false ->
  stops o (read_pair2 p flags1 flags2) (Some UnexpectedEnd).
Proof.
  assert (S : forall flags, flags <> 0 -> stops o (read_value p flags) (Some UnexpectedEnd)).
  { intros flags Z. unfold read_value. destruct (N.ltb_spec 0 flags); [|lia]. apply stops_here.
    apply (stops_value o p flags 0); [left; reflexivity|reflexivity]. }
  intros H. change (stops o (v1 <- read_value p flags1;; v2 <- read_value p flags2;; ret (mkPair2 v1 v2))
    (Some UnexpectedEnd)). destruct (N.eqb_spec flags1 0) as [->|Z1].
  - destruct (N.eqb_spec flags2 0) as [->|Z2]; [discriminate H|].
    eapply stops_next; [reflexivity|]. apply stops_here, S, Z2.
  - apply stops_here, S, Z1.
Qed.

(** ** All parts *)

Lemma in_if b x : In x (if_errors b) -> b = true /\ (x = UnknownFormat \/ x = Malformed).
Proof. destruct b; cbn; [|tauto]. intros [<-|[<-|[]]]; auto. Qed.

Lemma anchors_end {A} o n (k : list N -> steps A) : (n = 0 -> stops o (k []) (Some UnexpectedEnd)) ->
  stops o (bind (take_vec n take_u16) k) (Some UnexpectedEnd).
Proof.
  intros H. destruct n as [|n].
  - eapply stops_next with (a := []); [reflexivity|auto].
  - apply stops_here, stops_n; [reflexivity|]. left. reflexivity.
Qed.

Lemma gsub_type_stops o n x : In x (gsub_type_errors n) -> stops o (read_gsub_type n) (Some x).
Proof.
  intros H.
  destruct n as [|[[[[n|n|]|[n|n|]|]|[[n|n|]|[n|n|]|]|]|[[[n|n|]|[n|n|]|]|[[n|n|]|[n|n|]|]|]|]];
    cbn [gsub_type_errors] in H; try (destruct H as [<-|[]]; reflexivity);
    apply stops_here;
    first [apply (plain_stops PieceSingleSubstitution) | apply (plain_stops PieceMultipleSubstitution)
    | apply (plain_stops PieceAlternateSubstitution) | apply (plain_stops PieceLigatureSubstitution)
    | apply (plain_stops PieceContext) | apply (plain_stops PieceChainedContext)
    | apply (plain_stops PieceExtensionSubstitution) | apply
      (plain_stops PieceReverseChainedContextualSubstibution)];
    auto.
Qed.

Lemma gpos_type_stops o n x : In x (gpos_type_errors o n) -> stops o (read_gpos_type n) (Some x).
Proof.
  intros H.
  destruct n as [|[[[[n|n|]|[n|n|]|]|[[n|n|]|[n|n|]|]|]|[[[n|n|]|[n|n|]|]|[[n|n|]|[n|n|]|]|]|]];
    cbn [gpos_type_errors] in H; try (destruct H as [<-|[]]; reflexivity);
    apply stops_here;
    first [apply (plain_stops PieceSingleAdjustment) | apply (plain_stops PiecePairAdjustment)
    | apply (plain_stops PieceCursiveAttachment) | apply (plain_stops PieceMarkToBaseAttachment)
    | apply (plain_stops PieceMarkToLigatureAttachment) | apply (plain_stops PieceMarkToMarkAttachment)
    | apply (plain_stops PieceContext) | apply (plain_stops PieceChainedContext)
    | apply (plain_stops PieceExtensionPositioning)]; auto.
Qed.

Lemma gsub_type_crash o n : existsb (N.eqb n) [1; 2; 3; 4; 5; 6; 8] = true -> overflow_checks o = true ->
  stops o (read_gsub_type n) None.
Proof.
  intros H C. apply existsb_exists in H as (k & H & K). apply N.eqb_eq in K. subst k.
  cbn [In] in H. cases H; apply stops_here;
    first [apply (plain_crash PieceSingleSubstitution) | apply (plain_crash PieceMultipleSubstitution)
    | apply (plain_crash PieceAlternateSubstitution) | apply (plain_crash PieceLigatureSubstitution)
    | apply (plain_crash PieceContext) | apply (plain_crash PieceChainedContext)
    | apply (plain_crash PieceReverseChainedContextualSubstibution)]; auto.
Qed.

Lemma gpos_type_crash o n : existsb (N.eqb n) [1; 2; 3; 4; 5; 6; 7; 8] = true -> overflow_checks o = true ->
  stops o (read_gpos_type n) None.
Proof.
  intros H C. apply existsb_exists in H as (k & H & K). apply N.eqb_eq in K. subst k.
  cbn [In] in H. cases H; apply stops_here;
    first [apply (plain_crash PieceSingleAdjustment) | apply (plain_crash PiecePairAdjustment)
    | apply (plain_crash PieceCursiveAttachment) | apply (plain_crash PieceMarkToBaseAttachment)
    | apply (plain_crash PieceMarkToLigatureAttachment) | apply (plain_crash PieceMarkToMarkAttachment)
    | apply (plain_crash PieceContext) | apply (plain_crash PieceChainedContext)]; auto.
Qed.

Lemma piece_stops {A} (r : piece A) o x : piece_base r < 2 ^ 63 -> In x (piece_errors o r) ->
  stops o (piece_steps r) (Some x).
Proof.
  intros W H. destruct (plain r) eqn:P; [exact (plain_stops r o x P H)|].
  change (low (piece_base r)) in W.
  assert (anchored : forall n y, 0 <? n = true /\ (y = UnknownFormat \/ y = Malformed) ->
    0 < n /\ stops_anchored o (Some y)).
  { intros n y [L [-> | ->]]; (split; [apply N.ltb_lt, L|]); left; [left|right]; reflexivity. }
  assert (valued : forall b y, b = true /\ (y = UnknownFormat \/ y = Malformed) ->
    b = true /\ stops_corrected o (Some y)).
  { intros b y [L [-> | ->]]; (split; [exact L|]); [left|right]; reflexivity. }
  assert (paired : forall p flags1 flags2 y, low p -> In y (pair2_errors flags1 flags2) ->
    stops o (read_pair2 p flags1 flags2) (Some y)).
  { intros p flags1 flags2 y L I. apply in_app_or in I as [I|I].
    - destruct (_ && _) eqn:Z; [contradiction I|]. destruct I as [<-|[]]. apply pair2_end, Z.
    - apply in_if, valued in I as [C S]. apply stops_pair2, linked_low; auto. }
  destruct r; try discriminate P; clear P; cbn [piece_base] in W; cbn [piece_steps piece_errors] in *.
  - apply gsub_type_stops, H.
  - destruct H as [<-|H]; [apply anchors_end; intros _; left; reflexivity|].
    apply in_if, anchored in H as [L S]. apply stops_base; auto.
  - destruct H as [<-|H]; [left; reflexivity|].
    apply in_if, anchored in H as [L S]. apply (stops_counted o (fun p _ _ => read_base p mark_class_count)).
    apply stops_base; auto.
  - destruct H as [<-|H]; [apply anchors_end; intros _; left; reflexivity|].
    apply in_if, anchored in H as [L S]. apply stops_component; auto.
  - destruct H as [<-|H]; [left; reflexivity|].
    apply in_if, anchored in H as [L S]. apply stops_gpos_ligature; auto.
  - destruct H as [<-|H]; [left; reflexivity|].
    apply in_if, anchored in H as [L S]. apply stops_next with (a := 0); [exists 0; reflexivity|].
    apply stops_next with (a := 1); [apply can_u16; reflexivity|]. eapply stops_next; [apply can_ones|].
    apply stops_here, stops_stay, stops_n; [reflexivity|]. apply stops_next with (a := 1); [reflexivity|].
    apply stops_jump; [exact low0|reflexivity|]. apply stops_gpos_ligature; auto.
  - destruct H as [<-|H]; [left; reflexivity|].
    apply stops_next with (a := 0); [apply can_u16; reflexivity|].
    apply stops_next with (a := 1); [apply can_u16; reflexivity|].
    assert (S : stops o read_anchor (Some x)).
    { apply stops_anchor. left. destruct H as [<-|[<-|[]]]; [left|right]; reflexivity. }
    change (stops o ((fun o => anchor <- (if ignore_incomplete_marks o then
      v <- stay (jump_take_maybe position 1 read_anchor);;
      ret (match v with Some v => v | None => anchor_default end)
      else stay (jump_take position 1 read_anchor));; ret (mkMark1 0 1 anchor)) o) (Some x)).
    cbv beta. apply stops_here. destruct (ignore_incomplete_marks o).
    + apply stops_here, stops_stay, stops_maybe; auto.
    + apply stops_stay, stops_jump; auto. reflexivity.
  - destruct H as [<-|H]; [apply anchors_end; intros _; left; reflexivity|].
    apply in_if, anchored in H as [L S]. apply stops_mark2; auto.
  - destruct H as [<-|H]; [left; reflexivity|].
    apply in_if, anchored in H as [L S]. apply (stops_counted o (fun p _ _ => read_mark2 p mark_class_count)).
    apply stops_mark2; auto.
  - destruct H as [<-|H]; [left; reflexivity|].
    apply stops_next with (a := 1); [apply can_u16; reflexivity|].
    apply stops_next with (a := 0); [apply can_u16; reflexivity|].
    apply stops_here, stops_stay, stops_here, stops_maybe; [exact W|]. apply stops_anchor. left.
    destruct H as [<-|[<-|[]]]; [left|right]; reflexivity.
  - destruct H as [<-|H]; [apply (stops_value o position flags 0); [left|]; reflexivity|].
    apply in_if, valued in H as [C S]. apply stops_single, linked_low; auto.
  - destruct H as [<-|H]; [left; reflexivity|].
    apply in_if, valued in H as [C S]. apply stops_pair1, linked_low; auto.
  - destruct H as [<-|H]; [left; reflexivity|].
    apply in_if, valued in H as [C S].
    apply (stops_counted o (fun p _ _ => read_pair1 p value1_flags value2_flags)).
    apply stops_pair1, linked_low; auto.
  - apply paired; auto.
  - destruct (0 <? class2_count) eqn:L; [|contradiction H]. apply N.ltb_lt in L.
    apply stops_here, stops_n; [exact L|]. apply paired; auto.
  - apply gpos_type_stops, H.
  - destruct H as [<-|H]; [left; reflexivity|]. unfold flags_errors in H.
    destruct (checked_flags o) eqn:C; [|contradiction H]. destruct H as [<-|[]].
    apply stops_next with (a := 0); [apply can_u16; reflexivity|]. apply stops_here.
    apply stops_next with (a := 1); [apply can_u16; reflexivity|].
    cbn [bind ask stops]. rewrite C. reflexivity.
Qed.

Lemma piece_crash_stops {A} (r : piece A) o : piece_base r < 2 ^ 63 -> piece_sums r = true ->
  overflow_checks o = true -> stops o (piece_steps r) None.
Proof.
  intros W H C. destruct (plain r) eqn:P; [exact (plain_crash r o P H C)|].
  change (low (piece_base r)) in W.
  assert (S : stops_anchored o None) by (right; auto).
  destruct r; try discriminate P; clear P; cbn [piece_base] in W; cbn [piece_steps piece_sums] in *;
    try discriminate H; try (apply N.ltb_lt in H).
  - apply gsub_type_crash; auto.
  - apply stops_base; auto.
  - apply (stops_counted o (fun p _ _ => read_base p mark_class_count)). apply stops_base; auto.
  - apply stops_component; auto.
  - apply stops_gpos_ligature; auto.
  - apply stops_next with (a := 2 ^ 64 - 1); [exists (2 ^ 64 - 1); reflexivity|].
    apply stops_next with (a := 1); [apply can_u16; reflexivity|]. eapply stops_next; [apply can_ones|].
    apply stops_here, stops_stay, stops_n; [reflexivity|]. apply stops_next with (a := 1); [reflexivity|].
    unfold jump_take. apply stops_here. unfold add_u64, add_wrapping. cbn [bind ask stops].
    rewrite C. reflexivity.
  - apply stops_next with (a := 0); [apply can_u16; reflexivity|].
    apply stops_next with (a := 1); [apply can_u16; reflexivity|].
    apply stops_anchor in S.
    change (stops o ((fun o => anchor <- (if ignore_incomplete_marks o then
      v <- stay (jump_take_maybe position 1 read_anchor);;
      ret (match v with Some v => v | None => anchor_default end)
      else stay (jump_take position 1 read_anchor));; ret (mkMark1 0 1 anchor)) o) None).
    cbv beta. apply stops_here. destruct (ignore_incomplete_marks o).
    + apply stops_here, stops_stay, stops_maybe; auto.
    + apply stops_stay, stops_jump; auto. reflexivity.
  - apply stops_mark2; auto.
  - apply (stops_counted o (fun p _ _ => read_mark2 p mark_class_count)). apply stops_mark2; auto.
  - apply stops_next with (a := 1); [apply can_u16; reflexivity|].
    apply stops_next with (a := 0); [apply can_u16; reflexivity|].
    apply stops_here, stops_stay, stops_here, stops_maybe; [exact W|]. apply stops_anchor, S.
  - apply stops_next with (a := 2 ^ 64 - 1); [exists (2 ^ 64 - 1); reflexivity|].
    apply stops_next with (a := 1); [apply can_u16; reflexivity|]. apply stops_here, stops_n; [reflexivity|].
    apply stops_pair1, linked_far; auto.
  - apply gpos_type_crash; auto.
Qed.

(** ** Tables *)

Lemma request_stops {A} (r : request A) o x : errors_of_tapes o r x -> stops o (steps_of r) (Some x).
Proof.
  intros H. destruct r; cbn [errors_of_tapes] in H.
  2: { destruct H as [-> |[-> [[a b c e] H]]]; [left; reflexivity|].
    apply stops_here. apply stops_next with (a := Tag a b c e); [apply can_stay, can_tag|].
    rewrite H. reflexivity. }
  all: unfold flags_errors in H; destruct o as [o1 o2 o3 o4 o5]; cbn [checked_flags] in H;
    try (destruct o5); cbn [app] in H; cases H.
  all: lazymatch goal with |- stops _ (steps_of ?r) (Some ?x) =>
    apply (fed_stops _ _ 0 (request_script r x)); destruct o2; vm_compute; reflexivity end.
Qed.

Lemma request_crash_stops {A} (r : request A) o : request_sums r = true -> overflow_checks o = true ->
  stops o (steps_of r) None.
Proof.
  intros H C. apply (fed_stops _ _ (2 ^ 64 - 1) (request_crash r)). destruct o as [o1 o2 o3 o4 o5].
  cbn in C. subst o1. destruct r; try discriminate H; destruct o2; vm_compute; reflexivity.
Qed.

Lemma piece_reports {A} (r : piece A) o x : piece_base r < 2 ^ 63 ->
  ((exists T s, exec T (piece_steps r) o s = Refuses x) <-> In x (piece_errors o r)).
Proof.
  intros B. split.
  - intros (T & s & E). exact (piece_within r o B (Some x) (exec_stops T _ o (Some x) s E)).
  - intros H. destruct (stops_exec _ o _ (piece_stops r o x B H)) as [s E]. exists told, s. exact E.
Qed.

Lemma piece_crashes {A} (r : piece A) o : piece_base r < 2 ^ 63 ->
  ((exists T s, exec T (piece_steps r) o s = Crashes) <-> overflow_checks o = true /\ piece_sums r = true).
Proof.
  intros B. split.
  - intros (T & s & E). split; [|exact (piece_within r o B None (exec_stops T _ o None s E))].
    destruct (overflow_checks o) eqn:C; [reflexivity|].
    destruct (ProofPieces.piece_any r T o) with (s := s); [congruence|exact E].
  - intros [C H]. destruct (stops_exec _ o _ (piece_crash_stops r o B H C)) as [s E]. exists told, s. exact E.
Qed.

Lemma request_reports {A} (r : request A) o x :
  (exists T s, exec T (steps_of r) o s = Refuses x) <-> errors_of_tapes o r x.
Proof.
  split.
  - intros (T & s & E). exact (request_within r o (Some x) (exec_stops T _ o (Some x) s E)).
  - intros H. destruct (stops_exec _ o _ (request_stops r o x H)) as [s E]. exists told, s. exact E.
Qed.

Lemma request_crashes {A} (r : request A) o :
  (exists T s, exec T (steps_of r) o s = Crashes) <-> overflow_checks o = true /\ request_sums r = true.
Proof.
  split.
  - intros (T & s & E). split; [|exact (request_within r o None (exec_stops T _ o None s E))].
    destruct (overflow_checks o) eqn:C; [reflexivity|]. assert (L := ProofLoose.request_any r T o).
    specialize (L ltac:(congruence) s).
    rewrite E in L. contradiction L.
  - intros [C H]. destruct (stops_exec _ o _ (request_crash_stops r o H C)) as [s E]. exists told, s. exact E.
Qed.

(** ** Files *)

(** A file, two bytes at a time, for which the error is reported. *)
Definition request_file {A} (r : request A) (x : error) : list N :=
  match r, x with
  | RequestFile _, Unsupported => [0x7474; 0x6366]
  | RequestGdef, UnexpectedValue => [1; 2; 0; 0; 0; 0; 14; 0]
  | RequestGdef, UnknownFormat => [0; 0]
  | RequestGdef, Malformed => [1; 0; 0; 0; 12; 0; 6; 1; 10; 1; 0; 1; 4; 0; 3; 6; 1; 0; 1]
  | RequestGsub, UnexpectedValue => [1; 0; 10; 10; 12; 0; 1; 4; 2; 0; 1; 8; 0]
  | RequestGsub, Malformed => [1; 0; 10; 10; 12; 0; 1; 4; 5; 0; 1; 8; 1; 8; 1; 12; 1; 0; 1; 4; 0; 0]
  | RequestGpos, UnexpectedValue => [1; 0; 10; 10; 12; 0; 1; 4; 3; 0; 1; 8; 0]
  | RequestGpos, Malformed => [1; 0; 10; 10; 12; 0; 1; 4; 7; 0; 1; 8; 1; 8; 1; 12; 1; 0; 1; 4; 0; 0]
  | (RequestGsub | RequestGpos), UnknownVersion => [0; 0]
  | (RequestGsub | RequestGpos), UnknownFormat => [1; 0; 10; 10; 12; 0; 1; 4; 1; 0; 1; 8; 0]
  | (RequestGsub | RequestGpos), UnknownType => [1; 0; 10; 10; 12; 0; 1; 4; 0; 0; 1; 8]
  | (RequestGsub | RequestGpos), InvalidFlags => [1; 0; 10; 10; 12; 0; 1; 4; 1; 0x20]
  | RequestCpal, UnknownVersion => [2]
  | RequestFvar, UnexpectedValue => [0; 0; 0; 0]
  | RequestFvar, InvalidFlags => [0; 0; 16; 2; 1; 20; 0; 0; 0; 0; 0; 0; 0; 0; 0; 0; 2]
  | _, _ => []
  end.

Lemma run_stops {A} (m : steps A) e x : forall p, run m e p = Err x -> stops (opts e) m (Some x).
Proof.
  induction m as [a|y| |m IH|m IH|m IH|q m IH|m IH]; cbn [run stops]; intros p E.
  - discriminate.
  - injection E as <-. reflexivity.
  - discriminate.
  - exact (IH (opts e) _ E).
  - exact (IH _ E).
  - right. exists p. exact (IH p _ E).
  - right. exact (IH _ E).
  - destruct (content e p) as [b|]; [|injection E as <-; left; reflexivity]. right. exists b. exact (IH b _ E).
Qed.

Lemma request_file_errors {A} (r : request A) o x :
  (exists f p, bounded f /\ refuses o (reader r) f p x) <-> errors_of_files o r x.
Proof.
  split.
  - intros (f & p & _ & H). assert (T : errors_of_tapes o r x).
    { unfold refuses in H. rewrite <- (ProofSteps.steps_of_same r) in H.
      exact (request_within r o (Some x) (run_stops _ (mkEnv f o) x p H)). }
    destruct r; try exact T. exact (ProofErrors.request_errors RequestCpal o f p x H).
  - intros H.
    assert (B : forall l, N.of_nat (length l) <= 2 ^ 63 -> bounded (file_of l)) by (exact file_of_bounded).
    destruct r; cbn [errors_of_files errors_of_tapes] in H.
    2: { destruct H as [-> |[-> [[a b c e] H]]].
      - exists (file_of []), 0. split; [apply B; discriminate|]. reflexivity.
      - exists (file_of [a; b; c; e]), 0. split; [apply B; discriminate|]. apply ProofErrors.font_tag.
        exists (Tag a b c e). split; [repeat split|exact H]. }
    all: unfold flags_errors in H; destruct o as [o1 o2 o3 o4 o5]; cbn [checked_flags] in H;
      try (destruct o5); cbn [app] in H; cases H.
    all: lazymatch goal with |- exists f p, _ /\ refuses _ (reader ?r) f p ?x =>
      exists (file_of (flat_map be16 (request_file r x))), 0; split; [apply B; vm_compute; discriminate|];
      unfold refuses; destruct o2; vm_compute; reflexivity end.
Qed.
