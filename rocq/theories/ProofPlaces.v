(** Parts can be read by themselves, for property C84. *)

From Coq Require Import Lia.
From Verif Require Import ProofRequests ProofPieces.
From Verif Require Export SpecPlaces.

(** A part that is in the file. *)
Definition present (o : options) (f : file) (x : place) : Prop :=
  piece_base (place_piece x) < 2 ^ 63 /\
  piece_conforms o (place_piece x) f (place_position x) (place_value x).

Lemma near_u16 f p v : bounded f -> u16_at f p v -> p < 2 ^ 63.
Proof.
  intros Hb (b & c & E & _). destruct (N.lt_ge_cases p (2 ^ 63)) as [H|H]; [exact H|].
  rewrite (Hb p H) in E. discriminate.
Qed.

Section Places.
Context (o : options) (f : file).

Lemma present_here {A} (r : piece A) p v :
  piece_base r < 2 ^ 63 -> piece_conforms o r f p v -> Forall (present o f) (here r v p).
Proof. intros Hp H. repeat constructor; assumption. Qed.

Lemma present_in_turn {A} (r : piece A) stride p n vs :
  piece_base r < 2 ^ 63 -> vec_at (piece_conforms o r f) stride p n vs ->
  Forall (present o f) (in_turn r stride p vs).
Proof.
  intros Hp [_ H]. apply Forall_forall. intros x Hx. apply in_map_iff in Hx. destruct Hx as [[i v] [<- Hi]].
  split; [exact Hp|]. cbn. apply H. apply In_nth_error in Hi. destruct Hi as [j Hj].
  assert (G : forall (l : list A) k j, nth_error (combine (seq k (length l)) l) j = Some (i, v) ->
    i = (k + j)%nat /\ nth_error l j = Some v).
  { clear. induction l as [|w l IH]; intros k [|j] E; cbn in E; try discriminate.
    - injection E as <- <-. split; [lia|reflexivity].
    - apply IH in E. destruct E as [-> E]. split; [lia|exact E]. }
  apply G in Hj. destruct Hj as [-> Hj]. exact Hj.
Qed.

Lemma present_by_offsets {A} (r : piece A) base offsets vs :
  piece_base r < 2 ^ 63 -> linked_at (piece_conforms o r f) base offsets vs ->
  Forall (present o f) (by_offsets r base offsets vs).
Proof.
  intros Hp H. unfold by_offsets. induction H as [|offset v offsets vs H _ IH]; cbn; constructor; [|exact IH].
  split; assumption.
Qed.

Lemma present_by_offset {A} (r : piece A) base offset v :
  piece_base r < 2 ^ 63 -> maybe_at (piece_conforms o r f) base offset v ->
  Forall (present o f) (by_offset r base offset v).
Proof. intros Hp H. destruct v as [v|]; cbn in *; repeat constructor; tauto. Qed.

Lemma present_by_some_offsets {A} (r : piece A) base offsets vs :
  piece_base r < 2 ^ 63 -> maybes_at (piece_conforms o r f) base offsets vs ->
  Forall (present o f) (by_some_offsets r base offsets vs).
Proof.
  intros Hp H. unfold by_some_offsets.
  induction H as [|offset v offsets vs H _ IH]; cbn [combine flat_map]; [constructor|].
  apply Forall_app. split; [apply present_by_offset; assumption|exact IH].
Qed.

Lemma present_by_maybe_offset base offset v :
  corrected_at f base offset v -> Forall (present o f) (by_maybe_offset PieceCorrection base offset v).
Proof.
  destruct offset as [offset|]; cbn; intros H; [|constructor]. apply present_by_offset; [reflexivity|exact H].
Qed.

Lemma present_value base flags p v :
  base < 2 ^ 63 -> value_at f base flags p v -> Forall (present o f) (value_place base flags p v).
Proof. intros Hp H. destruct v as [v|]; cbn in *; repeat constructor; tauto. Qed.

Lemma present_list {A} (r : piece A) base offset default v :
  piece_base r < 2 ^ 63 -> list_at o (piece_conforms o r f) base offset default v ->
  Forall (present o f) (list_place o r base offset v).
Proof.
  intros Hp H. unfold list_place. destruct (N.eqb_spec offset 0) as [E|E]; cbn [andb].
  - destruct (ignore_incomplete_directories o) eqn:I; [constructor|].
    destruct H as [(_ & X & _)|[_ H]]; [congruence|]. apply present_here; assumption.
  - destruct H as [(X & _)|[_ H]]; [congruence|]. apply present_here; assumption.
Qed.

End Places.

Ltac near := first [reflexivity | assumption | eapply near_u16; eassumption].

Ltac there :=
  lazymatch goal with
  | |- Forall _ [] => constructor
  | |- Forall _ (_ ++ _) => apply Forall_app; split; there
  | |- Forall _ (here _ _ _) => apply present_here; [cbn [piece_base]; near|assumption]
  | |- Forall _ (in_turn _ _ _ _) => eapply present_in_turn; [cbn [piece_base]; near|eassumption]
  | |- Forall _ (by_offsets _ _ _ _) => apply present_by_offsets; [cbn [piece_base]; near|assumption]
  | |- Forall _ (by_offset _ _ _ _) => apply present_by_offset; [cbn [piece_base]; near|assumption]
  | |- Forall _ (by_some_offsets _ _ _ _) => apply present_by_some_offsets; [cbn [piece_base]; near|assumption]
  | |- Forall _ (by_maybe_offset _ _ _ _) => apply present_by_maybe_offset; assumption
  | |- Forall _ (value_place _ _ _ _) => apply present_value; [near|assumption]
  | |- Forall _ (list_place _ _ _ _ _) => eapply present_list; [cbn [piece_base]; near|eassumption]
  end.

Ltac apart H :=
  lazymatch type of H with
  | _ /\ _ => let X := fresh "H" in destruct H as [X H]; apart H
  | _ => idtac
  end.

Lemma places_present o f {A} (r : piece A) v p :
  bounded f -> piece_base r < 2 ^ 63 -> piece_conforms o r f p v ->
  Forall (present o f) (places o r v p).
Proof.
  intros Hb Hp H. destruct r; cbn [piece_conforms places piece_base] in *;
    try solve [constructor | destruct v; hnf in H; apart H; there].
  - destruct v as [class_id offset anchor]. destruct H as (_ & _ & H).
    destruct (N.eqb_spec offset 0) as [E|E]; cbn [andb].
    + destruct (ignore_incomplete_marks o) eqn:I; [constructor|].
      destruct H as [(_ & X & _)|[_ H]]; [congruence|]. there.
    + destruct H as [(X & _)|[_ H]]; [congruence|]. there.
  - destruct v. eapply present_in_turn; [exact Hp|exact H].
Qed.

Lemma table_places_present o f {A} (r : request A) v p :
  bounded f -> conforms o r f p v -> Forall (present o f) (table_places o r v p).
Proof.
  intros Hb H. destruct r; cbn [conforms table_places] in *; try constructor.
  - destruct v as [header glyph_class attachments ligatures mark_class marks variations]. hnf in H.
    destruct (gdef_offsets header) as [[[[[a b] c] d] e] i]. apart H. there.
  - destruct v. hnf in H. unfold directory_places. cbn -[list_place by_offset]. apart H. there.
  - destruct v. hnf in H. unfold directory_places. cbn -[list_place by_offset]. apart H. there.
  - destruct v as [header colors]. hnf in H. destruct (cpal_layout header) as [[[a b] c] d]. apart H. there.
  - destruct v as [[] axes instances]. hnf in H. apart H. there.
Qed.

Lemma inside_present o f {A} (r : request A) v p x :
  bounded f -> conforms o r f p v -> inside o r v p x -> present o f x.
Proof.
  intros Hb H I. induction I as [x Hx|x y _ IH Hy].
  - pose proof (table_places_present o f r v p Hb H) as F. rewrite Forall_forall in F. auto.
  - destruct IH as [Hp Hx]. pose proof (places_present o f _ _ _ Hb Hp Hx) as F.
    rewrite Forall_forall in F. auto.
Qed.

Lemma inside_again o f {A} (r : request A) v p x :
  bounded f -> reads o (reader r) f p v -> inside o r v p x ->
  reads o (piece_reader (place_piece x)) f (place_position x) (place_value x).
Proof.
  intros Hb H I. apply (request_reads r o f p v Hb) in H.
  destruct (inside_present o f r v p x Hb H I) as [Hp Hx].
  apply piece_reads; assumption.
Qed.

Lemma inside_shared o f {A B} (r : request A) (s : request B) v w p q C (t : piece C) x y a :
  bounded f -> reads o (reader r) f p v -> reads o (reader s) f q w ->
  inside o r v p (Place t x a) -> inside o s w q (Place t y a) -> x = y.
Proof.
  intros Hb Hv Hw I J. apply (request_reads r o f p v Hb) in Hv. apply (request_reads s o f q w Hb) in Hw.
  destruct (inside_present o f r v p _ Hb Hv I) as [Hp Hx].
  destruct (inside_present o f s w q _ Hb Hw J) as [_ Hy].
  exact (piece_unique t o f a x y Hb Hp Hx Hy).
Qed.

Lemma parts_again o f {A} (r : piece A) v p x :
  bounded f -> piece_base r < 2 ^ 63 -> reads o (piece_reader r) f p v -> In x (places o r v p) ->
  reads o (piece_reader (place_piece x)) f (place_position x) (place_value x).
Proof.
  intros Hb Hp H I. apply (piece_reads r o f p v Hb Hp) in H.
  pose proof (places_present o f r v p Hb Hp H) as F. rewrite Forall_forall in F. destruct (F x I) as [Hq Hx].
  apply piece_reads; assumption.
Qed.

(** A [GDEF] followed by a [GSUB], with a coverage both of them have. *)

Definition common_coverage : list N :=
  [1; 0; 0; 12; 0; 0; 36; 0;
   1; 0; 10; 12; 14; 0; 0; 1; 4; 1; 0; 1; 8; 1; 6; 5;
   1; 1; 7].

Definition common_definition : GlyphDefinition :=
  mkGlyphDefinition (GdefVersion1 (mkGdefHeader1 1 0 0 12 0 0)) None
    (Some (mkAttachments 36 0 [] (CoverageFormat1 (mkCoverage1 1 1 [7])) [])) None None None None.

Definition common_substitution : Directory GsubType :=
  mkDirectory 1 0 10 12 14 0 (mkScripts 0 [] []) (mkFeatures 0 [] [])
    (mkLookups 1 [4] [mkLookupRecord 1 0 1 [8] None
      [GsubSingleSubstitution (SingleSubstitutionFormat1
        (mkSingleSubstitution1 1 6 5 (CoverageFormat1 (mkCoverage1 1 1 [7]))))]]) None.

Ltac listed := cbn; repeat (first [left; reflexivity|right]).

Lemma common_first : exists x,
  inside debug_build RequestGdef common_definition 0 (Place PieceCoverage x 48).
Proof.
  eexists. eapply inside_part.
  - apply inside_table. instantiate (1 := Place PieceAttachments _ 12). listed.
  - listed.
Qed.

Lemma common_second : exists x,
  inside debug_build RequestGsub common_substitution 16 (Place PieceCoverage x 48).
Proof.
  eexists. eapply inside_part; [eapply inside_part;
    [eapply inside_part; [eapply inside_part; [eapply inside_part|]|]|]|].
  - apply inside_table. instantiate (1 := Place PieceGsubLookups _ 30). listed.
  - instantiate (1 := Place PieceGsubLookupRecord _ 34). listed.
  - instantiate (1 := Place (PieceGsubType 1) _ 42). listed.
  - instantiate (1 := Place PieceSingleSubstitution _ 42). listed.
  - instantiate (1 := Place PieceSingleSubstitution1 _ 42). listed.
  - listed.
Qed.

(** ** Flags *)

Lemma flags_again o f p n : bounded f ->
  (forall v, reads o (piece_reader PieceGsubLookupRecord) f p v ->
    reads o (piece_reader PieceLookupFlags) f (p + 2) (lookup_record_flags v)) /\
  (forall v, reads o (piece_reader PieceGposLookupRecord) f p v ->
    reads o (piece_reader PieceLookupFlags) f (p + 2) (lookup_record_flags v)) /\
  (forall v, reads o (piece_reader PieceSingleAdjustment1) f p v ->
    reads o (piece_reader PieceValueFlags) f (p + 4) (single_adjustment1_value_flags v)) /\
  (forall v, reads o (piece_reader PieceSingleAdjustment2) f p v ->
    reads o (piece_reader PieceValueFlags) f (p + 4) (single_adjustment2_value_flags v)) /\
  (forall v, reads o (piece_reader PiecePairAdjustment1) f p v ->
    reads o (piece_reader PieceValueFlags) f (p + 4) (pair_adjustment1_value1_flags v)) /\
  (forall v, reads o (piece_reader PiecePairAdjustment1) f p v ->
    reads o (piece_reader PieceValueFlags) f (p + 6) (pair_adjustment1_value2_flags v)) /\
  (forall v, reads o (piece_reader PiecePairAdjustment2) f p v ->
    reads o (piece_reader PieceValueFlags) f (p + 4) (pair_adjustment2_value1_flags v)) /\
  (forall v, reads o (piece_reader PiecePairAdjustment2) f p v ->
    reads o (piece_reader PieceValueFlags) f (p + 6) (pair_adjustment2_value2_flags v)) /\
  (forall v, reads o (piece_reader PieceAxisRecord) f p v ->
    reads o (piece_reader PieceAxisFlags) f (p + 16) (axis_record_flags v)) /\
  (forall v, reads o (piece_reader (PieceInstanceRecord n)) f p v ->
    reads o (piece_reader PieceInstanceFlags) f (p + 2) (instance_record_flags v)).
Proof.
  intros Hb. repeat split; intros v H;
    refine (parts_again o f _ v p (Place _ _ _) Hb _ H _); try reflexivity; destruct v; cbn; tauto.
Qed.
