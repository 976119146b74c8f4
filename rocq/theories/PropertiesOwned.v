(** Property C86: which bytes a value is read from. *)

From Verif Require Import ProofEdit ProofOwned ProofSpared ProofCommon ProofDepartures Samples.

(** C86: the bytes needed for a table are exactly those of its fields and of the fields of its
    parts, which the value alone tells; *)
Theorem C86_exactly o f {A} (r : request A) v p i :
  bounded f -> reads o (reader r) f p v -> needed o (reader r) f p v i <-> made_of o r v p i.
Proof. exact (needed_made o f r v p i). Qed.
Print Assumptions C86_exactly.

(** another content gives the same value exactly if it is the same there; *)
Theorem C86_enough o f g {A} (r : request A) v p :
  bounded f -> bounded g -> reads o (reader r) f p v ->
  reads o (reader r) g p v <-> forall i, made_of o r v p i -> g i = f i.
Proof. exact (made_exactly o f g r v p). Qed.
Print Assumptions C86_enough.

(** the same bytes are needed in every content that gives the value; *)
Theorem C86_same o f g {A} (r : request A) v p i :
  bounded f -> bounded g -> reads o (reader r) f p v -> reads o (reader r) g p v ->
  needed o (reader r) f p v i <-> needed o (reader r) g p v i.
Proof. exact (needed_same o f g r v p i). Qed.
Print Assumptions C86_same.

(** and the same holds of every part that is read by itself. *)
Theorem C86_parts o f {A} (r : piece A) v p i :
  bounded f -> piece_base r < 2 ^ 63 -> reads o (piece_reader r) f p v ->
  needed o (piece_reader r) f p v i <-> exists x, part o (Place r v p) x /\ owns x i.
Proof. exact (part_needed o f r v p i). Qed.
Print Assumptions C86_parts.

(** A table can be taken from an edited font exactly if the edit has spared those bytes. *)
Theorem C86_take {A} (r : request A) d o this t record f g v p q :
  bounded f -> bounded g ->
  first_record (offsets_records (font_offsets this)) (table_tag t) record ->
  accepted d o f record -> accepted d o g record ->
  reads o (font_take d this t (reader r)) f p (Some v) ->
  reads o (font_take d this t (reader r)) g q (Some v) <->
  forall i, made_of o r v (offset_record_offset record) i -> g i = f i.
Proof. exact (edit_spares r d o this t record f g v p q). Qed.
Print Assumptions C86_take.

(** Between the header and the only color are two bytes of no field. *)
Example C86_example :
  bounded (words (gap 5)) /\ bounded (words (gap 6)) /\
  reads debug_build (reader RequestCpal) (words (gap 5)) 0 gap_value /\
  reads debug_build (reader RequestCpal) (words (gap 6)) 0 gap_value /\
  made_of debug_build RequestCpal gap_value 0 13 /\
  ~ made_of debug_build RequestCpal gap_value 0 14 /\
  made_of debug_build RequestCpal gap_value 0 16.
Proof.
  assert (B : bounded (words (gap 5))) by by_size.
  assert (R : reads debug_build (reader RequestCpal) (words (gap 5)) 0 gap_value) by (eexists;
    vm_compute; reflexivity).
  refine (conj B (conj _ (conj R (conj _ _)))); [by_size|eexists; vm_compute; reflexivity|].
  rewrite <- !(needed_made _ _ _ _ _ _ B R).
  refine (conj _ (conj _ _)); [intros [q H]|intros H; apply H; eexists|intros [q H]];
    vm_compute in *; try reflexivity; discriminate.
Qed.

(** An anchor with a correction four bytes after its own. *)
Example C86_example_parts :
  let v := AnchorFormat3 (mkAnchor3 3 1 2 14 0 (Some (CorrectionVariation (mkVariation 1 2 32768))) None) in
  let f := words [3; 1; 2; 14; 0; 5; 6; 1; 2; 32768] in
  bounded f /\ reads debug_build (piece_reader PieceAnchor) f 0 v /\
  (exists x, part debug_build (Place PieceAnchor v 0) x /\ owns x 19) /\
  ~ (exists x, part debug_build (Place PieceAnchor v 0) x /\ owns x 13).
Proof.
  cbv zeta. match goal with |- bounded ?f /\ reads _ _ _ _ ?v /\ _ =>
    assert (B : bounded f) by by_size;
    assert (R : reads debug_build (piece_reader PieceAnchor) f 0 v) by (eexists; vm_compute; reflexivity)
  end.
  refine (conj B (conj R _)). rewrite <- !(part_needed _ _ PieceAnchor _ _ _ B eq_refl R).
  split; [intros [q H]|intros H; apply H; eexists]; vm_compute in *; try reflexivity; discriminate.
Qed.

(** Another byte in the header of the colors of the sample font: the substitutions are
    spared, the colors are not. *)
Example C86_take_example :
  let f := sample_file in
  let g := overwrite 63 ["001"]%byte f in
  let take {A} t (r : request A) := font_take sample_deps sample_font t (reader r) in
  bounded f /\ bounded g /\
  (exists record, first_record (offsets_records (font_offsets sample_font))
    (table_tag TableColorPalettes) record /\
    accepted sample_deps lenient_build f record /\ accepted sample_deps lenient_build g record /\
    made_of lenient_build RequestCpal sample_colors (offset_record_offset record) 63 /\ g 63 <> f 63) /\
  reads lenient_build (take TableColorPalettes RequestCpal) f 0 (Some sample_colors) /\
  ~ reads lenient_build (take TableColorPalettes RequestCpal) g 0 (Some sample_colors) /\
  exists v, reads lenient_build (take TableGlyphSubstitution RequestGsub) f 0 (Some v) /\
    reads lenient_build (take TableGlyphSubstitution RequestGsub) g 0 (Some v).
Proof.
  cbv zeta. assert (B : bounded sample_file) by (apply file_of_bounded; vm_compute; discriminate).
  assert (R : reads lenient_build (reader RequestCpal) sample_file 60 sample_colors) by (eexists;
    vm_compute; reflexivity).
  split; [exact B|]. split; [apply overwrite_bounded; [exact B|vm_compute; discriminate]|]. split.
  { eexists. split; [exists 0%nat; split; [reflexivity|]; split; [reflexivity|];
    intros [|[|[|j]]] r' L E; try lia; injection E as <-; discriminate|].
    split; [left; reflexivity|]. split; [left; reflexivity|]. split; [|vm_compute; discriminate].
    cbn [offset_record_offset]. apply (needed_made _ _ _ _ _ _ B R). intros [q H]. vm_compute in H.
    discriminate. }
  split; [eexists; vm_compute; reflexivity|]. split; [intros [q H]; vm_compute in H; discriminate|].
  eexists. split; eexists; vm_compute; reflexivity.
Qed.
