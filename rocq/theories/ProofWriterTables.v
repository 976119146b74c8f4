(** What is written of [GDEF], [CPAL] and [fvar] is in the file. *)

From Verif Require Export ProofWriter SpecGdef SpecCpal SpecFvar SpecFont.

(** ** [GDEF] *)

Lemma i16_at_u16 f p n : n < 32768 -> i16_at f p (Z.of_N n) -> u16_at f p n.
Proof.
  intros N (u & U & E). assert (u < 65536) as B.
  { destruct U as (b0 & b1 & _ & _ & ->).
    pose proof (Byte.to_N_bounded b0). pose proof (Byte.to_N_bounded b1). lia. }
  destruct (N.ltb_spec u 32768); assert (u = n) as -> by lia; exact U.
Qed.

Lemma attachment_plain v :
  attachment_fits v -> attachment_wf v -> plain attachment_at v (attachment_bytes v).
Proof.
  destruct v as [n indices]. cbn. intros F W f p H. scan. counted. finish.
Qed.

#[export] Hint Extern 1 (whole _ _ _ (attachment_bytes _)) =>
  apply plain_whole, attachment_plain; assumption : written.

Lemma attachments_whole v : attachments_fits v -> attachments_wf v ->
  whole attachments_at attachments_erase v (attachments_bytes v).
Proof.
  destruct v as [offset n offsets coverage records]. cbn. intros F W L f p H. unblock H L. written.
  eexists (mkAttachments _ _ _ _ _). rebuilt.
Qed.

Lemma caret_whole v : caret_fits v -> caret_wf v -> whole caret_at caret_erase v (caret_bytes v).
Proof.
  assert (forall f p n, n < 65536 -> u16_at f p 0 -> u16_at f (p + 2) n -> u32_at f p n) as X.
  { intros f p n N U V. exists 0, n. split; [exact U|split; [exact V|lia]]. }
  destruct v as [[format x]|[format index]|[format x offset correction]]; cbn; intros F W L f p H.
  - destruct W as [-> ->]. scan. autorewrite with sizes in *.
    exists (CaretFormat1 (mkCaret1 0 1)). split; [reflexivity|]. cbn. conj; try assumption.
    apply X; [lia|assumption|]. apply (i16_at_u16 f _ 1); [lia|assumption].
  - destruct W as [-> ->]. scan. autorewrite with sizes in *.
    exists (CaretFormat2 (mkCaret2 0 2)). split; [reflexivity|]. cbn. conj; try assumption.
    apply X; [lia|assumption|assumption].
  - unblock H L. destruct W as (-> & -> & W). destruct F as [_ F]. assert (i16 3) by range.
    written. autorewrite with sizes in *.
    eexists (CaretFormat3 (mkCaret3 _ _ _ _)). split; cycle 1.
    + cbn. conj; try (here; fail). apply X; [lia|assumption|]. apply (i16_at_u16 f _ 3); [lia|assumption].
    + cbn. congruence.
Qed.

#[export] Hint Resolve attachments_whole caret_whole : written.

Lemma gdef_ligature_whole v : gdef_ligature_fits v -> gdef_ligature_wf v ->
  whole gdef_ligature_at gdef_ligature_erase v (gdef_ligature_bytes v).
Proof.
  destruct v as [n offsets carets]. cbn. intros F W L f p H. unblock H L. written.
  eexists (mkGdefLigature _ _ _). rebuilt.
Qed.

#[export] Hint Resolve gdef_ligature_whole : written.

Lemma gdef_ligatures_whole v : gdef_ligatures_fits v -> gdef_ligatures_wf v ->
  whole gdef_ligatures_at gdef_ligatures_erase v (gdef_ligatures_bytes v).
Proof.
  destruct v as [offset n offsets coverage records]. cbn. intros F W L f p H. unblock H L. written.
  eexists (mkGdefLigatures _ _ _ _ _). rebuilt.
Qed.

Lemma marks_whole v : marks_fits v -> marks_wf v -> whole marks_at marks_erase v (marks_bytes v).
Proof.
  destruct v as [format n offsets coverages]. cbn. intros F W L f p H. unblock H L. written.
  eexists (mkMarks _ _ _ _). rebuilt.
Qed.

#[export] Hint Resolve gdef_ligatures_whole marks_whole : written.

Lemma glyph_definition_whole o v :
  glyph_definition_fits o v -> glyph_definition_wf v -> gdef_writable v ->
  whole (glyph_definition_at o) glyph_definition_erase v (glyph_definition_bytes v).
Proof.
  destruct v as [[[major minor o1 o2 o3 o4]|[major minor o1 o2 o3 o4 o5]
    |[major minor o1 o2 o3 o4 o5 o6]] glyph_class attachments ligatures mark_class marks variations];
    cbn; intros F W M L f p H; unblock H L.
  - destruct F as (_ & F1 & F2 & F3 & F4 & _ & _).
    destruct W as ([-> ->] & _ & W1 & _ & W2 & _ & W3 & _ & W4 & P5 & _ & P6 & _).
    rewrite (proj2 P5 eq_refl), (proj2 P6 eq_refl). written.
    eexists (mkGlyphDefinition (GdefVersion1 (mkGdefHeader1 _ _ _ _ _ _)) _ _ _ _ None None). split; cycle 1.
    + unfold glyph_definition_at, glyph_definition_with. cbn [gdef_offsets gdef_header_at].
      unfold gdef_header1_at. finish.
    + cbn. congruence.
  - destruct F as (_ & F1 & F2 & F3 & F4 & F5 & _).
    destruct W as ([-> ->] & _ & W1 & _ & W2 & _ & W3 & _ & W4 & P5 & W5 & P6 & _).
    rewrite (proj2 P6 eq_refl). written.
    eexists (mkGlyphDefinition (GdefVersion12 (mkGdefHeader12 _ _ _ _ _ _ _)) _ _ _ _ _ None). split; cycle 1.
    + unfold glyph_definition_at, glyph_definition_with. cbn [gdef_offsets gdef_header_at].
      unfold gdef_header12_at. finish.
    + cbn. congruence.
  - destruct F as (F0 & F1 & F2 & F3 & F4 & _ & _). subst marks.
    destruct W as ([-> ->] & _ & W1 & _ & W2 & _ & W3 & _ & W4 & P5 & _ & P6 & _).
    rewrite (proj1 P5 eq_refl) in *. rewrite (proj2 P6 eq_refl). written.
    eexists (mkGlyphDefinition (GdefVersion13 (mkGdefHeader13 _ _ _ _ _ _ 0 o6)) _ _ _ _ None None).
    split; cycle 1.
    + unfold glyph_definition_at, glyph_definition_with. cbn [gdef_offsets gdef_header_at].
      unfold gdef_header13_at. finish.
    + cbn. congruence.
Qed.

(** ** [CPAL] *)

Lemma color_plain v : color_fits v -> plain color_at v (color_bytes v).
Proof.
  destruct v as [a b c d]. cbn. intros (A & B & C & D) f p H.
  assert (forall q n, n < 256 -> f q = Some (byte_of n) -> u8_at f q n) as X.
  { intros q n N E. exists (byte_of n). split; [exact E|]. symmetry. apply byte_of_to, N. }
  cbn [color_at]; conj; apply X; try assumption.
  - rewrite <- (N.add_0_r p). apply (H 0%nat _ eq_refl).
  - apply (H 1%nat _ eq_refl).
  - apply (H 2%nat _ eq_refl).
  - apply (H 3%nat _ eq_refl).
Qed.

Lemma colors_plain f p l : Forall color_fits l -> bytes_at f p (flat_map color_bytes l) ->
  vec_at (color_at f) 4 p (N.of_nat (length l)) l.
Proof.
  apply bytes_at_records; [apply color_plain|intros []; reflexivity].
Qed.

Lemma color_palettes_whole v : color_palettes_fits v -> color_palettes_wf v ->
  whole color_palettes_at color_palettes_erase v (color_palettes_bytes v).
Proof.
  destruct v as [[[version k n m offset indices]|[version k n m offset indices]] colors];
    cbn; intros F W L f p H; unblock H L; scan; counted;
    match goal with K : bytes_at _ _ (flat_map color_bytes _) |- _ =>
      apply colors_plain in K; [|assumption] end.
  - eexists (mkColorPalettes (CpalVersion0 (mkCpalHeader0 _ _ _ _ _ _)) _). split; cycle 1.
    + unfold color_palettes_at. cbn [cpal_layout cpal_header_at]. unfold cpal_header0_at. finish.
    + cbn. congruence.
  - eexists (mkColorPalettes (CpalVersion1 (mkCpalHeader1 _ _ _ _ _ _)) _). split; cycle 1.
    + unfold color_palettes_at. cbn [cpal_layout cpal_header_at]. unfold cpal_header1_at. finish.
    + cbn. congruence.
Qed.

(** ** [fvar] *)

Lemma axis_record_plain o v :
  axis_record_fits o v -> plain (axis_record_at o) v (axis_record_bytes v).
Proof.
  destruct v as [t a b c fl name_id]. cbn. unfold flags16. intros F f p H. scan.
  unfold axis_record_at, flags_at. finish.
Qed.

Lemma axis_records_plain o f p l : Forall (axis_record_fits o) l ->
  bytes_at f p (flat_map axis_record_bytes l) ->
  vec_at (axis_record_at o f) 20 p (N.of_nat (length l)) l.
Proof.
  apply bytes_at_records; [apply axis_record_plain|intros [[] ? ? ? ? ?]; reflexivity].
Qed.

Lemma size_axis_records l : size (flat_map axis_record_bytes l) = 20 * N.of_nat (length l).
Proof. apply size_records. intros [[] ? ? ? ? ?]. reflexivity. Qed.

Lemma coordinates_plain f p l : Forall i32 l -> bytes_at f p (flat_map be_i32 l) ->
  i32s_at f p (N.of_nat (length l)) l.
Proof.
  apply (bytes_at_records i32_at be_i32 i32 4); [|reflexivity].
  intros v F g q. apply bytes_at_i32, F.
Qed.

Lemma size_coordinates l : size (flat_map be_i32 l) = 4 * N.of_nat (length l).
Proof. apply size_records. reflexivity. Qed.

Lemma instance_record_plain o n v :
  instance_record_fits o v -> counts n (instance_record_coordinates v) ->
  plain (fun f => instance_record_at o f n) v (instance_record_bytes v).
Proof.
  destruct v as [name_id fl coordinates postscript]. cbn. unfold flags16, counts.
  intros F -> f p H. scan.
  match goal with K : bytes_at _ _ (flat_map be_i32 _) |- _ =>
    apply coordinates_plain in K; [|assumption] end.
  rewrite size_coordinates in *. unfold instance_record_at, flags_at. finish.
Qed.

Lemma size_instance n v :
  counts n (instance_record_coordinates v) -> size (instance_record_bytes v) = 6 + 4 * n.
Proof.
  destruct v as [name_id fl coordinates postscript]. cbn. unfold counts. intros ->.
  autorewrite with sizes. rewrite size_coordinates. lia.
Qed.

Lemma instance_records_plain o n f p l :
  Forall (instance_record_fits o) l -> Forall (fun i => counts n (instance_record_coordinates i)) l ->
  bytes_at f p (flat_map instance_record_bytes l) ->
  vec_at (instance_record_at o f n) (6 + 4 * n) p (N.of_nat (length l)) l.
Proof.
  rewrite !Forall_forall. intros F W. apply bytes_at_each.
  - intros q v I. apply instance_record_plain; auto.
  - intros v I. apply size_instance. auto.
Qed.

Lemma font_variations_whole o v : font_variations_fits o v -> font_variations_wf v ->
  whole (font_variations_at o) font_variations_erase v (font_variations_bytes v).
Proof.
  destruct v as [[major minor offset reserved n s m t] axes instances]. cbn.
  intros F (-> & W1 & W2 & W3) L f p H.
  assert (6 + 4 * n < 65536) as N.
  { rewrite !size_app, size_axis_records in L. rewrite W1. lia. }
  clear L. scan.
  match goal with K : bytes_at _ _ (flat_map axis_record_bytes _) |- _ =>
    apply (axis_records_plain o) in K; [|assumption] end.
  match goal with K : bytes_at _ _ (flat_map instance_record_bytes _) |- _ =>
    apply (instance_records_plain o n) in K; [|assumption..] end.
  rewrite size_axis_records in *. unfold counts in *.
  eexists (mkFontVariations (mkFvarHeader major minor 16 2 n 20 m (6 + 4 * n)) axes instances).
  split; [reflexivity|]. unfold font_variations_at, fvar_header_at. finish.
Qed.

(** ** The table directory *)

Lemma offset_record_plain v :
  offset_record_fits v -> plain offset_record_at v (offset_record_bytes v).
Proof.
  destruct v as [t a b c]. cbn. intros F f p H. scan. unfold offset_record_at. finish.
Qed.

Lemma offsets_plain v : offsets_fits v ->
  counts (offsets_header_table_count (offsets_header v)) (offsets_records v) ->
  plain offsets_at v (offsets_bytes v).
Proof.
  destruct v as [[t n a b c] records]. cbn. intros F W f p H. scan.
  match goal with K : bytes_at _ _ (flat_map offset_record_bytes _) |- _ =>
    apply (bytes_at_records offset_record_at offset_record_bytes offset_record_fits 16) in K;
    [|apply offset_record_plain|intros [[] ? ? ?]; reflexivity|assumption] end.
  unfold counts in W. subst n. unfold offsets_at, offsets_header_at. finish.
Qed.
