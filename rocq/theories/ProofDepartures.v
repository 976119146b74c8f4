(** Where the code departs from the OpenType specification: counterexamples, and what
    holds instead. *)

From Verif Require Export ProofFindings ProofFontProperties.
From Verif Require Import Reads ReadsTactics ProofRequests ProofShape ProofFvar Fixtures.

(** ** Caret values *)

Definition caret_bytes : file := words [1; 7].

Lemma caret_bytes_standard : standard_caret_at caret_bytes 0 (CaretFormat1 (mkCaret1 1 7)).
Proof.
  repeat split; [repeat eexists; vm_compute; reflexivity|].
  exists 7. split; [repeat eexists; vm_compute; reflexivity|reflexivity].
Qed.

Lemma words_bounded l : N.of_nat (length (flat_map be16 l)) <=? 2 ^ 63 = true -> bounded (words l).
Proof. intros H. apply file_of_bounded. apply N.leb_le, H. Qed.

Ltac by_size := apply words_bounded; vm_compute; reflexivity.

Lemma carets_unread : ~ forall o f p v, bounded f -> standard_caret_at f p v -> reads o read_caret f p v.
Proof.
  intros H. destruct (H debug_build caret_bytes 0 _ ltac:(by_size) caret_bytes_standard) as [q Hq].
  vm_compute in Hq. discriminate Hq.
Qed.

(** ** Device tables *)

Definition device_bytes : file := words [12; 13; 3; 258].

Lemma device_bytes_standard : standard_device_at device_bytes 0 (mkDevice 12 13 3 [258]).
Proof.
  unfold standard_device_at. conjuncts; try lia; try (repeat eexists; vm_compute; reflexivity).
  apply vec_one. repeat eexists; vm_compute; reflexivity.
Qed.

Lemma devices_unread : ~ forall o f p v, bounded f -> standard_device_at f p v ->
  reads o read_correction f p (CorrectionDevice v).
Proof.
  intros H. destruct (H debug_build device_bytes 0 _ ltac:(by_size) device_bytes_standard) as [q Hq].
  vm_compute in Hq. discriminate Hq.
Qed.

(** ** The variations of GDEF *)

Lemma adobe_vf_variations : exists v,
  reads debug_build read_glyph_definition (file_of adobe_vf_gdef) 0 v /\
  standard_variation_offset (glyph_definition_header v) = 18 /\ glyph_definition_variations v = None.
Proof. apply (table_of_holds debug_build RequestGdef). vm_compute. split; reflexivity. Qed.

Lemma variations_elsewhere : ~ forall o f p v, bounded f -> reads o read_glyph_definition f p v ->
  standard_glyph_definition_at o f p v.
Proof.
  intros H. destruct adobe_vf_variations as (v & Hv & Ho & Hn).
  specialize (H debug_build _ 0 v (file_of_bounded adobe_vf_gdef ltac:(vm_compute; discriminate)) Hv).
  destruct v as [h c a l k m s]. cbn in Ho, Hn. subst s.
  unfold standard_glyph_definition_at, glyph_definition_with in H.
  destruct (gdef_offsets h) as [[[[[? ?] ?] ?] ?] ?].
  destruct H as (_ & _ & _ & _ & _ & _ & H). cbn in H. congruence.
Qed.

(** It is the same if both offsets are the same, as before version 1.3. *)
Lemma variations_agree o f p v : bounded f ->
  gdef_variation_offset (glyph_definition_header v) = standard_variation_offset (glyph_definition_header v) ->
  (reads o read_glyph_definition f p v <-> standard_glyph_definition_at o f p v).
Proof.
  intros Hb E. rewrite (request_reads RequestGdef o f p v Hb). cbn [conforms].
  destruct v as [h c a l k m s]. cbn in E.
  unfold glyph_definition_at, standard_glyph_definition_at, glyph_definition_with.
  rewrite E. reflexivity.
Qed.

(** ** Instances of fvar *)

Definition fvar_words (after : N) : list N :=
  [1; 0; 16; 2; 1; 20; 1; 8;
   0x7767; 0x6874; 0; 100; 0; 400; 0; 900; 0; 256;
   257; 0; 0; 400; after].

Definition fvar_value (after : N) : FontVariations :=
  mkFontVariations (mkFvarHeader 1 0 16 2 1 20 1 8)
    [mkAxisRecord (Tag "w" "g" "h" "t") 100 400 900 0 256]
    [mkInstanceRecord 257 0 [400%Z] after].

Lemma fvar_five : reads debug_build read_font_variations (words (fvar_words 5)) 0 (fvar_value 5).
Proof. eexists. vm_compute. reflexivity. Qed.

Lemma fvar_six : reads debug_build read_font_variations (words (fvar_words 6)) 0 (fvar_value 6).
Proof. eexists. vm_compute. reflexivity. Qed.

Lemma fvar_same : same_between 0 (fvar_end 0 (font_variations_header (fvar_value 5)))
  (words (fvar_words 5)) (words (fvar_words 6)).
Proof.
  intros r _ Hr. change (fvar_end 0 _) with 44 in Hr.
  assert (Hn : (N.to_nat r < 44)%nat) by lia. unfold words, file_of.
  generalize dependent (N.to_nat r). intros n Hn.
  do 44 (destruct n as [|n]; [vm_compute; reflexivity|]). lia.
Qed.

Lemma instances_beyond : ~ forall o f g p v w,
  bounded f -> bounded g -> reads o read_font_variations f p v -> reads o read_font_variations g p w ->
  same_between p (fvar_end p (font_variations_header v)) f g -> v = w.
Proof.
  intros H. specialize (H debug_build (words (fvar_words 5)) (words (fvar_words 6)) 0 _ _
    ltac:(by_size) ltac:(by_size) fvar_five fvar_six fvar_same).
  discriminate H.
Qed.

(** The name read for an instance without one is the name of the next instance. *)
Lemma instance_next o f p v i x y :
  bounded f -> reads o read_font_variations f p v ->
  fvar_header_instance_size (font_variations_header v) =
    4 + 4 * fvar_header_axis_count (font_variations_header v) ->
  nth_error (font_variations_instance_records v) i = Some x ->
  nth_error (font_variations_instance_records v) (Datatypes.S i) = Some y ->
  instance_record_postscript_name_id x = instance_record_subfamily_name_id y.
Proof.
  intros Hb H Hs Hx Hy. apply (request_reads RequestFvar) in H; [|exact Hb]. cbn [conforms] in H.
  destruct v as [[x0 x1 axis_offset x3 axis_count axis_size instance_count instance_size] axes instances].
  cbn -[N.mul N.add nth_error] in Hs, Hx, Hy. destruct H as (_ & _ & _ & H).
  apply H in Hx, Hy. destruct x as [s fl cs ps], y as [s' fl' cs' ps'].
  destruct Hx as (_ & _ & _ & Hx), Hy as (Hy & _). cbn.
  eapply u16_fun; [exact Hx|]. match goal with |- u16_at _ ?q _ => match type of Hy with u16_at _ ?r _ =>
    replace q with r; [exact Hy|] end end.
  subst instance_size. lia.
Qed.

(** With room for the name nothing outside the table matters. *)
Section Within.
Context (a b : N) (f g : file) (Hs : same_between a b f g).

Lemma u16_within p v : a <= p -> p + 2 <= b -> u16_at f p v -> u16_at g p v.
Proof.
  intros Ha Hp (b0 & b1 & H0 & H1 & E). exists b0, b1.
  rewrite <- (Hs p), <- (Hs (p + 1)) by lia. auto.
Qed.

Lemma u32_within p v : a <= p -> p + 4 <= b -> u32_at f p v -> u32_at g p v.
Proof.
  intros Ha Hp (h & l & Hh & Hl & E). exists h, l.
  split; [|split; [|exact E]]; apply u16_within; assumption || lia.
Qed.

Lemma i32_within p v : a <= p -> p + 4 <= b -> i32_at f p v -> i32_at g p v.
Proof.
  intros Ha Hp (u & Hu & E). exists u. split; [|exact E]. apply u32_within; assumption.
Qed.

Lemma tag_within p v : a <= p -> p + 4 <= b -> tag_at f p v -> tag_at g p v.
Proof.
  intros Ha Hp. destruct v as [x y z w]. unfold tag_at.
  rewrite (Hs p), (Hs (p + 1)), (Hs (p + 2)), (Hs (p + 3)) by lia. auto.
Qed.

Lemma vec_inside {A} (P Q : N -> A -> Prop) s p n vs :
  (forall i v, i < n -> P (p + s * i) v -> Q (p + s * i) v) -> vec_at P s p n vs -> vec_at Q s p n vs.
Proof.
  intros H [Hl Hv]. split; [exact Hl|]. intros i v Hi. apply H; [|apply Hv, Hi].
  assert (i < length vs)%nat by (apply nth_error_Some; congruence). lia.
Qed.

Lemma axis_record_within o p v : a <= p -> p + 20 <= b -> axis_record_at o f p v -> axis_record_at o g p v.
Proof.
  intros Ha Hp. destruct v. unfold axis_record_at, flags_at. intros (H0 & H1 & H2 & H3 & [H4 H5] & H6).
  conjuncts; try exact H5; (apply tag_within || apply i32_within || apply u16_within); assumption || lia.
Qed.

Lemma instance_record_within o n p v : a <= p -> p + 6 + 4 * n <= b ->
  instance_record_at o f n p v -> instance_record_at o g n p v.
Proof.
  intros Ha Hp. destruct v. unfold instance_record_at, flags_at. intros (H0 & [H1 H2] & H3 & H4).
  conjuncts; try exact H2; try (apply u16_within; assumption || lia).
  revert H3. apply vec_inside. intros i v Hi. apply i32_within; lia.
Qed.
End Within.

Lemma fvar_within o f g p q v :
  bounded f -> bounded g -> reads o read_font_variations f p v ->
  20 <= fvar_header_axis_size (font_variations_header v) ->
  6 + 4 * fvar_header_axis_count (font_variations_header v) <=
    fvar_header_instance_size (font_variations_header v) ->
  p + 16 <= q -> fvar_end p (font_variations_header v) <= q -> same_between p q f g ->
  reads o read_font_variations g p v.
Proof.
  intros Hf Hg H Ha Hi Hq He Hs. apply (request_reads RequestFvar) in H; [|exact Hf].
  apply (request_reads RequestFvar); [exact Hg|]. cbn [conforms] in *.
  destruct v as [[x0 x1 axis_offset x3 axis_count axis_size instance_count instance_size] axes instances].
  cbn -[N.mul N.add] in Ha, Hi, He. destruct H as (H0 & H1 & H2).
  unfold font_variations_at. conjuncts.
  - unfold fvar_header_at in *. destruct H0 as (h0 & h1 & h2 & h3 & h4 & h5 & h6 & h7 & h8).
    conjuncts; try exact h4; eapply u16_within; try eassumption; lia.
  - revert H1. apply vec_inside. intros i v Hin. apply (axis_record_within p q f g Hs); [lia|].
    assert (axis_size * (i + 1) <= axis_size * axis_count) by (apply N.mul_le_mono_l; lia). lia.
  - revert H2. apply vec_inside. intros i v Hin. apply (instance_record_within p q f g Hs); [lia|].
    assert (instance_size * (i + 1) <= instance_size * instance_count) by (apply N.mul_le_mono_l; lia). lia.
Qed.

(** ** Feature parameters *)

Lemma parameters_unread : ~ forall o f p v, bounded f -> reads o read_feature_record f p v ->
  parameters_at f p v.
Proof.
  intros H.
  specialize (H debug_build (words [4; 0; 7]) 0 (mkFeatureRecord 4 0 [] (Some [])) ltac:(by_size)
    ltac:(eexists; vm_compute; reflexivity)).
  destruct H as (_ & H & _). apply H. reflexivity.
Qed.

(** ** Rule sets *)

Definition null_context : list N := [1; 8; 1; 0; 1; 0].

Definition null_context_value : Context1 :=
  mkContext1 1 8 1 [0] (CoverageFormat1 (mkCoverage1 1 0 []))
    [mkContextRecords 1 [8] [mkContextRecord 1 0 [] []]].

Lemma null_context_reads :
  reads debug_build read_context (words null_context) 0 (ContextFormat1 null_context_value).
Proof. eexists. vm_compute. reflexivity. Qed.

Lemma null_sets_read : ~ forall o f p t i set,
  bounded f -> reads o read_context f p (ContextFormat1 t) ->
  nth_error (context1_record_offsets t) i = Some 0 -> nth_error (context1_records t) i = Some set ->
  context_records_records set = [].
Proof.
  intros H.
  specialize (H debug_build (words null_context) 0 _ 0%nat _ ltac:(by_size) null_context_reads
    eq_refl eq_refl).
  discriminate H.
Qed.

(** ** The declared length of a table *)

Definition overlong_record : OffsetRecord := mkOffsetRecord (Tag "C" "P" "A" "L") 65554 28 16.

Definition overlong_font : Font :=
  mkFont (mkOffsets (mkOffsetsHeader (Tag x00 x01 x00 x00) 1 16 0 0) [overlong_record]).

Definition overlong_file (blue : N) : file := file_of (
  bytes [0; 1; 0; 0] ++ flat_map be16 [1; 16; 0; 0] ++ record_bytes overlong_record ++
  flat_map be16 [0; 1; 1; 1; 0; 16; 0; 0] ++ bytes [blue; 0; 0; 255]).

Definition overlong_colors (blue : N) : ColorPalettes :=
  mkColorPalettes (CpalVersion0 (mkCpalHeader0 0 1 1 1 16 [0])) [mkColor blue 0 0 255].

Lemma overlong_bounded blue : bounded (overlong_file blue).
Proof. apply file_of_bounded. vm_compute. discriminate. Qed.

Lemma overlong_same blue green q : q < 44 -> overlong_file blue q = overlong_file green q.
Proof.
  intros Hq. assert (Hn : (N.to_nat q < 44)%nat) by lia. unfold overlong_file, file_of.
  generalize dependent (N.to_nat q). intros n Hn.
  do 44 (destruct n as [|n]; [reflexivity|]). lia.
Qed.

Lemma overlong_first : first_record [overlong_record] (Tag "C" "P" "A" "L") overlong_record.
Proof. exists 0%nat. repeat split. intros j r' Hj. lia. Qed.

Lemma overlong_reads blue : blue = 1 \/ blue = 2 ->
  reads debug_build (read_file sample_deps) (overlong_file blue) 0 (mkFile [overlong_font]) /\
  reads debug_build (font_take sample_deps overlong_font TableColorPalettes read_color_palettes)
    (overlong_file blue) 0 (Some (overlong_colors blue)).
Proof. intros [-> | ->]; split; eexists; vm_compute; reflexivity. Qed.

Lemma takes_beyond : ~ forall d o f g this t record A (r : request A) v w,
  bounded f -> bounded g ->
  reads o (read_file d) f 0 (mkFile [this]) -> reads o (read_file d) g 0 (mkFile [this]) ->
  first_record (offsets_records (font_offsets this)) (table_tag t) record ->
  (forall q, q < offset_record_offset record + offset_record_length record -> f q = g q) ->
  reads o (font_take d this t (reader r)) f 0 v -> reads o (font_take d this t (reader r)) g 0 w ->
  v = w.
Proof.
  intros H.
  destruct (overlong_reads 1 (or_introl eq_refl)) as [H1 H1'].
  destruct (overlong_reads 2 (or_intror eq_refl)) as [H2 H2'].
  specialize (H sample_deps debug_build _ _ overlong_font TableColorPalettes overlong_record _ RequestCpal _ _
    (overlong_bounded 1) (overlong_bounded 2) H1 H2 overlong_first (overlong_same 1 2) H1' H2').
  discriminate H.
Qed.

(** ** Deltas *)

Definition long_file : file := fun p =>
  if p <? 65536 then
    Some (match p with 1 => x01 | 2 => x80 | 3 => x01 | 5 => x01 | _ => x00 end)
  else None.

Lemma long_reads : reads debug_build read_store_record long_file 0
  (mkStoreRecord 1 0x8001 1 [0] (repeat 0 (N.to_nat 0x8002))).
Proof.
  apply store_record_read_iff.
  - intros p Hp. unfold long_file. destruct (N.ltb_spec p 65536); [lia|reflexivity].
  - unfold store_record_at. conjuncts; try (eexists _, _; repeat split; vm_compute; reflexivity).
    + apply vec_one. eexists _, _; repeat split; vm_compute; reflexivity.
    + intros _. vm_compute. reflexivity.
    + change (1 * ((32769 + 1) mod 2 ^ 16)) with 0x8002. change (0 + 6 + 2 * 1) with 8.
      split; [rewrite repeat_length; lia|]. intros i v Hi. assert (Hv : v = 0).
      { apply nth_error_In, repeat_spec in Hi. exact Hi. }
      assert (L : (i < N.to_nat 0x8002)%nat).
      { rewrite <- (repeat_length 0 (N.to_nat 0x8002)). apply nth_error_Some. rewrite Hi. discriminate. }
      subst v. exists x00. split; [|reflexivity]. unfold long_file.
      destruct (N.ltb_spec (8 + 1 * N.of_nat i) 65536); [|lia].
      assert (8 <= 8 + 1 * N.of_nat i) by lia. generalize dependent (8 + 1 * N.of_nat i). intros p _ Hp.
      destruct p as [|[[[|[]|]|[|[]|]|]|[[|[]|]|[|[]|]|]|]]; reflexivity || lia.
Qed.

Lemma long_deltas_short : ~ forall o f p item_count word_delta_count region_count indices deltas,
  bounded f ->
  reads o read_store_record f p (mkStoreRecord item_count word_delta_count region_count indices deltas) ->
  word_count word_delta_count <= region_count ->
  N.of_nat (length deltas) = item_count * row_size word_delta_count region_count.
Proof.
  intros H. specialize (H debug_build long_file 0 _ _ _ _ _
    ltac:(intros p Hp; unfold long_file; destruct (N.ltb_spec p 65536); [lia|reflexivity]) long_reads
    ltac:(vm_compute; discriminate)).
  rewrite repeat_length, N2Nat.id in H. vm_compute in H. discriminate H.
Qed.

(** ** Size *)

Lemma bomb_explodes n m : n < 65536 -> m < 65536 ->
  exists l v, length l = 48%nat /\
    (forall o, reads o read_glyph_positioning (file_of l) 0 v) /\
    all_class_pairs v = (N.to_nat n * N.to_nat m)%nat.
Proof.
  intros Hn Hm. exists (bomb n m), (blast n m).
  split; [apply bomb_length|]. split; [intros o; apply bomb_reads; assumption|apply blast_pairs].
Qed.

Lemma larger_than_file : ~ forall o l p v,
  reads o read_glyph_positioning (file_of l) p v -> (all_class_pairs v <= length l)%nat.
Proof.
  intros H. specialize (H debug_build (bomb 7 7) 0 (blast 7 7) (bomb_reads _ 7 7 eq_refl eq_refl)).
  rewrite blast_pairs, bomb_length in H. vm_compute in H. lia.
Qed.

Lemma amplifier_amplifies n : n < 65536 ->
  exists l v, N.of_nat (length l) = 22 + 6 * n /\
    (forall o, reads o read_glyph_definition (file_of l) 0 v) /\
    mark_glyphs v = (N.to_nat n * N.to_nat n)%nat.
Proof.
  intros Hn. exists (amplifier n), (amplified n).
  split; [apply amplifier_length|]. split; [intros o; apply amplifier_reads; assumption|apply amplified_glyphs].
Qed.
