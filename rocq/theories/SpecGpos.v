(** The binary format of [GPOS]; see SpecLayout.v for the conventions. *)

From Verif Require Export SpecLayout.

(** [AnchorFormat1]. *)
Definition anchor1_at (f : file) (p : N) (v : Anchor1) : Prop :=
  let '(mkAnchor1 format x y) := v in
  u16_at f p format /\
  i16_at f (p + 2) x /\
  i16_at f (p + 4) y.

(** [AnchorFormat2]. *)
Definition anchor2_at (f : file) (p : N) (v : Anchor2) : Prop :=
  let '(mkAnchor2 format x y index) := v in
  u16_at f p format /\
  i16_at f (p + 2) x /\
  i16_at f (p + 4) y /\
  u16_at f (p + 6) index.

(** [AnchorFormat3]. *)
Definition anchor3_at (f : file) (p : N) (v : Anchor3) : Prop :=
  let '(mkAnchor3 format x y x_correction_offset y_correction_offset x_correction y_correction)
    := v in
  u16_at f p format /\
  i16_at f (p + 2) x /\
  i16_at f (p + 4) y /\
  u16_at f (p + 6) x_correction_offset /\
  u16_at f (p + 8) y_correction_offset /\
  maybe_at (correction_at f) p x_correction_offset x_correction /\
  maybe_at (correction_at f) p y_correction_offset y_correction.

(** [Anchor]. *)
Definition anchor_at (f : file) (p : N) (v : Anchor) : Prop :=
  match v with
  | AnchorFormat1 t => anchor1_format t = 1 /\ anchor1_at f p t
  | AnchorFormat2 t => anchor2_format t = 2 /\ anchor2_at f p t
  | AnchorFormat3 t => anchor3_format t = 3 /\ anchor3_at f p t
  end.

(** ** Arrays of anchors *)

(** [BaseRecord]: one nullable anchor per mark class, its offset counted from [base]. *)
Definition base_at (f : file) (base mark_class_count : N) (p : N) (v : Base) : Prop :=
  let '(mkBase anchor_offsets anchors) := v in
  u16s_at f p mark_class_count anchor_offsets /\
  maybes_at (anchor_at f) base anchor_offsets anchors.

(** [BaseArray]. *)
Definition bases_at (f : file) (mark_class_count : N) (p : N) (v : Bases) : Prop :=
  let '(mkBases count records) := v in
  u16_at f p count /\
  vec_at (base_at f p mark_class_count) (2 * mark_class_count) (p + 2) count records.

(** [ComponentRecord]: one nullable anchor per mark class, its offset counted from [base]. *)
Definition component_at (f : file) (base mark_class_count : N) (p : N) (v : Component) : Prop :=
  let '(mkComponent anchor_offsets anchors) := v in
  u16s_at f p mark_class_count anchor_offsets /\
  maybes_at (anchor_at f) base anchor_offsets anchors.

(** [LigatureAttach]. *)
Definition gpos_ligature_at (f : file) (mark_class_count : N) (p : N) (v : GposLigature) : Prop :=
  let '(mkGposLigature count components) := v in
  u16_at f p count /\
  vec_at (component_at f p mark_class_count) (2 * mark_class_count) (p + 2) count components.

(** [LigatureArray]. *)
Definition gpos_ligatures_at (f : file) (mark_class_count : N) (p : N) (v : GposLigatures) : Prop :=
  let '(mkGposLigatures count offsets records) := v in
  u16_at f p count /\
  u16s_at f (p + 2) count offsets /\
  linked_at (gpos_ligature_at f mark_class_count) p offsets records.

(** [Mark2Record]: one nullable anchor per mark class, its offset counted from [base]. *)
Definition mark2_at (f : file) (base mark_class_count : N) (p : N) (v : Mark2) : Prop :=
  let '(mkMark2 anchor_offsets anchors) := v in
  u16s_at f p mark_class_count anchor_offsets /\
  maybes_at (anchor_at f) base anchor_offsets anchors.

(** [Mark2Array]. *)
Definition mark2s_at (f : file) (mark_class_count : N) (p : N) (v : Mark2s) : Prop :=
  let '(mkMark2s count records) := v in
  u16_at f p count /\
  vec_at (mark2_at f p mark_class_count) (2 * mark_class_count) (p + 2) count records.

(** [MarkRecord], its offset counted from [base].  A build that ignores incomplete
    marks takes a zero offset for a default anchor. *)
Definition mark1_at (o : options) (f : file) (base : N) (p : N) (v : Mark1) : Prop :=
  let '(mkMark1 class_id anchor_offset anchor) := v in
  u16_at f p class_id /\
  u16_at f (p + 2) anchor_offset /\
  ((anchor_offset = 0 /\ ignore_incomplete_marks o = true /\
     anchor = AnchorFormat1 (mkAnchor1 0 0 0)) \/
   ((anchor_offset <> 0 \/ ignore_incomplete_marks o = false) /\
     anchor_at f (base + anchor_offset) anchor)).

(** [MarkArray]. *)
Definition mark1s_at (o : options) (f : file) (p : N) (v : Mark1s) : Prop :=
  let '(mkMark1s count records) := v in
  u16_at f p count /\
  vec_at (mark1_at o f p) 4 (p + 2) count records.

(** [EntryExitRecord], its offsets counted from [base]. *)
Definition connection_at (f : file) (base : N) (p : N) (v : Connection) : Prop :=
  let '(mkConnection start_anchor_offset end_anchor_offset start_anchor end_anchor) := v in
  u16_at f p start_anchor_offset /\
  u16_at f (p + 2) end_anchor_offset /\
  maybe_at (anchor_at f) base start_anchor_offset start_anchor /\
  maybe_at (anchor_at f) base end_anchor_offset end_anchor.

(** ** Value records *)

(** The number of bits of [flags] set below bit [k]. *)
Definition bits_below (flags : N) (k : nat) : N :=
  N.of_nat (length (filter (fun i => N.testbit flags (N.of_nat i)) (seq 0 k))).

(** The size in bytes of a value record: two per bit set among the lower eight. *)
Definition value_size (flags : N) : N := 2 * bits_below flags 8.

(** The field of bit [k]: present exactly when the bit is set, and then after the
    fields of the lower bits. *)
Definition field_at {A} (elem : N -> A -> Prop) (flags : N) (k : nat) (p : N) (v : option A) : Prop :=
  match v with
  | None => N.testbit flags (N.of_nat k) = false
  | Some x => N.testbit flags (N.of_nat k) = true /\ elem (p + 2 * bits_below flags k) x
  end.

(** A correction whose offset field may be absent. *)
Definition corrected_at (f : file) (base : N) (offset : option N) (v : option Correction) : Prop :=
  match offset with
  | None => v = None
  | Some offset => maybe_at (correction_at f) base offset v
  end.

(** [ValueRecord] with format [flags]; the offsets count from [base]. *)
Definition single_at (f : file) (base flags : N) (p : N) (v : Single) : Prop :=
  let '(mkSingle x_placement y_placement x_advance y_advance
    x_placement_correction_offset y_placement_correction_offset
    x_advance_correction_offset y_advance_correction_offset
    x_placement_correction y_placement_correction
    x_advance_correction y_advance_correction) := v in
  field_at (i16_at f) flags 0 p x_placement /\
  field_at (i16_at f) flags 1 p y_placement /\
  field_at (i16_at f) flags 2 p x_advance /\
  field_at (i16_at f) flags 3 p y_advance /\
  field_at (u16_at f) flags 4 p x_placement_correction_offset /\
  field_at (u16_at f) flags 5 p y_placement_correction_offset /\
  field_at (u16_at f) flags 6 p x_advance_correction_offset /\
  field_at (u16_at f) flags 7 p y_advance_correction_offset /\
  corrected_at f base x_placement_correction_offset x_placement_correction /\
  corrected_at f base y_placement_correction_offset y_placement_correction /\
  corrected_at f base x_advance_correction_offset x_advance_correction /\
  corrected_at f base y_advance_correction_offset y_advance_correction.

(** A value record of a pair: absent when its format is zero. *)
Definition value_at (f : file) (base flags : N) (p : N) (v : option Single) : Prop :=
  match v with
  | None => flags = 0
  | Some x => flags <> 0 /\ single_at f base flags p x
  end.

(** [PairValueRecord]. *)
Definition pair1_at (f : file) (base flags1 flags2 : N) (p : N) (v : Pair1) : Prop :=
  let '(mkPair1 glyph2_id value1 value2) := v in
  u16_at f p glyph2_id /\
  value_at f base flags1 (p + 2) value1 /\
  value_at f base flags2 (p + 2 + value_size flags1) value2.

(** [PairSet]: the offsets of its value records count from the set. *)
Definition pair1s_at (f : file) (flags1 flags2 : N) (p : N) (v : Pair1s) : Prop :=
  let '(mkPair1s count records) := v in
  u16_at f p count /\
  vec_at (pair1_at f p flags1 flags2) (2 + value_size flags1 + value_size flags2) (p + 2)
    count records.

(** [Class2Record]. *)
Definition pair2_at (f : file) (base flags1 flags2 : N) (p : N) (v : Pair2) : Prop :=
  let '(mkPair2 value1 value2) := v in
  value_at f base flags1 p value1 /\
  value_at f base flags2 (p + value_size flags1) value2.

(** [Class1Record]. *)
Definition pair2s_at (f : file) (base count2 flags1 flags2 : N) (p : N) (v : Pair2s) : Prop :=
  let '(mkPair2s records) := v in
  vec_at (pair2_at f base flags1 flags2) (value_size flags1 + value_size flags2) p count2 records.

(** ** Subtables *)

(** [ValueFormat]: the upper eight bits are reserved. *)
Definition value_flags_at (o : options) : file -> N -> N -> Prop := flags_at (checked_flags o) 0xFF00.

(** [SinglePosFormat1]. *)
Definition single_adjustment1_at (o : options) (f : file) (p : N) (v : SingleAdjustment1) : Prop :=
  let '(mkSingleAdjustment1 format coverage_offset value_flags value coverage) := v in
  u16_at f p format /\
  u16_at f (p + 2) coverage_offset /\
  value_flags_at o f (p + 4) value_flags /\
  single_at f p value_flags (p + 6) value /\
  coverage_at f (p + coverage_offset) coverage.

(** [SinglePosFormat2]. *)
Definition single_adjustment2_at (o : options) (f : file) (p : N) (v : SingleAdjustment2) : Prop :=
  let '(mkSingleAdjustment2 format coverage_offset value_flags value_count values coverage) := v in
  u16_at f p format /\
  u16_at f (p + 2) coverage_offset /\
  value_flags_at o f (p + 4) value_flags /\
  u16_at f (p + 6) value_count /\
  vec_at (single_at f p value_flags) (value_size value_flags) (p + 8) value_count values /\
  coverage_at f (p + coverage_offset) coverage.

(** [SinglePos]. *)
Definition single_adjustment_at (o : options) (f : file) (p : N) (v : SingleAdjustment) : Prop :=
  match v with
  | SingleAdjustmentFormat1 t => single_adjustment1_format t = 1 /\ single_adjustment1_at o f p t
  | SingleAdjustmentFormat2 t => single_adjustment2_format t = 2 /\ single_adjustment2_at o f p t
  end.

(** [PairPosFormat1]. *)
Definition pair_adjustment1_at (o : options) (f : file) (p : N) (v : PairAdjustment1) : Prop :=
  let '(mkPairAdjustment1 format coverage_offset value1_flags value2_flags record_count
    record_offsets coverage records) := v in
  u16_at f p format /\
  u16_at f (p + 2) coverage_offset /\
  value_flags_at o f (p + 4) value1_flags /\
  value_flags_at o f (p + 6) value2_flags /\
  u16_at f (p + 8) record_count /\
  u16s_at f (p + 10) record_count record_offsets /\
  coverage_at f (p + coverage_offset) coverage /\
  linked_at (pair1s_at f value1_flags value2_flags) p record_offsets records.

(** [PairPosFormat2]. *)
Definition pair_adjustment2_at (o : options) (f : file) (p : N) (v : PairAdjustment2) : Prop :=
  let '(mkPairAdjustment2 format coverage_offset value1_flags value2_flags class1_offset
    class2_offset class1_count class2_count records coverage class1 class2) := v in
  u16_at f p format /\
  u16_at f (p + 2) coverage_offset /\
  value_flags_at o f (p + 4) value1_flags /\
  value_flags_at o f (p + 6) value2_flags /\
  u16_at f (p + 8) class1_offset /\
  u16_at f (p + 10) class2_offset /\
  u16_at f (p + 12) class1_count /\
  u16_at f (p + 14) class2_count /\
  vec_at (pair2s_at f p class2_count value1_flags value2_flags)
    ((value_size value1_flags + value_size value2_flags) * class2_count)
    (p + 16) class1_count records /\
  coverage_at f (p + coverage_offset) coverage /\
  class_at f (p + class1_offset) class1 /\
  class_at f (p + class2_offset) class2.

(** [PairPos]. *)
Definition pair_adjustment_at (o : options) (f : file) (p : N) (v : PairAdjustment) : Prop :=
  match v with
  | PairAdjustmentFormat1 t => pair_adjustment1_format t = 1 /\ pair_adjustment1_at o f p t
  | PairAdjustmentFormat2 t => pair_adjustment2_format t = 2 /\ pair_adjustment2_at o f p t
  end.

(** [CursivePosFormat1]. *)
Definition cursive_attachment_at (f : file) (p : N) (v : CursiveAttachment) : Prop :=
  let '(mkCursiveAttachment format coverage_offset connection_count connections coverage) := v in
  u16_at f p format /\ format = 1 /\
  u16_at f (p + 2) coverage_offset /\
  u16_at f (p + 4) connection_count /\
  vec_at (connection_at f p) 4 (p + 6) connection_count connections /\
  coverage_at f (p + coverage_offset) coverage.

(** [MarkBasePosFormat1]. *)
Definition mark_to_base_attachment_at (o : options) (f : file) (p : N)
    (v : MarkToBaseAttachment) : Prop :=
  let '(mkMarkToBaseAttachment format mark_coverage_offset base_coverage_offset mark_class_count
    marks_offset bases_offset mark_coverage base_coverage marks bases) := v in
  u16_at f p format /\ format = 1 /\
  u16_at f (p + 2) mark_coverage_offset /\
  u16_at f (p + 4) base_coverage_offset /\
  u16_at f (p + 6) mark_class_count /\
  u16_at f (p + 8) marks_offset /\
  u16_at f (p + 10) bases_offset /\
  coverage_at f (p + mark_coverage_offset) mark_coverage /\
  coverage_at f (p + base_coverage_offset) base_coverage /\
  mark1s_at o f (p + marks_offset) marks /\
  bases_at f mark_class_count (p + bases_offset) bases.

(** [MarkLigPosFormat1]. *)
Definition mark_to_ligature_attachment_at (o : options) (f : file) (p : N)
    (v : MarkToLigatureAttachment) : Prop :=
  let '(mkMarkToLigatureAttachment format mark_coverage_offset ligature_coverage_offset mark_class_count
    marks_offset ligatures_offset mark_coverage ligature_coverage marks ligatures) := v in
  u16_at f p format /\ format = 1 /\
  u16_at f (p + 2) mark_coverage_offset /\
  u16_at f (p + 4) ligature_coverage_offset /\
  u16_at f (p + 6) mark_class_count /\
  u16_at f (p + 8) marks_offset /\
  u16_at f (p + 10) ligatures_offset /\
  coverage_at f (p + mark_coverage_offset) mark_coverage /\
  coverage_at f (p + ligature_coverage_offset) ligature_coverage /\
  mark1s_at o f (p + marks_offset) marks /\
  gpos_ligatures_at f mark_class_count (p + ligatures_offset) ligatures.

(** [MarkMarkPosFormat1]. *)
Definition mark_to_mark_attachment_at (o : options) (f : file) (p : N)
    (v : MarkToMarkAttachment) : Prop :=
  let '(mkMarkToMarkAttachment format mark1_coverage_offset mark2_coverage_offset mark_class_count
    mark1s_offset mark2s_offset mark1_coverage mark2_coverage mark1s mark2s) := v in
  u16_at f p format /\ format = 1 /\
  u16_at f (p + 2) mark1_coverage_offset /\
  u16_at f (p + 4) mark2_coverage_offset /\
  u16_at f (p + 6) mark_class_count /\
  u16_at f (p + 8) mark1s_offset /\
  u16_at f (p + 10) mark2s_offset /\
  coverage_at f (p + mark1_coverage_offset) mark1_coverage /\
  coverage_at f (p + mark2_coverage_offset) mark2_coverage /\
  mark1s_at o f (p + mark1s_offset) mark1s /\
  mark2s_at f mark_class_count (p + mark2s_offset) mark2s.

(** [ExtensionPosFormat1]. *)
Definition extension_positioning_at (f : file) (p : N) (v : ExtensionPositioning) : Prop :=
  let '(mkExtensionPositioning format type_ offset) := v in
  u16_at f p format /\ format = 1 /\
  u16_at f (p + 2) type_ /\
  u32_at f (p + 4) offset.

(** A subtable of [GPOS]: the variant is the one the lookup type names. *)
Definition gpos_type_at (o : options) (type_ : N) (f : file) (p : N) (v : GposType) : Prop :=
  match v with
  | GposSingleAdjustment t => type_ = 1 /\ single_adjustment_at o f p t
  | GposPairAdjustment t => type_ = 2 /\ pair_adjustment_at o f p t
  | GposCursiveAttachment t => type_ = 3 /\ cursive_attachment_at f p t
  | GposMarkToBaseAttachment t => type_ = 4 /\ mark_to_base_attachment_at o f p t
  | GposMarkToLigatureAttachment t => type_ = 5 /\ mark_to_ligature_attachment_at o f p t
  | GposMarkToMarkAttachment t => type_ = 6 /\ mark_to_mark_attachment_at o f p t
  | GposContextualPositioning t => type_ = 7 /\ context_at f p t
  | GposChainedContextualPositioning t => type_ = 8 /\ chained_context_at f p t
  | GposExtensionPositioning t => type_ = 9 /\ extension_positioning_at f p t
  end.

(** [GPOS]. *)
Definition glyph_positioning_at (o : options) : file -> N -> GlyphPositioning -> Prop :=
  directory_at o (gpos_type_at o).
