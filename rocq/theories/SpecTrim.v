(** What the code makes of a [GPOS] table that is laid out as the specification
    prescribes (SpecConform.v): one word more for some devices.

    [trim_x v] is [v] without the words of its devices that are none of their deltas. *)

From Verif Require Export SpecSupport.

(** The words that hold deltas, of those that are there. *)
Definition trim_device (v : Device) : Device :=
  let '(mkDevice start_size end_size format deltas) := v in
  mkDevice start_size end_size format
    (firstn (N.to_nat (words_for (device_bits start_size end_size format))) deltas).

Definition trim_correction (v : Correction) : Correction :=
  match v with
  | CorrectionDevice t => CorrectionDevice (trim_device t)
  | CorrectionVariation t => CorrectionVariation t
  end.

Definition trim_anchor3 (v : Anchor3) : Anchor3 :=
  let '(mkAnchor3 format x y x_correction_offset y_correction_offset x_correction y_correction)
    := v in
  mkAnchor3 format x y x_correction_offset y_correction_offset
    (option_map trim_correction x_correction) (option_map trim_correction y_correction).

Definition trim_anchor (v : Anchor) : Anchor :=
  match v with
  | AnchorFormat3 t => AnchorFormat3 (trim_anchor3 t)
  | _ => v
  end.

Definition trim_base (v : Base) : Base :=
  let '(mkBase offsets anchors) := v in
  mkBase offsets (map (option_map trim_anchor) anchors).

Definition trim_bases (v : Bases) : Bases :=
  let '(mkBases count records) := v in
  mkBases count (map trim_base records).

Definition trim_component (v : Component) : Component :=
  let '(mkComponent offsets anchors) := v in
  mkComponent offsets (map (option_map trim_anchor) anchors).

Definition trim_gpos_ligature (v : GposLigature) : GposLigature :=
  let '(mkGposLigature count components) := v in
  mkGposLigature count (map trim_component components).

Definition trim_gpos_ligatures (v : GposLigatures) : GposLigatures :=
  let '(mkGposLigatures count offsets records) := v in
  mkGposLigatures count offsets (map trim_gpos_ligature records).

Definition trim_mark2 (v : Mark2) : Mark2 :=
  let '(mkMark2 offsets anchors) := v in
  mkMark2 offsets (map (option_map trim_anchor) anchors).

Definition trim_mark2s (v : Mark2s) : Mark2s :=
  let '(mkMark2s count records) := v in
  mkMark2s count (map trim_mark2 records).

Definition trim_mark1 (v : Mark1) : Mark1 :=
  let '(mkMark1 class_id anchor_offset anchor) := v in
  mkMark1 class_id anchor_offset (trim_anchor anchor).

Definition trim_mark1s (v : Mark1s) : Mark1s :=
  let '(mkMark1s count records) := v in
  mkMark1s count (map trim_mark1 records).

Definition trim_connection (v : Connection) : Connection :=
  let '(mkConnection start_anchor_offset end_anchor_offset start_anchor end_anchor) := v in
  mkConnection start_anchor_offset end_anchor_offset
    (option_map trim_anchor start_anchor) (option_map trim_anchor end_anchor).

Definition trim_single (v : Single) : Single :=
  let '(mkSingle x_placement y_placement x_advance y_advance
    x_placement_correction_offset y_placement_correction_offset
    x_advance_correction_offset y_advance_correction_offset
    x_placement_correction y_placement_correction
    x_advance_correction y_advance_correction) := v in
  mkSingle x_placement y_placement x_advance y_advance
    x_placement_correction_offset y_placement_correction_offset
    x_advance_correction_offset y_advance_correction_offset
    (option_map trim_correction x_placement_correction)
    (option_map trim_correction y_placement_correction)
    (option_map trim_correction x_advance_correction)
    (option_map trim_correction y_advance_correction).

Definition trim_pair1 (v : Pair1) : Pair1 :=
  let '(mkPair1 glyph2_id value1 value2) := v in
  mkPair1 glyph2_id (option_map trim_single value1) (option_map trim_single value2).

Definition trim_pair1s (v : Pair1s) : Pair1s :=
  let '(mkPair1s count records) := v in
  mkPair1s count (map trim_pair1 records).

Definition trim_pair2 (v : Pair2) : Pair2 :=
  let '(mkPair2 value1 value2) := v in
  mkPair2 (option_map trim_single value1) (option_map trim_single value2).

Definition trim_pair2s (v : Pair2s) : Pair2s :=
  let '(mkPair2s records) := v in
  mkPair2s (map trim_pair2 records).

Definition trim_single_adjustment1 (v : SingleAdjustment1) : SingleAdjustment1 :=
  let '(mkSingleAdjustment1 format coverage_offset value_flags value coverage) := v in
  mkSingleAdjustment1 format coverage_offset value_flags (trim_single value) coverage.

Definition trim_single_adjustment2 (v : SingleAdjustment2) : SingleAdjustment2 :=
  let '(mkSingleAdjustment2 format coverage_offset value_flags value_count values coverage)
    := v in
  mkSingleAdjustment2 format coverage_offset value_flags value_count (map trim_single values)
    coverage.

Definition trim_single_adjustment (v : SingleAdjustment) : SingleAdjustment :=
  match v with
  | SingleAdjustmentFormat1 t => SingleAdjustmentFormat1 (trim_single_adjustment1 t)
  | SingleAdjustmentFormat2 t => SingleAdjustmentFormat2 (trim_single_adjustment2 t)
  end.

Definition trim_pair_adjustment1 (v : PairAdjustment1) : PairAdjustment1 :=
  let '(mkPairAdjustment1 format coverage_offset value1_flags value2_flags record_count
    record_offsets coverage records) := v in
  mkPairAdjustment1 format coverage_offset value1_flags value2_flags record_count
    record_offsets coverage (map trim_pair1s records).

Definition trim_pair_adjustment2 (v : PairAdjustment2) : PairAdjustment2 :=
  let '(mkPairAdjustment2 format coverage_offset value1_flags value2_flags class1_offset
    class2_offset class1_count class2_count records coverage class1 class2) := v in
  mkPairAdjustment2 format coverage_offset value1_flags value2_flags class1_offset
    class2_offset class1_count class2_count (map trim_pair2s records) coverage class1 class2.

Definition trim_pair_adjustment (v : PairAdjustment) : PairAdjustment :=
  match v with
  | PairAdjustmentFormat1 t => PairAdjustmentFormat1 (trim_pair_adjustment1 t)
  | PairAdjustmentFormat2 t => PairAdjustmentFormat2 (trim_pair_adjustment2 t)
  end.

Definition trim_cursive_attachment (v : CursiveAttachment) : CursiveAttachment :=
  let '(mkCursiveAttachment format coverage_offset connection_count connections coverage) :=
    v in
  mkCursiveAttachment format coverage_offset connection_count (map trim_connection connections)
    coverage.

Definition trim_mark_to_base_attachment (v : MarkToBaseAttachment) : MarkToBaseAttachment :=
  let '(mkMarkToBaseAttachment format mark_coverage_offset base_coverage_offset
    mark_class_count
    marks_offset bases_offset mark_coverage base_coverage marks bases) := v in
  mkMarkToBaseAttachment format mark_coverage_offset base_coverage_offset
    mark_class_count marks_offset bases_offset mark_coverage base_coverage
    (trim_mark1s marks) (trim_bases bases).

Definition trim_mark_to_ligature_attachment (v : MarkToLigatureAttachment)
    : MarkToLigatureAttachment :=
  let '(mkMarkToLigatureAttachment format mark_coverage_offset ligature_coverage_offset
    mark_class_count
    marks_offset ligatures_offset mark_coverage ligature_coverage marks ligatures) := v in
  mkMarkToLigatureAttachment format mark_coverage_offset ligature_coverage_offset
    mark_class_count marks_offset ligatures_offset mark_coverage ligature_coverage
    (trim_mark1s marks) (trim_gpos_ligatures ligatures).

Definition trim_mark_to_mark_attachment (v : MarkToMarkAttachment) : MarkToMarkAttachment :=
  let '(mkMarkToMarkAttachment format mark1_coverage_offset mark2_coverage_offset
    mark_class_count
    mark1s_offset mark2s_offset mark1_coverage mark2_coverage mark1s mark2s) := v in
  mkMarkToMarkAttachment format mark1_coverage_offset mark2_coverage_offset
    mark_class_count mark1s_offset mark2s_offset mark1_coverage mark2_coverage
    (trim_mark1s mark1s) (trim_mark2s mark2s).

Definition trim_gpos_type (v : GposType) : GposType :=
  match v with
  | GposSingleAdjustment t => GposSingleAdjustment (trim_single_adjustment t)
  | GposPairAdjustment t => GposPairAdjustment (trim_pair_adjustment t)
  | GposCursiveAttachment t => GposCursiveAttachment (trim_cursive_attachment t)
  | GposMarkToBaseAttachment t => GposMarkToBaseAttachment (trim_mark_to_base_attachment t)
  | GposMarkToLigatureAttachment t =>
      GposMarkToLigatureAttachment (trim_mark_to_ligature_attachment t)
  | GposMarkToMarkAttachment t => GposMarkToMarkAttachment (trim_mark_to_mark_attachment t)
  | _ => v
  end.

Definition trim_lookup_record {T} (trim : T -> T) (v : LookupRecord T) : LookupRecord T :=
  let '(mkLookupRecord type_ flags table_count table_offsets mark_filtering_set tables) := v in
  mkLookupRecord type_ flags table_count table_offsets mark_filtering_set (map trim tables).

Definition trim_lookups {T} (trim : T -> T) (v : Lookups T) : Lookups T :=
  let '(mkLookups count offsets records) := v in
  mkLookups count offsets (map (trim_lookup_record trim) records).

Definition trim_directory {T} (trim : T -> T) (v : Directory T) : Directory T :=
  let '(mkDirectory major_version minor_version script_offset feature_offset lookup_offset
    variation_offset scripts features lookups variations) := v in
  mkDirectory major_version minor_version script_offset feature_offset lookup_offset
    variation_offset scripts features (trim_lookups trim lookups) variations.

(** [g] has the bytes of [f] and, after each of them, two more. *)
Definition followed (f g : file) : Prop :=
  extends f g /\ forall p, f p <> None -> g (p + 1) <> None /\ g (p + 2) <> None.
