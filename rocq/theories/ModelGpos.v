(** Model of src/tables/glyph_positioning. *)

From Verif Require Export ModelLayout.

(** [Anchor1::read], src/tables/glyph_positioning/element.rs:17-25. *)
Definition read_anchor1 : M Anchor1 :=
  format <- take_u16;;
  x <- take_i16;;
  y <- take_i16;;
  ret (mkAnchor1 format x y).

(** [Anchor2::read], src/tables/glyph_positioning/element.rs:27-36. *)
Definition read_anchor2 : M Anchor2 :=
  format <- take_u16;;
  x <- take_i16;;
  y <- take_i16;;
  index <- take_u16;;
  ret (mkAnchor2 format x y index).

(** [Anchor3::read], src/tables/glyph_positioning/element.rs:38-56. *)
Definition read_anchor3 : M Anchor3 :=
  position <- get_position;;
  format <- take_u16;;
  x <- take_i16;;
  y <- take_i16;;
  x_correction_offset <- take_u16;;
  y_correction_offset <- take_u16;;
  x_correction <- jump_take_maybe position x_correction_offset read_correction;;
  y_correction <- jump_take_maybe position y_correction_offset read_correction;;
  ret (mkAnchor3 format x y x_correction_offset y_correction_offset x_correction y_correction).

(** [Anchor::read], src/tables/glyph_positioning/element.rs:239-248. *)
Definition read_anchor : M Anchor :=
  value <- peek take_u16;;
  match value with
  | 1 => v <- read_anchor1;; ret (AnchorFormat1 v)
  | 2 => v <- read_anchor2;; ret (AnchorFormat2 v)
  | 3 => v <- read_anchor3;; ret (AnchorFormat3 v)
  | _ => raise UnknownFormat
  end.

(** [Base::read], src/tables/glyph_positioning/element.rs:250-265. *)
Definition read_base (position mark_class_count : N) : M Base :=
  anchor_offsets <- take_vec mark_class_count take_u16;;
  anchors <- stay (jump_take_maybe_n position mark_class_count anchor_offsets read_anchor);;
  ret (mkBase anchor_offsets anchors).

(** [Bases::read], src/tables/glyph_positioning/element.rs:267-278. *)
Definition read_bases (mark_class_count : N) : M Bases :=
  position <- get_position;;
  count <- take_u16;;
  records <- for_n count (fun _ => read_base position mark_class_count);;
  ret (mkBases count records).

(** [Component::read], src/tables/glyph_positioning/element.rs:280-295. *)
Definition read_component (position mark_class_count : N) : M Component :=
  anchor_offsets <- take_vec mark_class_count take_u16;;
  anchors <- stay (jump_take_maybe_n position mark_class_count anchor_offsets read_anchor);;
  ret (mkComponent anchor_offsets anchors).

(** [Ligature::read], src/tables/glyph_positioning/element.rs:297-308. *)
Definition read_gpos_ligature (mark_class_count : N) : M GposLigature :=
  position <- get_position;;
  count <- take_u16;;
  components <- for_n count (fun _ => read_component position mark_class_count);;
  ret (mkGposLigature count components).

(** [Ligatures::read], src/tables/glyph_positioning/element.rs:310-325. *)
Definition read_gpos_ligatures (mark_class_count : N) : M GposLigatures :=
  position <- get_position;;
  count <- take_u16;;
  offsets <- take_vec count take_u16;;
  records <- stay (jump_take_n position count offsets (read_gpos_ligature mark_class_count));;
  ret (mkGposLigatures count offsets records).

(** [Default for Anchor], src/tables/glyph_positioning/element.rs:232-237, with the derived default of [Anchor1]. *)
Definition anchor_default : Anchor := AnchorFormat1 (mkAnchor1 0 0 0).

(** [Mark1::read], src/tables/glyph_positioning/element.rs:327-345: [jump_take!] in the
    default build, [jump_take_maybe!(..).unwrap_or_default()] with the feature
    [ignore-incomplete-marks]. *)
Definition read_mark1 (position : N) : M Mark1 :=
  class_id <- take_u16;;
  anchor_offset <- take_u16;;
  o <- ask;;
  anchor <-
    (if ignore_incomplete_marks o then
       v <- stay (jump_take_maybe position anchor_offset read_anchor);;
       ret (match v with Some v => v | None => anchor_default end)
     else stay (jump_take position anchor_offset read_anchor));;
  ret (mkMark1 class_id anchor_offset anchor).

(** [Mark1s::read], src/tables/glyph_positioning/element.rs:130-140. *)
Definition read_mark1s : M Mark1s :=
  position <- get_position;;
  count <- take_u16;;
  records <- for_n count (fun _ => read_mark1 position);;
  ret (mkMark1s count records).

(** [Mark2::read], src/tables/glyph_positioning/element.rs:347-362. *)
Definition read_mark2 (position mark_class_count : N) : M Mark2 :=
  anchor_offsets <- take_vec mark_class_count take_u16;;
  anchors <- stay (jump_take_maybe_n position mark_class_count anchor_offsets read_anchor);;
  ret (mkMark2 anchor_offsets anchors).

(** [Mark2s::read], src/tables/glyph_positioning/element.rs:364-375. *)
Definition read_mark2s (mark_class_count : N) : M Mark2s :=
  position <- get_position;;
  count <- take_u16;;
  records <- for_n count (fun _ => read_mark2 position mark_class_count);;
  ret (mkMark2s count records).

(** [Connection::read], src/tables/glyph_positioning/element.rs:452-471. *)
Definition read_connection (position : N) : M Connection :=
  start_anchor_offset <- take_u16;;
  end_anchor_offset <- take_u16;;
  anchors <- stay (
    start_anchor <- jump_take_maybe position start_anchor_offset read_anchor;;
    end_anchor <- jump_take_maybe position end_anchor_offset read_anchor;;
    ret (start_anchor, end_anchor));;
  let '(start_anchor, end_anchor) := anchors in
  ret (mkConnection start_anchor_offset end_anchor_offset start_anchor end_anchor).

(** [Flags] of value records, src/tables/glyph_positioning/element.rs:217-230. *)
Definition take_value_flags : M N := take_flags 0xFF00.
Definition has_x_placement (flags : N) : bool := has_flag flags 0x0001.
Definition has_y_placement (flags : N) : bool := has_flag flags 0x0002.
Definition has_x_advance (flags : N) : bool := has_flag flags 0x0004.
Definition has_y_advance (flags : N) : bool := has_flag flags 0x0008.
Definition has_x_placement_correction (flags : N) : bool := has_flag flags 0x0010.
Definition has_y_placement_correction (flags : N) : bool := has_flag flags 0x0020.
Definition has_x_advance_correction (flags : N) : bool := has_flag flags 0x0040.
Definition has_y_advance_correction (flags : N) : bool := has_flag flags 0x0080.

(** The outer macro [take!] of [Single::read], src/tables/glyph_positioning/element.rs:480-482. *)
Definition take_if {A} (flag : bool) (m : M A) : M (option A) :=
  if flag then v <- m;; ret (Some v) else ret None.

(** The inner macro [take!] of [Single::read], src/tables/glyph_positioning/element.rs:497-502. *)
Definition take_linked (position : N) (offset : option N) : M (option Correction) :=
  match offset with
  | Some offset => jump_take_maybe position offset read_correction
  | None => ret None
  end.

(** [Single::read], src/tables/glyph_positioning/element.rs:473-525. *)
Definition read_single (position flags : N) : M Single :=
  x_placement <- take_if (has_x_placement flags) take_i16;;
  y_placement <- take_if (has_y_placement flags) take_i16;;
  x_advance <- take_if (has_x_advance flags) take_i16;;
  y_advance <- take_if (has_y_advance flags) take_i16;;
  x_placement_correction_offset <- take_if (has_x_placement_correction flags) take_u16;;
  y_placement_correction_offset <- take_if (has_y_placement_correction flags) take_u16;;
  x_advance_correction_offset <- take_if (has_x_advance_correction flags) take_u16;;
  y_advance_correction_offset <- take_if (has_y_advance_correction flags) take_u16;;
  corrections <- stay (
    x_placement_correction <- take_linked position x_placement_correction_offset;;
    y_placement_correction <- take_linked position y_placement_correction_offset;;
    x_advance_correction <- take_linked position x_advance_correction_offset;;
    y_advance_correction <- take_linked position y_advance_correction_offset;;
    ret (x_placement_correction, y_placement_correction,
         x_advance_correction, y_advance_correction));;
  let '(x_placement_correction, y_placement_correction,
        x_advance_correction, y_advance_correction) := corrections in
  ret (mkSingle x_placement y_placement x_advance y_advance
    x_placement_correction_offset y_placement_correction_offset
    x_advance_correction_offset y_advance_correction_offset
    x_placement_correction y_placement_correction
    x_advance_correction y_advance_correction).

(** [Pair1::read], src/tables/glyph_positioning/element.rs:377-398. *)
Definition read_pair1 (position value1_flags value2_flags : N) : M Pair1 :=
  glyph2_id <- take_u16;;
  value1 <-
    (if 0 <? value1_flags then v <- read_single position value1_flags;; ret (Some v) else ret None);;
  value2 <-
    (if 0 <? value2_flags then v <- read_single position value2_flags;; ret (Some v) else ret None);;
  ret (mkPair1 glyph2_id value1 value2).

(** [Pair1s::read], src/tables/glyph_positioning/element.rs:400-414. *)
Definition read_pair1s (value1_flags value2_flags : N) : M Pair1s :=
  position <- get_position;;
  count <- take_u16;;
  records <- for_n count (fun _ => read_pair1 position value1_flags value2_flags);;
  ret (mkPair1s count records).

(** [Pair2::read], src/tables/glyph_positioning/element.rs:416-436. *)
Definition read_pair2 (position value1_flags value2_flags : N) : M Pair2 :=
  value1 <-
    (if 0 <? value1_flags then v <- read_single position value1_flags;; ret (Some v) else ret None);;
  value2 <-
    (if 0 <? value2_flags then v <- read_single position value2_flags;; ret (Some v) else ret None);;
  ret (mkPair2 value1 value2).

(** [Pair2s::read], src/tables/glyph_positioning/element.rs:438-450. *)
Definition read_pair2s (position class2_count value1_flags value2_flags : N) : M Pair2s :=
  records <- for_n class2_count (fun _ => read_pair2 position value1_flags value2_flags);;
  ret (mkPair2s records).

(** [SingleAdjustment1::read], src/tables/glyph_positioning/mod.rs:38-54. *)
Definition read_single_adjustment1 : M SingleAdjustment1 :=
  position <- get_position;;
  format <- take_u16;;
  coverage_offset <- take_u16;;
  value_flags <- take_value_flags;;
  value <- read_single position value_flags;;
  coverage <- jump_take position coverage_offset read_coverage;;
  ret (mkSingleAdjustment1 format coverage_offset value_flags value coverage).

(** [SingleAdjustment2::read], src/tables/glyph_positioning/mod.rs:56-75. *)
Definition read_single_adjustment2 : M SingleAdjustment2 :=
  position <- get_position;;
  format <- take_u16;;
  coverage_offset <- take_u16;;
  value_flags <- take_value_flags;;
  value_count <- take_u16;;
  values <- for_n value_count (fun _ => read_single position value_flags);;
  coverage <- jump_take position coverage_offset read_coverage;;
  ret (mkSingleAdjustment2 format coverage_offset value_flags value_count values coverage).

(** [SingleAdjustment::read], src/tables/glyph_positioning/mod.rs:284-292. *)
Definition read_single_adjustment : M SingleAdjustment :=
  value <- peek take_u16;;
  match value with
  | 1 => v <- read_single_adjustment1;; ret (SingleAdjustmentFormat1 v)
  | 2 => v <- read_single_adjustment2;; ret (SingleAdjustmentFormat2 v)
  | _ => raise UnknownFormat
  end.

(** [PairAdjustment1::read], src/tables/glyph_positioning/mod.rs:86-114. *)
Definition read_pair_adjustment1 : M PairAdjustment1 :=
  position <- get_position;;
  format <- take_u16;;
  coverage_offset <- take_u16;;
  value1_flags <- take_value_flags;;
  value2_flags <- take_value_flags;;
  record_count <- take_u16;;
  record_offsets <- take_vec record_count take_u16;;
  coverage <- jump_take position coverage_offset read_coverage;;
  records <- jump_take_n position record_count record_offsets
    (read_pair1s value1_flags value2_flags);;
  ret (mkPairAdjustment1 format coverage_offset value1_flags value2_flags record_count
    record_offsets coverage records).

(** [PairAdjustment2::read], src/tables/glyph_positioning/mod.rs:116-147. *)
Definition read_pair_adjustment2 : M PairAdjustment2 :=
  position <- get_position;;
  format <- take_u16;;
  coverage_offset <- take_u16;;
  value1_flags <- take_value_flags;;
  value2_flags <- take_value_flags;;
  class1_offset <- take_u16;;
  class2_offset <- take_u16;;
  class1_count <- take_u16;;
  class2_count <- take_u16;;
  records <- for_n class1_count
    (fun _ => read_pair2s position class2_count value1_flags value2_flags);;
  coverage <- jump_take position coverage_offset read_coverage;;
  class1 <- jump_take position class1_offset read_class;;
  class2 <- jump_take position class2_offset read_class;;
  ret (mkPairAdjustment2 format coverage_offset value1_flags value2_flags class1_offset
    class2_offset class1_count class2_count records coverage class1 class2).

(** [PairAdjustment::read], src/tables/glyph_positioning/mod.rs:294-302. *)
Definition read_pair_adjustment : M PairAdjustment :=
  value <- peek take_u16;;
  match value with
  | 1 => v <- read_pair_adjustment1;; ret (PairAdjustmentFormat1 v)
  | 2 => v <- read_pair_adjustment2;; ret (PairAdjustmentFormat2 v)
  | _ => raise UnknownFormat
  end.

(** [CursiveAttachment::read], src/tables/glyph_positioning/mod.rs:149-167. *)
Definition read_cursive_attachment : M CursiveAttachment :=
  position <- get_position;;
  format <- take_const take_u16 1;;
  coverage_offset <- take_u16;;
  connection_count <- take_u16;;
  connections <- for_n connection_count (fun _ => read_connection position);;
  coverage <- jump_take position coverage_offset read_coverage;;
  ret (mkCursiveAttachment format coverage_offset connection_count connections coverage).

(** [MarkToBaseAttachment::read], src/tables/glyph_positioning/mod.rs:169-196. *)
Definition read_mark_to_base_attachment : M MarkToBaseAttachment :=
  position <- get_position;;
  format <- take_const take_u16 1;;
  mark_coverage_offset <- take_u16;;
  base_coverage_offset <- take_u16;;
  mark_class_count <- take_u16;;
  marks_offset <- take_u16;;
  bases_offset <- take_u16;;
  mark_coverage <- jump_take position mark_coverage_offset read_coverage;;
  base_coverage <- jump_take position base_coverage_offset read_coverage;;
  marks <- jump_take position marks_offset read_mark1s;;
  bases <- jump_take position bases_offset (read_bases mark_class_count);;
  ret (mkMarkToBaseAttachment format mark_coverage_offset base_coverage_offset mark_class_count
    marks_offset bases_offset mark_coverage base_coverage marks bases).

(** [MarkToLigatureAttachment::read], src/tables/glyph_positioning/mod.rs:198-225. *)
Definition read_mark_to_ligature_attachment : M MarkToLigatureAttachment :=
  position <- get_position;;
  format <- take_const take_u16 1;;
  mark_coverage_offset <- take_u16;;
  ligature_coverage_offset <- take_u16;;
  mark_class_count <- take_u16;;
  marks_offset <- take_u16;;
  ligatures_offset <- take_u16;;
  mark_coverage <- jump_take position mark_coverage_offset read_coverage;;
  ligature_coverage <- jump_take position ligature_coverage_offset read_coverage;;
  marks <- jump_take position marks_offset read_mark1s;;
  ligatures <- jump_take position ligatures_offset (read_gpos_ligatures mark_class_count);;
  ret (mkMarkToLigatureAttachment format mark_coverage_offset ligature_coverage_offset
    mark_class_count marks_offset ligatures_offset mark_coverage ligature_coverage marks
    ligatures).

(** [MarkToMarkAttachment::read], src/tables/glyph_positioning/mod.rs:227-254. *)
Definition read_mark_to_mark_attachment : M MarkToMarkAttachment :=
  position <- get_position;;
  format <- take_const take_u16 1;;
  mark1_coverage_offset <- take_u16;;
  mark2_coverage_offset <- take_u16;;
  mark_class_count <- take_u16;;
  mark1s_offset <- take_u16;;
  mark2s_offset <- take_u16;;
  mark1_coverage <- jump_take position mark1_coverage_offset read_coverage;;
  mark2_coverage <- jump_take position mark2_coverage_offset read_coverage;;
  mark1s <- jump_take position mark1s_offset read_mark1s;;
  mark2s <- jump_take position mark2s_offset (read_mark2s mark_class_count);;
  ret (mkMarkToMarkAttachment format mark1_coverage_offset mark2_coverage_offset mark_class_count
    mark1s_offset mark2s_offset mark1_coverage mark2_coverage mark1s mark2s).

(** [ExtensionPositioning::read], src/tables/glyph_positioning/mod.rs:256-263. *)
Definition read_extension_positioning : M ExtensionPositioning :=
  format <- take_const take_u16 1;;
  type_ <- take_u16;;
  offset <- take_u32;;
  ret (mkExtensionPositioning format type_ offset).

(** [Type::read], src/tables/glyph_positioning/mod.rs:265-282. *)
Definition read_gpos_type (type_ : N) : M GposType :=
  match type_ with
  | 1 => v <- read_single_adjustment;; ret (GposSingleAdjustment v)
  | 2 => v <- read_pair_adjustment;; ret (GposPairAdjustment v)
  | 3 => v <- read_cursive_attachment;; ret (GposCursiveAttachment v)
  | 4 => v <- read_mark_to_base_attachment;; ret (GposMarkToBaseAttachment v)
  | 5 => v <- read_mark_to_ligature_attachment;; ret (GposMarkToLigatureAttachment v)
  | 6 => v <- read_mark_to_mark_attachment;; ret (GposMarkToMarkAttachment v)
  | 7 => v <- read_context;; ret (GposContextualPositioning v)
  | 8 => v <- read_chained_context;; ret (GposChainedContextualPositioning v)
  | 9 => v <- read_extension_positioning;; ret (GposExtensionPositioning v)
  | _ => raise UnknownType
  end.

(** [GlyphPositioning], src/tables/glyph_positioning/mod.rs:13, read by [Directory<Type>::read]. *)
Definition read_glyph_positioning : M GlyphPositioning := read_directory read_gpos_type.
