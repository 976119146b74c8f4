(** The readers, step by step.  Generated by tools/gen_steps.py from the files named below,
    each definition with the same text as there; only the monad is another. *)

From Verif Require Import ModelFont.
From Verif Require Export Steps.
Local Open Scope steps_scope.

(** ** Tape.v *)

(** A field [(u8)], as in src/tables/color_palettes.rs:56. *)
Definition take_u8 : steps N :=
  b <- take_byte;;
  ret (Byte.to_N b).

(** A field [(u16)], as in src/layout/language.rs:16. *)
Definition take_u16 : steps N :=
  b0 <- take_byte;;
  b1 <- take_byte;;
  ret (256 * Byte.to_N b0 + Byte.to_N b1).

(** A field [(u32)], as in src/tables/color_palettes.rs:29. *)
Definition take_u32 : steps N :=
  b0 <- take_byte;;
  b1 <- take_byte;;
  b2 <- take_byte;;
  b3 <- take_byte;;
  ret (16777216 * Byte.to_N b0 + 65536 * Byte.to_N b1 + 256 * Byte.to_N b2 + Byte.to_N b3).

(** A field [(i16)], as in src/tables/glyph_substitution/mod.rs:45. *)
Definition take_i16 : steps Z :=
  u <- take_u16;;
  ret (to_i16 u).

(** A field [(q32)], as in src/tables/font_variations/mod.rs:38: the raw signed
    32-bit number. *)
Definition take_q32 : steps Z :=
  u <- take_u32;;
  ret (to_i32 u).

(** A field [(Tag)], as in src/tables/font_variations/mod.rs:37. *)
Definition take_tag : steps tag :=
  a <- take_byte;;
  b <- take_byte;;
  c <- take_byte;;
  d <- take_byte;;
  ret (Tag a b c d).

(** A [table!] field declared with [= { constant }], as in src/layout/language.rs:16. *)
Definition take_const (m : steps N) (constant : N) : steps N :=
  v <- m;;
  if v =? constant then ret v else raise UnexpectedValue.

(** [flags!]: a 16-bit set; [invalid] is the mask of [is_invalid], as in
    src/layout/lookup.rs:28-36. *)
Definition take_flags (invalid : N) : steps N :=
  v <- take_u16;;
  o <- ask;;
  if checked_flags o && negb (N.land v invalid =? 0) then raise InvalidFlags else ret v.

(** [a + b] on unsigned integers, as in src/variations/item.rs:33. *)
Definition add_wrapping (bits a b : N) : steps N :=
  o <- ask;;
  if a + b <? 2 ^ bits then ret (a + b)
  else if overflow_checks o then panic
  else ret ((a + b) mod 2 ^ bits).

Definition add_u16 : N -> N -> steps N := add_wrapping 16.

Definition add_u64 : N -> N -> steps N := add_wrapping 64.

(** The whole loop, as in src/tables/glyph_positioning/element.rs:137. *)
Definition for_n {A} (count : N) (f : nat -> steps A) : steps (list A) :=
  for_range 0 (N.to_nat count) f.

(** [walue::Read for Vec<T>] given a count: [tape.take_given(count)], as in
    src/layout/language.rs:21. *)
Definition take_vec {A} (count : N) (m : steps A) : steps (list A) :=
  for_n count (fun _ => m).

(** [values[i]], as in src/layout/script.rs:61: out of bounds is a panic. *)
Definition index {A} (values : list A) (i : nat) : steps A :=
  match nth_error values i with
  | Some v => ret v
  | None => panic
  end.

(** [jump_take!(tape, position, offset)] and, with a parametrised reader,
    [jump_take_given!(tape, position, offset, parameter)], as in
    src/tables/glyph_substitution/mod.rs:48 and src/tables/color_palettes.rs:98. *)
Definition jump_take {A} (position offset : N) (m : steps A) : steps A :=
  q <- add_u64 position offset;;
  _ <- jump q;;
  m.

(** [jump_take!(tape, position, count, offsets)] and
    [jump_take!(tape, position, count, i => expression)]: [offset i] evaluates
    the offset expression for index [i], which may panic.  As in
    src/tables/glyph_substitution/mod.rs:88. *)
Definition jump_take_each {A} (position count : N) (offset : nat -> steps N) (m : steps A) : steps (list A) :=
  for_n count (fun i =>
    o <- offset i;;
    jump_take position o m).

(** The first of the two forms, src/tables/glyph_substitution/mod.rs:88. *)
Definition jump_take_n {A} (position count : N) (offsets : list N) (m : steps A) : steps (list A) :=
  jump_take_each position count (index offsets) m.

(** [jump_take_maybe!(tape, position, offset)], as in
    src/tables/glyph_positioning/element.rs:49. *)
Definition jump_take_maybe {A} (position offset : N) (m : steps A) : steps (option A) :=
  if 0 <? offset then
    v <- jump_take position offset m;;
    ret (Some v)
  else ret None.

(** [jump_take_maybe!(tape, position, count, offsets)], as in
    src/tables/glyph_positioning/element.rs:259. *)
Definition jump_take_maybe_n {A} (position count : N) (offsets : list N) (m : steps A) : steps (list (option A)) :=
  for_n count (fun i =>
    o <- index offsets i;;
    jump_take_maybe position o m).

(** ** ModelLayout.v *)

(** [Record::read], src/layout/coverage.rs:40-48. *)
Definition read_coverage_record : steps CoverageRecord :=
  start_glyph_id <- take_u16;;
  end_glyph_id <- take_u16;;
  index <- take_u16;;
  ret (mkCoverageRecord start_glyph_id end_glyph_id index).

(** [Coverage1::read], src/layout/coverage.rs:16-26. *)
Definition read_coverage1 : steps Coverage1 :=
  format <- take_u16;;
  glyph_count <- take_u16;;
  glyph_ids <- take_vec glyph_count take_u16;;
  ret (mkCoverage1 format glyph_count glyph_ids).

(** [Coverage2::read], src/layout/coverage.rs:28-38. *)
Definition read_coverage2 : steps Coverage2 :=
  format <- take_u16;;
  record_count <- take_u16;;
  records <- take_vec record_count read_coverage_record;;
  ret (mkCoverage2 format record_count records).

(** [Coverage::read], src/layout/coverage.rs:57-65. *)
Definition read_coverage : steps Coverage :=
  value <- peek take_u16;;
  match value with
  | 1 => v <- read_coverage1;; ret (CoverageFormat1 v)
  | 2 => v <- read_coverage2;; ret (CoverageFormat2 v)
  | _ => raise UnknownFormat
  end.

(** [Record::read], src/layout/class.rs:41-49. *)
Definition read_class_record : steps ClassRecord :=
  start_glyph_id <- take_u16;;
  end_glyph_id <- take_u16;;
  index <- take_u16;;
  ret (mkClassRecord start_glyph_id end_glyph_id index).

(** [Class1::read], src/layout/class.rs:16-27. *)
Definition read_class1 : steps Class1 :=
  format <- take_u16;;
  start_glyph_id <- take_u16;;
  glyph_count <- take_u16;;
  indices <- take_vec glyph_count take_u16;;
  ret (mkClass1 format start_glyph_id glyph_count indices).

(** [Class2::read], src/layout/class.rs:29-39. *)
Definition read_class2 : steps Class2 :=
  format <- take_u16;;
  record_count <- take_u16;;
  records <- take_vec record_count read_class_record;;
  ret (mkClass2 format record_count records).

(** [Class::read], src/layout/class.rs:58-66. *)
Definition read_class : steps Class :=
  value <- peek take_u16;;
  match value with
  | 1 => v <- read_class1;; ret (ClassFormat1 v)
  | 2 => v <- read_class2;; ret (ClassFormat2 v)
  | _ => raise UnknownFormat
  end.

(** [Device::read], src/layout/correction.rs:51-73. *)
Definition read_device : steps Device :=
  start_size <- take_u16;;
  end_size <- take_u16;;
  if end_size <? start_size then raise Malformed else
  format <- take_u16;;
  if (format =? 0) || (3 <? format) then raise UnknownFormat else
  let count := end_size - start_size + 1 in
  let bit_count := N.shiftl 1 format * count in
  let short_count := N.shiftr (bit_count + 16 - bit_count mod 16) 4 in
  deltas <- take_vec short_count take_u16;;
  ret (mkDevice start_size end_size format deltas).

(** [Variation::read], src/layout/correction.rs:25-32. *)
Definition read_variation : steps Variation :=
  outer_index <- take_u16;;
  inner_index <- take_u16;;
  format <- take_u16;;
  ret (mkVariation outer_index inner_index format).

(** [Correction::read], src/layout/correction.rs:34-42.  The peeked tuple [(u32, u16)]
    is read component by component. *)
Definition read_correction : steps Correction :=
  value <- peek (_ <- take_u32;; take_u16);;
  if (1 <=? value) && (value <=? 3) then v <- read_device;; ret (CorrectionDevice v)
  else if value =? 0x8000 then v <- read_variation;; ret (CorrectionVariation v)
  else raise UnknownFormat.

(** [Action::read], src/layout/context.rs:369-376. *)
Definition read_action : steps Action :=
  position_index <- take_u16;;
  lookup_index <- take_u16;;
  ret (mkAction position_index lookup_index).

(** [Record::read], src/layout/context.rs:203-220. *)
Definition read_context_record : steps ContextRecord :=
  glyph_count <- take_u16;;
  action_count <- take_u16;;
  glyph_ids <- (if glyph_count =? 0 then raise Malformed else take_vec (glyph_count - 1) take_u16);;
  actions <- take_vec action_count read_action;;
  ret (mkContextRecord glyph_count action_count glyph_ids actions).

(** [Records::read], src/layout/context.rs:222-236. *)
Definition read_context_records : steps ContextRecords :=
  position <- get_position;;
  count <- take_u16;;
  offsets <- take_vec count take_u16;;
  records <- jump_take_n position count offsets read_context_record;;
  ret (mkContextRecords count offsets records).

(** [ClassRecord::read], src/layout/context.rs:238-255. *)
Definition read_context_class_record : steps ContextClassRecord :=
  glyph_count <- take_u16;;
  action_count <- take_u16;;
  indices <- (if glyph_count =? 0 then raise Malformed else take_vec (glyph_count - 1) take_u16);;
  actions <- take_vec action_count read_action;;
  ret (mkContextClassRecord glyph_count action_count indices actions).

(** [ClassRecords::read], src/layout/context.rs:257-271. *)
Definition read_context_class_records : steps ContextClassRecords :=
  position <- get_position;;
  count <- take_u16;;
  offsets <- take_vec count take_u16;;
  records <- jump_take_n position count offsets read_context_class_record;;
  ret (mkContextClassRecords count offsets records).

(** [ChainedRecord::read], src/layout/context.rs:273-303. *)
Definition read_chained_record : steps ChainedRecord :=
  backward_glyph_count <- take_u16;;
  backward_glyph_ids <- take_vec backward_glyph_count take_u16;;
  glyph_count <- take_u16;;
  glyph_ids <- (if glyph_count =? 0 then raise Malformed else take_vec (glyph_count - 1) take_u16);;
  forward_glyph_count <- take_u16;;
  forward_glyph_ids <- take_vec forward_glyph_count take_u16;;
  action_count <- take_u16;;
  actions <- take_vec action_count read_action;;
  ret (mkChainedRecord backward_glyph_count backward_glyph_ids glyph_count glyph_ids
    forward_glyph_count forward_glyph_ids action_count actions).

(** [ChainedRecords::read], src/layout/context.rs:305-319. *)
Definition read_chained_records : steps ChainedRecords :=
  position <- get_position;;
  count <- take_u16;;
  offsets <- take_vec count take_u16;;
  records <- jump_take_n position count offsets read_chained_record;;
  ret (mkChainedRecords count offsets records).

(** [ChainedClassRecord::read], src/layout/context.rs:321-351. *)
Definition read_chained_class_record : steps ChainedClassRecord :=
  backward_glyph_count <- take_u16;;
  backward_indices <- take_vec backward_glyph_count take_u16;;
  glyph_count <- take_u16;;
  indices <- (if glyph_count =? 0 then raise Malformed else take_vec (glyph_count - 1) take_u16);;
  forward_glyph_count <- take_u16;;
  forward_indices <- take_vec forward_glyph_count take_u16;;
  action_count <- take_u16;;
  actions <- take_vec action_count read_action;;
  ret (mkChainedClassRecord backward_glyph_count backward_indices glyph_count indices
    forward_glyph_count forward_indices action_count actions).

(** [ChainedClassRecords::read], src/layout/context.rs:353-367. *)
Definition read_chained_class_records : steps ChainedClassRecords :=
  position <- get_position;;
  count <- take_u16;;
  offsets <- take_vec count take_u16;;
  records <- jump_take_n position count offsets read_chained_class_record;;
  ret (mkChainedClassRecords count offsets records).

(** [Context1::read], src/layout/context.rs:19-39. *)
Definition read_context1 : steps Context1 :=
  position <- get_position;;
  format <- take_u16;;
  coverage_offset <- take_u16;;
  record_count <- take_u16;;
  record_offsets <- take_vec record_count take_u16;;
  coverage <- jump_take position coverage_offset read_coverage;;
  records <- jump_take_n position record_count record_offsets read_context_records;;
  ret (mkContext1 format coverage_offset record_count record_offsets coverage records).

(** [Context2::read], src/layout/context.rs:41-66. *)
Definition read_context2 : steps Context2 :=
  position <- get_position;;
  format <- take_u16;;
  coverage_offset <- take_u16;;
  class_offset <- take_u16;;
  record_count <- take_u16;;
  record_offsets <- take_vec record_count take_u16;;
  coverage <- jump_take position coverage_offset read_coverage;;
  class <- jump_take position class_offset read_class;;
  records <- jump_take_maybe_n position record_count record_offsets read_context_class_records;;
  ret (mkContext2 format coverage_offset class_offset record_count record_offsets coverage class
    records).

(** [Context3::read], src/layout/context.rs:68-88. *)
Definition read_context3 : steps Context3 :=
  position <- get_position;;
  format <- take_u16;;
  glyph_count <- take_u16;;
  action_count <- take_u16;;
  coverage_offsets <- take_vec glyph_count take_u16;;
  actions <- take_vec action_count read_action;;
  coverages <- jump_take_n position glyph_count coverage_offsets read_coverage;;
  ret (mkContext3 format glyph_count action_count coverage_offsets actions coverages).

(** [Context::read], src/layout/context.rs:378-387. *)
Definition read_context : steps Context :=
  value <- peek take_u16;;
  match value with
  | 1 => v <- read_context1;; ret (ContextFormat1 v)
  | 2 => v <- read_context2;; ret (ContextFormat2 v)
  | 3 => v <- read_context3;; ret (ContextFormat3 v)
  | _ => raise UnknownFormat
  end.

(** [ChainedContext1::read], src/layout/context.rs:101-121. *)
Definition read_chained_context1 : steps ChainedContext1 :=
  position <- get_position;;
  format <- take_u16;;
  coverage_offset <- take_u16;;
  record_count <- take_u16;;
  record_offsets <- take_vec record_count take_u16;;
  coverage <- jump_take position coverage_offset read_coverage;;
  records <- jump_take_n position record_count record_offsets read_chained_records;;
  ret (mkChainedContext1 format coverage_offset record_count record_offsets coverage records).

(** [ChainedContext2::read], src/layout/context.rs:123-158. *)
Definition read_chained_context2 : steps ChainedContext2 :=
  position <- get_position;;
  format <- take_u16;;
  coverage_offset <- take_u16;;
  backward_class_offset <- take_u16;;
  class_offset <- take_u16;;
  forward_class_offset <- take_u16;;
  record_count <- take_u16;;
  record_offsets <- take_vec record_count take_u16;;
  coverage <- jump_take position coverage_offset read_coverage;;
  backward_class <- jump_take position backward_class_offset read_class;;
  class <- jump_take position class_offset read_class;;
  forward_class <- jump_take position forward_class_offset read_class;;
  records <- jump_take_maybe_n position record_count record_offsets read_chained_class_records;;
  ret (mkChainedContext2 format coverage_offset backward_class_offset class_offset
    forward_class_offset record_count record_offsets coverage backward_class class forward_class
    records).

(** [ChainedContext3::read], src/layout/context.rs:160-201. *)
Definition read_chained_context3 : steps ChainedContext3 :=
  position <- get_position;;
  format <- take_u16;;
  backward_glyph_count <- take_u16;;
  backward_coverage_offsets <- take_vec backward_glyph_count take_u16;;
  glyph_count <- take_u16;;
  coverage_offsets <- take_vec glyph_count take_u16;;
  forward_glyph_count <- take_u16;;
  forward_coverage_offsets <- take_vec forward_glyph_count take_u16;;
  action_count <- take_u16;;
  actions <- take_vec action_count read_action;;
  backward_coverages <- jump_take_n position backward_glyph_count backward_coverage_offsets read_coverage;;
  coverages <- jump_take_n position glyph_count coverage_offsets read_coverage;;
  forward_coverages <- jump_take_n position forward_glyph_count forward_coverage_offsets read_coverage;;
  ret (mkChainedContext3 format backward_glyph_count backward_coverage_offsets glyph_count
    coverage_offsets forward_glyph_count forward_coverage_offsets action_count actions
    backward_coverages coverages forward_coverages).

(** [ChainedContext::read], src/layout/context.rs:389-400. *)
Definition read_chained_context : steps ChainedContext :=
  value <- peek take_u16;;
  match value with
  | 1 => v <- read_chained_context1;; ret (ChainedContextFormat1 v)
  | 2 => v <- read_chained_context2;; ret (ChainedContextFormat2 v)
  | 3 => v <- read_chained_context3;; ret (ChainedContextFormat3 v)
  | _ => raise UnknownFormat
  end.

(** [Header::read], src/layout/language.rs:5-11. *)
Definition read_language_header : steps LanguageHeader :=
  tag <- take_tag;;
  offset <- take_u16;;
  ret (mkLanguageHeader tag offset).

(** [Record::read], src/layout/language.rs:13-24. *)
Definition read_language_record : steps LanguageRecord :=
  lookup_order_offset <- take_const take_u16 0;;
  required_feature_index <- take_u16;;
  feature_index_count <- take_u16;;
  feature_indices <- take_vec feature_index_count take_u16;;
  ret (mkLanguageRecord lookup_order_offset required_feature_index feature_index_count
    feature_indices).

(** [Header::read], src/layout/script.rs:23-30. *)
Definition read_script_header : steps ScriptHeader :=
  tag <- take_tag;;
  offset <- take_u16;;
  ret (mkScriptHeader tag offset).

(** [Record::read], src/layout/script.rs:32-51. *)
Definition read_script_record : steps ScriptRecord :=
  position <- get_position;;
  default_language_offset <- take_u16;;
  language_count <- take_u16;;
  language_headers <- take_vec language_count read_language_header;;
  default_language <- jump_take_maybe position default_language_offset read_language_record;;
  language_records <- jump_take_each position language_count
    (fun i => h <- index language_headers i;; ret (language_header_offset h)) read_language_record;;
  ret (mkScriptRecord default_language_offset language_count language_headers default_language
    language_records).

(** [Scripts::read], src/layout/script.rs:7-21. *)
Definition read_scripts : steps Scripts :=
  position <- get_position;;
  count <- take_u16;;
  headers <- take_vec count read_script_header;;
  records <- jump_take_each position count
    (fun i => h <- index headers i;; ret (script_header_offset h)) read_script_record;;
  ret (mkScripts count headers records).

(** [Header::read], src/layout/feature.rs:21-28. *)
Definition read_feature_header : steps FeatureHeader :=
  tag <- take_tag;;
  offset <- take_u16;;
  ret (mkFeatureHeader tag offset).

(** [Record::read], src/layout/feature.rs:30-50.  [tape.take_bytes(0)] reads no byte. *)
Definition read_feature_record : steps FeatureRecord :=
  position <- get_position;;
  parameter_offset <- take_u16;;
  lookup_index_count <- take_u16;;
  lookup_indices <- take_vec lookup_index_count take_u16;;
  parameters <- (if 0 <? parameter_offset then
      q <- add_u64 position parameter_offset;;
      _ <- jump q;;
      bytes <- take_vec 0 take_u8;;
      ret (Some bytes)
    else ret None);;
  ret (mkFeatureRecord parameter_offset lookup_index_count lookup_indices parameters).

(** [Features::read], src/layout/feature.rs:5-19. *)
Definition read_features : steps Features :=
  position <- get_position;;
  count <- take_u16;;
  headers <- take_vec count read_feature_header;;
  records <- jump_take_each position count
    (fun i => h <- index headers i;; ret (feature_header_offset h)) read_feature_record;;
  ret (mkFeatures count headers records).

(** [Variations::read], src/layout/feature.rs:52-60. *)
Definition read_feature_variations : steps FeatureVariations :=
  major_version <- take_const take_u16 1;;
  minor_version <- take_const take_u16 0;;
  count <- take_u32;;
  ret (mkFeatureVariations major_version minor_version count).

(** [Flags] of lookups, src/layout/lookup.rs:28-38. *)
Definition take_lookup_flags : steps N := take_flags 0x00E0.

(** [Record<U>::read], src/layout/lookup.rs:68-93; [read_table] is [U::read] with
    the lookup type as its parameter. *)
Definition read_lookup_record {T} (read_table : N -> steps T) : steps (LookupRecord T) :=
  position <- get_position;;
  type_ <- take_u16;;
  flags <- take_lookup_flags;;
  table_count <- take_u16;;
  table_offsets <- take_vec table_count take_u16;;
  mark_filtering_set <-
    (if has_mark_filtering flags then v <- take_u16;; ret (Some v) else ret None);;
  tables <- jump_take_n position table_count table_offsets (read_table type_);;
  ret (mkLookupRecord type_ flags table_count table_offsets mark_filtering_set tables).

(** [Lookups<U>::read], src/layout/lookup.rs:51-66. *)
Definition read_lookups {T} (read_table : N -> steps T) : steps (Lookups T) :=
  position <- get_position;;
  count <- take_u16;;
  offsets <- take_vec count take_u16;;
  records <- jump_take_n position count offsets (read_lookup_record read_table);;
  ret (mkLookups count offsets records).

(** [jump_take!(@unwrap ..)] in the default build and
    [jump_take_maybe!(@unwrap ..).unwrap_or_default()] with the feature
    [ignore-incomplete-directories], src/layout/directory.rs:41-52. *)
Definition jump_take_list {A} (position offset : N) (m : steps A) (default : A) : steps A :=
  o <- ask;;
  if ignore_incomplete_directories o then
    v <- jump_take_maybe position offset m;;
    ret (match v with Some v => v | None => default end)
  else jump_take position offset m.

(** [Directory<U>::read], src/layout/directory.rs:22-67. *)
Definition read_directory {T} (read_table : N -> steps T) : steps (Directory T) :=
  position <- get_position;;
  major_version <- take_u16;;
  minor_version <- take_u16;;
  _ <- (if (major_version =? 1) && ((minor_version =? 0) || (minor_version =? 1))
        then ret tt else raise UnknownVersion);;
  script_offset <- take_u16;;
  feature_offset <- take_u16;;
  lookup_offset <- take_u16;;
  variation_offset <-
    (if (major_version =? 1) && (minor_version =? 1) then take_u32 else ret 0);;
  scripts <- jump_take_list position script_offset read_scripts scripts_default;;
  features <- jump_take_list position feature_offset read_features features_default;;
  lookups <- jump_take_list position lookup_offset (read_lookups read_table) lookups_default;;
  variations <- jump_take_maybe position variation_offset read_feature_variations;;
  ret (mkDirectory major_version minor_version script_offset feature_offset lookup_offset
    variation_offset scripts features lookups variations).

(** [Record::read], src/variations/item.rs:21-37.  The sum is taken in [u16], the product in [usize]
    (at least 32 bits, where it cannot overflow, both factors being below 2^16). *)
Definition read_store_record : steps StoreRecord :=
  item_count <- take_u16;;
  short_delta_count <- take_u16;;
  region_count <- take_u16;;
  region_indices <- take_vec region_count take_u16;;
  deltas <- (
      per_item_count <- add_u16 short_delta_count region_count;;
      take_vec (item_count * per_item_count) take_u8);;
  ret (mkStoreRecord item_count short_delta_count region_count region_indices deltas).

(** [Store::read], src/variations/item.rs:3-19. *)
Definition read_store : steps Store :=
  position <- get_position;;
  format <- take_const take_u16 1;;
  region_offset <- take_u32;;
  count <- take_u16;;
  offsets <- take_vec count take_u32;;
  records <- jump_take_n position count offsets read_store_record;;
  ret (mkStore format region_offset count offsets records).

(** ** ModelGdef.v *)

(** [Attachment::read], src/tables/glyph_definition/element.rs:4-13. *)
Definition read_attachment : steps Attachment :=
  index_count <- take_u16;;
  indices <- take_vec index_count take_u16;;
  ret (mkAttachment index_count indices).

(** [Attachments::read], src/tables/glyph_definition/element.rs:15-34. *)
Definition read_attachments : steps Attachments :=
  position <- get_position;;
  coverage_offset <- take_u16;;
  count <- take_u16;;
  offsets <- take_vec count take_u16;;
  coverage <- jump_take position coverage_offset read_coverage;;
  records <- jump_take_n position count offsets read_attachment;;
  ret (mkAttachments coverage_offset count offsets coverage records).

(** [Caret1::read], src/tables/glyph_definition/element.rs:47-54. *)
Definition read_caret1 : steps Caret1 :=
  format <- take_u16;;
  coordinate <- take_i16;;
  ret (mkCaret1 format coordinate).

(** [Caret2::read], src/tables/glyph_definition/element.rs:56-63. *)
Definition read_caret2 : steps Caret2 :=
  format <- take_u16;;
  index <- take_u16;;
  ret (mkCaret2 format index).

(** [Caret3::read], src/tables/glyph_definition/element.rs:65-77. *)
Definition read_caret3 : steps Caret3 :=
  position <- get_position;;
  format <- take_u16;;
  coordinate <- take_i16;;
  correction_offset <- take_u16;;
  correction <- jump_take position correction_offset read_correction;;
  ret (mkCaret3 format coordinate correction_offset correction).

(** [Caret::read], src/tables/glyph_definition/element.rs:133-142.  The code peeks at 32 bits. *)
Definition read_caret : steps Caret :=
  value <- peek take_u32;;
  match value with
  | 1 => v <- read_caret1;; ret (CaretFormat1 v)
  | 2 => v <- read_caret2;; ret (CaretFormat2 v)
  | 3 => v <- read_caret3;; ret (CaretFormat3 v)
  | _ => raise UnknownFormat
  end.

(** [Ligature::read], src/tables/glyph_definition/element.rs:79-93. *)
Definition read_gdef_ligature : steps GdefLigature :=
  position <- get_position;;
  caret_count <- take_u16;;
  caret_offsets <- take_vec caret_count take_u16;;
  carets <- jump_take_n position caret_count caret_offsets read_caret;;
  ret (mkGdefLigature caret_count caret_offsets carets).

(** [Ligatures::read], src/tables/glyph_definition/element.rs:95-114. *)
Definition read_gdef_ligatures : steps GdefLigatures :=
  position <- get_position;;
  coverage_offset <- take_u16;;
  count <- take_u16;;
  offsets <- take_vec count take_u16;;
  coverage <- jump_take position coverage_offset read_coverage;;
  records <- jump_take_n position count offsets read_gdef_ligature;;
  ret (mkGdefLigatures coverage_offset count offsets coverage records).

(** [Marks::read], src/tables/glyph_definition/element.rs:116-131. *)
Definition read_marks : steps Marks :=
  position <- get_position;;
  format <- take_const take_u16 1;;
  count <- take_u16;;
  coverage_offsets <- take_vec count take_u32;;
  coverages <- jump_take_n position count coverage_offsets read_coverage;;
  ret (mkMarks format count coverage_offsets coverages).

(** [Header1::read], src/tables/glyph_definition/mod.rs:94-105. *)
Definition read_gdef_header1 : steps GdefHeader1 :=
  major_version <- take_const take_u16 1;;
  minor_version <- take_const take_u16 0;;
  glyph_class_offset <- take_u16;;
  attachment_offset <- take_u16;;
  ligature_offset <- take_u16;;
  mark_class_offset <- take_u16;;
  ret (mkGdefHeader1 major_version minor_version glyph_class_offset attachment_offset
    ligature_offset mark_class_offset).

(** [Header12::read], src/tables/glyph_definition/mod.rs:107-119. *)
Definition read_gdef_header12 : steps GdefHeader12 :=
  major_version <- take_const take_u16 1;;
  minor_version <- take_const take_u16 2;;
  glyph_class_offset <- take_u16;;
  attachment_offset <- take_u16;;
  ligature_offset <- take_u16;;
  mark_class_offset <- take_u16;;
  mark_offset <- take_u16;;
  ret (mkGdefHeader12 major_version minor_version glyph_class_offset attachment_offset
    ligature_offset mark_class_offset mark_offset).

(** [Header13::read], src/tables/glyph_definition/mod.rs:121-134. *)
Definition read_gdef_header13 : steps GdefHeader13 :=
  major_version <- take_const take_u16 1;;
  minor_version <- take_const take_u16 3;;
  glyph_class_offset <- take_u16;;
  attachment_offset <- take_u16;;
  ligature_offset <- take_u16;;
  mark_class_offset <- take_u16;;
  mark_offset <- take_u16;;
  variation_offset <- take_u32;;
  ret (mkGdefHeader13 major_version minor_version glyph_class_offset attachment_offset
    ligature_offset mark_class_offset mark_offset variation_offset).

(** [Header::read], src/tables/glyph_definition/mod.rs:143-152. *)
Definition read_gdef_header : steps GdefHeader :=
  value <- peek take_u32;;
  match value with
  | 0x00010000 => v <- read_gdef_header1;; ret (GdefVersion1 v)
  | 0x00010002 => v <- read_gdef_header12;; ret (GdefVersion12 v)
  | 0x00010003 => v <- read_gdef_header13;; ret (GdefVersion13 v)
  | _ => raise UnknownFormat
  end.

(** [GlyphDefinition::read], src/tables/glyph_definition/mod.rs:27-81. *)
Definition read_glyph_definition : steps GlyphDefinition :=
  position <- get_position;;
  header <- read_gdef_header;;
  glyph_class <- jump_take_maybe position (gdef_glyph_class_offset header) read_class;;
  attachments <- jump_take_maybe position (gdef_attachment_offset header) read_attachments;;
  ligatures <- jump_take_maybe position (gdef_ligature_offset header) read_gdef_ligatures;;
  mark_class <- jump_take_maybe position (gdef_mark_class_offset header) read_class;;
  marks <- jump_take_maybe position (gdef_mark_offset header) read_marks;;
  variations <- jump_take_maybe position (gdef_mark_offset_of_version13 header) read_store;;
  ret (mkGlyphDefinition header glyph_class attachments ligatures mark_class marks variations).

(** ** ModelGsub.v *)

(** [Alternates::read], src/tables/glyph_substitution/element.rs:3-12. *)
Definition read_alternates : steps Alternates :=
  glyph_count <- take_u16;;
  glyph_ids <- take_vec glyph_count take_u16;;
  ret (mkAlternates glyph_count glyph_ids).

(** [Ligature::read], src/tables/glyph_substitution/element.rs:14-27. *)
Definition read_ligature : steps Ligature :=
  glyph_id <- take_u16;;
  glyph_count <- take_u16;;
  glyph_ids <- (if glyph_count =? 0 then raise Malformed else take_vec (glyph_count - 1) take_u16);;
  ret (mkLigature glyph_id glyph_count glyph_ids).

(** [Ligatures::read], src/tables/glyph_substitution/element.rs:29-43. *)
Definition read_ligatures : steps Ligatures :=
  position <- get_position;;
  count <- take_u16;;
  offsets <- take_vec count take_u16;;
  records <- jump_take_n position count offsets read_ligature;;
  ret (mkLigatures count offsets records).

(** [Sequence::read], src/tables/glyph_substitution/element.rs:45-54. *)
Definition read_sequence : steps Sequence :=
  glyph_count <- take_u16;;
  glyph_ids <- take_vec glyph_count take_u16;;
  ret (mkSequence glyph_count glyph_ids).

(** [SingleSubstitution1::read], src/tables/glyph_substitution/mod.rs:39-51. *)
Definition read_single_substitution1 : steps SingleSubstitution1 :=
  position <- get_position;;
  format <- take_u16;;
  coverage_offset <- take_u16;;
  delta_glyph_id <- take_i16;;
  coverage <- jump_take position coverage_offset read_coverage;;
  ret (mkSingleSubstitution1 format coverage_offset delta_glyph_id coverage).

(** [SingleSubstitution2::read], src/tables/glyph_substitution/mod.rs:53-69. *)
Definition read_single_substitution2 : steps SingleSubstitution2 :=
  position <- get_position;;
  format <- take_u16;;
  coverage_offset <- take_u16;;
  glyph_count <- take_u16;;
  glyph_ids <- take_vec glyph_count take_u16;;
  coverage <- jump_take position coverage_offset read_coverage;;
  ret (mkSingleSubstitution2 format coverage_offset glyph_count glyph_ids coverage).

(** [SingleSubstitution::read], src/tables/glyph_substitution/mod.rs:202-210. *)
Definition read_single_substitution : steps SingleSubstitution :=
  value <- peek take_u16;;
  match value with
  | 1 => v <- read_single_substitution1;; ret (SingleSubstitutionFormat1 v)
  | 2 => v <- read_single_substitution2;; ret (SingleSubstitutionFormat2 v)
  | _ => raise UnknownFormat
  end.

(** [MultipleSubstitution::read], src/tables/glyph_substitution/mod.rs:71-91. *)
Definition read_multiple_substitution : steps MultipleSubstitution :=
  position <- get_position;;
  format <- take_const take_u16 1;;
  coverage_offset <- take_u16;;
  record_count <- take_u16;;
  record_offsets <- take_vec record_count take_u16;;
  coverage <- jump_take position coverage_offset read_coverage;;
  records <- jump_take_n position record_count record_offsets read_sequence;;
  ret (mkMultipleSubstitution format coverage_offset record_count record_offsets coverage records).

(** [AlternateSubstitution::read], src/tables/glyph_substitution/mod.rs:93-113. *)
Definition read_alternate_substitution : steps AlternateSubstitution :=
  position <- get_position;;
  format <- take_const take_u16 1;;
  coverage_offset <- take_u16;;
  record_count <- take_u16;;
  record_offsets <- take_vec record_count take_u16;;
  coverage <- jump_take position coverage_offset read_coverage;;
  records <- jump_take_n position record_count record_offsets read_alternates;;
  ret (mkAlternateSubstitution format coverage_offset record_count record_offsets coverage records).

(** [LigatureSubstitution::read], src/tables/glyph_substitution/mod.rs:115-135. *)
Definition read_ligature_substitution : steps LigatureSubstitution :=
  position <- get_position;;
  format <- take_const take_u16 1;;
  coverage_offset <- take_u16;;
  record_count <- take_u16;;
  record_offsets <- take_vec record_count take_u16;;
  coverage <- jump_take position coverage_offset read_coverage;;
  records <- jump_take_n position record_count record_offsets read_ligatures;;
  ret (mkLigatureSubstitution format coverage_offset record_count record_offsets coverage records).

(** [ExtensionSubstitution::read], src/tables/glyph_substitution/mod.rs:137-144. *)
Definition read_extension_substitution : steps ExtensionSubstitution :=
  format <- take_const take_u16 1;;
  type_ <- take_u16;;
  offset <- take_u32;;
  ret (mkExtensionSubstitution format type_ offset).

(** [ReverseChainedContextualSubstibution::read], src/tables/glyph_substitution/mod.rs:146-182. *)
Definition read_reverse_chained_contextual_substibution : steps ReverseChainedContextualSubstibution :=
  position <- get_position;;
  format <- take_u16;;
  coverage_offset <- take_u16;;
  backward_glyph_count <- take_u16;;
  backward_coverage_offsets <- take_vec backward_glyph_count take_u16;;
  forward_glyph_count <- take_u16;;
  forward_coverage_offsets <- take_vec forward_glyph_count take_u16;;
  glyph_count <- take_u16;;
  glyph_ids <- take_vec glyph_count take_u16;;
  coverage <- jump_take position coverage_offset read_coverage;;
  backward_coverages <- jump_take_n position backward_glyph_count backward_coverage_offsets read_coverage;;
  forward_coverages <- jump_take_n position forward_glyph_count forward_coverage_offsets read_coverage;;
  ret (mkReverseChainedContextualSubstibution format coverage_offset backward_glyph_count
    backward_coverage_offsets forward_glyph_count forward_coverage_offsets glyph_count glyph_ids
    coverage backward_coverages forward_coverages).

(** [Type::read], src/tables/glyph_substitution/mod.rs:184-200. *)
Definition read_gsub_type (type_ : N) : steps GsubType :=
  match type_ with
  | 1 => v <- read_single_substitution;; ret (GsubSingleSubstitution v)
  | 2 => v <- read_multiple_substitution;; ret (GsubMultipleSubstitution v)
  | 3 => v <- read_alternate_substitution;; ret (GsubAlternateSubstitution v)
  | 4 => v <- read_ligature_substitution;; ret (GsubLigatureSubstitution v)
  | 5 => v <- read_context;; ret (GsubContextualSubstitution v)
  | 6 => v <- read_chained_context;; ret (GsubChainedContextualSubstitution v)
  | 7 => v <- read_extension_substitution;; ret (GsubExtensionSubstitution v)
  | 8 => v <- read_reverse_chained_contextual_substibution;; ret (GsubReverseChainedContextualSubstibution v)
  | _ => raise UnknownType
  end.

(** [GlyphSubstitution], src/tables/glyph_substitution/mod.rs:15, read by [Directory<Type>::read]. *)
Definition read_glyph_substitution : steps GlyphSubstitution := read_directory read_gsub_type.

(** ** ModelGpos.v *)

(** [Anchor1::read], src/tables/glyph_positioning/element.rs:17-25. *)
Definition read_anchor1 : steps Anchor1 :=
  format <- take_u16;;
  x <- take_i16;;
  y <- take_i16;;
  ret (mkAnchor1 format x y).

(** [Anchor2::read], src/tables/glyph_positioning/element.rs:27-36. *)
Definition read_anchor2 : steps Anchor2 :=
  format <- take_u16;;
  x <- take_i16;;
  y <- take_i16;;
  index <- take_u16;;
  ret (mkAnchor2 format x y index).

(** [Anchor3::read], src/tables/glyph_positioning/element.rs:38-56. *)
Definition read_anchor3 : steps Anchor3 :=
  position <- get_position;;
  format <- take_u16;;
  x <- take_i16;;
  y <- take_i16;;
  x_correction_offset <- take_u16;;
  y_correction_offset <- take_u16;;
  x_correction <- jump_take_maybe position x_correction_offset read_correction;;
  y_correction <- jump_take_maybe position y_correction_offset read_correction;;
  ret (mkAnchor3 format x y x_correction_offset y_correction_offset x_correction y_correction).

(** [Anchor::read], src/tables/glyph_positioning/element.rs:239-248. *)
Definition read_anchor : steps Anchor :=
  value <- peek take_u16;;
  match value with
  | 1 => v <- read_anchor1;; ret (AnchorFormat1 v)
  | 2 => v <- read_anchor2;; ret (AnchorFormat2 v)
  | 3 => v <- read_anchor3;; ret (AnchorFormat3 v)
  | _ => raise UnknownFormat
  end.

(** [Base::read], src/tables/glyph_positioning/element.rs:250-265. *)
Definition read_base (position mark_class_count : N) : steps Base :=
  anchor_offsets <- take_vec mark_class_count take_u16;;
  anchors <- stay (jump_take_maybe_n position mark_class_count anchor_offsets read_anchor);;
  ret (mkBase anchor_offsets anchors).

(** [Bases::read], src/tables/glyph_positioning/element.rs:267-278. *)
Definition read_bases (mark_class_count : N) : steps Bases :=
  position <- get_position;;
  count <- take_u16;;
  records <- for_n count (fun _ => read_base position mark_class_count);;
  ret (mkBases count records).

(** [Component::read], src/tables/glyph_positioning/element.rs:280-295. *)
Definition read_component (position mark_class_count : N) : steps Component :=
  anchor_offsets <- take_vec mark_class_count take_u16;;
  anchors <- stay (jump_take_maybe_n position mark_class_count anchor_offsets read_anchor);;
  ret (mkComponent anchor_offsets anchors).

(** [Ligature::read], src/tables/glyph_positioning/element.rs:297-308. *)
Definition read_gpos_ligature (mark_class_count : N) : steps GposLigature :=
  position <- get_position;;
  count <- take_u16;;
  components <- for_n count (fun _ => read_component position mark_class_count);;
  ret (mkGposLigature count components).

(** [Ligatures::read], src/tables/glyph_positioning/element.rs:310-325. *)
Definition read_gpos_ligatures (mark_class_count : N) : steps GposLigatures :=
  position <- get_position;;
  count <- take_u16;;
  offsets <- take_vec count take_u16;;
  records <- stay (jump_take_n position count offsets (read_gpos_ligature mark_class_count));;
  ret (mkGposLigatures count offsets records).

(** [Mark1::read], src/tables/glyph_positioning/element.rs:327-345: [jump_take!] in the
    default build, [jump_take_maybe!(..).unwrap_or_default()] with the feature
    [ignore-incomplete-marks]. *)
Definition read_mark1 (position : N) : steps Mark1 :=
  class_id <- take_u16;;
  anchor_offset <- take_u16;;
  o <- ask;;
  anchor <-
    (if ignore_incomplete_marks o then
       v <- stay (jump_take_maybe position anchor_offset read_anchor);;
       ret (match v with Some v => v | None => anchor_default end)
     else stay (jump_take position anchor_offset read_anchor));;
  ret (mkMark1 class_id anchor_offset anchor).

(** [Mark1s::read], src/tables/glyph_positioning/element.rs:130-140. *)
Definition read_mark1s : steps Mark1s :=
  position <- get_position;;
  count <- take_u16;;
  records <- for_n count (fun _ => read_mark1 position);;
  ret (mkMark1s count records).

(** [Mark2::read], src/tables/glyph_positioning/element.rs:347-362. *)
Definition read_mark2 (position mark_class_count : N) : steps Mark2 :=
  anchor_offsets <- take_vec mark_class_count take_u16;;
  anchors <- stay (jump_take_maybe_n position mark_class_count anchor_offsets read_anchor);;
  ret (mkMark2 anchor_offsets anchors).

(** [Mark2s::read], src/tables/glyph_positioning/element.rs:364-375. *)
Definition read_mark2s (mark_class_count : N) : steps Mark2s :=
  position <- get_position;;
  count <- take_u16;;
  records <- for_n count (fun _ => read_mark2 position mark_class_count);;
  ret (mkMark2s count records).

(** [Connection::read], src/tables/glyph_positioning/element.rs:452-471. *)
Definition read_connection (position : N) : steps Connection :=
  start_anchor_offset <- take_u16;;
  end_anchor_offset <- take_u16;;
  anchors <- stay (
    start_anchor <- jump_take_maybe position start_anchor_offset read_anchor;;
    end_anchor <- jump_take_maybe position end_anchor_offset read_anchor;;
    ret (start_anchor, end_anchor));;
  let '(start_anchor, end_anchor) := anchors in
  ret (mkConnection start_anchor_offset end_anchor_offset start_anchor end_anchor).

(** [Flags] of value records, src/tables/glyph_positioning/element.rs:217-230. *)
Definition take_value_flags : steps N := take_flags 0xFF00.

(** The outer macro [take!] of [Single::read], src/tables/glyph_positioning/element.rs:480-482. *)
Definition take_if {A} (flag : bool) (m : steps A) : steps (option A) :=
  if flag then v <- m;; ret (Some v) else ret None.

(** The inner macro [take!] of [Single::read], src/tables/glyph_positioning/element.rs:497-502. *)
Definition take_linked (position : N) (offset : option N) : steps (option Correction) :=
  match offset with
  | Some offset => jump_take_maybe position offset read_correction
  | None => ret None
  end.

(** [Single::read], src/tables/glyph_positioning/element.rs:473-525. *)
Definition read_single (position flags : N) : steps Single :=
  x_placement <- take_if (has_x_placement flags) take_i16;;
  y_placement <- take_if (has_y_placement flags) take_i16;;
  x_advance <- take_if (has_x_advance flags) take_i16;;
  y_advance <- take_if (has_y_advance flags) take_i16;;
  x_placement_correction_offset <- take_if (has_x_placement_correction flags) take_u16;;
  y_placement_correction_offset <- take_if (has_y_placement_correction flags) take_u16;;
  x_advance_correction_offset <- take_if (has_x_advance_correction flags) take_u16;;
  y_advance_correction_offset <- take_if (has_y_advance_correction flags) take_u16;;
  corrections <- stay (
    x_placement_correction <- take_linked position x_placement_correction_offset;;
    y_placement_correction <- take_linked position y_placement_correction_offset;;
    x_advance_correction <- take_linked position x_advance_correction_offset;;
    y_advance_correction <- take_linked position y_advance_correction_offset;;
    ret (x_placement_correction, y_placement_correction,
         x_advance_correction, y_advance_correction));;
  let '(x_placement_correction, y_placement_correction,
        x_advance_correction, y_advance_correction) := corrections in
  ret (mkSingle x_placement y_placement x_advance y_advance
    x_placement_correction_offset y_placement_correction_offset
    x_advance_correction_offset y_advance_correction_offset
    x_placement_correction y_placement_correction
    x_advance_correction y_advance_correction).

(** [Pair1::read], src/tables/glyph_positioning/element.rs:377-398. *)
Definition read_pair1 (position value1_flags value2_flags : N) : steps Pair1 :=
  glyph2_id <- take_u16;;
  value1 <-
    (if 0 <? value1_flags then v <- read_single position value1_flags;; ret (Some v) else ret None);;
  value2 <-
    (if 0 <? value2_flags then v <- read_single position value2_flags;; ret (Some v) else ret None);;
  ret (mkPair1 glyph2_id value1 value2).

(** [Pair1s::read], src/tables/glyph_positioning/element.rs:400-414. *)
Definition read_pair1s (value1_flags value2_flags : N) : steps Pair1s :=
  position <- get_position;;
  count <- take_u16;;
  records <- for_n count (fun _ => read_pair1 position value1_flags value2_flags);;
  ret (mkPair1s count records).

(** [Pair2::read], src/tables/glyph_positioning/element.rs:416-436. *)
Definition read_pair2 (position value1_flags value2_flags : N) : steps Pair2 :=
  value1 <-
    (if 0 <? value1_flags then v <- read_single position value1_flags;; ret (Some v) else ret None);;
  value2 <-
    (if 0 <? value2_flags then v <- read_single position value2_flags;; ret (Some v) else ret None);;
  ret (mkPair2 value1 value2).

(** [Pair2s::read], src/tables/glyph_positioning/element.rs:438-450. *)
Definition read_pair2s (position class2_count value1_flags value2_flags : N) : steps Pair2s :=
  records <- for_n class2_count (fun _ => read_pair2 position value1_flags value2_flags);;
  ret (mkPair2s records).

(** [SingleAdjustment1::read], src/tables/glyph_positioning/mod.rs:38-54. *)
Definition read_single_adjustment1 : steps SingleAdjustment1 :=
  position <- get_position;;
  format <- take_u16;;
  coverage_offset <- take_u16;;
  value_flags <- take_value_flags;;
  value <- read_single position value_flags;;
  coverage <- jump_take position coverage_offset read_coverage;;
  ret (mkSingleAdjustment1 format coverage_offset value_flags value coverage).

(** [SingleAdjustment2::read], src/tables/glyph_positioning/mod.rs:56-75. *)
Definition read_single_adjustment2 : steps SingleAdjustment2 :=
  position <- get_position;;
  format <- take_u16;;
  coverage_offset <- take_u16;;
  value_flags <- take_value_flags;;
  value_count <- take_u16;;
  values <- for_n value_count (fun _ => read_single position value_flags);;
  coverage <- jump_take position coverage_offset read_coverage;;
  ret (mkSingleAdjustment2 format coverage_offset value_flags value_count values coverage).

(** [SingleAdjustment::read], src/tables/glyph_positioning/mod.rs:284-292. *)
Definition read_single_adjustment : steps SingleAdjustment :=
  value <- peek take_u16;;
  match value with
  | 1 => v <- read_single_adjustment1;; ret (SingleAdjustmentFormat1 v)
  | 2 => v <- read_single_adjustment2;; ret (SingleAdjustmentFormat2 v)
  | _ => raise UnknownFormat
  end.

(** [PairAdjustment1::read], src/tables/glyph_positioning/mod.rs:86-114. *)
Definition read_pair_adjustment1 : steps PairAdjustment1 :=
  position <- get_position;;
  format <- take_u16;;
  coverage_offset <- take_u16;;
  value1_flags <- take_value_flags;;
  value2_flags <- take_value_flags;;
  record_count <- take_u16;;
  record_offsets <- take_vec record_count take_u16;;
  coverage <- jump_take position coverage_offset read_coverage;;
  records <- jump_take_n position record_count record_offsets
    (read_pair1s value1_flags value2_flags);;
  ret (mkPairAdjustment1 format coverage_offset value1_flags value2_flags record_count
    record_offsets coverage records).

(** [PairAdjustment2::read], src/tables/glyph_positioning/mod.rs:116-147. *)
Definition read_pair_adjustment2 : steps PairAdjustment2 :=
  position <- get_position;;
  format <- take_u16;;
  coverage_offset <- take_u16;;
  value1_flags <- take_value_flags;;
  value2_flags <- take_value_flags;;
  class1_offset <- take_u16;;
  class2_offset <- take_u16;;
  class1_count <- take_u16;;
  class2_count <- take_u16;;
  records <- for_n class1_count
    (fun _ => read_pair2s position class2_count value1_flags value2_flags);;
  coverage <- jump_take position coverage_offset read_coverage;;
  class1 <- jump_take position class1_offset read_class;;
  class2 <- jump_take position class2_offset read_class;;
  ret (mkPairAdjustment2 format coverage_offset value1_flags value2_flags class1_offset
    class2_offset class1_count class2_count records coverage class1 class2).

(** [PairAdjustment::read], src/tables/glyph_positioning/mod.rs:294-302. *)
Definition read_pair_adjustment : steps PairAdjustment :=
  value <- peek take_u16;;
  match value with
  | 1 => v <- read_pair_adjustment1;; ret (PairAdjustmentFormat1 v)
  | 2 => v <- read_pair_adjustment2;; ret (PairAdjustmentFormat2 v)
  | _ => raise UnknownFormat
  end.

(** [CursiveAttachment::read], src/tables/glyph_positioning/mod.rs:149-167. *)
Definition read_cursive_attachment : steps CursiveAttachment :=
  position <- get_position;;
  format <- take_const take_u16 1;;
  coverage_offset <- take_u16;;
  connection_count <- take_u16;;
  connections <- for_n connection_count (fun _ => read_connection position);;
  coverage <- jump_take position coverage_offset read_coverage;;
  ret (mkCursiveAttachment format coverage_offset connection_count connections coverage).

(** [MarkToBaseAttachment::read], src/tables/glyph_positioning/mod.rs:169-196. *)
Definition read_mark_to_base_attachment : steps MarkToBaseAttachment :=
  position <- get_position;;
  format <- take_const take_u16 1;;
  mark_coverage_offset <- take_u16;;
  base_coverage_offset <- take_u16;;
  mark_class_count <- take_u16;;
  marks_offset <- take_u16;;
  bases_offset <- take_u16;;
  mark_coverage <- jump_take position mark_coverage_offset read_coverage;;
  base_coverage <- jump_take position base_coverage_offset read_coverage;;
  marks <- jump_take position marks_offset read_mark1s;;
  bases <- jump_take position bases_offset (read_bases mark_class_count);;
  ret (mkMarkToBaseAttachment format mark_coverage_offset base_coverage_offset mark_class_count
    marks_offset bases_offset mark_coverage base_coverage marks bases).

(** [MarkToLigatureAttachment::read], src/tables/glyph_positioning/mod.rs:198-225. *)
Definition read_mark_to_ligature_attachment : steps MarkToLigatureAttachment :=
  position <- get_position;;
  format <- take_const take_u16 1;;
  mark_coverage_offset <- take_u16;;
  ligature_coverage_offset <- take_u16;;
  mark_class_count <- take_u16;;
  marks_offset <- take_u16;;
  ligatures_offset <- take_u16;;
  mark_coverage <- jump_take position mark_coverage_offset read_coverage;;
  ligature_coverage <- jump_take position ligature_coverage_offset read_coverage;;
  marks <- jump_take position marks_offset read_mark1s;;
  ligatures <- jump_take position ligatures_offset (read_gpos_ligatures mark_class_count);;
  ret (mkMarkToLigatureAttachment format mark_coverage_offset ligature_coverage_offset
    mark_class_count marks_offset ligatures_offset mark_coverage ligature_coverage marks
    ligatures).

(** [MarkToMarkAttachment::read], src/tables/glyph_positioning/mod.rs:227-254. *)
Definition read_mark_to_mark_attachment : steps MarkToMarkAttachment :=
  position <- get_position;;
  format <- take_const take_u16 1;;
  mark1_coverage_offset <- take_u16;;
  mark2_coverage_offset <- take_u16;;
  mark_class_count <- take_u16;;
  mark1s_offset <- take_u16;;
  mark2s_offset <- take_u16;;
  mark1_coverage <- jump_take position mark1_coverage_offset read_coverage;;
  mark2_coverage <- jump_take position mark2_coverage_offset read_coverage;;
  mark1s <- jump_take position mark1s_offset read_mark1s;;
  mark2s <- jump_take position mark2s_offset (read_mark2s mark_class_count);;
  ret (mkMarkToMarkAttachment format mark1_coverage_offset mark2_coverage_offset mark_class_count
    mark1s_offset mark2s_offset mark1_coverage mark2_coverage mark1s mark2s).

(** [ExtensionPositioning::read], src/tables/glyph_positioning/mod.rs:256-263. *)
Definition read_extension_positioning : steps ExtensionPositioning :=
  format <- take_const take_u16 1;;
  type_ <- take_u16;;
  offset <- take_u32;;
  ret (mkExtensionPositioning format type_ offset).

(** [Type::read], src/tables/glyph_positioning/mod.rs:265-282. *)
Definition read_gpos_type (type_ : N) : steps GposType :=
  match type_ with
  | 1 => v <- read_single_adjustment;; ret (GposSingleAdjustment v)
  | 2 => v <- read_pair_adjustment;; ret (GposPairAdjustment v)
  | 3 => v <- read_cursive_attachment;; ret (GposCursiveAttachment v)
  | 4 => v <- read_mark_to_base_attachment;; ret (GposMarkToBaseAttachment v)
  | 5 => v <- read_mark_to_ligature_attachment;; ret (GposMarkToLigatureAttachment v)
  | 6 => v <- read_mark_to_mark_attachment;; ret (GposMarkToMarkAttachment v)
  | 7 => v <- read_context;; ret (GposContextualPositioning v)
  | 8 => v <- read_chained_context;; ret (GposChainedContextualPositioning v)
  | 9 => v <- read_extension_positioning;; ret (GposExtensionPositioning v)
  | _ => raise UnknownType
  end.

(** [GlyphPositioning], src/tables/glyph_positioning/mod.rs:13, read by [Directory<Type>::read]. *)
Definition read_glyph_positioning : steps GlyphPositioning := read_directory read_gpos_type.

(** ** ModelCpal.v *)

(** [Header0::read], src/tables/color_palettes.rs:22-35. *)
Definition read_cpal_header0 : steps CpalHeader0 :=
  version <- take_const take_u16 0;;
  entry_count <- take_u16;;
  palette_count <- take_u16;;
  color_count <- take_u16;;
  color_offset <- take_u32;;
  color_indices <- take_vec palette_count take_u16;;
  ret (mkCpalHeader0 version entry_count palette_count color_count color_offset color_indices).

(** [Header1::read], src/tables/color_palettes.rs:37-50. *)
Definition read_cpal_header1 : steps CpalHeader1 :=
  version <- take_const take_u16 1;;
  entry_count <- take_u16;;
  palette_count <- take_u16;;
  color_count <- take_u16;;
  color_offset <- take_u32;;
  color_indices <- take_vec palette_count take_u16;;
  ret (mkCpalHeader1 version entry_count palette_count color_count color_offset color_indices).

(** [Header::read], src/tables/color_palettes.rs:103-111. *)
Definition read_cpal_header : steps CpalHeader :=
  value <- peek take_u16;;
  match value with
  | 0 => v <- read_cpal_header0;; ret (CpalVersion0 v)
  | 1 => v <- read_cpal_header1;; ret (CpalVersion1 v)
  | _ => raise UnknownVersion
  end.

(** [Color::read], src/tables/color_palettes.rs:52-61. *)
Definition read_color : steps Color :=
  blue <- take_u8;;
  green <- take_u8;;
  red <- take_u8;;
  alpha <- take_u8;;
  ret (mkColor blue green red alpha).

(** [ColorPalettes::read], src/tables/color_palettes.rs:90-101. *)
Definition read_color_palettes : steps ColorPalettes :=
  position <- get_position;;
  header <- read_cpal_header;;
  let '(offset, count) :=
    match header with
    | CpalVersion0 header => (cpal_header0_color_offset header, cpal_header0_color_count header)
    | CpalVersion1 header => (cpal_header1_color_offset header, cpal_header1_color_count header)
    end in
  colors <- jump_take position offset (take_vec count read_color);;
  ret (mkColorPalettes header colors).

(** ** ModelFvar.v *)

(** [AxisFlags] and [InstanceFlags], src/tables/font_variations/mod.rs:57-70. *)
Definition take_axis_flags : steps N := take_flags 0xFFFE.

Definition take_instance_flags : steps N := take_flags 0xFFFF.

(** [Header::read], src/tables/font_variations/mod.rs:18-31. *)
Definition read_fvar_header : steps FvarHeader :=
  major_version <- take_u16;;
  minor_version <- take_u16;;
  axis_offset <- take_u16;;
  reserved <- take_const take_u16 2;;
  axis_count <- take_u16;;
  axis_size <- take_u16;;
  instance_count <- take_u16;;
  instance_size <- take_u16;;
  ret (mkFvarHeader major_version minor_version axis_offset reserved axis_count axis_size
    instance_count instance_size).

(** [AxisRecord::read], src/tables/font_variations/mod.rs:33-44. *)
Definition read_axis_record : steps AxisRecord :=
  tag <- take_tag;;
  min_value <- take_q32;;
  default_value <- take_q32;;
  max_value <- take_q32;;
  flags <- take_axis_flags;;
  name_id <- take_u16;;
  ret (mkAxisRecord tag min_value default_value max_value flags name_id).

(** [InstanceRecord::read], src/tables/font_variations/mod.rs:98-109. *)
Definition read_instance_record (axis_count : N) : steps InstanceRecord :=
  subfamily_name_id <- take_u16;;
  flags <- take_instance_flags;;
  coordinates <- take_vec axis_count take_q32;;
  postscript_name_id <- take_u16;;
  ret (mkInstanceRecord subfamily_name_id flags coordinates postscript_name_id).

(** [FontVariations::read], src/tables/font_variations/mod.rs:72-96.  The products
    are of 16-bit numbers taken in [u64] and cannot overflow. *)
Definition read_font_variations : steps FontVariations :=
  position <- get_position;;
  header <- read_fvar_header;;
  position <- add_u64 position (fvar_header_axis_offset header);;
  axis_records <- for_n (fvar_header_axis_count header) (fun i =>
    jump_take position (N.of_nat i * fvar_header_axis_size header) read_axis_record);;
  position <- add_u64 position (fvar_header_axis_count header * fvar_header_axis_size header);;
  instance_records <- for_n (fvar_header_instance_count header) (fun i =>
    jump_take position (N.of_nat i * fvar_header_instance_size header)
      (read_instance_record (fvar_header_axis_count header)));;
  ret (mkFontVariations header axis_records instance_records).

(** ** ModelFont.v *)

(** [truetype::tables::offsets::Record], used in src/font.rs:26, 36-42: [tag], [checksum], [offset], [size]. *)
Definition read_offset_record : steps OffsetRecord :=
  tag <- take_tag;;
  checksum <- take_u32;;
  offset <- take_u32;;
  length <- take_u32;;
  ret (mkOffsetRecord tag checksum offset length).

(** [truetype::tables::offsets::Header], read in src/font.rs:77. *)
Definition read_offsets_header : steps OffsetsHeader :=
  tag <- take_tag;;
  table_count <- take_u16;;
  search_range <- take_u16;;
  entry_selector <- take_u16;;
  range_shift <- take_u16;;
  ret (mkOffsetsHeader tag table_count search_range entry_selector range_shift).

(** [truetype::tables::offsets::Offsets], read in src/font.rs:77: refuses a version tag that is not
    accepted; then the header and [table_count] records. *)
Definition read_offsets (d : deps) : steps Offsets :=
  tag <- peek take_tag;;
  if truetype_accept d tag then
    header <- read_offsets_header;;
    records <- take_vec (offsets_header_table_count header) read_offset_record;;
    ret (mkOffsets header records)
  else raise Unsupported.

(** [Font::read], src/font.rs:13-20 and 73-80. *)
Definition read_font (d : deps) : steps Font :=
  offsets <- read_offsets d;;
  ret (mkFont offsets).

(** The loop of [Font::position], src/font.rs:36-45. *)
Fixpoint font_position_loop (checksum_of : OffsetRecord -> steps N) (records : list OffsetRecord) (t : tag) : steps (option unit) :=
  match records with
  | [] => ret None
  | record :: records =>
      if tag_eqb (offset_record_tag record) t then
        o <- ask;;
        _ <- (if ignore_invalid_checksums o then ret tt else
                checksum <- checksum_of record;;
                if offset_record_checksum record =? checksum then ret tt else raise Malformed);;
        _ <- jump (offset_record_offset record);;
        ret (Some tt)
      else font_position_loop checksum_of records t
  end.

(** [Font::position], src/font.rs:29-47. *)
Definition font_position (checksum_of : OffsetRecord -> steps N) (this : Font) (t : table) : steps (option unit) :=
  font_position_loop checksum_of (offsets_records (font_offsets this)) (table_tag t).

(** [Font::take], src/font.rs:49-59, and [Font::take_given], src/font.rs:61-70, with
    the parameter already applied to the reader. *)
Definition font_take {A} (checksum_of : OffsetRecord -> steps N) (this : Font) (t : table) (m : steps A) : steps (option A) :=
  found <- font_position checksum_of this t;;
  match found with
  | Some _ => v <- m;; ret (Some v)
  | None => ret None
  end.

(** [File::read], src/file.rs:12-22. *)
Definition read_file (d : deps) : steps File :=
  tag <- peek take_tag;;
  if tag_eqb tag ttcf then raise Unsupported else
  font <- read_font d;;
  ret (mkFile [font]).
