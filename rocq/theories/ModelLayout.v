(** Model of src/layout and src/variations: the readers, function by function.

    Field names and the order of reads are those of the source.  The error
    messages of [raise!] are abstracted to the kinds in [error]. *)

From Verif Require Export Tape.

(** [Record::read], src/layout/coverage.rs:40-48. *)
Definition read_coverage_record : M CoverageRecord :=
  start_glyph_id <- take_u16;;
  end_glyph_id <- take_u16;;
  index <- take_u16;;
  ret (mkCoverageRecord start_glyph_id end_glyph_id index).

(** [Coverage1::read], src/layout/coverage.rs:16-26. *)
Definition read_coverage1 : M Coverage1 :=
  format <- take_u16;;
  glyph_count <- take_u16;;
  glyph_ids <- take_vec glyph_count take_u16;;
  ret (mkCoverage1 format glyph_count glyph_ids).

(** [Coverage2::read], src/layout/coverage.rs:28-38. *)
Definition read_coverage2 : M Coverage2 :=
  format <- take_u16;;
  record_count <- take_u16;;
  records <- take_vec record_count read_coverage_record;;
  ret (mkCoverage2 format record_count records).

(** [Coverage::read], src/layout/coverage.rs:57-65. *)
Definition read_coverage : M Coverage :=
  value <- peek take_u16;;
  match value with
  | 1 => v <- read_coverage1;; ret (CoverageFormat1 v)
  | 2 => v <- read_coverage2;; ret (CoverageFormat2 v)
  | _ => raise UnknownFormat
  end.

(** [Record::read], src/layout/class.rs:41-49. *)
Definition read_class_record : M ClassRecord :=
  start_glyph_id <- take_u16;;
  end_glyph_id <- take_u16;;
  index <- take_u16;;
  ret (mkClassRecord start_glyph_id end_glyph_id index).

(** [Class1::read], src/layout/class.rs:16-27. *)
Definition read_class1 : M Class1 :=
  format <- take_u16;;
  start_glyph_id <- take_u16;;
  glyph_count <- take_u16;;
  indices <- take_vec glyph_count take_u16;;
  ret (mkClass1 format start_glyph_id glyph_count indices).

(** [Class2::read], src/layout/class.rs:29-39. *)
Definition read_class2 : M Class2 :=
  format <- take_u16;;
  record_count <- take_u16;;
  records <- take_vec record_count read_class_record;;
  ret (mkClass2 format record_count records).

(** [Class::read], src/layout/class.rs:58-66. *)
Definition read_class : M Class :=
  value <- peek take_u16;;
  match value with
  | 1 => v <- read_class1;; ret (ClassFormat1 v)
  | 2 => v <- read_class2;; ret (ClassFormat2 v)
  | _ => raise UnknownFormat
  end.

(** [Device::read], src/layout/correction.rs:51-73. *)
Definition read_device : M Device :=
  start_size <- take_u16;;
  end_size <- take_u16;;
  if end_size <? start_size then raise Malformed else
  format <- take_u16;;
  if (format =? 0) || (3 <? format) then raise UnknownFormat else
  let count := end_size - start_size + 1 in
  let bit_count := N.shiftl 1 format * count in
  let short_count := N.shiftr (bit_count + 16 - bit_count mod 16) 4 in
  deltas <- take_vec short_count take_u16;;
  ret (mkDevice start_size end_size format deltas).

(** [Variation::read], src/layout/correction.rs:25-32. *)
Definition read_variation : M Variation :=
  outer_index <- take_u16;;
  inner_index <- take_u16;;
  format <- take_u16;;
  ret (mkVariation outer_index inner_index format).

(** [Correction::read], src/layout/correction.rs:34-42.  The peeked tuple [(u32, u16)]
    is read component by component. *)
Definition read_correction : M Correction :=
  value <- peek (_ <- take_u32;; take_u16);;
  if (1 <=? value) && (value <=? 3) then v <- read_device;; ret (CorrectionDevice v)
  else if value =? 0x8000 then v <- read_variation;; ret (CorrectionVariation v)
  else raise UnknownFormat.

(** [Action::read], src/layout/context.rs:369-376. *)
Definition read_action : M Action :=
  position_index <- take_u16;;
  lookup_index <- take_u16;;
  ret (mkAction position_index lookup_index).

(** [Record::read], src/layout/context.rs:203-220. *)
Definition read_context_record : M ContextRecord :=
  glyph_count <- take_u16;;
  action_count <- take_u16;;
  glyph_ids <- (if glyph_count =? 0 then raise Malformed else take_vec (glyph_count - 1) take_u16);;
  actions <- take_vec action_count read_action;;
  ret (mkContextRecord glyph_count action_count glyph_ids actions).

(** [Records::read], src/layout/context.rs:222-236. *)
Definition read_context_records : M ContextRecords :=
  position <- get_position;;
  count <- take_u16;;
  offsets <- take_vec count take_u16;;
  records <- jump_take_n position count offsets read_context_record;;
  ret (mkContextRecords count offsets records).

(** [ClassRecord::read], src/layout/context.rs:238-255. *)
Definition read_context_class_record : M ContextClassRecord :=
  glyph_count <- take_u16;;
  action_count <- take_u16;;
  indices <- (if glyph_count =? 0 then raise Malformed else take_vec (glyph_count - 1) take_u16);;
  actions <- take_vec action_count read_action;;
  ret (mkContextClassRecord glyph_count action_count indices actions).

(** [ClassRecords::read], src/layout/context.rs:257-271. *)
Definition read_context_class_records : M ContextClassRecords :=
  position <- get_position;;
  count <- take_u16;;
  offsets <- take_vec count take_u16;;
  records <- jump_take_n position count offsets read_context_class_record;;
  ret (mkContextClassRecords count offsets records).

(** [ChainedRecord::read], src/layout/context.rs:273-303. *)
Definition read_chained_record : M ChainedRecord :=
  backward_glyph_count <- take_u16;;
  backward_glyph_ids <- take_vec backward_glyph_count take_u16;;
  glyph_count <- take_u16;;
  glyph_ids <- (if glyph_count =? 0 then raise Malformed else take_vec (glyph_count - 1) take_u16);;
  forward_glyph_count <- take_u16;;
  forward_glyph_ids <- take_vec forward_glyph_count take_u16;;
  action_count <- take_u16;;
  actions <- take_vec action_count read_action;;
  ret (mkChainedRecord backward_glyph_count backward_glyph_ids glyph_count glyph_ids
    forward_glyph_count forward_glyph_ids action_count actions).

(** [ChainedRecords::read], src/layout/context.rs:305-319. *)
Definition read_chained_records : M ChainedRecords :=
  position <- get_position;;
  count <- take_u16;;
  offsets <- take_vec count take_u16;;
  records <- jump_take_n position count offsets read_chained_record;;
  ret (mkChainedRecords count offsets records).

(** [ChainedClassRecord::read], src/layout/context.rs:321-351. *)
Definition read_chained_class_record : M ChainedClassRecord :=
  backward_glyph_count <- take_u16;;
  backward_indices <- take_vec backward_glyph_count take_u16;;
  glyph_count <- take_u16;;
  indices <- (if glyph_count =? 0 then raise Malformed else take_vec (glyph_count - 1) take_u16);;
  forward_glyph_count <- take_u16;;
  forward_indices <- take_vec forward_glyph_count take_u16;;
  action_count <- take_u16;;
  actions <- take_vec action_count read_action;;
  ret (mkChainedClassRecord backward_glyph_count backward_indices glyph_count indices
    forward_glyph_count forward_indices action_count actions).

(** [ChainedClassRecords::read], src/layout/context.rs:353-367. *)
Definition read_chained_class_records : M ChainedClassRecords :=
  position <- get_position;;
  count <- take_u16;;
  offsets <- take_vec count take_u16;;
  records <- jump_take_n position count offsets read_chained_class_record;;
  ret (mkChainedClassRecords count offsets records).

(** [Context1::read], src/layout/context.rs:19-39. *)
Definition read_context1 : M Context1 :=
  position <- get_position;;
  format <- take_u16;;
  coverage_offset <- take_u16;;
  record_count <- take_u16;;
  record_offsets <- take_vec record_count take_u16;;
  coverage <- jump_take position coverage_offset read_coverage;;
  records <- jump_take_n position record_count record_offsets read_context_records;;
  ret (mkContext1 format coverage_offset record_count record_offsets coverage records).

(** [Context2::read], src/layout/context.rs:41-66. *)
Definition read_context2 : M Context2 :=
  position <- get_position;;
  format <- take_u16;;
  coverage_offset <- take_u16;;
  class_offset <- take_u16;;
  record_count <- take_u16;;
  record_offsets <- take_vec record_count take_u16;;
  coverage <- jump_take position coverage_offset read_coverage;;
  class <- jump_take position class_offset read_class;;
  records <- jump_take_maybe_n position record_count record_offsets read_context_class_records;;
  ret (mkContext2 format coverage_offset class_offset record_count record_offsets coverage class
    records).

(** [Context3::read], src/layout/context.rs:68-88. *)
Definition read_context3 : M Context3 :=
  position <- get_position;;
  format <- take_u16;;
  glyph_count <- take_u16;;
  action_count <- take_u16;;
  coverage_offsets <- take_vec glyph_count take_u16;;
  actions <- take_vec action_count read_action;;
  coverages <- jump_take_n position glyph_count coverage_offsets read_coverage;;
  ret (mkContext3 format glyph_count action_count coverage_offsets actions coverages).

(** [Context::read], src/layout/context.rs:378-387. *)
Definition read_context : M Context :=
  value <- peek take_u16;;
  match value with
  | 1 => v <- read_context1;; ret (ContextFormat1 v)
  | 2 => v <- read_context2;; ret (ContextFormat2 v)
  | 3 => v <- read_context3;; ret (ContextFormat3 v)
  | _ => raise UnknownFormat
  end.

(** [ChainedContext1::read], src/layout/context.rs:101-121. *)
Definition read_chained_context1 : M ChainedContext1 :=
  position <- get_position;;
  format <- take_u16;;
  coverage_offset <- take_u16;;
  record_count <- take_u16;;
  record_offsets <- take_vec record_count take_u16;;
  coverage <- jump_take position coverage_offset read_coverage;;
  records <- jump_take_n position record_count record_offsets read_chained_records;;
  ret (mkChainedContext1 format coverage_offset record_count record_offsets coverage records).

(** [ChainedContext2::read], src/layout/context.rs:123-158. *)
Definition read_chained_context2 : M ChainedContext2 :=
  position <- get_position;;
  format <- take_u16;;
  coverage_offset <- take_u16;;
  backward_class_offset <- take_u16;;
  class_offset <- take_u16;;
  forward_class_offset <- take_u16;;
  record_count <- take_u16;;
  record_offsets <- take_vec record_count take_u16;;
  coverage <- jump_take position coverage_offset read_coverage;;
  backward_class <- jump_take position backward_class_offset read_class;;
  class <- jump_take position class_offset read_class;;
  forward_class <- jump_take position forward_class_offset read_class;;
  records <- jump_take_maybe_n position record_count record_offsets read_chained_class_records;;
  ret (mkChainedContext2 format coverage_offset backward_class_offset class_offset
    forward_class_offset record_count record_offsets coverage backward_class class forward_class
    records).

(** [ChainedContext3::read], src/layout/context.rs:160-201. *)
Definition read_chained_context3 : M ChainedContext3 :=
  position <- get_position;;
  format <- take_u16;;
  backward_glyph_count <- take_u16;;
  backward_coverage_offsets <- take_vec backward_glyph_count take_u16;;
  glyph_count <- take_u16;;
  coverage_offsets <- take_vec glyph_count take_u16;;
  forward_glyph_count <- take_u16;;
  forward_coverage_offsets <- take_vec forward_glyph_count take_u16;;
  action_count <- take_u16;;
  actions <- take_vec action_count read_action;;
  backward_coverages <- jump_take_n position backward_glyph_count backward_coverage_offsets read_coverage;;
  coverages <- jump_take_n position glyph_count coverage_offsets read_coverage;;
  forward_coverages <- jump_take_n position forward_glyph_count forward_coverage_offsets read_coverage;;
  ret (mkChainedContext3 format backward_glyph_count backward_coverage_offsets glyph_count
    coverage_offsets forward_glyph_count forward_coverage_offsets action_count actions
    backward_coverages coverages forward_coverages).

(** [ChainedContext::read], src/layout/context.rs:389-400. *)
Definition read_chained_context : M ChainedContext :=
  value <- peek take_u16;;
  match value with
  | 1 => v <- read_chained_context1;; ret (ChainedContextFormat1 v)
  | 2 => v <- read_chained_context2;; ret (ChainedContextFormat2 v)
  | 3 => v <- read_chained_context3;; ret (ChainedContextFormat3 v)
  | _ => raise UnknownFormat
  end.

(** [Header::read], src/layout/language.rs:5-11. *)
Definition read_language_header : M LanguageHeader :=
  tag <- take_tag;;
  offset <- take_u16;;
  ret (mkLanguageHeader tag offset).

(** [Record::read], src/layout/language.rs:13-24. *)
Definition read_language_record : M LanguageRecord :=
  lookup_order_offset <- take_const take_u16 0;;
  required_feature_index <- take_u16;;
  feature_index_count <- take_u16;;
  feature_indices <- take_vec feature_index_count take_u16;;
  ret (mkLanguageRecord lookup_order_offset required_feature_index feature_index_count
    feature_indices).

(** [Header::read], src/layout/script.rs:23-30. *)
Definition read_script_header : M ScriptHeader :=
  tag <- take_tag;;
  offset <- take_u16;;
  ret (mkScriptHeader tag offset).

(** [Record::read], src/layout/script.rs:32-51. *)
Definition read_script_record : M ScriptRecord :=
  position <- get_position;;
  default_language_offset <- take_u16;;
  language_count <- take_u16;;
  language_headers <- take_vec language_count read_language_header;;
  default_language <- jump_take_maybe position default_language_offset read_language_record;;
  language_records <- jump_take_each position language_count
    (fun i => h <- index language_headers i;; ret (language_header_offset h)) read_language_record;;
  ret (mkScriptRecord default_language_offset language_count language_headers default_language
    language_records).

(** [Scripts::read], src/layout/script.rs:7-21. *)
Definition read_scripts : M Scripts :=
  position <- get_position;;
  count <- take_u16;;
  headers <- take_vec count read_script_header;;
  records <- jump_take_each position count
    (fun i => h <- index headers i;; ret (script_header_offset h)) read_script_record;;
  ret (mkScripts count headers records).

(** [Header::read], src/layout/feature.rs:21-28. *)
Definition read_feature_header : M FeatureHeader :=
  tag <- take_tag;;
  offset <- take_u16;;
  ret (mkFeatureHeader tag offset).

(** [Record::read], src/layout/feature.rs:30-50.  [tape.take_bytes(0)] reads no byte. *)
Definition read_feature_record : M FeatureRecord :=
  position <- get_position;;
  parameter_offset <- take_u16;;
  lookup_index_count <- take_u16;;
  lookup_indices <- take_vec lookup_index_count take_u16;;
  parameters <- (if 0 <? parameter_offset then
      q <- add_u64 position parameter_offset;;
      _ <- jump q;;
      bytes <- take_vec 0 take_u8;;
      ret (Some bytes)
    else ret None);;
  ret (mkFeatureRecord parameter_offset lookup_index_count lookup_indices parameters).

(** [Features::read], src/layout/feature.rs:5-19. *)
Definition read_features : M Features :=
  position <- get_position;;
  count <- take_u16;;
  headers <- take_vec count read_feature_header;;
  records <- jump_take_each position count
    (fun i => h <- index headers i;; ret (feature_header_offset h)) read_feature_record;;
  ret (mkFeatures count headers records).

(** [Variations::read], src/layout/feature.rs:52-60. *)
Definition read_feature_variations : M FeatureVariations :=
  major_version <- take_const take_u16 1;;
  minor_version <- take_const take_u16 0;;
  count <- take_u32;;
  ret (mkFeatureVariations major_version minor_version count).

(** [Flags] of lookups, src/layout/lookup.rs:28-38. *)
Definition take_lookup_flags : M N := take_flags 0x00E0.
Definition has_mark_filtering (flags : N) : bool := has_flag flags 0x0010.

(** [Record<U>::read], src/layout/lookup.rs:68-93; [read_table] is [U::read] with
    the lookup type as its parameter. *)
Definition read_lookup_record {T} (read_table : N -> M T) : M (LookupRecord T) :=
  position <- get_position;;
  type_ <- take_u16;;
  flags <- take_lookup_flags;;
  table_count <- take_u16;;
  table_offsets <- take_vec table_count take_u16;;
  mark_filtering_set <-
    (if has_mark_filtering flags then v <- take_u16;; ret (Some v) else ret None);;
  tables <- jump_take_n position table_count table_offsets (read_table type_);;
  ret (mkLookupRecord type_ flags table_count table_offsets mark_filtering_set tables).

(** [Lookups<U>::read], src/layout/lookup.rs:51-66. *)
Definition read_lookups {T} (read_table : N -> M T) : M (Lookups T) :=
  position <- get_position;;
  count <- take_u16;;
  offsets <- take_vec count take_u16;;
  records <- jump_take_n position count offsets (read_lookup_record read_table);;
  ret (mkLookups count offsets records).

(** [Default] of [Scripts], [Features] (derived by [table!]) and [Lookups]
    (src/layout/lookup.rs:40-49): everything empty. *)
Definition scripts_default : Scripts := mkScripts 0 [] [].
Definition features_default : Features := mkFeatures 0 [] [].
Definition lookups_default {T} : Lookups T := mkLookups 0 [] [].

(** [jump_take!(@unwrap ..)] in the default build and
    [jump_take_maybe!(@unwrap ..).unwrap_or_default()] with the feature
    [ignore-incomplete-directories], src/layout/directory.rs:41-52. *)
Definition jump_take_list {A} (position offset : N) (m : M A) (default : A) : M A :=
  o <- ask;;
  if ignore_incomplete_directories o then
    v <- jump_take_maybe position offset m;;
    ret (match v with Some v => v | None => default end)
  else jump_take position offset m.

(** [Directory<U>::read], src/layout/directory.rs:22-67. *)
Definition read_directory {T} (read_table : N -> M T) : M (Directory T) :=
  position <- get_position;;
  major_version <- take_u16;;
  minor_version <- take_u16;;
  _ <- (if (major_version =? 1) && ((minor_version =? 0) || (minor_version =? 1))
        then ret tt else raise UnknownVersion);;
  script_offset <- take_u16;;
  feature_offset <- take_u16;;
  lookup_offset <- take_u16;;
  variation_offset <-
    (if (major_version =? 1) && (minor_version =? 1) then take_u32 else ret 0);;
  scripts <- jump_take_list position script_offset read_scripts scripts_default;;
  features <- jump_take_list position feature_offset read_features features_default;;
  lookups <- jump_take_list position lookup_offset (read_lookups read_table) lookups_default;;
  variations <- jump_take_maybe position variation_offset read_feature_variations;;
  ret (mkDirectory major_version minor_version script_offset feature_offset lookup_offset
    variation_offset scripts features lookups variations).

(** [Record::read], src/variations/item.rs:21-37.  The sum is taken in [u16], the product in [usize]
    (at least 32 bits, where it cannot overflow, both factors being below 2^16). *)
Definition read_store_record : M StoreRecord :=
  item_count <- take_u16;;
  short_delta_count <- take_u16;;
  region_count <- take_u16;;
  region_indices <- take_vec region_count take_u16;;
  deltas <- (
      per_item_count <- add_u16 short_delta_count region_count;;
      take_vec (item_count * per_item_count) take_u8);;
  ret (mkStoreRecord item_count short_delta_count region_count region_indices deltas).

(** [Store::read], src/variations/item.rs:3-19. *)
Definition read_store : M Store :=
  position <- get_position;;
  format <- take_const take_u16 1;;
  region_offset <- take_u32;;
  count <- take_u16;;
  offsets <- take_vec count take_u32;;
  records <- jump_take_n position count offsets read_store_record;;
  ret (mkStore format region_offset count offsets records).

(** ** Getters *)

(** [headers.iter().enumerate().find(|(_, header)| header.tag == tag)
    .map(|(i, _)| &records[i])] from index [i] on, the common body of the three
    getters below (src/layout/script.rs:53-75, src/layout/feature.rs:62-72).  Indexing beyond [records] panics. *)
Fixpoint find_record {H R} (header_tag : H -> tag) (headers : list H) (records : list R)
    (i : nat) (t : tag) : res (option R) :=
  match headers with
  | [] => Ok None
  | header :: headers =>
      if tag_eqb (header_tag header) t then
        match nth_error records i with
        | Some record => Ok (Some record)
        | None => Panic
        end
      else find_record header_tag headers records (S i) t
  end.

(** [Scripts::get], src/layout/script.rs:53-63. *)
Definition scripts_get (this : Scripts) (t : tag) : res (option ScriptRecord) :=
  find_record script_header_tag (scripts_headers this) (scripts_records this) 0 t.

(** [Record::get] of a script, src/layout/script.rs:65-75. *)
Definition script_record_get (this : ScriptRecord) (t : tag) : res (option LanguageRecord) :=
  find_record language_header_tag (script_record_language_headers this)
    (script_record_language_records this) 0 t.

(** [Features::get], src/layout/feature.rs:62-72. *)
Definition features_get (this : Features) (t : tag) : res (option FeatureRecord) :=
  find_record feature_header_tag (features_headers this) (features_records this) 0 t.
