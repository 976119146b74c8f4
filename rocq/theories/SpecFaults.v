(** What is wrong where a read is refused, for property C87.

    The reading is refused at a part that is itself at fault, in what it has before any of
    its own parts: bytes that are missing, or a field with a value that is not allowed. *)

From Verif Require Export SpecParts SpecOverflow.

(** Some of the [n] bytes at [p] are not in the file; all of them are. *)
Definition misses (f : file) (p n : N) : Prop := exists i, i < n /\ f (p + i) = None.
Definition intact (f : file) (p n : N) : Prop := forall i, i < n -> f (p + i) <> None.

(** Arrays one after another from [p], each after the number of its elements, of the given
    sizes: a number or an element is missing. *)
Inductive cut (f : file) : N -> list N -> Prop :=
| CutNumber p size sizes : misses f p 2 -> cut f p (size :: sizes)
| CutElement p size sizes n : u16_at f p n -> misses f (p + 2) (size * n) -> cut f p (size :: sizes)
| CutLater p size sizes n : u16_at f p n -> cut f (p + 2 + size * n) sizes -> cut f p (size :: sizes).

(** The number of 16-bit words of a device table: at two to the power of the format bits for each size, and
    one word more. *)
Definition device_words (s t format : N) : N := 2 ^ format * (t - s + 1) / 16 + 1.

(** [begins o f p m k sizes]: the part [m] at [p] begins with [k] bytes and then arrays of elements of
    the given sizes, each after the number of its elements; what of that the rest depends on is in the
    file and allowed. *)
Inductive begins (o : options) (f : file) (p : N) : forall {A : Type}, M A -> N -> list N -> Prop :=
(* Files *)
| BeginsFile d : begins o f p (read_file d) 4 []
| BeginsFont d : begins o f p (read_font d) 4 []
| BeginsFontHeader d t : tag_at f p t -> truetype_accept d t = true -> begins o f p (read_font d) 12 []
| BeginsOffsetRecord : begins o f p read_offset_record 16 []
(* Coverages, classes and corrections *)
| BeginsCoverage : begins o f p read_coverage 2 []
| BeginsCoverage1 : u16_at f p 1 -> begins o f p read_coverage 2 [2]
| BeginsCoverage2 : u16_at f p 2 -> begins o f p read_coverage 2 [6]
| BeginsClass : begins o f p read_class 2 []
| BeginsClass1 : u16_at f p 1 -> begins o f p read_class 4 [2]
| BeginsClass2 : u16_at f p 2 -> begins o f p read_class 2 [6]
| BeginsCorrection : begins o f p read_correction 6 []
| BeginsDevice s t format : u16_at f p s -> u16_at f (p + 2) t -> s <= t ->
    u16_at f (p + 4) format -> 1 <= format <= 3 ->
    begins o f p read_correction (6 + 2 * device_words s t format) []
(* Contexts *)
| BeginsContext : begins o f p read_context 2 []
| BeginsContext1 : u16_at f p 1 -> begins o f p read_context 4 [2]
| BeginsContext2 : u16_at f p 2 -> begins o f p read_context 6 [2]
| BeginsContext3 : u16_at f p 3 -> begins o f p read_context 6 []
| BeginsContext3Arrays n m : u16_at f p 3 -> u16_at f (p + 2) n -> u16_at f (p + 4) m ->
    begins o f p read_context (6 + 2 * n + 4 * m) []
| BeginsContextRecords : begins o f p read_context_records 0 [2]
| BeginsContextRecord : begins o f p read_context_record 4 []
| BeginsContextRecordArrays n m : u16_at f p n -> n <> 0 -> u16_at f (p + 2) m ->
    begins o f p read_context_record (4 + 2 * (n - 1) + 4 * m) []
| BeginsContextClassRecords : begins o f p read_context_class_records 0 [2]
| BeginsContextClassRecord : begins o f p read_context_class_record 4 []
| BeginsContextClassRecordArrays n m : u16_at f p n -> n <> 0 -> u16_at f (p + 2) m ->
    begins o f p read_context_class_record (4 + 2 * (n - 1) + 4 * m) []
| BeginsChainedContext : begins o f p read_chained_context 2 []
| BeginsChainedContext1 : u16_at f p 1 -> begins o f p read_chained_context 4 [2]
| BeginsChainedContext2 : u16_at f p 2 -> begins o f p read_chained_context 10 [2]
| BeginsChainedContext3 : u16_at f p 3 -> begins o f p read_chained_context 2 [2; 2; 2; 4]
| BeginsChainedRecords : begins o f p read_chained_records 0 [2]
| BeginsChainedRecord : begins o f p read_chained_record 0 [2]
| BeginsChainedRecordNumber n : u16_at f p n -> begins o f p read_chained_record (4 + 2 * n) []
| BeginsChainedRecordArrays n m : u16_at f p n -> u16_at f (p + 2 + 2 * n) m -> m <> 0 ->
    begins o f p read_chained_record (4 + 2 * n + 2 * (m - 1)) [2; 4]
| BeginsChainedClassRecords : begins o f p read_chained_class_records 0 [2]
| BeginsChainedClassRecord : begins o f p read_chained_class_record 0 [2]
| BeginsChainedClassRecordNumber n : u16_at f p n -> begins o f p read_chained_class_record (4 + 2 * n) []
| BeginsChainedClassRecordArrays n m : u16_at f p n -> u16_at f (p + 2 + 2 * n) m -> m <> 0 ->
    begins o f p read_chained_class_record (4 + 2 * n + 2 * (m - 1)) [2; 4]
(* Scripts, features and lookups *)
| BeginsDirectory T (read_table : N -> M T) : begins o f p (read_directory read_table) 4 []
| BeginsDirectory10 T (read_table : N -> M T) : u16_at f p 1 -> u16_at f (p + 2) 0 ->
    begins o f p (read_directory read_table) 10 []
| BeginsDirectory11 T (read_table : N -> M T) : u16_at f p 1 -> u16_at f (p + 2) 1 ->
    begins o f p (read_directory read_table) 14 []
| BeginsScripts : begins o f p read_scripts 0 [6]
| BeginsScriptRecord : begins o f p read_script_record 2 [6]
| BeginsLanguageRecord : begins o f p read_language_record 2 []
| BeginsLanguageRecordArray : u16_at f p 0 -> begins o f p read_language_record 4 [2]
| BeginsFeatures : begins o f p read_features 0 [6]
| BeginsFeatureRecord : begins o f p read_feature_record 2 [2]
| BeginsFeatureVariations : begins o f p read_feature_variations 2 []
| BeginsFeatureVariations1 : u16_at f p 1 -> begins o f p read_feature_variations 4 []
| BeginsFeatureVariations10 : u16_at f p 1 -> u16_at f (p + 2) 0 -> begins o f p read_feature_variations 8 []
| BeginsLookups T (read_table : N -> M T) : begins o f p (read_lookups read_table) 0 [2]
| BeginsLookupRecord T (read_table : N -> M T) : begins o f p (read_lookup_record read_table) 4 []
| BeginsLookupRecordArray T (read_table : N -> M T) flags :
    flags_at (checked_flags o) 0x00E0 f (p + 2) flags -> begins o f p (read_lookup_record read_table) 4 [2]
| BeginsLookupRecordSet T (read_table : N -> M T) flags n :
    flags_at (checked_flags o) 0x00E0 f (p + 2) flags -> N.testbit flags 4 = true -> u16_at f (p + 4) n ->
    begins o f p (read_lookup_record read_table) (8 + 2 * n) []
(* GSUB *)
| BeginsSingleSubstitution : begins o f p read_single_substitution 2 []
| BeginsSingleSubstitution1 : u16_at f p 1 -> begins o f p read_single_substitution 6 []
| BeginsSingleSubstitution2 : u16_at f p 2 -> begins o f p read_single_substitution 4 [2]
| BeginsMultipleSubstitution : begins o f p read_multiple_substitution 2 []
| BeginsMultipleSubstitution1 : u16_at f p 1 -> begins o f p read_multiple_substitution 4 [2]
| BeginsAlternateSubstitution : begins o f p read_alternate_substitution 2 []
| BeginsAlternateSubstitution1 : u16_at f p 1 -> begins o f p read_alternate_substitution 4 [2]
| BeginsLigatureSubstitution : begins o f p read_ligature_substitution 2 []
| BeginsLigatureSubstitution1 : u16_at f p 1 -> begins o f p read_ligature_substitution 4 [2]
| BeginsExtensionSubstitution : begins o f p read_extension_substitution 2 []
| BeginsExtensionSubstitution1 : u16_at f p 1 -> begins o f p read_extension_substitution 8 []
| BeginsReverse : begins o f p read_reverse_chained_contextual_substibution 4 [2; 2; 2]
| BeginsSequence : begins o f p read_sequence 0 [2]
| BeginsAlternates : begins o f p read_alternates 0 [2]
| BeginsLigatures : begins o f p read_ligatures 0 [2]
| BeginsLigature : begins o f p read_ligature 4 []
| BeginsLigatureArray n : u16_at f (p + 2) n -> n <> 0 -> begins o f p read_ligature (4 + 2 * (n - 1)) []
(* GPOS *)
| BeginsSingleAdjustment : begins o f p read_single_adjustment 2 []
| BeginsSingleAdjustment1 : u16_at f p 1 -> begins o f p read_single_adjustment 6 []
| BeginsSingleAdjustment2 : u16_at f p 2 -> begins o f p read_single_adjustment 6 []
| BeginsSingleAdjustment2Number flags : u16_at f p 2 -> flags_at (checked_flags o) 0xFF00 f (p + 4) flags ->
    begins o f p read_single_adjustment 8 []
| BeginsPairAdjustment : begins o f p read_pair_adjustment 2 []
| BeginsPairAdjustment12 format : u16_at f p format -> In format [1; 2] ->
  begins o f p read_pair_adjustment 6 []
| BeginsPairAdjustment12Flags format flags : u16_at f p format -> In format [1; 2] ->
    flags_at (checked_flags o) 0xFF00 f (p + 4) flags -> begins o f p read_pair_adjustment 8 []
| BeginsPairAdjustment1 flags1 flags2 : u16_at f p 1 ->
    flags_at (checked_flags o) 0xFF00 f (p + 4) flags1 -> flags_at (checked_flags o) 0xFF00 f (p + 6) flags2 ->
    begins o f p read_pair_adjustment 8 [2]
| BeginsPairAdjustment2 flags1 flags2 : u16_at f p 2 ->
    flags_at (checked_flags o) 0xFF00 f (p + 4) flags1 -> flags_at (checked_flags o) 0xFF00 f (p + 6) flags2 ->
    begins o f p read_pair_adjustment 16 []
| BeginsCursive : begins o f p read_cursive_attachment 2 []
| BeginsCursive1 : u16_at f p 1 -> begins o f p read_cursive_attachment 6 []
| BeginsMarkToBase : begins o f p read_mark_to_base_attachment 2 []
| BeginsMarkToBase1 : u16_at f p 1 -> begins o f p read_mark_to_base_attachment 12 []
| BeginsMarkToLigature : begins o f p read_mark_to_ligature_attachment 2 []
| BeginsMarkToLigature1 : u16_at f p 1 -> begins o f p read_mark_to_ligature_attachment 12 []
| BeginsMarkToMark : begins o f p read_mark_to_mark_attachment 2 []
| BeginsMarkToMark1 : u16_at f p 1 -> begins o f p read_mark_to_mark_attachment 12 []
| BeginsExtensionPositioning : begins o f p read_extension_positioning 2 []
| BeginsExtensionPositioning1 : u16_at f p 1 -> begins o f p read_extension_positioning 8 []
| BeginsAnchor : begins o f p read_anchor 2 []
| BeginsAnchor1 : u16_at f p 1 -> begins o f p read_anchor 6 []
| BeginsAnchor2 : u16_at f p 2 -> begins o f p read_anchor 8 []
| BeginsAnchor3 : u16_at f p 3 -> begins o f p read_anchor 10 []
| BeginsBases k : begins o f p (read_bases k) 2 []
| BeginsBase base k : begins o f p (read_base base k) (2 * k) []
| BeginsGposLigatures k : begins o f p (read_gpos_ligatures k) 0 [2]
| BeginsGposLigature k : begins o f p (read_gpos_ligature k) 2 []
| BeginsComponent base k : begins o f p (read_component base k) (2 * k) []
| BeginsMark1s : begins o f p read_mark1s 2 []
| BeginsMark1 base : begins o f p (read_mark1 base) 4 []
| BeginsMark2s k : begins o f p (read_mark2s k) 2 []
| BeginsMark2 base k : begins o f p (read_mark2 base k) (2 * k) []
| BeginsConnection base : begins o f p (read_connection base) 4 []
| BeginsSingle base flags : begins o f p (read_single base flags) (value_size flags) []
| BeginsPair1s flags1 flags2 : begins o f p (read_pair1s flags1 flags2) 2 []
| BeginsPair1 base flags1 flags2 : begins o f p (read_pair1 base flags1 flags2) 2 []
(* GDEF *)
| BeginsGdef : begins o f p read_glyph_definition 4 []
| BeginsGdef10 : u32_at f p 0x00010000 -> begins o f p read_glyph_definition 12 []
| BeginsGdef12 : u32_at f p 0x00010002 -> begins o f p read_glyph_definition 14 []
| BeginsGdef13 : u32_at f p 0x00010003 -> begins o f p read_glyph_definition 18 []
| BeginsAttachments : begins o f p read_attachments 2 [2]
| BeginsAttachment : begins o f p read_attachment 0 [2]
| BeginsGdefLigatures : begins o f p read_gdef_ligatures 2 [2]
| BeginsGdefLigature : begins o f p read_gdef_ligature 0 [2]
| BeginsCaret : begins o f p read_caret 4 []
| BeginsCaret3 : u32_at f p 3 -> begins o f p read_caret 6 []
| BeginsMarks : begins o f p read_marks 2 []
| BeginsMarks1 : u16_at f p 1 -> begins o f p read_marks 2 [4]
| BeginsStore : begins o f p read_store 2 []
| BeginsStore1 : u16_at f p 1 -> begins o f p read_store 6 [4]
| BeginsStoreRecord : begins o f p read_store_record 4 [2]
| BeginsStoreRecordDeltas items short regions :
    u16_at f p items -> u16_at f (p + 2) short -> u16_at f (p + 4) regions ->
    (overflow_checks o = true -> short + regions < 65536) ->
    begins o f p read_store_record (6 + 2 * regions + items * ((short + regions) mod 65536)) []
(* CPAL and fvar *)
| BeginsCpal : begins o f p read_color_palettes 2 []
| BeginsCpal01 version : u16_at f p version -> In version [0; 1] -> begins o f p read_color_palettes 12 []
| BeginsCpal01Array version n : u16_at f p version -> In version [0; 1] -> u16_at f (p + 4) n ->
    begins o f p read_color_palettes (12 + 2 * n) []
| BeginsColor : begins o f p read_color 4 []
| BeginsFvar : begins o f p read_font_variations 8 []
| BeginsFvar2 : u16_at f (p + 6) 2 -> begins o f p read_font_variations 16 []
| BeginsAxisRecord : begins o f p read_axis_record 18 []
| BeginsAxisRecordName flags : flags_at (checked_flags o) 0xFFFE f (p + 16) flags ->
    begins o f p read_axis_record 20 []
| BeginsInstanceRecord n : begins o f p (read_instance_record n) 4 []
| BeginsInstanceRecordArray n flags : flags_at (checked_flags o) 0xFFFF f (p + 2) flags ->
    begins o f p (read_instance_record n) (6 + 4 * n) []
(* Fields that are read by themselves *)
| BeginsCoverageRecord : begins o f p read_coverage_record 6 []
| BeginsClassRecord : begins o f p read_class_record 6 []
| BeginsAction : begins o f p read_action 4 []
| BeginsLanguageHeader : begins o f p read_language_header 6 []
| BeginsScriptHeader : begins o f p read_script_header 6 []
| BeginsFeatureHeader : begins o f p read_feature_header 6 []
| BeginsLookupFlags : begins o f p take_lookup_flags 2 []
| BeginsValueFlags : begins o f p take_value_flags 2 []
| BeginsAxisFlags : begins o f p take_axis_flags 2 []
| BeginsInstanceFlags : begins o f p take_instance_flags 2 []
| BeginsGdefHeader : begins o f p read_gdef_header 4 []
| BeginsGdefHeader10 : u32_at f p 0x00010000 -> begins o f p read_gdef_header 12 []
| BeginsGdefHeader12 : u32_at f p 0x00010002 -> begins o f p read_gdef_header 14 []
| BeginsGdefHeader13 : u32_at f p 0x00010003 -> begins o f p read_gdef_header 18 []
| BeginsCpalHeader : begins o f p read_cpal_header 2 []
| BeginsCpalHeader01 version : u16_at f p version -> In version [0; 1] -> begins o f p read_cpal_header 12 []
| BeginsCpalHeader01Array version n : u16_at f p version -> In version [0; 1] -> u16_at f (p + 4) n ->
    begins o f p read_cpal_header (12 + 2 * n) []
| BeginsFvarHeader : begins o f p read_fvar_header 8 []
| BeginsFvarHeader2 : u16_at f (p + 6) 2 -> begins o f p read_fvar_header 16 []
(* Formats that are read by themselves *)
| BeginsOnlyCoverage1 : begins o f p read_coverage1 2 [2]
| BeginsOnlyCoverage2 : begins o f p read_coverage2 2 [6]
| BeginsOnlyClass1 : begins o f p read_class1 4 [2]
| BeginsOnlyClass2 : begins o f p read_class2 2 [6]
| BeginsOnlyDevice : begins o f p read_device 4 []
| BeginsOnlyDeviceFormat s t : u16_at f p s -> u16_at f (p + 2) t -> s <= t -> begins o f p read_device 6 []
| BeginsOnlyDeviceArray s t format : u16_at f p s -> u16_at f (p + 2) t -> s <= t ->
    u16_at f (p + 4) format -> 1 <= format <= 3 ->
    begins o f p read_device (6 + 2 * device_words s t format) []
| BeginsOnlyVariation : begins o f p read_variation 6 []
| BeginsOnlyContext1 : begins o f p read_context1 4 [2]
| BeginsOnlyContext2 : begins o f p read_context2 6 [2]
| BeginsOnlyContext3 : begins o f p read_context3 6 []
| BeginsOnlyContext3Arrays n m : u16_at f (p + 2) n -> u16_at f (p + 4) m ->
    begins o f p read_context3 (6 + 2 * n + 4 * m) []
| BeginsOnlyChainedContext1 : begins o f p read_chained_context1 4 [2]
| BeginsOnlyChainedContext2 : begins o f p read_chained_context2 10 [2]
| BeginsOnlyChainedContext3 : begins o f p read_chained_context3 2 [2; 2; 2; 4]
| BeginsOnlySingleSubstitution1 : begins o f p read_single_substitution1 6 []
| BeginsOnlySingleSubstitution2 : begins o f p read_single_substitution2 4 [2]
| BeginsOnlyAnchor1 : begins o f p read_anchor1 6 []
| BeginsOnlyAnchor2 : begins o f p read_anchor2 8 []
| BeginsOnlyAnchor3 : begins o f p read_anchor3 10 []
| BeginsOnlySingleAdjustment1 : begins o f p read_single_adjustment1 6 []
| BeginsOnlySingleAdjustment2 : begins o f p read_single_adjustment2 6 []
| BeginsOnlySingleAdjustment2Number flags : flags_at (checked_flags o) 0xFF00 f (p + 4) flags ->
    begins o f p read_single_adjustment2 8 []
| BeginsOnlyPairAdjustment1 : begins o f p read_pair_adjustment1 6 []
| BeginsOnlyPairAdjustment1Flags flags : flags_at (checked_flags o) 0xFF00 f (p + 4) flags ->
    begins o f p read_pair_adjustment1 8 []
| BeginsOnlyPairAdjustment1Array flags1 flags2 :
    flags_at (checked_flags o) 0xFF00 f (p + 4) flags1 -> flags_at (checked_flags o) 0xFF00 f (p + 6) flags2 ->
    begins o f p read_pair_adjustment1 8 [2]
| BeginsOnlyPairAdjustment2 : begins o f p read_pair_adjustment2 6 []
| BeginsOnlyPairAdjustment2Flags flags : flags_at (checked_flags o) 0xFF00 f (p + 4) flags ->
    begins o f p read_pair_adjustment2 8 []
| BeginsOnlyPairAdjustment2Rest flags1 flags2 :
    flags_at (checked_flags o) 0xFF00 f (p + 4) flags1 -> flags_at (checked_flags o) 0xFF00 f (p + 6) flags2 ->
    begins o f p read_pair_adjustment2 16 []
| BeginsOnlyCaret1 : begins o f p read_caret1 4 []
| BeginsOnlyCaret2 : begins o f p read_caret2 4 []
| BeginsOnlyCaret3 : begins o f p read_caret3 6 []
| BeginsOnlyGdefHeader1Major : begins o f p read_gdef_header1 2 []
| BeginsOnlyGdefHeader1Minor : u16_at f p 1 -> begins o f p read_gdef_header1 4 []
| BeginsOnlyGdefHeader1 : u16_at f p 1 -> u16_at f (p + 2) 0 -> begins o f p read_gdef_header1 12 []
| BeginsOnlyGdefHeader12Major : begins o f p read_gdef_header12 2 []
| BeginsOnlyGdefHeader12Minor : u16_at f p 1 -> begins o f p read_gdef_header12 4 []
| BeginsOnlyGdefHeader12 : u16_at f p 1 -> u16_at f (p + 2) 2 -> begins o f p read_gdef_header12 14 []
| BeginsOnlyGdefHeader13Major : begins o f p read_gdef_header13 2 []
| BeginsOnlyGdefHeader13Minor : u16_at f p 1 -> begins o f p read_gdef_header13 4 []
| BeginsOnlyGdefHeader13 : u16_at f p 1 -> u16_at f (p + 2) 3 -> begins o f p read_gdef_header13 18 []
| BeginsOnlyCpalHeader0Version : begins o f p read_cpal_header0 2 []
| BeginsOnlyCpalHeader0 : u16_at f p 0 -> begins o f p read_cpal_header0 12 []
| BeginsOnlyCpalHeader0Array n : u16_at f p 0 -> u16_at f (p + 4) n ->
    begins o f p read_cpal_header0 (12 + 2 * n) []
| BeginsOnlyCpalHeader1Version : begins o f p read_cpal_header1 2 []
| BeginsOnlyCpalHeader1 : u16_at f p 1 -> begins o f p read_cpal_header1 12 []
| BeginsOnlyCpalHeader1Array n : u16_at f p 1 -> u16_at f (p + 4) n ->
    begins o f p read_cpal_header1 (12 + 2 * n) [].

(** The parts that start with a format number, and the numbers that are known. *)
Inductive formatted : forall {A : Type}, M A -> list N -> Prop :=
| FormattedCoverage : formatted read_coverage [1; 2]
| FormattedClass : formatted read_class [1; 2]
| FormattedContext : formatted read_context [1; 2; 3]
| FormattedChainedContext : formatted read_chained_context [1; 2; 3]
| FormattedSingleSubstitution : formatted read_single_substitution [1; 2]
| FormattedSingleAdjustment : formatted read_single_adjustment [1; 2]
| FormattedPairAdjustment : formatted read_pair_adjustment [1; 2]
| FormattedAnchor : formatted read_anchor [1; 2; 3].

(** The parts that have a number that can have one value only, after how many bytes, and the value. *)
Inductive fixed (f : file) (p : N) : forall {A : Type}, M A -> N -> N -> Prop :=
| FixedLanguageRecord : fixed f p read_language_record 0 0
| FixedFeatureVariationsMajor : fixed f p read_feature_variations 0 1
| FixedFeatureVariationsMinor : u16_at f p 1 -> fixed f p read_feature_variations 2 0
| FixedMultipleSubstitution : fixed f p read_multiple_substitution 0 1
| FixedAlternateSubstitution : fixed f p read_alternate_substitution 0 1
| FixedLigatureSubstitution : fixed f p read_ligature_substitution 0 1
| FixedExtensionSubstitution : fixed f p read_extension_substitution 0 1
| FixedCursive : fixed f p read_cursive_attachment 0 1
| FixedMarkToBase : fixed f p read_mark_to_base_attachment 0 1
| FixedMarkToLigature : fixed f p read_mark_to_ligature_attachment 0 1
| FixedMarkToMark : fixed f p read_mark_to_mark_attachment 0 1
| FixedExtensionPositioning : fixed f p read_extension_positioning 0 1
| FixedMarks : fixed f p read_marks 0 1
| FixedStore : fixed f p read_store 0 1
| FixedFvar : fixed f p read_font_variations 6 2
| FixedFvarHeader : fixed f p read_fvar_header 6 2
| FixedGdefHeader1Major : fixed f p read_gdef_header1 0 1
| FixedGdefHeader1Minor : u16_at f p 1 -> fixed f p read_gdef_header1 2 0
| FixedGdefHeader12Major : fixed f p read_gdef_header12 0 1
| FixedGdefHeader12Minor : u16_at f p 1 -> fixed f p read_gdef_header12 2 2
| FixedGdefHeader13Major : fixed f p read_gdef_header13 0 1
| FixedGdefHeader13Minor : u16_at f p 1 -> fixed f p read_gdef_header13 2 3
| FixedCpalHeader0 : fixed f p read_cpal_header0 0 0
| FixedCpalHeader1 : fixed f p read_cpal_header1 0 1.

(** The parts that have a set of flags, after how many bytes, and the bits that are reserved. *)
Inductive flagged (o : options) (f : file) (p : N) : forall {A : Type}, M A -> N -> N -> Prop :=
| FlaggedLookupRecord T (read_table : N -> M T) : flagged o f p (read_lookup_record read_table) 2 0x00E0
| FlaggedSingleAdjustment format : u16_at f p format -> In format [1; 2] ->
    flagged o f p read_single_adjustment 4 0xFF00
| FlaggedPairAdjustmentFirst format : u16_at f p format -> In format [1; 2] ->
    flagged o f p read_pair_adjustment 4 0xFF00
| FlaggedPairAdjustmentSecond format flags : u16_at f p format -> In format [1; 2] ->
    flags_at (checked_flags o) 0xFF00 f (p + 4) flags ->
    flagged o f p read_pair_adjustment 6 0xFF00
| FlaggedAxisRecord : flagged o f p read_axis_record 16 0xFFFE
| FlaggedInstanceRecord n : flagged o f p (read_instance_record n) 2 0xFFFF
| FlaggedLookupFlags : flagged o f p take_lookup_flags 0 0x00E0
| FlaggedValueFlags : flagged o f p take_value_flags 0 0xFF00
| FlaggedAxisFlags : flagged o f p take_axis_flags 0 0xFFFE
| FlaggedInstanceFlags : flagged o f p take_instance_flags 0 0xFFFF
| FlaggedOnlySingleAdjustment1 : flagged o f p read_single_adjustment1 4 0xFF00
| FlaggedOnlySingleAdjustment2 : flagged o f p read_single_adjustment2 4 0xFF00
| FlaggedOnlyPairAdjustment1First : flagged o f p read_pair_adjustment1 4 0xFF00
| FlaggedOnlyPairAdjustment1Second flags : flags_at (checked_flags o) 0xFF00 f (p + 4) flags ->
    flagged o f p read_pair_adjustment1 6 0xFF00
| FlaggedOnlyPairAdjustment2First : flagged o f p read_pair_adjustment2 4 0xFF00
| FlaggedOnlyPairAdjustment2Second flags : flags_at (checked_flags o) 0xFF00 f (p + 4) flags ->
    flagged o f p read_pair_adjustment2 6 0xFF00.

(** [fault o f p m x]: the part [m] at [p] is at fault itself, and [x] is how. *)
Inductive fault (o : options) (f : file) (p : N) : forall {A : Type}, M A -> error -> Prop :=
(* Something is missing. *)
| FaultFields A (m : M A) k sizes : begins o f p m k sizes -> misses f p k -> fault o f p m UnexpectedEnd
| FaultArrays A (m : M A) k sizes : begins o f p m k sizes -> cut f (p + k) sizes -> fault o f p m UnexpectedEnd
(* A format, version or type is unknown. *)
| FaultFormat A (m : M A) known : formatted m known -> other_format f p known -> fault o f p m UnknownFormat
| FaultCorrection : intact f p 4 -> other_format f (p + 4) [1; 2; 3; 0x8000] ->
    fault o f p read_correction UnknownFormat
| FaultCaret n : u32_at f p n -> ~ In n [1; 2; 3] -> fault o f p read_caret UnknownFormat
| FaultGdef n : u32_at f p n -> ~ In n [0x00010000; 0x00010002; 0x00010003] ->
    fault o f p read_glyph_definition UnknownFormat
| FaultDirectory T (read_table : N -> M T) : other_version f p ->
    fault o f p (read_directory read_table) UnknownVersion
| FaultCpal : other_format f p [0; 1] -> fault o f p read_color_palettes UnknownVersion
| FaultGsubType t : ~ 1 <= t <= 8 -> fault o f p (read_gsub_type t) UnknownType
| FaultGposType t : ~ 1 <= t <= 9 -> fault o f p (read_gpos_type t) UnknownType
(* A number has another value than the only one allowed. *)
| FaultFixed A (m : M A) k c n : fixed f p m k c -> intact f p k -> u16_at f (p + k) n -> n <> c ->
    fault o f p m UnexpectedValue
(* Reserved bits of flags are set. *)
| FaultFlags A (m : M A) k reserved n : flagged o f p m k reserved -> checked_flags o = true ->
    intact f p k -> u16_at f (p + k) n -> N.land n reserved <> 0 -> fault o f p m InvalidFlags
(* The last size of a device table is below the first; a count that includes the first glyph is zero. *)
| FaultDevice s t format : u16_at f p s -> u16_at f (p + 2) t -> t < s ->
    u16_at f (p + 4) format -> 1 <= format <= 3 -> fault o f p read_correction Malformed
| FaultContextRecord : u16_at f p 0 -> intact f (p + 2) 2 -> fault o f p read_context_record Malformed
| FaultContextClassRecord : u16_at f p 0 -> intact f (p + 2) 2 ->
  fault o f p read_context_class_record Malformed
| FaultChainedRecord n : u16_at f p n -> intact f (p + 2) (2 * n) -> u16_at f (p + 2 + 2 * n) 0 ->
    fault o f p read_chained_record Malformed
| FaultChainedClassRecord n : u16_at f p n -> intact f (p + 2) (2 * n) -> u16_at f (p + 2 + 2 * n) 0 ->
    fault o f p read_chained_class_record Malformed
| FaultLigature : intact f p 2 -> u16_at f (p + 2) 0 -> fault o f p read_ligature Malformed
(* The tag at the beginning is not one that is read. *)
| FaultCollection d : tag_at f p (Tag "t" "t" "c" "f") -> fault o f p (read_file d) Unsupported
| FaultTag d : other_tag d f p -> fault o f p (read_font d) Unsupported
(* A header or a device table that is read by itself: the sizes of the latter are checked before its format
   is read. *)
| FaultGdefHeader n : u32_at f p n -> ~ In n [0x00010000; 0x00010002; 0x00010003] ->
    fault o f p read_gdef_header UnknownFormat
| FaultCpalHeader : other_format f p [0; 1] -> fault o f p read_cpal_header UnknownVersion
| FaultOnlyDevice s t : u16_at f p s -> u16_at f (p + 2) t -> t < s -> fault o f p read_device Malformed
| FaultOnlyDeviceFormat s t : u16_at f p s -> u16_at f (p + 2) t -> s <= t ->
    other_format f (p + 4) [1; 2; 3] -> fault o f p read_device UnknownFormat.

Definition faulty (o : options) (f : file) (x : error) (y : part) : Prop := let '(Part m p) :=
  y in fault o f p m x.
