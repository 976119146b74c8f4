{
  "claims": [
    {
      "property": "C01",
      "status": "proved",
      "theorems": [
        "C01_collections_refused"
      ],
      "note": "Proved for all inputs."
    },
    {
      "property": "C02",
      "status": "proved",
      "theorems": [
        "C02_file_is_directory"
      ],
      "note": "Proved for all inputs."
    },
    {
      "property": "C03",
      "status": "proved",
      "theorems": [
        "C03_presence"
      ],
      "note": "Proved for all inputs."
    },
    {
      "property": "C04",
      "status": "proved",
      "theorems": [
        "C04_take_first",
        "C04_others_ignored"
      ],
      "note": "Proved for all inputs."
    },
    {
      "property": "C05",
      "status": "proved",
      "theorems": [
        "C05_checksum_gate",
        "C05_checksum_ignored"
      ],
      "note": "The computed checksum is a parameter (record_checksum, from the dependency truetype); the theorems hold for every such function."
    },
    {
      "property": "C06",
      "status": "proved",
      "theorems": [
        "C06_history"
      ],
      "note": "Proved for all inputs."
    },
    {
      "property": "C07",
      "status": "proved",
      "theorems": [
        "C07_distinct_tags",
        "C07_records_apart",
        "C07_names"
      ],
      "note": "Proved for all inputs."
    },
    {
      "property": "C08",
      "status": "proved",
      "theorems": [
        "C08_acceptance"
      ],
      "note": "The tags the dependency truetype accepts are a parameter; the theorem holds for every choice."
    },
    {
      "property": "C09",
      "status": "proved",
      "theorems": [
        "C09_tags_round_trip"
      ],
      "note": "Proved for all inputs."
    },
    {
      "property": "C10",
      "status": "partial",
      "theorems": [
        "C10_features_round_trip",
        "C10_features_distinct",
        "C10_languages_round_trip",
        "C10_languages_distinct",
        "C10_scripts_refuted",
        "C10_scripts_partial"
      ],
      "note": "REFUTED for Script: Hiragana and Katakana share the tag kana, so Katakana does not survive (C10_scripts_refuted, the property negated). C10_scripts_partial is the exact remainder: every other script survives. Proved in full for Feature and Language."
    },
    {
      "property": "C11",
      "status": "proved",
      "theorems": [
        "C11_feature_names",
        "C11_script_names",
        "C11_language_names",
        "C11_codes"
      ],
      "note": "Proved for all inputs."
    },
    {
      "property": "C12",
      "status": "proved",
      "theorems": [
        "C12_gsub",
        "C12_gpos"
      ],
      "note": "Proved for all inputs."
    },
    {
      "property": "C13",
      "status": "proved",
      "theorems": [
        "C13_coverage",
        "C13_other_formats"
      ],
      "note": "Proved for all inputs."
    },
    {
      "property": "C14",
      "status": "proved",
      "theorems": [
        "C14_class",
        "C14_other_formats"
      ],
      "note": "Proved for all inputs."
    },
    {
      "property": "C15",
      "status": "proved",
      "theorems": [
        "C15_correction",
        "C15_other_formats"
      ],
      "note": "Proved for all inputs."
    },
    {
      "property": "C16",
      "status": "proved",
      "theorems": [
        "C16_context",
        "C16_other_formats"
      ],
      "note": "Proved for all inputs."
    },
    {
      "property": "C17",
      "status": "proved",
      "theorems": [
        "C17_chained_context",
        "C17_other_formats"
      ],
      "note": "Proved for all inputs."
    },
    {
      "property": "C18",
      "status": "proved",
      "theorems": [
        "C18_scripts"
      ],
      "note": "Proved for all inputs."
    },
    {
      "property": "C19",
      "status": "proved",
      "theorems": [
        "C19_features"
      ],
      "note": "Proved for all inputs."
    },
    {
      "property": "C20",
      "status": "proved",
      "theorems": [
        "C20_lookups",
        "C20_gsub_lookups",
        "C20_gpos_lookups"
      ],
      "note": "Proved for all inputs."
    },
    {
      "property": "C21",
      "status": "proved",
      "theorems": [
        "C21_gsub_type",
        "C21_other_types"
      ],
      "note": "Proved for all inputs."
    },
    {
      "property": "C22",
      "status": "proved",
      "theorems": [
        "C22_gpos_type",
        "C22_other_types"
      ],
      "note": "Proved for all inputs."
    },
    {
      "property": "C23",
      "status": "proved",
      "theorems": [
        "C23_value_record",
        "C23_value_size"
      ],
      "note": "Proved for all inputs."
    },
    {
      "property": "C24",
      "status": "proved",
      "theorems": [
        "C24_marks",
        "C24_bases",
        "C24_ligatures",
        "C24_second_marks"
      ],
      "note": "Proved for all inputs."
    },
    {
      "property": "C25",
      "status": "proved",
      "theorems": [
        "C25_gsub",
        "C25_gpos",
        "C25_gsub_versions",
        "C25_gpos_versions"
      ],
      "note": "Proved for all inputs."
    },
    {
      "property": "C26",
      "status": "proved",
      "theorems": [
        "C26_gdef",
        "C26_gdef_release",
        "C26_versions"
      ],
      "note": "Proved for all inputs."
    },
    {
      "property": "C27",
      "status": "proved",
      "theorems": [
        "C27_store",
        "C27_store_release"
      ],
      "note": "Proved for all inputs."
    },
    {
      "property": "C28",
      "status": "proved",
      "theorems": [
        "C28_cpal",
        "C28_versions"
      ],
      "note": "Proved for all inputs."
    },
    {
      "property": "C29",
      "status": "proved",
      "theorems": [
        "C29_palettes",
        "C29_safe"
      ],
      "note": "Proved for all inputs."
    },
    {
      "property": "C30",
      "status": "proved",
      "theorems": [
        "C30_fvar"
      ],
      "note": "Proved for all inputs."
    },
    {
      "property": "C31",
      "status": "proved",
      "theorems": [
        "C31_shape"
      ],
      "note": "Proved for all inputs."
    },
    {
      "property": "C32",
      "status": "proved",
      "theorems": [
        "C32_reads",
        "C32_takes"
      ],
      "note": "Proved for all inputs."
    },
    {
      "property": "C33",
      "status": "partial",
      "theorems": [
        "C33_tables",
        "C33_panics_exactly",
        "C33_release_partial",
        "C33_never_panics_refuted"
      ],
      "note": "REFUTED: in a build with overflow checks the u16 sum short_delta_count + region_count panics (C33_never_panics_refuted). C33_panics_exactly says exactly which files panic; C33_release_partial proves the property for builds without overflow checks. C33_tables: no other table can make any build panic."
    },
    {
      "property": "C34",
      "status": "proved",
      "theorems": [
        "C34_errors",
        "C34_gdef_errors",
        "C34_unique"
      ],
      "note": "Proved for all inputs."
    },
    {
      "property": "C35",
      "status": "proved",
      "theorems": [
        "C35_appended",
        "C35_truncated",
        "C35_hopeless",
        "C35_holes"
      ],
      "note": "Proved for all inputs."
    },
    {
      "property": "C36",
      "status": "proved",
      "theorems": [
        "C36_relocatable",
        "C36_outcome"
      ],
      "note": "Proved for all inputs."
    },
    {
      "property": "C37",
      "status": "proved",
      "theorems": [
        "C37_gsub_complete",
        "C37_gpos_complete",
        "C37_gsub_missing",
        "C37_gpos_missing",
        "C37_gsub_empty",
        "C37_gpos_empty"
      ],
      "note": "Proved for all inputs."
    },
    {
      "property": "C38",
      "status": "proved",
      "theorems": [
        "C38_complete_arrays",
        "C38_complete_tables",
        "C38_missing_anchors"
      ],
      "note": "Proved for all inputs."
    },
    {
      "property": "C39",
      "status": "partial",
      "theorems": [
        "C39_carets_refuted",
        "C39_carets_fail",
        "C39_carets_read",
        "C39_gdef_unread"
      ],
      "note": "REFUTED: the reader peeks a u32 and compares it with 1, 2, 3, so it takes the format and the next field together. C39_carets_fail: every caret value of the OpenType format is refused. C39_carets_read: the exact behaviour. C39_gdef_unread: a GDEF with a caret whose format is not zero cannot be read."
    },
    {
      "property": "C40",
      "status": "partial",
      "theorems": [
        "C40_devices_refuted",
        "C40_length",
        "C40_last_refused",
        "C40_devices_partial"
      ],
      "note": "REFUTED: when the deltas fill their last word exactly one word too many is read. C40_length is the exact length; C40_last_refused: such a table at the end of a file is refused; C40_devices_partial: agreement with the format in every other case."
    },
    {
      "property": "C41",
      "status": "partial",
      "theorems": [
        "C41_variations_refuted",
        "C41_at_marks",
        "C41_variations_partial"
      ],
      "note": "REFUTED: the version 1.3 reader uses mark_offset for the variation store. C41_at_marks is the exact behaviour; C41_variations_partial: agreement whenever the two offsets agree."
    },
    {
      "property": "C42",
      "status": "partial",
      "theorems": [
        "C42_instances_refuted",
        "C42_next_name",
        "C42_last_refused",
        "C42_instances_partial"
      ],
      "note": "REFUTED: the optional PostScript name is always read. C42_next_name: without room it is the next instance's subfamily name; C42_last_refused: a last record at the end of the file is refused; C42_instances_partial: with room only the declared bytes matter."
    },
    {
      "property": "C43",
      "status": "partial",
      "theorems": [
        "C43_parameters_refuted",
        "C43_empty"
      ],
      "note": "REFUTED: C43_empty is the exact behaviour, the parameters are Some of an empty vector whenever the offset is not zero."
    },
    {
      "property": "C44",
      "status": "partial",
      "theorems": [
        "C44_format1_refuted",
        "C44_format1_context",
        "C44_format1_chained",
        "C44_format2_context_partial",
        "C44_format2_chained_partial"
      ],
      "note": "REFUTED for format 1 (C44_format1_refuted): C44_format1_context and C44_format1_chained give the exact behaviour, the lookup's own header is read as a rule set. Format 2 has the property (the two partial theorems)."
    },
    {
      "property": "C45",
      "status": "partial",
      "theorems": [
        "C45_declared_length_refuted",
        "C45_declared_offset_partial"
      ],
      "note": "REFUTED: the declared length is not used by take. C45_declared_offset_partial: bytes before the declared offset have no influence."
    },
    {
      "property": "C46",
      "status": "partial",
      "theorems": [
        "C46_deltas_refuted",
        "C46_long_words",
        "C46_deltas_partial"
      ],
      "note": "REFUTED for the flag LONG_WORDS: C46_long_words shows the byte count is then never the right one. C46_deltas_partial: right in every other case."
    },
    {
      "property": "C47",
      "status": "partial",
      "theorems": [
        "C47_size_refuted",
        "C47_pairs",
        "C47_glyphs",
        "C47_coordinates",
        "C47_substitutes",
        "C47_records_partial",
        "C47_colors_partial"
      ],
      "note": "REFUTED: C47_pairs gives for every n, m < 65536 a 48-byte GPOS table with n*m pairs; C47_glyphs a GDEF table with quadratic growth, C47_coordinates an fvar table of 36 + 4 n bytes with n*m coordinates, C47_substitutes a GSUB table with cubic growth. C47_records_partial and C47_colors_partial: the table directory and CPAL stay within the size of the file. C76 gives the bound that does hold, a polynomial in the size of the file, and shows that its degree is attained."
    },
    {
      "property": "C48",
      "status": "proved",
      "theorems": [
        "C48_other_features",
        "C48_other_scripts",
        "C48_other_languages"
      ],
      "note": "Proved for all inputs."
    },
    {
      "property": "C49",
      "status": "proved",
      "theorems": [
        "C49_same_result",
        "C49_same_or_panic",
        "C49_gdef"
      ],
      "note": "Proved for all inputs."
    },
    {
      "property": "C50",
      "status": "proved",
      "theorems": [
        "C50_read_back"
      ],
      "note": "The encoder (Writer.v) is not part of the code, which has none; it is only a way to say that all values are attainable. writable excludes encodings of 64 KiB or more, and GDEF 1.3 with mark glyph sets (C41: the code reads two structures from their offset)."
    },
    {
      "property": "C51",
      "status": "proved",
      "theorems": [
        "C51_in_range"
      ],
      "note": "Proved for all inputs."
    },
    {
      "property": "C52",
      "status": "proved",
      "theorems": [
        "C52_rewritten"
      ],
      "note": "Proved for all inputs."
    },
    {
      "property": "C53",
      "status": "proved",
      "theorems": [
        "C53_canonical"
      ],
      "note": "Proved for all inputs."
    },
    {
      "property": "C54",
      "status": "proved",
      "theorems": [
        "C54_possible",
        "C54_tags",
        "C54_checksums",
        "C54_versions",
        "C54_types",
        "C54_formats",
        "C54_subtable_formats",
        "C54_constants",
        "C54_feature_variations",
        "C54_fvar",
        "C54_empty_rules",
        "C54_devices",
        "C54_lookup_flags",
        "C54_value_flags",
        "C54_fvar_flags",
        "C54_exact"
      ],
      "note": "Proved for all inputs."
    },
    {
      "property": "C55",
      "status": "proved",
      "theorems": [
        "C55_file",
        "C55_take",
        "C55_absent"
      ],
      "note": "Proved for all inputs."
    },
    {
      "property": "C56",
      "status": "proved",
      "theorems": [
        "C56_gsub",
        "C56_gpos"
      ],
      "note": "Proved for all inputs."
    },
    {
      "property": "C57",
      "status": "partial",
      "theorems": [
        "C57_refused_refuted",
        "C57_gsub_lists",
        "C57_gpos_lists",
        "C57_marks",
        "C57_marks_refused"
      ],
      "note": "REFUTED: C57_refused_refuted gives a 14-byte table whose zero script list offset is read as a script with a tag of four zero bytes. C57_gsub_lists and C57_gpos_lists are the exact behaviour (the list is the header of the table), C57_marks and C57_marks_refused the same for anchors of marks: only an array of at most three marks can be misread, a longer one is refused."
    },
    {
      "property": "C58",
      "status": "proved",
      "theorems": [
        "C58_exactly",
        "C58_strict"
      ],
      "note": "Proved for all inputs."
    },
    {
      "property": "C59",
      "status": "proved",
      "theorems": [
        "C59_bits",
        "C59_invalid",
        "C59_gsub_lookups",
        "C59_gpos_lookups",
        "C59_values",
        "C59_absent_values",
        "C59_value_flags",
        "C59_fvar"
      ],
      "note": "Proved for all inputs."
    },
    {
      "property": "C60",
      "status": "proved",
      "theorems": [
        "C60_empty",
        "C60_coverage",
        "C60_class",
        "C60_correction",
        "C60_anchor",
        "C60_gdef",
        "C60_marks",
        "C60_scripts",
        "C60_features",
        "C60_gsub_lookups",
        "C60_gpos_lookups"
      ],
      "note": "Proved for all inputs."
    },
    {
      "property": "C61",
      "status": "partial",
      "theorems": [
        "C61_resolve_refuted",
        "C61_indices",
        "C61_resolved",
        "C61_extensions"
      ],
      "note": "REFUTED: C61_indices gives for every n < 65536 and every build a table in which all indices are n; by C61_resolved these resolve only if n = 0. C61_extensions does the same for extension subtables, whose targets are never read."
    },
    {
      "property": "C62",
      "status": "partial",
      "theorems": [
        "C62_sorted_refuted",
        "C62_coverage",
        "C62_class",
        "C62_axes"
      ],
      "note": "REFUTED: C62_coverage, C62_class and C62_axes show that every coverage, class definition and list of axes that fits its fields is read, whatever its order."
    },
    {
      "property": "C63",
      "status": "proved",
      "theorems": [
        "C63_consumed",
        "C63_font",
        "C63_file",
        "C63_cpal",
        "C63_fvar",
        "C63_runs",
        "C63_cursor"
      ],
      "note": "Proved for all inputs."
    },
    {
      "property": "C64",
      "status": "proved",
      "theorems": [
        "C64_getters",
        "C64_names",
        "C64_palettes"
      ],
      "note": "Proved for all inputs."
    },
    {
      "property": "C65",
      "status": "partial",
      "theorems": [
        "C65_complete_refuted",
        "C65_twice",
        "C65_gsub",
        "C65_gpos"
      ],
      "note": "REFUTED: C65_twice gives for every tag and build a table with two features of that tag of which one is out of reach. C65_gsub and C65_gpos say exactly which records are within reach."
    },
    {
      "property": "C66",
      "status": "proved",
      "theorems": [
        "C66_local",
        "C66_take",
        "C66_exact"
      ],
      "note": "Proved for all inputs."
    },
    {
      "property": "C67",
      "status": "proved",
      "theorems": [
        "C67_extent",
        "C67_enough",
        "C67_reach",
        "C67_declared"
      ],
      "note": "Proved for all inputs."
    },
    {
      "property": "C68",
      "status": "proved",
      "theorems": [
        "C68_orders",
        "C68_other_features",
        "C68_other_scripts",
        "C68_other_languages",
        "C68_features",
        "C68_features_late",
        "C68_languages",
        "C68_languages_late"
      ],
      "note": "Proved for all inputs."
    },
    {
      "property": "C69",
      "status": "proved",
      "theorems": [
        "C69_variants",
        "C69_sets",
        "C69_features",
        "C69_scripts"
      ],
      "note": "Proved for all inputs."
    },
    {
      "property": "C70",
      "status": "partial",
      "theorems": [
        "C70_fvar_refuted",
        "C70_reverse_refuted",
        "C70_fvar",
        "C70_reverse",
        "C70_gsub_partial",
        "C70_gpos_partial",
        "C70_gdef_partial",
        "C70_cpal_partial"
      ],
      "note": "REFUTED for fvar (C70_fvar_refuted) and for GSUB lookups of type 8 (C70_reverse_refuted). C70_fvar and C70_reverse are the exact behaviour: any version or format gives the same value but for that number. The partial theorems are the property for the versions of GSUB, GPOS, GDEF and CPAL; formats of other subtables are part of C13 to C27, since the variants of a value carry them."
    },
    {
      "property": "C71",
      "status": "proved",
      "theorems": [
        "C71_error",
        "C71_value",
        "C71_panic",
        "C71_blame",
        "C71_blame_panic",
        "C71_complete"
      ],
      "note": "Proved for all inputs."
    },
    {
      "property": "C72",
      "status": "proved",
      "theorems": [
        "C72_common",
        "C72_exact",
        "C72_needed",
        "C72_within"
      ],
      "note": "Proved for all inputs."
    },
    {
      "property": "C73",
      "status": "proved",
      "theorems": [
        "C73_missing",
        "C73_provided",
        "C73_exact",
        "C73_short",
        "C73_take"
      ],
      "note": "Proved for all inputs."
    },
    {
      "property": "C74",
      "status": "proved",
      "theorems": [
        "C74_elsewhere",
        "C74_take",
        "C74_replaced",
        "C74_update"
      ],
      "note": "Proved for all inputs."
    },
    {
      "property": "C75",
      "status": "proved",
      "theorems": [
        "C75_directory",
        "C75_getters"
      ],
      "note": "Proved for all inputs."
    },
    {
      "property": "C76",
      "status": "proved",
      "theorems": [
        "C76_parts",
        "C76_weight",
        "C76_extent",
        "C76_degree_gsub",
        "C76_degree_gpos",
        "C76_degree_gdef",
        "C76_degree_fvar"
      ],
      "note": "Proved for all inputs. The positive companion of C47: upper bounds for every table, and families of GSUB, GPOS and GDEF tables that attain the degrees (C47_coordinates does so for fvar)."
    },
    {
      "property": "C77",
      "status": "proved",
      "theorems": [
        "C77_gsub",
        "C77_gpos",
        "C77_gdef",
        "C77_fvar",
        "C77_cpal",
        "C77_gsub_read",
        "C77_gpos_read",
        "C77_gpos_end",
        "C77_gdef_carets",
        "C77_gdef_skipped",
        "C77_gdef_read"
      ],
      "note": "Proved for all inputs. The list of departures is exact: each of C39, C40, C41, C43, C46 and C33 is on it. What the crate's types cannot express (NULL rule sets in contexts of format 1, C44; instances without a PostScript name, C42) has no value and is not covered; nor is what the standard demands beyond layout, such as sorted glyphs (C62)."
    },
    {
      "property": "C78",
      "status": "proved",
      "theorems": [
        "C78_any_tape",
        "C78_any_take",
        "C78_sound_tape",
        "C78_failures",
        "C78_flaky",
        "C78_buffered"
      ],
      "note": "Proved for all inputs. The readers are restated as trees of steps (StepsReaders.v, the same text over another monad), and proved to do on a file what those of the model do. For a tape that answers wrongly, or whose content changes while it is read, see C80."
    },
    {
      "property": "C79",
      "status": "proved",
      "theorems": [
        "C79_parts",
        "C79_parts_proportion",
        "C79_work",
        "C79_take",
        "C79_proportion",
        "C79_degree_gsub",
        "C79_degree_gpos",
        "C79_degree_gdef",
        "C79_degree_fvar"
      ],
      "note": "Proved for all inputs and all outcomes. The steps are those of the trees of C78; arithmetic, allocation and copying are not counted. The constants are not the least ones; that the degrees are, for whole tables, is C79_degree_gsub, C79_degree_gpos and C79_degree_gdef."
    },
    {
      "property": "C80",
      "status": "proved",
      "theorems": [
        "C80_any_answers",
        "C80_any_answers_take",
        "C80_exact",
        "C80_patchwork",
        "C80_torn",
        "C80_elsewhere",
        "C80_elsewhere_take",
        "C80_errors",
        "C80_crashes"
      ],
      "note": "Proved for all inputs. The values are those of the trees of steps of C78. That a torn value can be one of no file is C80_torn; the bytes that are needed are those of C72. C80_exact says that nothing more can be known of a value than its shape (SpecLoose.v) and the ranges of its fields (SpecRanges.v). C80_errors and C80_crashes say exactly which errors and panics are possible on some tape (SpecReports.v)."
    },
    {
      "property": "C81",
      "status": "proved",
      "theorems": [
        "C81_open",
        "C81_any_reader",
        "C81_index",
        "C81_gsub",
        "C81_gpos",
        "C81_gdef",
        "C81_fvar",
        "C81_cpal"
      ],
      "note": "Proved for all inputs. The two calls of the caller are one definition, open_take (ModelOpen.v); SpecOpen.v describes the directory by positions of bytes. C81_open assumes that the checksum function of the dependency does not panic, and for GDEF a build without overflow checks; C81_any_reader assumes nothing."
    },
    {
      "property": "C82",
      "status": "proved",
      "theorems": [
        "C82_file_errors",
        "C82_file_crashes",
        "C82_values",
        "C82_read_values",
        "C82_exactly",
        "C82_reads",
        "C82_unique",
        "C82_holes",
        "C82_relocatable",
        "C82_any_tape",
        "C82_no_panic",
        "C82_own_tables",
        "C82_errors",
        "C82_crashes",
        "C82_outcome"
      ],
      "note": "Proved for all inputs; Pieces.v lists the types, each with its reader, its format and its steps. Item variations are excluded from the absence of panics with overflow checks (C33), and so are positions beyond 2^63 (C83). C82_values says exactly which values a part can have, whatever the tape (SpecValues.v). C82_errors and C82_crashes do the same for errors and panics (SpecReports.v). C82_file_errors and C82_file_crashes say which of them are possible for a file; for C82_file_errors numbers of classes of marks have sixteen bits, as in the code, and positions are below 2^62."
    },
    {
      "property": "C83",
      "status": "partial",
      "theorems": [
        "C83_no_panic_refuted",
        "C83_far_panics",
        "C83_mark"
      ],
      "note": "Finding: false of the code. C83_no_panic_refuted has the witness, C83_far_panics one for each of the nine types, C83_mark says exactly when Mark1 panics. The readers of whole tables never pass such a position (C82_no_panic, C80)."
    },
    {
      "property": "C84",
      "status": "proved",
      "theorems": [
        "C84_again",
        "C84_parts",
        "C84_shared",
        "C84_flags"
      ],
      "note": "Proved for all inputs. SpecPlaces.v lists, for each type, its parts with their positions. C56 is the case of scripts, languages, features, lookups and subtables of one directory; C71 says which part an error comes from, without the values. Subtables behind an extension are not followed, since the crate does not follow them."
    },
    {
      "property": "C85",
      "status": "partial",
      "theorems": [
        "C85_ends_refuted",
        "C85_exactly",
        "C85_loop",
        "C85_steps",
        "C85_once"
      ],
      "note": "Finding: false of the code, which does not check the type an extension gives (see also C61_extensions). C85_exactly and C85_loop say when it is false, C85_steps and C85_once what holds otherwise."
    },
    {
      "property": "C86",
      "status": "proved",
      "theorems": [
        "C86_exactly",
        "C86_enough",
        "C86_same",
        "C86_parts",
        "C86_take"
      ],
      "note": "Proved for all inputs. SpecOwned.v gives for each type the size of the fields it has by itself, SpecPlaces.v its parts. C72 says what the needed bytes are enough for; this says which they are. A default list or anchor has no bytes."
    },
    {
      "property": "C87",
      "status": "proved",
      "theorems": [
        "C87_error",
        "C87_panic",
        "C87_value",
        "C87_part",
        "C87_piece_error",
        "C87_piece_panic",
        "C87_piece_value",
        "C87_open",
        "C87_open_panic",
        "C87_open_any"
      ],
      "note": "Proved for all inputs. SpecFaults.v lists for each part what it begins with and which values its fields may have; SpecParts.v (C71) its parts. C71 says how the error of a part becomes that of the table; this says which parts are in error, and why, without running them. C87_open adds opening a file, with the checksum of the crate truetype as a parameter. C87_piece_* are about every type of Pieces.v; a base, which is the position of a reader, is below 2^63."
    },
    {
      "property": "C88",
      "status": "partial",
      "theorems": [
        "C88_same_tables_refuted",
        "C88_exactly",
        "C88_early",
        "C88_adjusted",
        "C88_adjusted_absent",
        "C88_collection",
        "C88_member",
        "C88_checksum",
        "C88_shared"
      ],
      "note": "Finding: false of the code, which counts offsets from the beginning of the tape (as in a collection) but reads the directory at its position. C88_same_tables_refuted has a witness in which another table is returned and its checksum is right. C88_exactly and C88_early say what happens instead, C88_adjusted and C88_adjusted_absent what a caller has to do, C88_checksum that checksums need no adjustment, C88_collection, C88_member and C88_shared what works in collections."
    },
    {
      "property": "C89",
      "status": "partial",
      "theorems": [
        "C89_default_refuted",
        "C89_fallback_refuted",
        "C89_ignored",
        "C89_exactly"
      ],
      "note": "Finding: false of the code, which looks up languages in the headers only. C89_default_refuted and C89_fallback_refuted have a witness, C89_ignored and C89_exactly say what get does instead."
    },
    {
      "property": "C90",
      "status": "partial",
      "theorems": [
        "C90_variations_refuted",
        "C90_extensions_refuted",
        "C90_palettes_refuted",
        "C90_regions_refuted",
        "C90_variations_any",
        "C90_variations_number",
        "C90_extensions_any",
        "C90_palettes_any",
        "C90_regions_any"
      ],
      "note": "Finding: false of the code. The four theorems _refuted say for every build that no function of the value gives the part; C90_variations_any, C90_extensions_any, C90_palettes_any and C90_regions_any say what can be changed without a trace. C90_variations_number: the number of records is told."
    },
    {
      "property": "C91",
      "status": "partial",
      "theorems": [
        "C91_refused_refuted",
        "C91_coverage",
        "C91_always",
        "C91_bases",
        "C91_classes",
        "C91_marks",
        "C91_contexts_partial",
        "C91_definitions_partial"
      ],
      "note": "Finding: false of the code. C91_refused_refuted has a witness; C91_coverage and C91_always, C91_bases, C91_classes and C91_marks say what is read instead. C91_contexts_partial and C91_definitions_partial: the property where it does hold. Rule sets are the subject of C44, lists and anchors of C57."
    },
    {
      "property": "C92",
      "status": "partial",
      "theorems": [
        "C92_substitution_refuted",
        "C92_positioning_refuted",
        "C92_classes_refuted",
        "C92_gsub",
        "C92_gpos",
        "C92_substitutes",
        "C92_marks"
      ],
      "note": "Finding: false of the code. C92_substitution_refuted, C92_positioning_refuted and C92_classes_refuted have witnesses; C92_gsub and C92_gpos say that every subtable which fits its fields is read from some file, balanced or not, and C92_substitutes and C92_marks single out two plain cases."
    },
    {
      "property": "C93",
      "status": "proved",
      "theorems": [
        "C93_exactly",
        "C93_all",
        "C93_nothing_more",
        "C93_instances",
        "C93_axes",
        "C93_indices",
        "C93_pairs",
        "C93_palettes",
        "C93_points"
      ],
      "note": "Proved for all inputs."
    },
    {
      "property": "C94",
      "status": "proved",
      "theorems": [
        "C94_directories",
        "C94_definitions",
        "C94_anchors",
        "C94_anchor_corrections",
        "C94_value_corrections"
      ],
      "note": "Proved for all inputs."
    },
    {
      "property": "C95",
      "status": "proved",
      "theorems": [
        "C95_coverage",
        "C95_class",
        "C95_substitutions",
        "C95_adjustments",
        "C95_attachments",
        "C95_gsub",
        "C95_gpos"
      ],
      "note": "Proved for all inputs."
    },
    {
      "property": "C96",
      "status": "proved",
      "theorems": [
        "C96_enables"
      ],
      "note": "Proved for all inputs."
    },
    {
      "property": "C97",
      "status": "proved",
      "theorems": [
        "C97_contexts",
        "C97_chained_contexts",
        "C97_reverse",
        "C97_gsub",
        "C97_gpos"
      ],
      "note": "Proved for all inputs."
    },
    {
      "property": "C98",
      "status": "proved",
      "theorems": [
        "C98_devices",
        "C98_sizes",
        "C98_range"
      ],
      "note": "Proved for all inputs."
    },
    {
      "property": "C99",
      "status": "proved",
      "theorems": [
        "C99_definitions"
      ],
      "note": "Proved for all inputs."
    },
    {
      "property": "C100",
      "status": "proved",
      "theorems": [
        "C100_axes"
      ],
      "note": "Proved for all inputs."
    },
    {
      "property": "C101",
      "status": "proved",
      "theorems": [
        "C101_variations"
      ],
      "note": "Proved for all inputs."
    },
    {
      "property": "C102",
      "status": "proved",
      "theorems": [
        "C102_colors"
      ],
      "note": "Proved for all inputs."
    },
    {
      "property": "C103",
      "status": "proved",
      "theorems": [
        "C103_corrections",
        "C103_anchors",
        "C103_adjustments",
        "C103_gpos"
      ],
      "note": "Proved for all inputs."
    },
    {
      "property": "C104",
      "status": "proved",
      "theorems": [
        "C104_gsub",
        "C104_gsub_rules",
        "C104_gsub_reverse",
        "C104_gpos",
        "C104_gpos_anchors",
        "C104_gpos_corrections",
        "C104_gpos_rules",
        "C104_gdef",
        "C104_gdef_points",
        "C104_gdef_marks",
        "C104_gdef_sets",
        "C104_fvar_axes",
        "C104_fvar",
        "C104_cpal"
      ],
      "note": "Proved for all inputs."
    },
    {
      "property": "C105",
      "status": "proved",
      "theorems": [
        "C105_gsub",
        "C105_gpos",
        "C105_font_gsub",
        "C105_font_gpos"
      ],
      "note": "Proved for all inputs."
    },
    {
      "property": "C106",
      "status": "proved",
      "theorems": [
        "C106_gsub",
        "C106_gsub_rules",
        "C106_gsub_reverse",
        "C106_gpos",
        "C106_gpos_corrections",
        "C106_gpos_anchors",
        "C106_gpos_rules",
        "C106_font_gsub",
        "C106_font_gpos"
      ],
      "note": "Proved for all inputs."
    },
    {
      "property": "C107",
      "status": "proved",
      "theorems": [
        "C107_gsub_languages",
        "C107_gpos_languages",
        "C107_gsub_features",
        "C107_gpos_features",
        "C107_gsub_absent",
        "C107_gpos_absent",
        "C107_font_gsub_languages",
        "C107_font_gsub_features",
        "C107_font_gpos_languages",
        "C107_font_gpos_features"
      ],
      "note": "Proved for all inputs."
    },
    {
      "property": "C108",
      "status": "proved",
      "theorems": [
        "C108_texts",
        "C108_something",
        "C108_done",
        "C108_within",
        "C108_extensions",
        "C108_font_texts"
      ],
      "note": "Proved for all inputs."
    },
    {
      "property": "C109",
      "status": "proved",
      "theorems": [
        "C109_kerning",
        "C109_minded",
        "C109_something",
        "C109_done",
        "C109_extensions",
        "C109_font_kerning"
      ],
      "note": "Proved for all inputs."
    },
    {
      "property": "C110",
      "status": "proved",
      "theorems": [
        "C110_ligatures",
        "C110_gsub_rules",
        "C110_gpos_rules",
        "C110_gsub",
        "C110_gpos",
        "C110_some_ligature",
        "C110_some_gsub_rule",
        "C110_some_gpos_rule"
      ],
      "note": "Proved for all inputs."
    },
    {
      "property": "C111",
      "status": "proved",
      "theorems": [
        "C111_texts",
        "C111_texts_at",
        "C111_kerning",
        "C111_kerning_at",
        "C111_texts_beyond",
        "C111_kerning_beyond",
        "C111_coverages",
        "C111_classes",
        "C111_gsub_order",
        "C111_gpos_order",
        "C111_gsub_order_beyond",
        "C111_gpos_order_beyond"
      ],
      "note": "Proved for all inputs."
    },
    {
      "property": "C112",
      "status": "proved",
      "theorems": [
        "C112_origin",
        "C112_origin_beyond",
        "C112_range",
        "C112_range_beyond",
        "C112_alone",
        "C112_alone_beyond",
        "C112_still",
        "C112_still_beyond",
        "C112_inside",
        "C112_inside_beyond"
      ],
      "note": "Proved for all inputs."
    },
    {
      "property": "C113",
      "status": "proved",
      "theorems": [
        "C113_texts",
        "C113_texts_at",
        "C113_texts_beyond",
        "C113_kerning",
        "C113_kerning_at",
        "C113_kerning_beyond",
        "C113_enough",
        "C113_never"
      ],
      "note": "Proved for all inputs."
    },
    {
      "property": "C114",
      "status": "proved",
      "theorems": [
        "C114_texts",
        "C114_texts_at",
        "C114_kerning",
        "C114_kerning_at"
      ],
      "note": "Proved for all inputs."
    },
    {
      "property": "C115",
      "status": "proved",
      "theorems": [
        "C115_texts",
        "C115_texts_beyond",
        "C115_kerning",
        "C115_kerning_beyond",
        "C115_texts_at",
        "C115_kerning_at",
        "C115_plain"
      ],
      "note": "Proved for all inputs."
    },
    {
      "property": "C116",
      "status": "proved",
      "theorems": [
        "C116_shorter",
        "C116_texts",
        "C116_texts_at",
        "C116_texts_beyond",
        "C116_ready",
        "C116_done",
        "C116_kerning",
        "C116_kerning_at",
        "C116_kerning_beyond",
        "C116_heeds",
        "C116_one",
        "C116_one_way"
      ],
      "note": "Proved for all inputs. That something becomes of a text is stated as: it is not so that nothing does (a double negation). The relations of C108 and C109 are not shown to be decidable, and no axiom of classical logic is used; C116_shorter and C116_done, from which it follows, are stated directly."
    },
    {
      "property": "C117",
      "status": "proved",
      "theorems": [
        "C117_texts",
        "C117_texts_at",
        "C117_texts_beyond",
        "C117_kerning",
        "C117_kerning_at",
        "C117_kerning_beyond",
        "C117_texts_decided",
        "C117_texts_decided_at",
        "C117_kerning_decided",
        "C117_kerning_decided_at"
      ],
      "note": "Proved for all inputs. C117_texts_decided and C117_kerning_decided, and the same by the bytes, are equivalences for sets of features of which one can tell whether a feature is in them; for other sets, from fewer lookups to more, the conclusion is a double negation, as in C116."
    },
    {
      "property": "C118",
      "status": "proved",
      "theorems": [
        "C118_texts",
        "C118_texts_at",
        "C118_texts_beyond",
        "C118_kerning",
        "C118_kerning_at",
        "C118_kerning_beyond",
        "C118_no_script",
        "C118_no_script_kerning"
      ],
      "note": "Proved for all inputs."
    }
  ]
}
