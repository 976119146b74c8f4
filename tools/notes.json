{
"C05": "The computed checksum is a parameter (record_checksum, from the dependency truetype); the theorems hold for every such function.",
"C08": "The tags the dependency truetype accepts are a parameter; the theorem holds for every choice.",
"C10": "REFUTED for Script: Hiragana and Katakana share the tag kana, so Katakana does not survive (C10_scripts_refuted, the property negated). C10_scripts_partial is the exact remainder: every other script survives. Proved in full for Feature and Language.",
"C33": "REFUTED: in a build with overflow checks the u16 sum short_delta_count + region_count panics (C33_never_panics_refuted). C33_panics_exactly says exactly which files panic; C33_release_partial proves the property for builds without overflow checks. C33_tables: no other table can make any build panic.",
"C39": "REFUTED: the reader peeks a u32 and compares it with 1, 2, 3, so it takes the format and the next field together. C39_carets_fail: every caret value of the OpenType format is refused. C39_carets_read: the exact behaviour. C39_gdef_unread: a GDEF with a caret whose format is not zero cannot be read.",
"C40": "REFUTED: when the deltas fill their last word exactly one word too many is read. C40_length is the exact length; C40_last_refused: such a table at the end of a file is refused; C40_devices_partial: agreement with the format in every other case.",
"C41": "REFUTED: the version 1.3 reader uses mark_offset for the variation store. C41_at_marks is the exact behaviour; C41_variations_partial: agreement whenever the two offsets agree.",
"C42": "REFUTED: the optional PostScript name is always read. C42_next_name: without room it is the next instance's subfamily name; C42_last_refused: a last record at the end of the file is refused; C42_instances_partial: with room only the declared bytes matter.",
"C43": "REFUTED: C43_empty is the exact behaviour, the parameters are Some of an empty vector whenever the offset is not zero.",
"C44": "REFUTED for format 1 (C44_format1_refuted): C44_format1_context and C44_format1_chained give the exact behaviour, the lookup's own header is read as a rule set. Format 2 has the property (the two partial theorems).",
"C45": "REFUTED: the declared length is not used by take. C45_declared_offset_partial: bytes before the declared offset have no influence.",
"C46": "REFUTED for the flag LONG_WORDS: C46_long_words shows the byte count is then never the right one. C46_deltas_partial: right in every other case.",
"C47": "REFUTED: C47_pairs gives for every n, m < 65536 a 48-byte GPOS table with n*m pairs; C47_glyphs a GDEF table with quadratic growth, C47_coordinates an fvar table of 36 + 4 n bytes with n*m coordinates, C47_substitutes a GSUB table with cubic growth. C47_records_partial and C47_colors_partial: the table directory and CPAL stay within the size of the file. C76 gives the bound that does hold, a polynomial in the size of the file, and shows that its degree is attained.",
"C50": "The encoder (Writer.v) is not part of the code, which has none; it is only a way to say that all values are attainable. writable excludes encodings of 64 KiB or more, and GDEF 1.3 with mark glyph sets (C41: the code reads two structures from their offset).",
"C57": "REFUTED: C57_refused_refuted gives a 14-byte table whose zero script list offset is read as a script with a tag of four zero bytes. C57_gsub_lists and C57_gpos_lists are the exact behaviour (the list is the header of the table), C57_marks and C57_marks_refused the same for anchors of marks: only an array of at most three marks can be misread, a longer one is refused.",
"C61": "REFUTED: C61_indices gives for every n < 65536 and every build a table in which all indices are n; by C61_resolved these resolve only if n = 0. C61_extensions does the same for extension subtables, whose targets are never read.",
"C62": "REFUTED: C62_coverage, C62_class and C62_axes show that every coverage, class definition and list of axes that fits its fields is read, whatever its order.",
"C65": "REFUTED: C65_twice gives for every tag and build a table with two features of that tag of which one is out of reach. C65_gsub and C65_gpos say exactly which records are within reach.",
"C70": "REFUTED for fvar (C70_fvar_refuted) and for GSUB lookups of type 8 (C70_reverse_refuted). C70_fvar and C70_reverse are the exact behaviour: any version or format gives the same value but for that number. The partial theorems are the property for the versions of GSUB, GPOS, GDEF and CPAL; formats of other subtables are part of C13 to C27, since the variants of a value carry them.",
"C76": "Proved for all inputs. The positive companion of C47: upper bounds for every table, and families of GSUB, GPOS and GDEF tables that attain the degrees (C47_coordinates does so for fvar).",
"C77": "Proved for all inputs. The list of departures is exact: each of C39, C40, C41, C43, C46 and C33 is on it. What the crate's types cannot express (NULL rule sets in contexts of format 1, C44; instances without a PostScript name, C42) has no value and is not covered; nor is what the standard demands beyond layout, such as sorted glyphs (C62).",
"C78": "Proved for all inputs. The readers are restated as trees of steps (StepsReaders.v, the same text over another monad), and proved to do on a file what those of the model do. For a tape that answers wrongly, or whose content changes while it is read, see C80.",
"C79": "Proved for all inputs and all outcomes. The steps are those of the trees of C78; arithmetic, allocation and copying are not counted. The constants are not the least ones; that the degrees are, for whole tables, is C79_degree_gsub, C79_degree_gpos and C79_degree_gdef.",
"C80": "Proved for all inputs. The values are those of the trees of steps of C78. That a torn value can be one of no file is C80_torn; the bytes that are needed are those of C72. C80_exact says that nothing more can be known of a value than its shape (SpecLoose.v) and the ranges of its fields (SpecRanges.v). C80_errors and C80_crashes say exactly which errors and panics are possible on some tape (SpecReports.v).",
"C81": "Proved for all inputs. The two calls of the caller are one definition, open_take (ModelOpen.v); SpecOpen.v describes the directory by positions of bytes. C81_open assumes that the checksum function of the dependency does not panic, and for GDEF a build without overflow checks; C81_any_reader assumes nothing.",
"C82": "Proved for all inputs; Pieces.v lists the types, each with its reader, its format and its steps. Item variations are excluded from the absence of panics with overflow checks (C33), and so are positions beyond 2^63 (C83). C82_values says exactly which values a part can have, whatever the tape (SpecValues.v). C82_errors and C82_crashes do the same for errors and panics (SpecReports.v). C82_file_errors and C82_file_crashes say which of them are possible for a file; for C82_file_errors numbers of classes of marks have sixteen bits, as in the code, and positions are below 2^62.",
"C83": "Finding: false of the code. C83_no_panic_refuted has the witness, C83_far_panics one for each of the nine types, C83_mark says exactly when Mark1 panics. The readers of whole tables never pass such a position (C82_no_panic, C80).",
"C84": "Proved for all inputs. SpecPlaces.v lists, for each type, its parts with their positions. C56 is the case of scripts, languages, features, lookups and subtables of one directory; C71 says which part an error comes from, without the values. Subtables behind an extension are not followed, since the crate does not follow them.",
"C85": "Finding: false of the code, which does not check the type an extension gives (see also C61_extensions). C85_exactly and C85_loop say when it is false, C85_steps and C85_once what holds otherwise.",
"C86": "Proved for all inputs. SpecOwned.v gives for each type the size of the fields it has by itself, SpecPlaces.v its parts. C72 says what the needed bytes are enough for; this says which they are. A default list or anchor has no bytes.",
"C87": "Proved for all inputs. SpecFaults.v lists for each part what it begins with and which values its fields may have; SpecParts.v (C71) its parts. C71 says how the error of a part becomes that of the table; this says which parts are in error, and why, without running them. C87_open adds opening a file, with the checksum of the crate truetype as a parameter. C87_piece_* are about every type of Pieces.v; a base, which is the position of a reader, is below 2^63.",
"C88": "Finding: false of the code, which counts offsets from the beginning of the tape (as in a collection) but reads the directory at its position. C88_same_tables_refuted has a witness in which another table is returned and its checksum is right. C88_exactly and C88_early say what happens instead, C88_adjusted and C88_adjusted_absent what a caller has to do, C88_checksum that checksums need no adjustment, C88_collection, C88_member and C88_shared what works in collections.",
"C89": "Finding: false of the code, which looks up languages in the headers only. C89_default_refuted and C89_fallback_refuted have a witness, C89_ignored and C89_exactly say what get does instead.",
"C90": "Finding: false of the code. The four theorems _refuted say for every build that no function of the value gives the part; C90_variations_any, C90_extensions_any, C90_palettes_any and C90_regions_any say what can be changed without a trace. C90_variations_number: the number of records is told.",
"C91": "Finding: false of the code. C91_refused_refuted has a witness; C91_coverage and C91_always, C91_bases, C91_classes and C91_marks say what is read instead. C91_contexts_partial and C91_definitions_partial: the property where it does hold. Rule sets are the subject of C44, lists and anchors of C57.",
"C92": "Finding: false of the code. C92_substitution_refuted, C92_positioning_refuted and C92_classes_refuted have witnesses; C92_gsub and C92_gpos say that every subtable which fits its fields is read from some file, balanced or not, and C92_substitutes and C92_marks single out two plain cases.",
"C116": "Proved for all inputs. That something becomes of a text is stated as: it is not so that nothing does (a double negation). The relations of C108 and C109 are not shown to be decidable, and no axiom of classical logic is used; C116_shorter and C116_done, from which it follows, are stated directly.",
"C117": "Proved for all inputs. C117_texts_decided and C117_kerning_decided, and the same by the bytes, are equivalences for sets of features of which one can tell whether a feature is in them; for other sets, from fewer lookups to more, the conclusion is a double negation, as in C116."
}
