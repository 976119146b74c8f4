{"id": "C01", "title": "TrueType collections are always refused", "statement": "File::read returns an error, and never a File, whenever the four bytes at the tape's cursor are `ttcf`, whatever follows them.", "quantifier": "every file content and cursor position whose next four bytes are 'ttcf'", "why_tests_cant": "Tests can only try a few collection files; the refusal must hold whatever bytes follow the tag.", "anchors": ["src/file.rs: File::read", "src/lib.rs: accept"]}
{"id": "C02", "title": "A file read yields exactly the table directory in the bytes", "statement": "File::read succeeds with a value exactly when that value has one font, the leading tag is an accepted one other than `ttcf`, and its records are the table-directory records laid out at the cursor (tag, checksum, offset, length, in order, as many as the declared count).", "quantifier": "all byte contents and all cursor positions", "why_tests_cant": "An iff over all byte strings; a test only exercises a handful of fonts.", "anchors": ["src/file.rs: File::read", "src/font.rs: Font::read"]}
{"id": "C03", "title": "exists, position and take agree on presence", "statement": "For every font and table type: exists is true iff some directory record has the type's tag; if it is false, position and take return Ok(None) and never touch the tape; if it is true they never return Ok(None).", "quantifier": "every font value, table type, tape content and cursor", "why_tests_cant": "Quantifies over all directories, including ones with duplicates and ones no fixture contains.", "anchors": ["src/font.rs: Font::exists, Font::position, Font::take, Font::take_given"]}
{"id": "C04", "title": "take reads at the offset of the first matching record", "statement": "When a font has a record with the requested tag (and its checksum is accepted), take returns exactly what the table's reader returns at the absolute offset of the first such record; later records with the same tag have no influence.", "quantifier": "every font, table reader, tape content and cursor", "why_tests_cant": "Duplicate records and arbitrary directories are not covered by any fixture.", "anchors": ["src/font.rs: Font::position, Font::take, Font::take_given"]}
{"id": "C05", "title": "Checksums gate access exactly as configured", "statement": "In the default build, position and take succeed on a present table only if the stored checksum equals the computed one and fail otherwise; in the ignore-invalid-checksums build neither the stored nor the computed checksum influences any result.", "quantifier": "every font, tape content, checksum function and both builds", "why_tests_cant": "Needs all pairs of stored and computed checksums, and equality of results over all checksums in the ignoring build.", "anchors": ["src/font.rs: Font::position", "Cargo.toml: ignore-invalid-checksums"]}
{"id": "C06", "title": "Table access does not depend on history", "statement": "For any sequence of earlier operations on the same tape - successful, absent or failed reads and arbitrary seeks - what take returns for a table equals what it returns on a freshly opened tape.", "quantifier": "every finite history of operations and every subsequent request", "why_tests_cant": "Histories are unbounded; the cursor left behind by a failed read is unspecified, so all cursor values must be covered.", "anchors": ["src/font.rs: Font::take, Font::take_given, Font::position"]}
{"id": "C07", "title": "Table types have pairwise distinct tags", "statement": "The sixteen registered table types have sixteen distinct tags, so a request for one type can never be answered from a directory record that another type would use. Each is the name the specification gives to the table: a table exists exactly when some directory record has that name.", "quantifier": "every pair of registered table types, every directory", "why_tests_cant": "Ties a finite registry to behaviour over every directory.", "anchors": ["src/table.rs: Table, implement!"]}
{"id": "C08", "title": "Tag acceptance", "statement": "accept holds for `ttcf` and for exactly the tags the TrueType layer accepts, and every font that File::read returns starts with an accepted tag.", "quantifier": "all 2^32 tags; all files", "why_tests_cant": "Quantifies over every tag and every file.", "anchors": ["src/lib.rs: accept", "src/file.rs: File::read"]}
{"id": "C09", "title": "Tags survive conversion to Feature, Script and Language", "statement": "Converting any tag to a Feature, Script or Language and back to a tag gives the same tag, for known and unknown tags and in both default-language builds.", "quantifier": "all 2^32 tags, three enumerations, both builds", "why_tests_cant": "2^32 inputs per enumeration; one wrong literal among about a thousand would be enough to break it.", "anchors": ["src/layout/feature.rs: Feature::from_tag, From<Feature> for Tag", "src/layout/script.rs: Script::from_tag", "src/layout/language.rs: Language::from_tag"]}
{"id": "C10", "title": "Known features, scripts and languages survive conversion to a tag", "statement": "Converting a named Feature, Script or Language variant to its tag and back gives the same variant, so different variants have different tags.", "quantifier": "every named variant of the three enumerations, both builds", "why_tests_cant": "Universal over about a thousand variants; pairwise distinctness is about 200,000 pairs. (The code violates it for one script.)", "anchors": ["src/layout/script.rs: implement! (kana listed twice)", "src/layout/feature.rs", "src/layout/language.rs"]}
{"id": "C11", "title": "Names and ISO codes are well formed", "statement": "name is absent exactly for Other and otherwise non-empty; every code that Language::codes yields is exactly three lower-case ASCII letters with no separator left in it, no language repeats a code, and Other has no codes.", "quantifier": "every Feature, Script and Language value, known or Other, and every yielded code", "why_tests_cant": "The repository tests two languages only; the claim covers every variant and every tag in Other.", "anchors": ["src/layout/language.rs: Language::codes, Language::name", "src/layout/feature.rs: Feature::name", "src/layout/script.rs: Script::name"]}
{"id": "C12", "title": "Getters return the record of the first matching header", "statement": "On every table obtained by reading, Scripts::get, script Record::get and Features::get return the record that belongs to the first header with the given tag, return None exactly if no header has it, and never panic.", "quantifier": "every byte content that reads successfully, every tag", "why_tests_cant": "The getter indexes one vector by a position found in another; it is safe only because reading keeps them the same length for every input.", "anchors": ["src/layout/script.rs: Scripts::get, Record::get", "src/layout/feature.rs: Features::get"]}
{"id": "C13", "title": "Coverage: value and bytes correspond exactly", "statement": "Reading a coverage at a position gives a value iff the bytes there are a format 1 or 2 coverage with exactly that content; any other format is refused.", "quantifier": "all byte contents and all cursor positions", "why_tests_cant": "An equivalence between byte layouts and values, for all counts up to 65535.", "anchors": ["src/layout/coverage.rs"]}
{"id": "C14", "title": "Class definition: value and bytes correspond exactly", "statement": "Reading a class definition gives a value iff the bytes are a format 1 or 2 class definition with exactly that content; any other format is refused.", "quantifier": "all byte contents and all cursor positions", "why_tests_cant": "As above, for all counts.", "anchors": ["src/layout/class.rs"]}
{"id": "C15", "title": "Corrections dispatch on the delta format and read what it announces", "statement": "Reading a correction gives a Device iff the third short is 1, 2 or 3 and start <= end, a VariationIndex iff it is 0x8000, and an error otherwise, with every field taken from its own place.", "quantifier": "all byte contents and all cursor positions", "why_tests_cant": "All start/end sizes, all formats.", "anchors": ["src/layout/correction.rs"]}
{"id": "C16", "title": "Contextual lookups: value and bytes correspond exactly", "statement": "Reading a contextual lookup gives a value iff the bytes are a format 1, 2 or 3 sequence context with exactly that content, following each rule-set, rule, coverage and class offset from the table it is relative to.", "quantifier": "all byte contents and all cursor positions", "why_tests_cant": "Nested offset-linked structure with arbitrary, possibly overlapping, offsets.", "anchors": ["src/layout/context.rs: Context, Context1, Context2, Context3, Records, ClassRecords, Record, ClassRecord, Action"]}
{"id": "C17", "title": "Chained contextual lookups: value and bytes correspond exactly", "statement": "The same for chained contexts in formats 1, 2 and 3, with backtrack, input and lookahead parts each taken from its own place.", "quantifier": "all byte contents and all cursor positions", "why_tests_cant": "Three parallel sequences with independent counts; swapping any two passes most tests.", "anchors": ["src/layout/context.rs: ChainedContext, ChainedContext1..3, ChainedRecords, ChainedClassRecords"]}
{"id": "C18", "title": "Script list: value and bytes correspond exactly", "statement": "Reading a script list gives, for each header in order, the script record at its offset, with the default language present iff its offset is non-zero and each language system read at its own offset from the script.", "quantifier": "all byte contents and all cursor positions", "why_tests_cant": "Two levels of relative offsets over all inputs.", "anchors": ["src/layout/script.rs", "src/layout/language.rs: Header, Record"]}
{"id": "C19", "title": "Feature list: value and bytes correspond exactly", "statement": "Reading a feature list gives, for each header in order, the feature record at its offset with its lookup indices, and parameters present iff the parameter offset is non-zero.", "quantifier": "all byte contents and all cursor positions", "why_tests_cant": "All counts and offsets.", "anchors": ["src/layout/feature.rs: Features, Header, Record"]}
{"id": "C20", "title": "Lookup list: value and bytes correspond exactly", "statement": "Reading a lookup list gives each lookup at its offset, with its subtables read at offsets relative to the lookup and by the lookup's own type, and a mark-filtering set present iff the corresponding flag bit is set.", "quantifier": "all byte contents and all cursor positions, for any subtable reader", "why_tests_cant": "Generic over the subtable kind; all flags and counts.", "anchors": ["src/layout/lookup.rs: Lookups, Record, Flags"]}
{"id": "C21", "title": "Substitution subtables: type decides the reader, value and bytes correspond exactly", "statement": "A GSUB subtable read with lookup type 1..8 gives the variant of that type, whose content is exactly what the bytes say; any other type is refused.", "quantifier": "all lookup types, byte contents and cursors", "why_tests_cant": "Eight subtable kinds each with nested offsets.", "anchors": ["src/tables/glyph_substitution/mod.rs", "src/tables/glyph_substitution/element.rs"]}
{"id": "C22", "title": "Positioning subtables: type decides the reader, value and bytes correspond exactly", "statement": "A GPOS subtable read with lookup type 1..9 gives the variant of that type, whose content is exactly what the bytes say; any other type is refused.", "quantifier": "all lookup types, byte contents and cursors", "why_tests_cant": "Nine subtable kinds with flag-dependent record sizes and nested offsets.", "anchors": ["src/tables/glyph_positioning/mod.rs", "src/tables/glyph_positioning/element.rs"]}
{"id": "C23", "title": "Value records hold exactly the announced components", "statement": "In a value record each of the eight components is present iff its flag bit is set and is read from the slot given by the number of lower set bits; the record occupies two bytes per announced component, so arrays of records keep that stride whatever corrections they link to.", "quantifier": "all 16-bit flags, byte contents and array lengths", "why_tests_cant": "256 flag combinations times all array positions; an error shows only as a shifted later record.", "anchors": ["src/tables/glyph_positioning/element.rs: Single, Flags, Pair1, Pair2, Pair2s"]}
{"id": "C24", "title": "Anchor matrices keep their shape", "statement": "Mark, base, component and mark-2 arrays: record i is read at its fixed stride after the count regardless of how many anchors are followed in between, anchors are located relative to the enclosing array, and an anchor is absent iff its offset is zero.", "quantifier": "all byte contents and all cursor positions, all class counts", "why_tests_cant": "Each record jumps elsewhere and must come back; only a universal statement excludes drift.", "anchors": ["src/tables/glyph_positioning/element.rs: Mark1s, Bases, Base, Component, Ligature, Ligatures, Mark2s, Mark2, Connection"]}
{"id": "C25", "title": "Layout directory: value and bytes correspond exactly", "statement": "Reading GSUB or GPOS gives a value iff the bytes are a version 1.0 or 1.1 header whose script, feature and lookup lists, located from the table start, have exactly that content, with feature variations present iff version 1.1 gives a non-zero offset; other versions are refused.", "quantifier": "all byte contents and all cursor positions", "why_tests_cant": "End-to-end equivalence over whole tables.", "anchors": ["src/layout/directory.rs", "src/tables/glyph_substitution/mod.rs: GlyphSubstitution", "src/tables/glyph_positioning/mod.rs: GlyphPositioning"]}
{"id": "C26", "title": "Glyph definition: version decides the header, value and bytes correspond exactly", "statement": "Reading GDEF succeeds only on versions 1.0, 1.2 and 1.3 and gives exactly the subtables the reader's rules locate, each present iff its offset is non-zero.", "quantifier": "all byte contents and all cursor positions", "why_tests_cant": "Six optional linked subtables in three header versions.", "anchors": ["src/tables/glyph_definition/mod.rs", "src/tables/glyph_definition/element.rs"]}
{"id": "C27", "title": "Item variation store: value and bytes correspond exactly", "statement": "Reading an item variation store gives each data subtable at its 32-bit offset from the store, with its region indices and itemCount times (shortDeltaCount + regionCount) bytes of deltas.", "quantifier": "all byte contents and all cursor positions", "why_tests_cant": "All 16-bit count combinations, including those whose sum overflows.", "anchors": ["src/variations/item.rs"]}
{"id": "C28", "title": "Color palettes: value and bytes correspond exactly", "statement": "Reading CPAL gives a value iff the bytes are a version 0 or 1 header with exactly those counts and indices, and as many colors as declared, each in blue-green-red-alpha order, at the declared offset from the table start.", "quantifier": "all byte contents and all cursor positions", "why_tests_cant": "All counts and offsets.", "anchors": ["src/tables/color_palettes.rs: ColorPalettes::read, Header, Color"]}
{"id": "C29", "title": "Palette iteration yields the indexed colors", "statement": "On a read CPAL, iter yields one palette per first-color index, in order, each with entry-count colors, the e-th being color number index+e; it panics exactly when such a number is not below the color count. So all colors can be asked for without a panic exactly if every palette has no entries or starts at least entry-count colors before the color count.", "quantifier": "every read CPAL table, palette and entry", "why_tests_cant": "Depends on untrusted indices; needs every table, not the fixtures.", "anchors": ["src/tables/color_palettes.rs: ColorPalettes::iter"]}
{"id": "C30", "title": "Font variations: value and bytes correspond exactly", "statement": "Reading fvar gives axis i at the declared offset plus i times the declared axis size, and instance j after the axis array at j times the declared instance size, with one coordinate per axis.", "quantifier": "all byte contents and all cursor positions, all declared sizes", "why_tests_cant": "Declared record sizes may differ from the natural ones.", "anchors": ["src/tables/font_variations/mod.rs"]}
{"id": "C31", "title": "Every count equals the length of its vector", "statement": "In every value obtained by reading any table, every count field equals the length of the vector it announces, at every nesting level, and every format field matches its enum variant.", "quantifier": "every byte content that reads successfully", "why_tests_cant": "Callers index vectors by sibling counts; one path that breaks the pairing would panic in the caller.", "anchors": ["src/layout", "src/tables", "src/variations"]}
{"id": "C32", "title": "Reading never panics", "statement": "Reading a file, GSUB, GPOS, CPAL or fvar table at any position of any content returns a value or an error and never panics, with or without overflow checks.", "quantifier": "all byte contents and all cursor positions (below 2^63 bytes), both arithmetic modes", "why_tests_cant": "Absence of panics over all inputs.", "anchors": ["src/file.rs", "src/layout", "src/tables"]}
{"id": "C33", "title": "Reading a glyph definition never panics", "statement": "Reading GDEF at any position of any content returns a value or an error and never panics.", "quantifier": "all byte contents and all cursor positions, both arithmetic modes", "why_tests_cant": "Absence of panics over all inputs. (The code violates it in overflow-checked builds.)", "anchors": ["src/variations/item.rs: Record", "src/tables/glyph_definition/mod.rs"]}
{"id": "C34", "title": "Errors are reported exactly for non-conforming input", "statement": "For each table: reading returns an error iff no value conforms to the bytes at that position, and at most one value conforms.", "quantifier": "all byte contents and all cursor positions", "why_tests_cant": "Needs both directions for every input.", "anchors": ["src/layout", "src/tables"]}
{"id": "C35", "title": "Extra or missing trailing bytes never change a result", "statement": "If a table reads successfully, appending any bytes to the file leaves the value unchanged; a truncated file gives the same value or an error, never a different value. More generally, if bytes are missing anywhere, a read either does not notice or reports the end of the file.", "quantifier": "every content, every extension, every truncation point and every set of missing bytes", "why_tests_cant": "All truncation points of all files.", "anchors": ["src/layout", "src/tables", "src/variations"]}
{"id": "C36", "title": "Tables are relocatable", "statement": "Reading a table at position p of a file equals reading it at position 0 of the rest of the file: embedding a table behind any prefix changes neither the value nor which error is given, and leaves the tape as much further on as the prefix is long. This holds for files with holes too.", "quantifier": "every content, prefix and table", "why_tests_cant": "All prefixes; every relative offset in every structure must be based at its own table.", "anchors": ["src/layout", "src/tables", "src/variations"]}
{"id": "C37", "title": "Missing directory lists are tolerated only as configured", "statement": "With ignore-incomplete-directories a zero script, feature or lookup offset gives the corresponding empty list and all other directories read exactly as in the default build.", "quantifier": "every content and cursor, both builds", "why_tests_cant": "Relates two builds over all inputs.", "anchors": ["src/layout/directory.rs", "Cargo.toml: ignore-incomplete-directories"]}
{"id": "C38", "title": "Missing mark anchors are tolerated only as configured", "statement": "With ignore-incomplete-marks a mark record with a zero anchor offset gets the zero format-1 anchor, and mark arrays without zero offsets read exactly as in the default build.", "quantifier": "every content and cursor, both builds", "why_tests_cant": "Relates two builds over all inputs.", "anchors": ["src/tables/glyph_positioning/element.rs: Mark1", "Cargo.toml: ignore-incomplete-marks"]}
{"id": "C39", "title": "Every conforming caret value is read", "statement": "Whenever the bytes are an OpenType caret-value table in format 1, 2 or 3, reading it gives that caret.", "quantifier": "every conforming caret table", "why_tests_cant": "All coordinates. (The code violates it: no conforming caret is accepted.)", "anchors": ["src/tables/glyph_definition/element.rs: Caret::read"]}
{"id": "C40", "title": "Device tables read exactly their packed deltas", "statement": "Reading a device table consumes exactly ceil(count * bits / 16) delta words, as the format prescribes.", "quantifier": "all sizes and formats", "why_tests_cant": "All 2^32 size pairs times three formats. (The code violates it when the bits fill the last word.)", "anchors": ["src/layout/correction.rs: Device::read"]}
{"id": "C41", "title": "The GDEF variation store is read at its declared offset", "statement": "In a version 1.3 GDEF table the item variation store is the one located by the header's item-variation-store offset, and absent iff that offset is zero.", "quantifier": "every version 1.3 table", "why_tests_cant": "(The code violates it: it follows the mark-glyph-sets offset.)", "anchors": ["src/tables/glyph_definition/mod.rs: GlyphDefinition.variations"]}
{"id": "C42", "title": "An instance's PostScript name is its own", "statement": "An fvar instance whose declared size leaves no room for a PostScript name identifier is read without one, and no byte outside the declared instance record influences it.", "quantifier": "every fvar table and declared instance size", "why_tests_cant": "(The code violates it: it always reads the identifier.)", "anchors": ["src/tables/font_variations/mod.rs: InstanceRecord::read"]}
{"id": "C43", "title": "Feature parameters carry the bytes they point to", "statement": "When a feature record has a parameter offset, the parameters contain the bytes found there.", "quantifier": "every feature record", "why_tests_cant": "(The code violates it: the parameters are always empty.)", "anchors": ["src/layout/feature.rs: Record.parameters"]}
{"id": "C44", "title": "NULL rule-set offsets mean absent", "statement": "In contextual and chained contextual lookups of formats 1 and 2 a zero rule-set offset is read as an absent rule set and never as data located at the start of the lookup itself.", "quantifier": "every contextual lookup", "why_tests_cant": "(The code honours it in format 2 only.)", "anchors": ["src/layout/context.rs: Context1, ChainedContext1, Context2, ChainedContext2"]}
{"id": "C45", "title": "Table reads stay within the declared length", "statement": "What take returns for a table depends only on the directory and the bytes within the record's declared offset and length, the bytes its checksum covers.", "quantifier": "every font and content", "why_tests_cant": "(The code violates it: readers are not limited to the declared length.)", "anchors": ["src/font.rs: Font::take"]}
{"id": "C46", "title": "Long-word delta sets are read in full", "statement": "In an item variation data subtable with the LONG_WORDS flag the delta bytes have the doubled row size the format prescribes.", "quantifier": "every item variation data subtable", "why_tests_cant": "(The code violates it: the flag is treated as part of the count.)", "anchors": ["src/variations/item.rs: Record.deltas"]}
{"id": "C47", "title": "A result has no more elements than the file has bytes", "statement": "The number of elements of a read table (the pairs of a class-based pair adjustment in GPOS, the glyphs of the mark glyph sets in GDEF, the coordinates of the instances in fvar, the substitutes in GSUB, the colors in CPAL, the records of the table directory) is at most the number of bytes of the file.", "quantifier": "every content", "why_tests_cant": "(The code violates it: empty value records and shared offsets let a 48-byte file give more than four billion elements.) A test sees one size; the growth law needs a family of files.", "anchors": ["src/tables/glyph_positioning/element.rs: Pair2, Pair2s", "src/tables/glyph_definition/element.rs: Marks", "src/tables/color_palettes.rs: ColorPalettes::read", "src/tables/font_variations/mod.rs: FontVariations::read", "src/layout/lookup.rs: Lookups::read"]}
{"id": "C48", "title": "Other is used only for unknown tags", "statement": "Feature, Script and Language convert a tag to Other exactly if no named variant has that tag; a named variant is always preferred.", "quantifier": "all 2^32 tags, with and without the feature default-language", "why_tests_cant": "Universal over all tags and hundreds of match arms.", "anchors": ["src/layout/feature.rs: from_tag", "src/layout/script.rs: from_tag", "src/layout/language.rs: from_tag"]}
{"id": "C49", "title": "Overflow checks change nothing but GDEF panics", "statement": "For every request other than GDEF the builds with and without overflow checks behave identically; for GDEF they behave identically unless the checked build panics, which happens exactly if the deltas of a variation store overflow.", "quantifier": "all byte contents and all cursor positions", "why_tests_cant": "Compares two builds on every input.", "anchors": ["src/variations/item.rs:33", "src/tables/glyph_definition/mod.rs"]}
{"id": "C50", "title": "Every writable value is read back", "statement": "For File, Font, GDEF, GPOS, GSUB, CPAL and fvar: if the content of a well-formed value with every number in range is laid out by an independent encoder (each structure once, in order, within 64 KiB) at any position of any file, reading there succeeds and gives the same content; only offsets may differ.", "quantifier": "all values of the seven types, all positions in all files containing their encoding, all builds", "why_tests_cant": "Quantifies over every value the types can express, including nestings no font has; shows that no well-formed table is refused or altered.", "anchors": ["src/layout", "src/tables", "src/font.rs", "src/file.rs"]}
{"id": "C51", "title": "Everything read is in range", "statement": "Every number in a value read from a file fits the width of its field, reserved flag bits are zero in builds that check them, feature parameters are empty, and the number of delta bytes per row fits 16 bits in builds with overflow checks.", "quantifier": "all byte contents, positions and builds", "why_tests_cant": "Universal over inputs and over all fields of all types.", "anchors": ["src/layout", "src/tables", "src/variations/item.rs"]}
{"id": "C52", "title": "Whatever is read can be rewritten", "statement": "A value read from any file, written anew by the encoder, reads back as the same content if its encoding is within 64 KiB (and, for GDEF version 1.3, it has no mark glyph sets, see C41).", "quantifier": "all byte contents, positions and builds", "why_tests_cant": "Composes reading, writing and reading over every input file.", "anchors": ["src/layout", "src/tables"]}
{"id": "C53", "title": "Encodings are canonical", "statement": "Two well-formed values in range have the same encoding exactly if they differ at most in offsets: reading never confuses two contents.", "quantifier": "all pairs of values of the seven types", "why_tests_cant": "Injectivity over an infinite set of values.", "anchors": ["src/layout", "src/tables"]}
{"id": "C54", "title": "A refusal names its cause", "statement": "The error returned by a read tells what is wrong: an unknown directory tag (and only that) is reported as unsupported, an unknown table version, lookup type, coverage, class or device format (and only that) as such, reserved flag bits as invalid flags, a rule without its first glyph or a device with swapped sizes as malformed, another constant as an unexpected value; each of the seven tables reports no error outside a fixed list, and each error of that list (invalid flags: in the builds that check flags; an unsupported font: if some tag is not accepted) is reported for some file.", "quantifier": "all byte contents, positions, builds and values of the offending fields", "why_tests_cant": "Which error comes first among several defects is decided by the order of the reads; the project's tests never look at an error.", "anchors": ["src/lib.rs", "src/file.rs:21", "src/layout/directory.rs", "src/layout/lookup.rs", "src/layout/context.rs", "src/layout/correction.rs", "src/tables"]}
{"id": "C55", "title": "A font put together from tables gives each of them back", "statement": "Take any list of tagged blocks, put them behind a table directory with their offsets, lengths and checksums: the file is read as that directory, Font::take returns the content of the first block of the requested tag, whatever the position of the tape, and None for a tag that is not there.", "quantifier": "all lists of tables (below 4 GiB together), all tables that can be written, all builds, checksum functions and tape positions", "why_tests_cant": "End-to-end statement over fonts of any number and size of tables.", "anchors": ["src/file.rs", "src/font.rs:52", "src/tables"]}
{"id": "C56", "title": "Parts at the same address are equal", "statement": "In a GSUB or GPOS table that was read, two scripts, two languages (the default language included, also of different scripts), two features, two lookups, or two subtables of lookups of the same type (also of different lookups) whose offsets lead to the same address are equal.", "quantifier": "all byte contents, positions, builds and pairs of parts", "why_tests_cant": "The reader makes a fresh copy for every reference; that the copies never differ, however the references overlap, cannot be enumerated.", "anchors": ["src/layout/script.rs", "src/layout/feature.rs", "src/layout/lookup.rs", "src/layout/directory.rs"]}
{"id": "C57", "title": "A build that does not ignore incomplete tables refuses them", "statement": "Without ignore-incomplete-directories, a GSUB or GPOS table with a zero script, feature or lookup list offset is refused; without ignore-incomplete-marks, a mark with a zero anchor offset is. (Refuted: the list is read from the start of the table itself.)", "quantifier": "all byte contents, positions and builds without the feature in question", "why_tests_cant": "Depends on what the header means when read as a list; one fixture happens to fail.", "anchors": ["src/layout/directory.rs", "src/tables/glyph_positioning/element.rs:103"]}
{"id": "C58", "title": "Builds agree on complete tables", "statement": "If a build reads a value in which no list and no mark anchor is missing, another build reads the same value exactly if the value is within the limits that build checks (reserved flags, 16-bit sums); in particular whatever a build with all checks reads, every build reads.", "quantifier": "all byte contents, positions, values and pairs of the 32 builds", "why_tests_cant": "Compares all pairs of builds over all files.", "anchors": ["Cargo.toml", "src/layout", "src/tables"]}
{"id": "C59", "title": "Flags mean their bits and agree with the fields beside them", "statement": "Every method of the flags of lookups, value records and axes is the bit the specification names, and is_invalid is true exactly if a reserved bit is set. In a table that was read, a lookup has a mark filtering set exactly if has_mark_filtering, a value record has each of its eight components exactly if the method of that name says so, a value record is absent only if the flags are zero, and a build that checks flags never yields flags that are invalid.", "quantifier": "all flags, byte contents, positions, builds, lookups and value records", "why_tests_cant": "Tests look at the flags of a few fixtures; the agreement of flags and fields is over all files and 65536 flags.", "anchors": ["src/layout/lookup.rs:28", "src/tables/glyph_positioning/element.rs:217", "src/tables/font_variations/mod.rs:57"]}
{"id": "C60", "title": "Defaults are told apart from what a file holds", "statement": "A default coverage, class, correction, anchor or GDEF header is of the first variant and has nothing but zeros. No bytes are read as the default coverage, class, correction, anchor or GDEF header. In a positioning table that was read, the anchor of a mark is the default one exactly if the build ignores incomplete marks and the offset is zero. A list of scripts, features or lookups is read as the default one exactly from a zero.", "quantifier": "all byte contents, positions and builds", "why_tests_cant": "Says that something is never read.", "anchors": ["src/layout/coverage.rs:50", "src/layout/class.rs:51", "src/layout/correction.rs:44", "src/tables/glyph_definition/mod.rs:136", "src/tables/glyph_positioning/element.rs"]}
{"id": "C61", "title": "References within a table lead to parts of the table", "statement": "In a GSUB table that was read, the feature indices of languages, the lookup indices of features, and the positions and lookups of contextual actions refer to parts that exist, and extensions lead to a subtable. (Refuted: any 16-bit index and any extension is read, in every build.)", "quantifier": "all indices below 2^16, extension types and offsets, builds", "why_tests_cant": "Real fonts have no dangling references; the claim that none is checked is over all indices and builds.", "anchors": ["src/layout/language.rs", "src/layout/feature.rs", "src/layout/context.rs", "src/tables/glyph_substitution/mod.rs:137"]}
{"id": "C62", "title": "Sorted arrays are sorted", "statement": "A coverage or class definition that was read is sorted and its ranges do not end before they start, and the default of a variation axis is between its limits. (Refuted: whatever fits the fields is read, in any order.)", "quantifier": "all coverages, class definitions and lists of axes, all builds", "why_tests_cant": "A binary search over the result relies on it; real fonts never violate it.", "anchors": ["src/layout/coverage.rs", "src/layout/class.rs", "src/tables/font_variations/mod.rs:33"]}
{"id": "C63", "title": "The cursor is left where the value ends", "statement": "Reading a part without offsets (a coverage, class definition, device or variation index, language, alternates, ligature, context rule, list of attachment points and so on) leaves the tape just after its last byte, so that values written one after another are read one after another; a font leaves it after its list of tables, color palettes after the colors, and variations after the last record. Every other table leaves it at the end of the part that is read last, which the offsets and counts in the value determine.", "quantifier": "all inputs, positions, builds and values; lists of any length", "why_tests_cant": "Tests look at the values and jump to each table; a reader that leaves the cursor elsewhere is seen only by the next reader on the same tape.", "anchors": ["src/layout/coverage.rs", "src/layout/class.rs", "src/layout/correction.rs", "src/font.rs", "src/tables/color_palettes.rs", "src/tables/font_variations/mod.rs:72"]}
{"id": "C64", "title": "Getters on tables that were not read", "statement": "For any Scripts, script Record or Features value, also one whose public fields were filled in by hand, get returns None exactly if no header has the tag, the record with the index of the first header with the tag if there is one, and panics exactly if the records end before that index. A tag and the Script, Language or Feature made from it find the same. Likewise iterating over any ColorPalettes value yields, for each entry of each palette, the color with the number, and panics exactly if there is none or, with debug assertions, the declared count does not exceed the number.", "quantifier": "all values of the four types, all tags, both default-language builds, with and without debug assertions", "why_tests_cant": "Tests only call getters on tables that were read, with tags that occur once.", "anchors": ["src/layout/script.rs:53", "src/layout/script.rs:65", "src/layout/feature.rs:62", "src/tables/color_palettes.rs:63"]}
{"id": "C65", "title": "Every feature of a table can be got by its tag", "statement": "For every feature record of a table that was read there is a tag for which Features::get returns it. (Refuted: several features may have one tag, and usually do, one for each language; get returns the first only. A record of a script, language or feature is within reach exactly if its tag does not occur before it.)", "quantifier": "all tables that are read, all tags, all builds", "why_tests_cant": "The fixtures repeat tags but with the same lookups, so that no test sees the difference.", "anchors": ["src/layout/feature.rs:62", "src/layout/script.rs:53"]}
{"id": "C66", "title": "A read looks at a bounded part of the file", "statement": "What reading a table returns, a value, an error or a panic, and where it leaves the tape, is decided by the bytes from the beginning of the table to a fixed distance after it, which depends on the table only: nothing before the table and nothing beyond that distance matters. The distances follow from the widths of counts and offsets; they cannot be shortened by one byte: for each table, and for a font or file if any is accepted, and in every build, there is a file from which a value is read with the last byte of that part and not without it. The same holds of Font::take, from the offset in the directory on.", "quantifier": "all requests, builds, positions and pairs of files that agree on that part", "why_tests_cant": "A test shows what one file gives; that no byte elsewhere matters is about all files that differ from it anywhere else, most of them gigabytes long.", "anchors": ["src/layout/directory.rs:22", "src/tables/color_palettes.rs:90", "src/tables/font_variations/mod.rs:72", "src/tables/glyph_definition/mod.rs:27", "src/font.rs:49"]}
{"id": "C67", "title": "A value needs exactly its extent", "statement": "How much of a file a table needs can be told from the table that was read: when a read gives a value, the same read gives the same value in a file cut after the last byte of the extent of that value, and fails at the end of the file, with nothing else going wrong first, when it is cut anywhere before. Any file with the same bytes in the extent gives the same value. In particular Font::take gives what it gave whatever comes after the length declared in the directory, provided that the extent is within it and the checksum is the same; without that proviso it does not (C45).", "quantifier": "all requests, builds, files, positions and lengths at which the file is cut", "why_tests_cant": "A test cuts a few files at a few places; this is about every cut of every file that can be read, with offsets that overlap, go backwards or are shared.", "anchors": ["src/layout/directory.rs:22", "src/tables/glyph_positioning/mod.rs:265", "src/tables/glyph_substitution/mod.rs:185", "src/tables/color_palettes.rs:90", "src/tables/font_variations/mod.rs:72", "src/tables/glyph_definition/mod.rs:27", "src/font.rs:49"]}
{"id": "C68", "title": "Features, scripts and languages are totally ordered", "statement": "Comparing two features, two scripts or two languages is a total order in which only equal values compare equal; values without a name (Other) come after all named ones, in the order of their tags. Named features compare as their tags do, except for c2pc, c2sc and jp04, each of which comes after a feature with a larger tag; named languages compare as their tags do, except for seven (eight with default-language). Sorting by feature or language is therefore not sorting by tag.", "quantifier": "all pairs and triples of values, all total orders of tags, both builds", "why_tests_cant": "A test compares a few of the 350,000 pairs of languages, and none of the unboundedly many others.", "anchors": ["src/layout/feature.rs:77", "src/layout/script.rs:80", "src/layout/language.rs:32"]}
{"id": "C69", "title": "Names and numbers of features and scripts", "statement": "The tags cv01 to cv99 and ss01 to ss20, and no other tags of these two series, are named features, and their names end with the number of the tag. No two features have the same name. Two scripts have the same name only if one of them is the revision of the other, with a tag that ends in 2.", "quantifier": "all numbers of two digits, all pairs of features and of scripts", "why_tests_cant": "These tables are typed by hand; a test samples rows and misses the one with a slip.", "anchors": ["src/layout/feature.rs:93", "src/layout/script.rs:97"]}
{"id": "C70", "title": "Every version and format that is read is one the OpenType specification defines", "statement": "A table that reads successfully has a version that the specification defines for it, and each of its subtables a format that the specification defines. (False of fvar, whose version is not looked at, and of GSUB lookups of type 8, whose format is not: any number is accepted and the rest is read in the same way. True of GSUB, GPOS, GDEF and CPAL and of the feature variations, mark glyph sets and variation stores in them.)", "quantifier": "every content, position, build and version number", "why_tests_cant": "Test fonts have valid versions; what is done with the other 65535 is never tried.", "anchors": ["src/tables/font_variations/mod.rs:22", "src/tables/glyph_substitution/mod.rs:146", "src/layout/directory.rs", "src/tables/glyph_definition/mod.rs", "src/tables/color_palettes.rs"]}
{"id": "C71", "title": "The error reported is that of the first part that cannot be read, in reading order", "statement": "Let what a reader looks at before it goes to the parts of a value (counts, offsets, flags) be intact. Then the call returns an error x if and only if the first part that cannot be read, in the order of reading, is refused with x; it returns a value if and only if every part can be read; and it panics if and only if the first part that cannot be read panics. Parts after the first bad one have no effect on the error. Applied repeatedly, the error of a whole table is that of the one part that is to blame, however deep; and every table that can be read is made of such parts down to parts that have only fields.", "quantifier": "every content, position and build, every composite value of GSUB, GPOS, GDEF, CPAL and fvar, and the font directory", "why_tests_cant": "Tests read valid fonts only; which of several defects is reported, out of all combinations at all depths, is never tried.", "anchors": ["src/layout/directory.rs", "src/layout/lookup.rs", "src/layout/context.rs", "src/layout/script.rs", "src/tables/glyph_substitution/mod.rs", "src/tables/glyph_positioning/mod.rs", "src/tables/glyph_positioning/element.rs", "src/tables/glyph_definition/mod.rs", "src/tables/color_palettes.rs", "src/tables/font_variations/mod.rs"]}
{"id": "C72", "title": "Reading loses nothing: a value comes from certain bytes, and those are determined by it", "statement": "Call a byte needed if the table cannot be read without it. A content gives the same value as another one if and only if the two have the same byte wherever the first one has a needed byte; in particular no needed byte can be changed without the value changing or the read failing, and bytes that are not needed can be anything or missing. From two contents that give the same value one can keep just the bytes they have in common. A missing byte that is needed is reported as the end of the file. All needed bytes are within the extent of the value.", "quantifier": "every content, position, build, request and value; every byte of the file", "why_tests_cant": "A statement about each byte of each file, and about changing any set of bytes at the same time.", "anchors": ["src/file.rs", "src/font.rs", "src/layout", "src/variations", "src/tables"]}
{"id": "C73", "title": "Running out of the file is reported exactly if bytes are missing that matter", "statement": "A read reports the end of the file if and only if some other content, with the same bytes and more of them, gives another result. Then there is a certain missing byte, not farther from the beginning of the table than the table reaches, without which the read keeps reporting the end of the file whatever else is supplied; for a file that is too short there is a least length it has to have. If all bytes within reach are there, the end of the file is never reported.", "quantifier": "all requests, builds, positions and byte contents, with bytes missing anywhere", "why_tests_cant": "It is about everything that could be supplied in place of missing bytes.", "anchors": ["src/lib.rs:54", "src/font.rs", "src/layout", "src/tables", "src/variations"]}
{"id": "C74", "title": "Tables can be edited one by one", "statement": "Writing bytes over a part of a file that holds neither the table directory nor a byte of a table that was read leaves the directory and that table as they were; writing a table over another one, at the offset in its record, makes Font::take return the new one. So replacing one table of a font in place changes that table and no other, where the checksum is ignored or right.", "quantifier": "all files, fonts, builds, tables, positions and bytes written", "why_tests_cant": "Tests read fixed fonts and never write; the claim is about every edit of every file.", "anchors": ["src/font.rs:22-60", "src/file.rs", "src/tables"]}
{"id": "C75", "title": "The order of directories makes no difference", "statement": "If no tag occurs twice, exists, position and take on two fonts whose directories hold the same records in any order return the same, and so do the getters of scripts, languages and features on lists with the same headers and records in any order.", "quantifier": "all fonts, permutations of records, tables, tapes and tags", "why_tests_cant": "The number of orders grows with the factorial of the number of records; fonts in the tests are sorted.", "anchors": ["src/font.rs:22-60", "src/layout/script.rs:53-75", "src/layout/feature.rs:62-72"]}
{"id": "C76", "title": "What a result holds is bounded by a polynomial in the size of the file", "statement": "The number of elements of all vectors of a value that was read, those of the values in them included, is at most n for the table directory and CPAL, 2^16 n for fvar, n^3 for GDEF, n^5 for GSUB and n^5 + 2^32 n^2 for GPOS, where n is the number of bytes of the file, or already of the extent of the value. What each of the 109 other types that can be read by themselves holds is at most the work that C79 allows for it. The degrees are attained: there are GSUB tables of 36 + 2 (a + b + c + d + k) bytes with more than a b c d k elements, GDEF tables of 36 + 2 (a + b + k) bytes with more than a b k, GPOS tables of 40 + 2 (a + b) bytes with more than a b n m for any n, m < 2^16, and fvar tables of 36 + 4 a bytes with more than n a for any n < 2^16.", "quantifier": "all files, builds, positions and tables; all sizes of the families", "why_tests_cant": "The worst case over all files of a size cannot be found by running some of them, and the heaviest ones do not fit in memory.", "anchors": ["src/layout", "src/variations", "src/tables", "src/file.rs"]}
{"id": "C77", "title": "Tables laid out as the OpenType specification prescribes are read as it means them, but for a known list", "statement": "If the bytes at a position are a table as the OpenType specification lays it out, with a value of the crate's types, then that value is read exactly if it has none of the following: parameters of features (C43) in GSUB and GPOS; devices whose deltas fill their last word (C40) in GPOS; carets (C39), item variation data with rows of long words or with counts whose sum takes more than 16 bits (C46, C33), and a mark glyph set offset that leads elsewhere than the item variation offset (C41) in GDEF. Of fvar and CPAL every such value is read. Every GSUB table laid out so is read, with the parameters blank. So is every GPOS table, with the parameters blank and one word more for devices whose deltas fill their last word, if two bytes follow the table in the file; if not, the only other outcome is that the end of the file is reported. A GDEF table laid out so is refused with an unknown format if it has carets. Without carets all of it but the item variations is read, whether those are supported or not; the only exception are mark glyph sets in version 1.3, which are taken for item variations, so that the end of the file can be reported instead, or there can be a panic in a build with overflow checks. Conversely, what is read and has none of those is laid out as the specification prescribes exactly if it meets the demands that the code does not check: links that are not NULL, zero reserved bits, the version and record sizes of fvar, the format of type 8 lookups, and no more words than regions in item variation data.", "quantifier": "all byte contents, positions, values and builds", "why_tests_cant": "Relates every file to a transcription of the specification; tests compare a few fields of a few fonts.", "anchors": ["src/layout", "src/variations", "src/tables"]}
{"id": "C78", "title": "A tape that fails is reported and never changes a result", "statement": "Let a tape be any implementation of the three operations that readers use (position, seek, read), with any state, each of which may fail at any time, such that what it answers is true of some file at some position. Reading from it has the outcome that reading from the file has, or ends with the failure of the tape. With a tape that does not fail, such as a file behind a buffer of any size, it is the outcome that the file has. The failure is what it ends with exactly if one of the operations that are performed fails: no failure is swallowed and none is invented. The same holds for Font::take, whatever operations the checksum needs.", "quantifier": "all tapes, byte contents, positions, schedules of failures, requests and builds", "why_tests_cant": "Tests read from files and from cursors in memory, which do not fail.", "anchors": ["src/lib.rs:54", "src/font.rs:29-70", "src/file.rs:12-22", "src/layout", "src/variations", "src/tables"]}
{"id": "C79", "title": "The work of a read is bounded by a polynomial in the size of the file", "statement": "Count the operations of the tape (position, seek, one byte read) and the turns of loops that a read performs, whether it succeeds, fails or panics. With m the size of the file in bytes plus 16, it is at most 4m for File and Font, 6m for CPAL, 2^18 m for fvar, 8m^3 for GDEF, 14m^5 for GSUB, and 14m^5 + 6*2^32 m^2 for GPOS. Each of the 109 other types that can be read by themselves has such a bound as well, from 2 for flags to 13m^5 + 6*2^32 m^2 for the lookups of GPOS. Font::take adds the work of the checksum and one operation. If a read succeeds, of a table or of a part, the work is at least the number of elements of all vectors of the result and at most 256 times that number plus 256. The degrees are attained: a GPOS table of 44 bytes takes more than 4*10^9 steps.", "quantifier": "all byte contents, positions, requests, parts with any parameters, and builds, and all outcomes", "why_tests_cant": "Tests measure a few fonts made in good faith; a bound on the time needs all files, those that are refused included, and the worst of them are too slow to be run.", "anchors": ["src/tables/glyph_positioning/mod.rs:116-147", "src/tables/glyph_positioning/element.rs:130-525", "src/layout", "src/variations/item.rs:3-37", "src/tables", "src/font.rs:29-80"]}
{"id": "C80", "title": "A file that changes while it is read, or any other tape, causes no panic and no ragged value", "statement": "Let an implementation of Read and Seek answer anything to each operation. A read of a file, font or table then still does not panic (with overflow checks: if the positions it tells are at most 2^63, and GDEF excepted, see C33), and every value it gives has all counts equal to the lengths of their vectors, optional parts present exactly where their offsets are not zero, fields as the flags announce, and variants as the lookup types demand; only the number of a format can differ from the variant, as it is read twice. Conversely every value of that shape, with each field in the range of its type, is given by some tape (in the builds that let parts be missing: if an empty part stands wherever the offset is zero; for fonts: if some version is accepted). The errors are likewise exactly those of a fixed list for each table, which is that of C54 but for palettes, where an unexpected value can come of a version that changes; and a panic is possible exactly in builds with overflow checks and for the tables that have offsets. For a file that changes between operations, the result is that for some fixed file each byte of which was in the file at some time, unless a byte was read twice and had changed in between; in that case the value can be one that no file whatever contains. Changes to bytes that are not needed for the value have no effect.", "quantifier": "all tapes with any state and any answers, all sequences of versions of a file, all requests and builds", "why_tests_cant": "Tests read files that stay as they are; a race with another writer can strike between any two of thousands of operations, and its effects cannot be reproduced at will.", "anchors": ["src/file.rs:12-22", "src/layout/coverage.rs:57-65", "src/layout/class.rs:58-66", "src/tables/glyph_definition/mod.rs:143-152", "src/font.rs:29-80", "src/layout", "src/tables"]}
{"id": "C81", "title": "From the bytes of a font file to a table", "statement": "Open a file with File::read and take a table of its first font, file[0].take(&mut tape). For every file: Some(v) is returned exactly if there is a version tag that is accepted and not that of a collection, the directory it announces is complete, the first record with the tag of the table (found at 12 + 16 i) has the checksum of the table or the build ignores checksums, and the value v is at the offset of that record; None exactly if the directory is complete and no record has the tag; otherwise an error, and no panic but for what C33 says of GDEF. The same holds for any reader in place of the table's. A file that was read has exactly one font; any other index panics. Hence tables laid out as the OpenType specification prescribes are found and read: fvar and CPAL always, GSUB but for parameters of features, GPOS and GDEF exactly if they are supported in the sense of C77.", "quantifier": "all files, positions, builds, tables, dependencies (acceptance and checksum functions) and readers", "why_tests_cant": "The statement is about all directories and all files: any number of tables, order, duplicates, offsets, and any place where the file may end.", "anchors": ["src/file.rs:12", "src/file.rs:24", "src/font.rs:29", "src/font.rs:49"]}
{"id": "C82", "title": "Every part of a table can be asked for by itself", "statement": "Besides files, fonts and tables, 109 types of the crate can be read directly with value::Read or walue::Read: coverage and class tables, device tables, contexts, lookups, anchors, values, regions, headers, records, flags. For each of them, at any position and with any parameters: a value is returned exactly if it is at that position in the format of that type, an error otherwise, and nothing panics but for the sums of C33 and for a position parameter (of the nine types that take one) that is 2^63 or more, see C83. Bytes that are missing cause only the error that the file ends (as C35); more bytes in front change neither the value nor the error if the position parameter is moved as well, and the tape is left as much further on (as C36); any tape that answers truly gives the same (as C78), and one that answers anything causes no panic and gives a value of the right shape with every field in its range, and each such value is given by some tape (as C80); for each type and parameters it is fixed which errors are possible on some tape and which for some file, and whether a panic is. Lookups and directories with a type of the user's own for the tables are read exactly if they are there, provided that the user's reader does so.", "quantifier": "all public types with a reader, all parameters, files, positions, builds, tapes, and table types of the user", "why_tests_cant": "The project's tests read whole tables of a few fonts; parts alone, with parameters and positions of the caller's choice, have far too many combinations to try.", "anchors": ["src/layout/coverage.rs:57-65", "src/layout/lookup.rs:51-93", "src/layout/directory.rs:22", "src/tables/glyph_positioning/element.rs:239-525", "src/tables/glyph_definition/element.rs:133", "src/tables/font_variations/mod.rs:98", "src/variations/item.rs"]}
{"id": "C83", "title": "Positions given as parameters cause no panic", "statement": "Nine public types (Base, Component, Mark1, Mark2, Connection, Single, Pair1, Pair2, Pair2s of glyph_positioning) are read with a position as a parameter, from which their offsets are counted. Whatever that position is, reading them should not panic. This is false: with overflow checks, each of them panics if the sum of the position and an offset is 2^64 or more; for Mark1 exactly then (and if the offset is used at all). With a position of at most 2^63 there is no panic (C82).", "quantifier": "all positions, files, parameters, builds", "why_tests_cant": "The readers of whole tables pass positions in the file; only a caller that passes one close to 2^64 would see it.", "anchors": ["src/tables/glyph_positioning/element.rs:250-525"]}
{"id": "C84", "title": "Every part of what was read can be read again by itself, where its offsets say", "statement": "Let a table be read as a value. Take any part of the value, at any depth (a coverage, a subtable, a value record, an anchor, a header, flags, ...), and the position that the offsets and sizes in the value give for it. Then the reader of the type of that part (with the parameters found in the value), called at that position of the same file, returns exactly that part. So parts of the same type that the offsets place at the same position are equal, also if they are in different tables of a file. Anchors and lists that stand for a zero offset in builds that ignore incomplete marks and directories are not in the file and are excepted.", "quantifier": "all files, positions, builds, values of GDEF, GPOS, GSUB, CPAL and fvar, and parts at any depth", "why_tests_cant": "The parts of a table are arbitrarily many and may overlap and be shared in any way; tests compare whole values of a few fonts.", "anchors": ["src/tables/", "src/layout/"]}
{"id": "C85", "title": "Whoever follows extensions comes to an end", "statement": "A subtable of an extension lookup gives the type of another subtable and an offset to it; it is up to the caller to read that with Type::read. Doing so again and again should come to an end. This is false: an extension of the type of extensions with an offset of zero is read and leads to itself. It is false exactly in the case that one comes to such an extension; otherwise the steps, the position and seven bytes together do not exceed the size of the file; and if the type is not that of extensions, one step is enough.", "quantifier": "all files, positions, types, builds; substitutions and positionings", "why_tests_cant": "Real fonts have no such extensions, and the crate does not follow those there are.", "anchors": ["src/tables/glyph_substitution/mod.rs:137-200", "src/tables/glyph_positioning/mod.rs:256-282"]}
{"id": "C86", "title": "Which bytes a value is read from", "statement": "The bytes without which a font or a table would not be read as the value it is read as are exactly the bytes of its own fields and of the fields of its parts, of their parts, and so on. Which bytes these are follows from the value and its position alone; a byte in no field, such as padding, can be anything or missing. Another content gives the same value exactly if it has the same bytes in the fields. The same holds of every part that is read by itself. So a table can be taken from an edited font exactly if the edit has spared those bytes, as long as the checksum is accepted.", "quantifier": "all files, positions, builds; fonts, files and tables; all their parts", "why_tests_cant": "Tests compare values; they do not say which bytes a value does not depend on, and the fields of a table are interleaved and shared in as many ways as there are offsets.", "anchors": ["src/layout/context.rs", "src/layout/lookup.rs:51-93", "src/tables/glyph_positioning/element.rs", "src/tables/glyph_definition/mod.rs", "src/tables/color_palettes.rs", "src/tables/font_variations/mod.rs"]}
{"id": "C87", "title": "What is wrong with a table that is refused", "statement": "Reading a table or the table directory gives an error exactly if, going down each time to the first part that cannot be read, one gets to a part that is itself at fault: bytes of its fields or arrays are missing, its format, version or type is unknown, a number that can have one value only has another, reserved bits of its flags are set in a build that checks them, a count that includes the first glyph is zero, the last size of a device table is below the first, or the tag of the font is not one that is read. The error is the one for that fault. It panics exactly if one gets to item variations whose counts add up to 2^16 or more, in a build with overflow checks. Without either the table is read. The same is true of every type that a part of a table, a field or one of the formats of a part is read as, when it is read by itself. Opening a file and taking a table gives an error exactly if the directory is at fault, the checksum of the first table with the tag cannot be computed or is not the one listed, in a build that checks it, or the table is at fault.", "quantifier": "all files, positions, builds; all tables, the table directory, and all other types that are read", "why_tests_cant": "Tests can try a few damaged files. They cannot show that every way of damaging a table is one of a list of causes, or that each cause anywhere in a table gives its error.", "anchors": ["src/layout/context.rs", "src/layout/correction.rs", "src/layout/directory.rs", "src/layout/lookup.rs:51-93", "src/tables/glyph_substitution/element.rs", "src/tables/glyph_positioning/element.rs", "src/tables/glyph_definition/mod.rs", "src/tables/color_palettes.rs", "src/tables/font_variations/mod.rs", "src/variations/item.rs:21-37", "src/font.rs:29-59", "src/file.rs:12-24"]}
{"id": "C88", "title": "A font gives the same tables wherever it begins", "statement": "File::read and Font::read begin where the tape is, so that a font behind other bytes of a tape is read like one at its beginning. One would expect its tables to be the same as well. They are not: the offsets in the directory are counted from the beginning of the tape, so a table is looked for as many bytes too early as there are in front of the font, and another one with the same checksum may be returned. Precisely: with k bytes in front, the directory is the same, and a table listed at x is what is at x - k of the font. If k was added to each offset of the directory, then every table outside of the directory is read as before, and one that is not listed is not found. Offsets in a collection are from its beginning, so each font of one can be read at its position although the collection is refused, and fonts that list the same offset share the table.", "quantifier": "all files, positions, bytes in front, builds, tables and checksums", "why_tests_cant": "The project's tests open whole files at position 0 only; no finite set of fonts covers all positions and directories.", "anchors": ["src/font.rs:29-47", "src/font.rs:73-80", "src/file.rs:12-22"]}
{"id": "C89", "title": "The default language of a script can be got like the others", "statement": "Language::Default, which exists with the feature default-language, suggests that Record::get of a script with it returns the default language of the script, and the OpenType specification has the default language used for every language that a script does not list. (Refuted: get looks at the headers of the languages only. The default language makes no difference to it; it returns None exactly if no header has the tag, and a record of one of the listed languages otherwise. A caller has to look at the field default_language.)", "quantifier": "all GSUB and GPOS tables that are read, all their scripts, all tags, all builds", "why_tests_cant": "The project's tests look at default languages and at listed languages of two fonts, never at a language that is not listed.", "anchors": ["src/layout/script.rs:65-75", "src/layout/language.rs:187-188"]}
{"id": "C90", "title": "Everything the specification puts into a table is in the value read", "statement": "One would expect that the value that Table::read returns for a table tells whatever the OpenType specification puts into the table: that each part is a function of the value. (Refuted for four parts. GSUB and GPOS with feature variations give the number of records and none of the records; whatever follows the number, the value is the same. An extension in GSUB or GPOS gives the type and the offset of the subtable it stands for and not the subtable; whatever follows, the value is the same. CPAL of version 1 does not give the offsets of the types and labels of palettes that its header ends with; in every such table these twelve bytes can be replaced by any others, unless colors overlap them, and the value is the same. An item variation store does not give its regions, only their offset; in every store they can be replaced by anything, unless they overlap the rest of it. The parameters of features are the subject of C43.)", "quantifier": "all builds; all tables of palettes of version 1 and all ways to change the offsets; all stores and all ways to change the regions; all numbers of records, all types and offsets of extensions and all bytes that follow", "why_tests_cant": "A test that compares the fields of a value with those of a font cannot see what no field holds, and whatever function is proposed to recover the part, it would take another pair of fonts to defeat it.", "anchors": ["src/layout/feature.rs:53-60", "src/tables/color_palettes.rs:37-52", "src/tables/glyph_substitution/mod.rs:137-144", "src/tables/glyph_positioning/mod.rs:256-263", "src/variations/item.rs:3-19"]}
{"id": "C91", "title": "A table without a coverage or a definition of classes is refused", "statement": "The offsets of coverages and of definitions of classes must not be zero in a subtable of GSUB or GPOS, so that one would expect Table::read to refuse a table in which one is. (Refuted: zero is followed to the header of the subtable itself, whose first two words are taken for a format and a count. A subtable of any type and of format 1 or 2 whose coverage has the offset zero gets a coverage of no glyphs, and this never fails. Marks without a coverage of bases, of ligatures or of other marks get glyphs that are words of their header and of what follows, as many as the offset of their other coverage. Pairs and contexts without a definition of classes get ranges from there, as many as the offset of their coverage. A set of marks of GDEF without a coverage gets glyphs from the offsets of the sets. The property does hold of contexts in format 3, whose format is not one of a coverage, and of the attachments and ligatures of GDEF, which begin with the offset.)", "quantifier": "all GSUB, GPOS and GDEF tables that are read, all their lookups and subtables, all builds", "why_tests_cant": "The fonts of the project's tests have no such offsets, and since the result is a value like any other a test that only checks for success sees nothing wrong.", "anchors": ["src/tables/glyph_substitution/mod.rs:40-188", "src/tables/glyph_positioning/mod.rs:38-254", "src/layout/context.rs:26-201", "src/tables/glyph_definition/element.rs:17-131"]}
{"id": "C92", "title": "A subtable has an entry for each glyph it covers, and its marks are of classes it has", "statement": "In GSUB and GPOS the index of a glyph in a coverage selects an entry of the subtable, so that one would expect of a table returned by Table::read that a subtable has as many entries (substitutes, sequences, sets of alternates, of ligatures, of pairs or of rules, values, connections, marks, bases) as its coverage has glyphs, ranges counting for all their glyphs, and that the class of each mark is below the number of classes of marks. (Refuted for all three: the reader compares none of these numbers. Every subtable whose fields are in range and of the shape of its type is read from some file, whether balanced or not; in particular any substitutes are read beside any glyphs covered, and a mark of any class beside any number of classes. A program that indexes the entries by a coverage or the anchors of a base by a class has to check for itself.)", "quantifier": "all subtables of GSUB and GPOS that fit their fields and 65500 bytes, all builds", "why_tests_cant": "The fonts of the project's tests are in order, so that the numbers always agree there; that no check exists at all concerns every subtable of every type.", "anchors": ["src/tables/glyph_substitution/mod.rs:40-200", "src/tables/glyph_positioning/mod.rs:38-290", "src/tables/glyph_positioning/element.rs:58-160", "src/layout/coverage.rs:8-64"]}
{"id": "C93", "title": "What is read can be relied on to fit its fields and to have its shape, and for nothing else", "statement": "Take any property of the content of a table, that is, one that does not depend on where in the file the parts of the table are. Of the tables that can be laid out in 64 KiB (but not GDEF tables of version 1.3 with sets of marks, in which two parts are read from the same bytes, C41), every one that Table::read returns has the property if and only if the property follows from two things: that all numbers are within the range of their fields, and that the value has its shape (counts are the lengths of lists, formats and versions are those of the variants, optional parts are there exactly if announced). Whatever follows from these holds of larger tables, too. So a program that relies on anything else has to check it: that the coordinates of instances are within the limits of their axes, that the tags of axes differ, that the ranges of coverages record how many glyphs there are before them, that the classes of pairs are below their numbers, that palettes are within the colors, and that attachment points are in order are all not guaranteed, in any build.", "quantifier": "all tables and files, all properties of their content, all builds", "why_tests_cant": "The claim quantifies over properties; a test can show of one property that one file violates it, but not that every property which is not a matter of range or shape is violated by some file.", "anchors": ["src/tables", "src/layout", "src/variations/item.rs", "src/font.rs"]}
{"id": "C94", "title": "Optional parts are absent exactly if their offsets are zero", "statement": "In every value obtained by reading: the feature variations, the default language of a script and the parameters of a feature are None exactly if their offsets are zero; so are the parts of a glyph definition (with the item variations looked for at the offset of the mark glyph sets), each anchor of cursive connections, bases, ligature components and second marks, the corrections of anchors of format 3, and the corrections of value records (None also if the offset itself is not announced). The anchors of first marks are not optional (C60).", "quantifier": "every byte content that reads successfully, every subtable, row and record", "why_tests_cant": "Callers unwrap optional parts after looking at the offset or the other way around; one swapped pair of offsets among dozens would go unnoticed as long as both parts of a font are present or absent together.", "anchors": ["src/layout/directory.rs", "src/layout/script.rs", "src/layout/feature.rs", "src/tables/glyph_definition/mod.rs", "src/tables/glyph_positioning/element.rs", "src/tables/glyph_positioning/mod.rs"]}
{"id": "C95", "title": "What a value says about glyphs is what its bytes say", "statement": "Take a coverage, a class definition, or a subtable of GSUB or GPOS that was read. Which glyphs are covered and with which index, which class a glyph is in, which glyphs are replaced by which (single, multiple, alternate and ligature substitutions), by how much a glyph or either glyph of a pair is moved in each of the four components, and which glyph is attached to which part of which other at which two anchors (cursive, and marks to bases, ligatures and marks) can be found from the value by following its fields, and from the bytes by following the specification one word at a time. The two agree, in both directions, for all glyphs. So they do for the subtable j of the lookup k of a whole table read by Table::read, including that there is no such lookup or subtable.", "quantifier": "every byte content that reads successfully, every glyph or sequence of glyphs, every lookup and subtable, all builds", "why_tests_cant": "A test compares a few fields of a few glyphs of one font; here the question is asked of every glyph of every font, including those that are not covered, that are in no class, whose index is out of range, or that several ranges cover.", "anchors": ["src/layout/coverage.rs", "src/layout/class.rs", "src/layout/lookup.rs", "src/tables/glyph_substitution/mod.rs", "src/tables/glyph_substitution/element.rs", "src/tables/glyph_positioning/mod.rs", "src/tables/glyph_positioning/element.rs"]}
{"id": "C96", "title": "Scripts, languages and features lead to the same lookups in a value as in its bytes", "statement": "In a GSUB or GPOS table that was read, take a script by its tag, its default language or a language by its tag, and a feature by its tag that the language requires or lists. The indices of lookups that they lead to in the value (headers and records being matched by their positions in the lists) are exactly those that they lead to in the bytes, where each tag stands beside its offset. Languages without features, features without lookups, indices of features that are out of range, tags that occur more than once, and lists that an incomplete directory lacks are no exceptions.", "quantifier": "every byte content that reads successfully, all tags, all builds", "why_tests_cant": "Headers and records end up in separate lists; that the one with the same position always belongs to it, for lists of any length, and that nothing gets in from elsewhere, is a statement about all tables.", "anchors": ["src/layout/directory.rs", "src/layout/script.rs", "src/layout/language.rs", "src/layout/feature.rs"]}
{"id": "C97", "title": "Rules of contexts apply to the same glyphs in a value as in its bytes", "statement": "Take a context, a chained context (each in any of its three formats: by glyph, by class, by coverage) or a reverse chained substitution that was read. The sequences of glyphs that one of its rules applies to, with those before and after in chained contexts, together with the actions that the rule asks for, or the glyph that the reverse substitution puts in place, can be found from the value by following its fields, and from the bytes by following the specification one word at a time. The two agree, in both directions, for all sequences of glyphs of any length. A set of rules whose offset is zero has no rules; a glyph that no class is given to is in the class zero. So it is for the subtable j of the lookup k of every GSUB and GPOS table that Table::read returns.", "quantifier": "every byte content that reads successfully, all sequences of glyphs, all lookups and subtables, all builds", "why_tests_cant": "A rule consists of several lists one after the other whose lengths are in between; a test sees a few short rules of one font, not that each list starts where the previous one ends for all lengths and all glyphs.", "anchors": ["src/layout/context.rs", "src/layout/class.rs", "src/layout/coverage.rs", "src/tables/glyph_substitution/mod.rs", "src/tables/glyph_positioning/mod.rs"]}
{"id": "C98", "title": "Devices correct by the same amounts in a value as in its bytes", "statement": "Take a device table (corrections of two, four or eight bits each, packed into words) that was read. By how much it corrects at a size can be found from the value by following its fields and taking the bits out of the word they are in, and from the bytes by following the specification. The two agree, in both directions, for all sizes and amounts. There is a correction at each size from the first to the last one, in other words the value has all the words that are needed, and at no other size. The amounts fit into the number of bits that the format stands for.", "quantifier": "every byte content that reads successfully, all sizes, all amounts, all builds", "why_tests_cant": "How many words are read depends on the first and the last size and the format; a test sees a few combinations, not that the word of every size is among them and in its place.", "anchors": ["src/layout/correction.rs"]}
{"id": "C99", "title": "Glyph definitions say about glyphs what their bytes say", "statement": "Take a GDEF table that Table::read returned. The class of a glyph, its attachment points, the class of a mark and the sets of marks that it is in can be found from the value by following its fields, and from the bytes by following the specification one word at a time. The two agree, in both directions, for all glyphs, classes, points and sets, in all versions of the table: what an offset of zero stands for is empty, and there are no sets of marks before version 1.2.", "quantifier": "every byte content that reads successfully, all glyphs, classes, points and sets, all builds", "why_tests_cant": "Each of the four is behind an offset that may be missing in a header with three layouts; tests with a few fonts do not see all glyphs and all combinations.", "anchors": ["src/tables/glyph_definition/mod.rs", "src/tables/glyph_definition/element.rs", "src/layout/class.rs", "src/layout/coverage.rs"]}
{"id": "C100", "title": "Axes and instances are in the value what they are in the bytes", "statement": "Take an fvar table that Table::read returned. The tag, the least, the default and the greatest value of the axis with an index, and at which coordinate of the axis with a tag the instance with an index and a name is, can be found from the value by following its fields, and from the bytes by following the specification, with records spaced by the sizes in the header. The two agree, in both directions, for all axes, instances, tags, names and coordinates.", "quantifier": "every byte content that reads successfully, all axes and instances, all builds", "why_tests_cant": "Records are spaced by sizes in the header which are almost always the least ones possible in fonts; tests do not see the others.", "anchors": ["src/tables/font_variations/mod.rs"]}
{"id": "C101", "title": "Items vary by the same amounts in a value as in its bytes", "statement": "Take an item variation store that was read. By how much an item of a group varies in a region can be found from the value by following its fields, taking one or two of the bytes it keeps as a number in two's complement, and from the bytes by following the specification: a row for each item, in which the first regions of the group have 16-bit numbers and the others 8-bit numbers. The two agree, in both directions, for all groups, items, regions and amounts. This is for builds with overflow checks, and for builds without them if the numbers of regions and of 16-bit numbers of each group add up to less than 2^16.", "quantifier": "every byte content that reads successfully, all groups, items, regions and amounts", "why_tests_cant": "The reader keeps the rows as bytes without structure; that they are complete and that each number is where the specification puts it depends on three counts, of which tests see a few combinations.", "anchors": ["src/variations/item.rs"]}
{"id": "C102", "title": "The colors of palettes are those in the bytes", "statement": "Take a CPAL table that Table::read returned, and iterate over its palettes and their colors. The color, given by its blue, green, red and alpha components, that the iteration gives for the entry j of the palette k is the one that one finds in the bytes by following the specification: the index of the first color of the palette, plus j, in the array of colors. Conversely, each color that one finds so in the bytes, within the number of colors that the table declares, is given by the iteration.", "quantifier": "every byte content that reads successfully, all palettes, entries and colors, all builds", "why_tests_cant": "Palettes may overlap and the array of colors can be anywhere; a test compares the palettes of a few fonts, which are stored one after the other.", "anchors": ["src/tables/color_palettes.rs"]}
{"id": "C103", "title": "Corrections say in a value what they say in its bytes", "statement": "A correction is either an amount for each size in a range or a reference into a store of variations. Take a correction, an anchor or a subtable of GPOS that adjusts single glyphs or pairs of glyphs, or a whole GPOS table, that was read. Which correction there is for a coordinate of the anchor, and for a component of the adjustment of a glyph or of the first or the second glyph of a pair, can be found from the value by following its fields, and from the bytes by following the specification. The two agree, in both directions, for all glyphs, components, sizes, amounts and references. The offsets of corrections count from the subtable, but for lists of pairs, where they count from the set of pairs, and anchors, where they count from the anchor; an offset of zero stands for no correction.", "quantifier": "every byte content that reads successfully, all glyphs, components, sizes, amounts and references, all lookups and subtables, all builds", "why_tests_cant": "Which of the eight fields of a value record are there, and so where each of them is, depends on the format; where offsets count from depends on the subtable. Fonts in tests use few of the 256 formats and next to no corrections.", "anchors": ["src/layout/correction.rs", "src/tables/glyph_positioning/element.rs", "src/tables/glyph_positioning/mod.rs"]}
{"id": "C104", "title": "From the bytes of a font file to what it says about glyphs", "statement": "Open a file with File::read and take a table of its first font. Which glyphs a feature of a script and a language replaces by which others, which rules of contexts it has, which glyphs it adjusts by how much and which it attaches to which, according to the GSUB or GPOS table taken, are what one finds by following the specification from the start of the file on, one word at a time: the first entry of the directory with the tag of the table, then the lists of scripts, features and lookups, then the subtables. So are the classes of glyphs and of marks, the attachment points and the sets of marks in GDEF, the axes and the coordinates of instances in fvar and the colors of palettes in CPAL. If the answer of take is that there is no table, then there is nothing to find either.", "quantifier": "every byte content for which opening and taking succeed, all scripts, languages, features, lookups, glyphs, classes, axes, instances and palettes, all builds, any accepted versions and any checksums", "why_tests_cant": "The path goes through up to nine offsets; a test follows a few paths of a few fonts and does not see that no other path leads elsewhere.", "anchors": ["src/file.rs", "src/font.rs", "src/layout/directory.rs", "src/tables/mod.rs"]}
{"id": "C105", "title": "Lookups skip the same glyphs in values as in their bytes", "statement": "Take a GSUB or GPOS table and a GDEF table that Table::read returned. A lookup skips bases, ligatures or marks as its flags say, and marks that are not in its set of marks or not in the class of marks in the upper byte of its flags. Which glyphs a lookup skips can be found from the values, with the methods of the flags, the set of marks kept beside them, and the classes and sets of GDEF, and from the bytes of the two tables by following the specification. The two agree, in both directions, for all lookups and glyphs. The same holds of two tables taken from a font file, counted from the start of the file.", "quantifier": "every byte content from which both tables are read successfully, at any two positions, all lookups and glyphs, all builds", "why_tests_cant": "What is skipped depends on the flags of a lookup, a field that is there only with one of them, and two classes and a set in another table; tests see a few of the combinations.", "anchors": ["src/layout/lookup.rs", "src/tables/glyph_definition/mod.rs"]}
{"id": "C106", "title": "Extensions lead to what the bytes say", "statement": "The subtables of an extension lookup give the type and the offset of another subtable, and it is left to the caller to read that one: at the offset of the list of lookups, plus that of the lookup, plus that of the extension, plus the one in the extension, all of which are in the value of the GSUB or GPOS table. Suppose the caller does so. Which glyphs the subtable they come to replaces, adjusts, with which corrections, or attaches, and which rules of contexts it has, is what one finds by following the specification from the start of the table on, one word at a time. The two agree, in both directions, for all lookups and subtables, be they extensions or not, provided that the subtable an extension leads to can be read. The same holds of a feature of a script and a language of a table taken from a font file, if the caller counts from where the directory of the font has the table.", "quantifier": "every byte content that reads successfully, all lookups and subtables, all glyphs, all builds", "why_tests_cant": "The position is the sum of five numbers from different parts of the value, one of 32 bits; a test sees that a few fonts come out right, not that no other reading of the offsets would do.", "anchors": ["src/layout/lookup.rs", "src/layout/directory.rs", "src/tables/glyph_substitution/mod.rs", "src/tables/glyph_positioning/mod.rs"]}
{"id": "C107", "title": "Getters give what the bytes say", "statement": "Ask a GSUB or GPOS table that was read for a script by its tag with Scripts::get, and the script for its default language or, with Record::get, for a language by its tag. The numbers of the features of that language, the required one and the others in their order, are those at the first script record with that tag and the first language record with the other one, found in the file one word at a time. Features::get gives the numbers of the lookups of the first feature record with a tag in the same way. Scripts::get and Features::get give nothing exactly if no record of the bytes has the tag. The same holds of tables taken from a font file, counted from the start of the file.", "quantifier": "every byte content that reads successfully, all tags of scripts, languages and features, all builds, including those that tolerate missing lists", "why_tests_cant": "Whether the first of several equal tags is found, whether headers and records stay in step and whether a list that is missing is searched depend on the file; a test tries a few tags in a few fonts.", "anchors": ["src/layout/script.rs", "src/layout/feature.rs", "src/layout/language.rs", "src/layout/directory.rs", "src/font.rs"]}
{"id": "C108", "title": "A text becomes the same by values as by their bytes", "statement": "Take a GSUB and a GDEF table that Table::read returned, a script, a language of it or its default one, and a set of features that are wanted. Let the lookups of the required feature and of the wanted ones among those the language lists go through a text, a sequence of glyphs, one after the other in the order of their indices. At each place the first subtable that has something to do there replaces glyphs, or takes the actions of one of its rules one after the other, which are again lookups at a place of the text, up to any given depth; of the ligatures and rules of a subtable that fit, the one that comes first in its set is taken; glyphs that a lookup skips are left aside and kept, and the lookup goes on behind what was put in. Reverse substitutions go from the end of the text to its beginning. Then what can become of a text by following the fields of the values is what can become of it by following the specification in the bytes, one word at a time. Something becomes of every text. The same holds for a caller who reads the subtables that extensions lead to, and of the two tables of a font file, counted from its start.", "quantifier": "every byte content from which both tables are read successfully, all texts, scripts, languages, sets of features, depths and numbers of lookups, substitutions of all types, all builds", "why_tests_cant": "What becomes of a text depends on the order of lookups and of subtables, on what is skipped and on what does not apply, that is, on all of two tables at once; a test shapes a few texts with a few fonts.", "anchors": ["src/layout/lookup.rs", "src/layout/context.rs", "src/layout/directory.rs", "src/tables/glyph_substitution/mod.rs", "src/tables/glyph_definition/mod.rs"]}
{"id": "C109", "title": "The glyphs of a text are moved the same by values as by their bytes", "statement": "Take a GPOS and a GDEF table that Table::read returned, a script, a language of it or its default one, and a set of features that are wanted. Let the lookups that are on go through a text, a sequence of glyphs, in the order of their indices. At each place the first subtable that is about the glyphs there, even if it does not move them, adds its values to the placements and advances of a single glyph or of the two glyphs of a pair, or takes the actions of one of its rules, which are again lookups at a place of the text, up to any given depth; of the rules of a subtable that fit, the one that comes first in its set is taken; glyphs that a lookup skips are left aside, and the lookup goes on at the next glyph, or behind the second glyph of a pair if that has a value record too. Then by how much each glyph can be moved in each component by following the fields of the values is by how much it can be moved by following the specification in the bytes, one word at a time. Every text is moved somehow, and where a lookup has something to do, something is done. The same holds for a caller who reads the subtables that extensions lead to, and of the two tables of a font file, counted from its start.", "quantifier": "every byte content from which both tables are read successfully, all texts, scripts, languages, sets of features, depths and numbers of lookups, adjustments of single glyphs and of pairs in both formats, rules of all formats, all builds", "why_tests_cant": "By how much a glyph is moved depends on the order of lookups and of subtables, on what is skipped and on what does not apply, that is, on all of two tables at once; a test lays out a few texts with a few fonts.", "anchors": ["src/layout/lookup.rs", "src/layout/context.rs", "src/layout/directory.rs", "src/tables/glyph_positioning/mod.rs", "src/tables/glyph_positioning/element.rs", "src/tables/glyph_definition/mod.rs"]}
{"id": "C110", "title": "Ligatures and rules are preferred in the same order by values as by their bytes", "statement": "Take a subtable of a GSUB or GPOS lookup that Table::read or Walue::read returned. The ligature at an index of its ligature set, or the rule at an index of its rule set or class rule set, replaces the same glyphs by the same ones, or applies to the same glyphs before, at and behind a place and asks for the same actions, by the fields of the value as by the words of the file at that index of the array of offsets of the set. The order of ligatures and rules in a set, in which a font states its preferences, is thus kept. The same holds of the subtables of the lookups of a whole table. What has some index is what C95 and C97 are about.", "quantifier": "every byte content that is read successfully, all indices, glyphs, actions, lookups and subtables, all formats of contexts and chained contexts, all builds", "why_tests_cant": "An order can be mixed up for some sets only, such as those whose offsets are not ascending; a test has a few sets.", "anchors": ["src/layout/context.rs", "src/tables/glyph_substitution/mod.rs", "src/tables/glyph_substitution/element.rs"]}
{"id": "C111", "title": "One thing becomes of a text if the subtables leave no doubt", "statement": "Take a GSUB or GPOS table and a GDEF table that Table::read returned. If in each subtable whose effect depends on it glyphs have at most one index in the coverage and at most one class, there is at most one alternate, and pairs are listed at most once, then at most one thing becomes of a text by substitutions (C108), and its glyphs are moved in one way only (C109), by the values and by the bytes; so it is for a caller who reads the subtables that extensions lead to. The shaping described by C108 and C109 is thus a function there, and a caller has no choice left. Coverages and class definitions whose glyphs or ranges ascend in the file are such that glyphs have at most one index and class. If in all subtables of a table the coverages, the class definitions and the pairs ascend in the words of the file, and there is at most one alternate, its subtables leave no doubt. Where a glyph is covered twice, different things may become of a text.", "quantifier": "every byte content from which both tables are read successfully, all texts, scripts, languages, sets of features, depths and numbers of lookups, all builds", "why_tests_cant": "That nothing else can become of a text is a statement about all ways of following two tables; a test follows one.", "anchors": ["src/layout/coverage.rs", "src/layout/class.rs", "src/layout/context.rs", "src/layout/lookup.rs", "src/tables/glyph_substitution/mod.rs", "src/tables/glyph_positioning/mod.rs"]}
{"id": "C112", "title": "Glyphs of texts come from the text or from its lookups, and texts that no lookup is about are left alone", "statement": "Take a GSUB or GPOS table and a GDEF table that Table::read returned. Each glyph of what becomes of a text by substitutions (C108) is a glyph of the text or one that a subtable puts in, and this subtable is of a lookup that is on or that rules of such lookups ask for, directly or not. If the glyphs of a text are below 65536, so are those of what becomes of it. A text stays as it is if no subtable of a lookup that is on is about any of its glyphs, and in the same case its glyphs stay where they are (C109). No glyph is moved that is not in the text. All this holds too for a caller who reads the subtables that extensions lead to.", "quantifier": "every byte content from which the tables are read successfully, all texts, scripts, languages, sets of features, depths and numbers of lookups, all builds", "why_tests_cant": "That no other glyph can come up is a statement about all ways of following a table, through rules that ask for lookups with rules; a test follows one.", "anchors": ["src/layout/lookup.rs", "src/layout/context.rs", "src/layout/coverage.rs", "src/tables/glyph_substitution/mod.rs", "src/tables/glyph_positioning/mod.rs"]}
{"id": "C113", "title": "A limit to the depth of rules makes no difference for tables whose rules are nested no deeper", "statement": "Rules of contextual lookups ask for lookups, which may have rules too; C108 and C109 follow them up to a depth that the caller chooses. Take a GSUB or GPOS table and a GDEF table that Table::read returned. If from each lookup that is on at most that many steps lead from a lookup to one that a rule of it asks for, then the same becomes of a text, and its glyphs are moved the same, at that depth and at any greater one, by the values and by the bytes, and for a caller who reads the subtables that extensions lead to. Such a depth exists if the lookups can be numbered so that each asks only for those with lower numbers. It does not exist for a lookup that asks for itself, which the code reads without complaint.", "quantifier": "every byte content from which the tables are read successfully, all texts, scripts, languages, sets of features, depths and numbers of lookups, all builds", "why_tests_cant": "The claim compares all depths from one on, of which there are infinitely many, for all texts and tables.", "anchors": ["src/layout/context.rs", "src/layout/lookup.rs", "src/tables/glyph_substitution/mod.rs", "src/tables/glyph_positioning/mod.rs"]}
{"id": "C114", "title": "Lookups that nothing leads to make no difference", "statement": "Take two GSUB or two GPOS tables that Table::read returned, of the same or of different files, and a GDEF table. If for a script, a language and a set of features the same lookups of both are on, and each lookup that is on or that rules lead to from there is the same record in both, then the same becomes of every text by both (C108), and its glyphs are moved the same (C109), by the values and by the bytes, whatever the other lookups are. A caller may leave such lookups aside, and a tool may replace them.", "quantifier": "all byte contents from which the tables are read successfully, all texts, scripts, languages, sets of features, depths and numbers of lookups, all builds", "why_tests_cant": "The claim is about all replacements of the lookups that nothing leads to, and about all texts; a test tries a few of each.", "anchors": ["src/layout/lookup.rs", "src/layout/feature.rs", "src/layout/context.rs", "src/tables/glyph_substitution/mod.rs", "src/tables/glyph_positioning/mod.rs"]}
{"id": "C115", "title": "Definitions of glyphs matter only to lookups whose flags take something from them", "statement": "Take a GSUB or GPOS table that Table::read returned, and two GDEF tables. If these agree in what the flags of the lookups that are on, or that rules lead to, take from them (bases, ligatures, marks, the class or the set of marks that a lookup names), then the same becomes of every text with both (C108), and its glyphs are moved the same (C109), also where extensions are followed. If the flags take nothing from the definitions, any GDEF table will do, in bytes as well as in values; and a lookup takes nothing from them exactly if bits 1 to 3 and the high byte of its flags are zero and mark_filtering_set is None.", "quantifier": "all values of the tables, all byte contents from which they are read successfully, all texts, scripts, languages, sets of features, depths and numbers of lookups, all builds", "why_tests_cant": "The claim is about all pairs of definitions and all texts; a test tries a few of each.", "anchors": ["src/layout/lookup.rs", "src/tables/glyph_definition/mod.rs", "src/tables/glyph_substitution/mod.rs", "src/tables/glyph_positioning/mod.rs"]}
{"id": "C116", "title": "Lookups come to the end of every text", "statement": "Let the lookups of a GSUB table, whatever is in it, go through a text as in C108. Rules may ask for lookups that ask for them again, and glyphs may be replaced by more glyphs, but whenever a lookup has done something at a place, what is left for it to go through is shorter than before. So the lookups come to the end of the text: it cannot be that nothing becomes of it, by the values, by the bytes of any file, and for a caller who reads the subtables that extensions lead to. Where a subtable has something to do, something is done. The same holds of the movements of glyphs by a GPOS table (C109), where a lookup is done with at least one glyph at a time and with none that is not there. If the subtables leave no doubt (C111), just one thing becomes of a text.", "quantifier": "all values of the tables and all byte contents, all texts, scripts, languages, sets of features, depths and numbers of lookups, all builds", "why_tests_cant": "A test cannot tell a shaping that does not end from one that takes long, and tries but a few of the tables with cycles of rules and growing replacements.", "anchors": ["src/layout/lookup.rs", "src/layout/context.rs", "src/tables/glyph_substitution/mod.rs", "src/tables/glyph_positioning/mod.rs"]}
{"id": "C117", "title": "Nothing changes after the last lookup", "statement": "Features that Table::read returned may name lookups that are not in the table (C61). Take a GSUB or GPOS table, and let lookups go through a text as in C108 and C109, up to some index that is not less than the number of lookup records of the table. What becomes of the text, and how its glyphs are moved, is the same for any greater index: lookups that are not there do nothing. A caller may thus stop at the number of records. It holds by the values, by the bytes, and for a caller who reads the subtables that extensions lead to.", "quantifier": "all values of the tables, all byte contents from which they are read successfully, all texts, scripts, languages, sets of features, depths and indices, all builds", "why_tests_cant": "The claim is about all texts and all features that name lookups out of range; a test tries a few.", "anchors": ["src/layout/lookup.rs", "src/layout/feature.rs", "src/tables/glyph_substitution/mod.rs", "src/tables/glyph_positioning/mod.rs"]}
{"id": "C118", "title": "Only features that the language lists can be turned on", "statement": "Take a GSUB or GPOS table that Table::read returned, a script, and a language of it or its default one, and let lookups go through a text as in C108 and C109. If two callers want the same features among those whose indices are in the language's list of features, the same becomes of the text for both, and its glyphs are moved the same way, whatever else they want: the required feature is on for both, and features that the language does not list are on for neither. For features it holds by the values, by the bytes, and for a caller who reads the subtables that extensions lead to. By the values, a text in a script that no header of the table has the tag of stays as it is, and none of its glyphs is moved, whatever is wanted.", "quantifier": "all values of the tables, all byte contents from which they are read successfully, all texts, scripts, languages, pairs of sets of features, depths and indices, all builds", "why_tests_cant": "The claim is about all pairs of sets of features that agree on the listed ones and all texts; a test tries a few sets on a few texts.", "anchors": ["src/layout/language.rs", "src/layout/script.rs", "src/layout/feature.rs", "src/tables/glyph_substitution/mod.rs", "src/tables/glyph_positioning/mod.rs"]}
