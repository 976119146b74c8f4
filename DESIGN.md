# Formal model of bodoni/opentype in Rocq (Coq 8.16.1)

## What is modelled

The crate is a parser: every public operation reads big-endian structures from
a seekable tape and returns plain values.  The model is a shallow embedding of
that code as total Gallina functions.

| File (rocq/theories) | Content | Code in /repo |
|---|---|---|
| `Bytes.v` | file contents, the declarative vocabulary `u16_at`, `vec_at`, ... (specification side) | - |
| `Types.v` | one record per Rust struct, one inductive per Rust enum | all of `src` |
| `Tape.v` | cursor monad: `take`, `peek`, `stay`, `jump`, `take_given`, the `jump_take*!`, `table!`, `flags!` macros | crate `typeface` (not in /repo; see trusted base) |
| `ModelLayout.v` | coverage, class, correction, context, language, script, feature, lookup, directory, item variation store | `src/layout`, `src/variations` |
| `ModelGdef.v`, `ModelGsub.v`, `ModelGpos.v`, `ModelCpal.v`, `ModelFvar.v` | the five tables | `src/tables` |
| `ModelFont.v` | `accept`, `File`, `Font`, `Table` | `src/lib.rs`, `src/file.rs`, `src/font.rs`, `src/table.rs` |
| `Steps.v`, `StepsReaders.v` | the same readers as trees of steps, so that failures of the tape can be spoken of; the second is generated by `tools/gen_steps.py` from the files above, with the same text | crate `typeface`, all readers of `src` |
| `TagsFeature.v`, `TagsScript.v`, `TagsLanguage.v` | the three enumerations, generated from the source by `tools/gen_tags.py` | `src/layout/{feature,script,language}.rs` |
| `ModelFlags.v`, `ModelDefaults.v` | methods of the flags, hand-written implementations of `Default` | `src/layout`, `src/tables` |
| `ModelTags.v` | `from_tag`, `name`, `codes`, conversions to `Tag` | `src/layout/{feature,script,language}.rs` |
| `Options.v` | the Cargo features and the overflow checks of a build | `Cargo.toml` |
| `Requests.v`, `Api.v` | what a caller can ask for and what a call can result in: `reads`, `fails`, `panics` | - |
| `Pieces.v` | the other types that can be read, each with its reader and its specification | all implementations of `Read` and `Walue` in `src` |
| `Encode.v`, `Samples.v`, `ProofOpenSamples.v` | writing words as bytes, small tables and a small font used in examples | - |
| `Writer.v`, `Written.v`, `Copies.v` | an encoder of all values, independent of the readers; copies of real tables | - (src has no writer) |
| `Assembly.v` | whole font files put together from tables | - (src has no writer) |
| `Spec*.v` | declarative byte-layout specifications, position-explicit, no monad, no cursor | OpenType layout as the code documents it |
| `Proof*.v` | lemmas | - |
| `Properties*.v` | only the property theorems, each `exact lemma` + `Print Assumptions`, with examples beside them | - |
| `Fixture*.v` | bytes of tables from `tests/fixtures`, with the assertions of `/repo/tests` evaluated on the model | `/repo/tests` |

A reader is a function `env -> position -> Ok (value, position') | Err e | Panic`.
`env` holds the file content, the Cargo features, whether arithmetic is overflow
checked, and the behaviour of the dependencies that is not fixed by this
repository.  A panic (index out of bounds, arithmetic overflow in an
overflow-checked build) is the explicit outcome `Panic`.  The position of the
tape after an error is not modelled (C06 quantifies over all of them instead).

## Method

* Refinement: for each structure `X` a predicate `x_at f p v` ("the bytes of
  file f at position p are an X with content v") is written with absolute
  positions only, and the reader is proved to return `v` iff `x_at f p v`
  (C13-C30, composed bottom-up to whole GSUB, GPOS, GDEF, CPAL, fvar tables).
* Panic freedom: compositional, from the fact that a reader reads something at
  its base before it computes `base + offset` (C32, C33).
* Consequences: C12, C29, C31, C34 from the refinement and panic freedom.
* Relational properties of the readers themselves (C35 extension, C36
  relocation, C37/C38 build comparison): compositional lemmas over the monad.
* File, font, tag properties (C01-C11): direct proofs over all directories and
  histories; the enumerations by a finite sweep lifted to all 2^32 tags.
* Findings (C10, C33, C39-C47, C57, C61, C62, C65, C70, C83, C85, C88-C92): the property as a user would state it is false
  of the code.  The model follows the code; a theorem `..._refuted` gives a
  concrete witness, and the exact behaviour of the code is proved beside it.

## Per property

| Property | Model | Proof |
|---|---|---|
| C01, C02, C08 | `file_read` | inversion of the monad; iff with `offsets_at` |
| C03-C06 | `font_exists`, `font_position`, `font_take`, tape histories | induction over the directory / the history |
| C07 | `table_tag` | finite sweep over 16x16 pairs, lifted to directories |
| C09-C11 | generated enumerations | finite sweep + `find` lemma for all tags; Katakana refutes C10 for Script |
| C12 | `scripts_get`, `script_record_get`, `features_get` | first-index lemma + C31 |
| C13-C30 | all readers | refinement as above |
| C31 | well-formedness predicates over all value types | from the refinement |
| C32-C33 | all readers | panic-freedom calculus; GDEF refuted with overflow checks, proved without |
| C34 | all readers | refinement + panic freedom |
| C35-C36 | all readers | monotonicity and shift lemmas for every combinator; `C36_outcome` and `C82_outcome` run a reader in two files side by side (`ProofShift.v`) |
| C37-C38 | `read_directory`, `read_mark1` | relation between two environments |
| C39-C46 | readers vs. OpenType predicates | witness by `vm_compute` + exact characterisation |
| C47 | element counts of all tables | families of files with n*m, n*n and n*m*k elements (GPOS, GDEF, fvar, GSUB); linear bounds for CPAL and the directory |
| C48 | generated enumerations | `find` lemma for all tags |
| C49 | all readers in two builds | relation between two environments; exact overflow predicate |
| C50, C52 | all readers, encoder of `Writer.v` | layout of blocks (`laid`) composed bottom-up to the byte-layout predicates, then the refinement |
| C51 | ranges (`SpecFits.v`) over all value types | from the refinement |
| C53 | encoder and erasure of offsets (`SpecErase.v`) | C50 + uniqueness of what is read |
| C54 | errors of all readers | calculus of the errors a reader can return (`only`), exact conditions by the order of reads |
| C55 | `read_file`, `font_take`, files of `Assembly.v` | C50 at the offset of the table, `first_record` |
| C56 | `read_directory` | address of every part from the refinement, then uniqueness of what is read there |
| C57 | `jump_take_list`, `read_mark1` without the two features | witness + the header read as a list |
| C58 | all readers in two builds | the byte-layout predicates differ only in flags, sums and zero offsets |
| C59 | methods of flags (`ModelFlags.v`) | bits of a mask; fields beside the flags from C31 and C51 |
| C60 | `Default` (`ModelDefaults.v`) | the refinement: no format or version is zero |
| C61, C62 | all readers | families of files that hold any index, any array; reads are portable between builds by C58 |
| C63 | all readers | the size of the encoding of Writer.v for parts without offsets, and SpecCursor.v, which finds the end of the part that is read last from the offsets and counts in the value |
| C64, C65 | `Scripts::get`, `Record::get`, `Features::get` | the index of the first header with a tag; values that need not come from a file |
| C66 | all requests, `Font::take` | `agree lo hi f g`: the same bytes from `lo` to `hi`; `reach`, a sum of the largest offsets and sizes |
| C67 | all requests, `Font::take` | `cut n f`: the first `n` bytes; `extent`, by recursion on the value that was read: where its last field ends, however it was reached |
| C68 | derived `Ord` of `Feature`, `Script`, `Language` | laws of a total order; the order of tags as big-endian numbers; the `Ord` of `Tag` (in truetype) is a parameter |
| C69 | `Feature::name`, `Script::name` | `spelled`: the characters of a tag; decimal numbers; revised scripts |
| C70 | `FontVariations`, GSUB type 8, the versions of all tables | `same_from q f g`: the same bytes from `q` on; a value with another version or format |
| C71 | all readers with parts | `parts`: header intact and the parts in reading order, one constructor per format; a calculus relating a run to the first bad part |
| C72 | all requests | `common f g`: the bytes two contents share; every byte-layout predicate is closed under it, hence (with C35 and C67) the needed bytes are exactly those that determine the value |
| C73 | all requests | the calculus of C66 carries, besides the range that is looked at, the missing byte a read is stuck on |
| C74 | File, Font::take, all tables | `overwrite`, with C50 and C67 |
| C75 | Font, getters | permutations of records with distinct tags |
| C76 | all vectors of all values | `weight` by `extent`: a ladder of levels of offsets; families of files with shared offsets |
| C77 | GSUB, GPOS, GDEF, fvar, CPAL | a layout of the specification (SpecConform.v) against that of the code, clause by clause; what a standard GPOS table becomes (SpecTrim.v), and a standard GDEF table |
| C78 | all readers, step by step (`Steps.v`) | the steps on a file give what the model gives, reader by reader; simulation between a tape and a file |
| C79 | all readers, step by step (`SpecWork.v`) | bytes eaten pay for steps, loop by loop (amortised where elements may be empty); tallies against the weight of C76 |
| C80 | all readers, step by step (`SpecChange.v`, `SpecLoose.v`, `SpecRanges.v`) | a predicate over trees of steps that holds whatever is answered; for the converse, answers found from the end backwards; the bytes that were looked at make a file |
| C81 | `File::read`, `file[0]` and `Font::take` together (`ModelOpen.v`, `SpecOpen.v`) | the directory as positions of bytes; composition with C02, C04 and C77 |
| C82, C83 | all other implementations of `Read` (`Pieces.v`) | case analysis over the types, with the lemmas that C25-C38, C78 and C80 rest on |
| C84 | the same types, and the tables | case analysis over the types for one level; induction on the depth |
| C85 | extension subtables and `Type::read` | a relation of leading on; positions increase, or it is a loop |
| C86 | the same types, and the tables | the fields and parts determine the format, for one level by case analysis; induction on the depth of nesting |
| C87 | all readers | `fault`: what a part begins with, and its forbidden values; whatever is read is there or missing, so that each reader comes to its parts, to a fault, or to an overflow |
| C88 | `File::read` and `Font::take` at any position (`ModelOpen.v`) | C81 in two files side by side, C36 and C35 for the tables; a witness by `vm_compute` |
| C89 | `script_record_get` | C31 and C64 for the languages of a script |
| C90 | `read_glyph_substitution`, `read_glyph_positioning`, `read_color_palettes`, `read_store` | two files with one value; C28 and C35 for the bytes that make no difference |
| C91 | `read_coverage`, `read_class` at the header of a subtable | C13, C14 and C25 at one and the same position |
| C92 | `read_glyph_substitution`, `read_glyph_positioning` | the encoder of C50 for a table of one subtable; the numbers compared do not depend on offsets |
| C93 | all readers | C50, C51 and C31: whatever is in range and in shape is read from the file that is written for it |
| C94 | readers of GSUB, GPOS and GDEF | C31 along paths to each optional part |
| C95-C103 | readers of coverages, classes, contexts, corrections, anchors, CPAL, GDEF, GSUB, GPOS, fvar and stores of variations; the iteration over palettes | C31 along paths to what is said about a glyph or a tag, in both directions |
| C104 | opening a file and taking a table | C81 composed with C95 to C102 |
| C105 | readers of GDEF, GSUB and GPOS, methods of the flags of lookups | C31 for two tables, C59 |
| C106 | readers of GSUB, GPOS and their subtables | C31, C82 at places worked out from the value |
| C107 | `scripts_get`, `script_record_get`, `features_get` on what is read | refinement + first-index lemma of C12 |
| C108 | readers of GDEF and GSUB | C95, C96, C97 and C105 put into one relation, by induction |
| C109 | readers of GDEF and GPOS | C95, C96, C97 and C105 put into one relation, by induction |
| C110 | readers of GSUB and GPOS | C95 and C97 with the index in a set kept |
| C111 | readers of GDEF, GSUB and GPOS | each step of the relations of C108 and C109 has one outcome, by induction |
| C112 | readers of GDEF, GSUB and GPOS | invariants of the relations of C108 and C109, by induction; ranges from the words of the file |
| C113 | readers of GDEF, GSUB and GPOS | the relations of C108 and C109 at two depths agree, by induction over the depth that is enough |
| C114 | readers of GDEF, GSUB and GPOS | the relations of C108 and C109 for two tables agree on a set of lookups that is closed under asking |
| C115 | readers of GDEF, GSUB and GPOS | the glyphs that a lookup skips are the same for definitions that agree for its flags; then as C114 |
| C116 | none: the relations of C108 and C109 | by induction on the length of the text; existence is stated as a double negation, since the relations are not decided here and no axiom of classical logic is used |
| C117 | readers of GDEF, GSUB and GPOS | a lookup without subtables leaves every text alone; which lookups are on is decided by searching the lists |
| C118 | readers of GDEF, GSUB and GPOS | a lookup is on only through a required or a listed feature; the rest of C108 and C109 sees which lookups are on and nothing else of the features |

## Where the specifications are

To judge a theorem one needs its statement, the vocabulary of `Bytes.v`, `Types.v` and `Api.v`,
and these files; none of them mentions a proof, and only those marked * mention readers.

| Properties | Specifications |
|---|---|
| C01-C06, C45, C55, C74, C75, C81, C88 | `SpecFont.v`, `SpecAccess.v`, `SpecHistory.v`*, `SpecEdit.v`*, `SpecOpen.v`, `SpecEmbed.v`* |
| C07-C11, C48, C68, C69 | `SpecTags.v`, `SpecNames.v`, `SpecOrder.v` |
| C12, C29, C64, C65, C89 | `SpecGetters.v`, `SpecFallback.v`* |
| C90-C93 | `SpecLost.v`*, `SpecNull.v`, `SpecEntries.v`, `SpecGuaranteed.v`* |
| C13-C30, C34-C36 | `SpecLayout.v`, `SpecGsub.v`, `SpecGpos.v`, `SpecGdef.v`, `SpecCpal.v`, `SpecFvar.v`, `SpecShift.v` |
| C31, C50-C53, C60, C94 | `SpecShape.v`, `SpecFits.v`, `SpecPresence.v`, `SpecErase.v`, and the encoder of `Writer.v` |
| C95-C103 | `SpecMeaning.v`, `SpecRules.v`, `SpecDetails.v`, `SpecCorrections.v`: every notion twice, in terms of words of the file and in terms of fields of the value |
| C104 | `SpecThrough.v`: the table found by its tag, besides those |
| C105 | `SpecSkips.v`: the flags of a lookup applied to classes and sets, twice as before |
| C106 | `SpecBeyond.v`: the place of a subtable from the fields of a value, and from words of the file |
| C107 | `SpecGot.v`: the first record with a tag, in words of the file |
| C108 | `SpecText.v`: how lookups go through a text, over any relations that say what is on, skipped, replaced and ruled; how actions move the end of what a rule applies to is our reading of the specification |
| C109 | `SpecKerning.v`: what glyphs a subtable is about, in words of the file and in fields of the value, and how lookups move the glyphs of a text; attachments of anchors (C95) and device corrections (C103) are not added up; a pair that is listed twice may be moved by either record |
| C110 | `SpecRanks.v`: what a ligature or rule at an index of its set does, in words of the file and in fields of the value; C108 and C109 prefer the lowest index |
| C111 | `SpecClear.v`: when a subtable leaves no doubt, in fields of the value, and when coverages and classes ascend, in words of the file |
| C112 | `SpecSources.v`: the glyphs that a subtable puts in, those that it is about, and the lookups that are asked for |
| C113 | `SpecDepth.v`: which lookups the rules of a lookup ask for, and how many such steps are possible |
| C114 | `SpecUnused.v`: the lookups that are on or led to, and equality of the lookups at an index |
| C115 | `SpecPlain.v`: what the flags of a lookup take from the definitions, and when two definitions agree in it |
| C116, C117 | `SpecText.v` and `SpecKerning.v` |
| C118 | `SpecListed.v`, beside `SpecText.v` and `SpecKerning.v` |
| C37, C38, C49, C57, C58 | `SpecBuilds.v`, `SpecMissing.v`, `SpecOverflow.v`, `SpecPortable.v` |
| C39-C46, C70, C77 | `SpecStandard.v`, `SpecVersions.v`, `SpecConform.v`, `SpecSupport.v`, `SpecTrim.v` |
| C47, C76, C79 | `SpecSize.v`, `SpecWeight.v`, `SpecWork.v`*, `SpecPartWork.v`*, `SpecPartWeight.v`* |
| C54, C71 | `SpecErrors.v`*, `SpecReports.v`*, `SpecParts.v`* |
| C56, C61, C62 | `SpecSharing.v`, `SpecUnchecked.v` |
| C59 | `SpecFlags.v` |
| C63, C66, C67, C72, C73 | `SpecPositions.v`*, `SpecCursor.v`, `SpecExtent.v`, `SpecReach.v`, `SpecCommon.v` |
| C78, C80 | `SpecSteps.v`*, `SpecChange.v`*, `SpecLoose.v`, `SpecRanges.v`, `SpecReports.v`* |
| C82-C86 | `SpecValues.v`, `SpecReports.v`*, `SpecPlaces.v`*, `SpecExtensions.v`*, `SpecOwned.v`* |
| C87 | `SpecFaults.v`*, `SpecParts.v`*, `SpecOverflow.v`, `SpecOpen.v` |

Sectors that cannot be read need no case of their own: a `file` is a partial function, so it may
have holes, and all theorems hold for such files; C78 adds tapes that fail at will.

## Trusted base

1. Coq 8.16.1's kernel, including `vm_compute` (used for the sweeps over the tag
   enumerations, for witnesses and for fixtures).
2. `Print Assumptions` under every property theorem answers "Closed under the
   global context": no theorem depends on an axiom.  (A checker that lists the
   axioms of every loaded library also shows seven of `Coq.ssr.ssrunder`; these
   come with the standard library's `ssr` and no theorem uses them.)
3. That the model is the code.  Each definition of `Model*.v` and `Types.v`
   cites the lines it transcribes.  `tools/check_transcription.py` translates
   the 91 uses of `table!`, the 13 choices of a format, the 23 readers that are
   written by hand and the 18 masks of `flags!` in the source anew and compares
   them with the model, word for word: 369 fields and all the rest agree.  A
   handful of expressions that occur once, such as the sizes in `Device::read`,
   are paired with their model in the tool itself; those pairs, the macros, and
   the methods of `src/file.rs`, `src/font.rs` and `src/tables/color_palettes.rs`
   were compared by eye.  `Fixtures.v` evaluates the assertions of
   the test suite of the repository on the model with the bytes of the real
   fonts, which exercises every table type.  These are tests of the model, not
   proofs, and no property counts them.
4. That the specifications (`Spec*.v`) say what is meant.  They are independent
   of the model: absolute positions, no cursor, no monad, no reader.
   `SpecStandard.v` holds the layouts of the OpenType specification where the
   code departs from it, and `SpecConform.v` those of the tables as a whole (C77);
   both are transcribed from the specification without access to its text.
5. The tag tables, generated by `tools/gen_tags.py` from the source text, and the
   fixture bytes, extracted by `tools/gen_fixtures.py`.

### Dependencies, not in /repo

* `typeface` (tape, `table!`, `flags!`, `jump_take!` and relatives): modelled in
  `Tape.v` from its documented behaviour.  Offsets are added to the position as
  `u64`; a position is at most 2^63 after a successful read (`bounded`), as for
  every `std::io::Seek`, so that this sum cannot overflow.  Whether `flags!`
  refuses invalid bits is the parameter `checked_flags`: theorems hold for both.
* `truetype`: the table directory is modelled; `accept` and the computation of
  checksums are parameters (`deps`), and theorems hold for all of them.  Its
  `GlyphID`, `NameID` and `q32` are represented by the numbers in the file, and
  reading one is taken to fail only for want of bytes.
* Not modelled: the tables of `truetype` and `postscript` (only their tags
  matter here; `take` is proved for an arbitrary reader), memory exhaustion
  (C47 measures the sizes), the text of error messages, `Debug`, `Clone` and
  `Hash` derivations.
* The `Drop`-free readers leave the tape anywhere after an error; C06 holds for
  every such position.

## Findings

| Property | Code | Behaviour proved |
|---|---|---|
| C10 | src/layout/script.rs:168, 176 | `kana` is listed twice, so that `Script::Katakana` becomes `Hiragana` after a round trip |
| C33, C49 | src/variations/item.rs:33 | `u16` sum overflows: a panic with overflow checks, a shorter table without |
| C39 | src/tables/glyph_definition/element.rs:135 | a `u32` is peeked where the format is a `u16`: every caret value is refused |
| C40 | src/layout/correction.rs | one delta word too many if the deltas fill their last word |
| C41 | src/tables/glyph_definition/mod.rs:77 | `mark_offset` used in the place of `variation_offset` |
| C42 | src/tables/font_variations/mod.rs | the optional PostScript name is always read |
| C43 | src/layout/feature.rs | parameters are always empty |
| C44 | src/layout/context.rs | a NULL rule set in format 1 is read from the header of the lookup |
| C45 | src/font.rs | the length in the directory is ignored by `take` |
| C46 | src/variations/item.rs | LONG_WORDS is not masked: wrong number of delta bytes |
| C47 | src/tables/glyph_positioning/element.rs | 48 bytes can give more than four billion pairs |
| C57 | src/layout/directory.rs | a zero list offset is followed to the header of the table itself, which can invent a script |
| C61, C62 | all of src | indices, extension offsets and the order of arrays are not checked; a user of the crate has to |
| C65 | src/layout/feature.rs:62, script.rs:53, 65 | records whose tags occur before them cannot be got by tag; fonts have one feature record per language |
| C70 | src/tables/font_variations/mod.rs:22, src/tables/glyph_substitution/mod.rs:146 | the version of `fvar` and the format of reverse chained substitutions are not checked |
| C79 | src/tables/glyph_positioning/mod.rs:116 | 44 bytes take more than four billion steps |
| C80 | all choices of a format | the format is read twice; if it changes in between, the value has the number of another variant |
| C83 | src/tables/glyph_positioning/element.rs:250-525 | nine public readers take a position and panic with overflow checks if it is close to 2^64 |
| C85 | src/tables/glyph_substitution/mod.rs:137-144, src/tables/glyph_positioning/mod.rs:256-263 | an extension may lead to itself, so that a caller that follows extensions does not stop |
| C88 | src/font.rs:42 | offsets are counted from the beginning of the tape, though a font is read where the tape is: behind other bytes it gives wrong tables |
| C89 | src/layout/script.rs:65-75 | `get` never returns the default language of a script, not even for `Language::Default` |
| C90 | src/layout/feature.rs:53-60, src/tables/color_palettes.rs:37-52, src/tables/glyph_substitution/mod.rs:137-144, src/tables/glyph_positioning/mod.rs:256-263, src/variations/item.rs:3-19 | the records of feature variations, the offsets that end a header of `CPAL` of version 1, the subtables behind extensions and the regions of item variation stores are not in the values |
| C91 | src/tables/glyph_substitution/mod.rs, src/tables/glyph_positioning/mod.rs, src/layout/context.rs | a coverage or a definition of classes with the offset zero is read from the header of its subtable: no glyphs, or words of the header |
| C92 | src/tables/glyph_substitution/mod.rs, src/tables/glyph_positioning/mod.rs | the number of glyphs covered is not compared with the number of entries, nor the classes of marks with their number |

## Mutations

`seeded/LOG.jsonl` records wrong programs tried against the theorems: each is an
edit of a model definition in a copy of this directory, followed by a rebuild.
`tools/mutate.py` applies and logs them, and `tools/sweep.py` tries many small
edits in a row.  `tools/specsweep.py` does the same to the specifications: what
can be edited there without any proof failing is not pinned down by a theorem.

## Layout of properties

`properties.jsonl` lists the properties; `tools/gen_manifest.py` collects their
theorems into `MANIFEST.json`.  A theorem suffixed `_refuted` is the negation of
the property; one suffixed `_partial` proves a part of it and the comment above
it says what is missing.
