(** Model of src/file.rs, src/font.rs, src/table.rs and [accept] of src/lib.rs. *)

From Verif Require Export ModelLayout ModelGdef ModelGsub ModelGpos ModelCpal ModelFvar.

(** ** Dependency: the crate [truetype] *)

(** What the code takes from [truetype] besides the format of the table directory,
    at src/lib.rs:63 and src/font.rs:39.
    Every theorem quantifies over both. *)
Record deps := mkDeps {
  (** [truetype::accept(&Tag)]: the version tags the TrueType layer reads. *)
  truetype_accept : tag -> bool;
  (** [offsets::Record::checksum(&self, tape)]: computed from the file, from the
      record, and not from the position of the tape. *)
  record_checksum : file -> OffsetRecord -> res N }.

(** [truetype::tables::offsets::Record], used in src/font.rs:26, 36-42: [tag], [checksum], [offset], [size]. *)
Definition read_offset_record : M OffsetRecord :=
  tag <- take_tag;;
  checksum <- take_u32;;
  offset <- take_u32;;
  length <- take_u32;;
  ret (mkOffsetRecord tag checksum offset length).

(** [truetype::tables::offsets::Header], read in src/font.rs:77. *)
Definition read_offsets_header : M OffsetsHeader :=
  tag <- take_tag;;
  table_count <- take_u16;;
  search_range <- take_u16;;
  entry_selector <- take_u16;;
  range_shift <- take_u16;;
  ret (mkOffsetsHeader tag table_count search_range entry_selector range_shift).

(** [truetype::tables::offsets::Offsets], read in src/font.rs:77: refuses a version tag that is not
    accepted; then the header and [table_count] records. *)
Definition read_offsets (d : deps) : M Offsets :=
  tag <- peek take_tag;;
  if truetype_accept d tag then
    header <- read_offsets_header;;
    records <- take_vec (offsets_header_table_count header) read_offset_record;;
    ret (mkOffsets header records)
  else raise Unsupported.

(** ** src/lib.rs *)

(** The literal [b"ttcf"], src/lib.rs:63 and src/file.rs:15. *)
Definition ttcf : tag := Tag "t" "t" "c" "f".

(** [accept], src/lib.rs:60-64. *)
Definition accept (d : deps) (t : tag) : bool := tag_eqb t ttcf || truetype_accept d t.

(** ** src/table.rs *)

(** The types implementing [Table], src/table.rs:29-46. *)
Inductive table :=
| TableFontSet
| TableColorPalettes
| TableGlyphDefinition
| TableGlyphPositioning
| TableGlyphSubstitution
| TableWindowsMetrics
| TableCharacterMapping
| TableFontVariations
| TableGlyphData
| TableFontHeader
| TableHorizontalHeader
| TableHorizontalMetrics
| TableGlyphMapping
| TableMaximumProfile
| TableNames
| TablePostScript.

(** [Table::tag], src/table.rs:29-46. *)
Definition table_tag (t : table) : tag :=
  match t with
  | TableFontSet => Tag "C" "F" "F" " "
  | TableColorPalettes => Tag "C" "P" "A" "L"
  | TableGlyphDefinition => Tag "G" "D" "E" "F"
  | TableGlyphPositioning => Tag "G" "P" "O" "S"
  | TableGlyphSubstitution => Tag "G" "S" "U" "B"
  | TableWindowsMetrics => Tag "O" "S" "/" "2"
  | TableCharacterMapping => Tag "c" "m" "a" "p"
  | TableFontVariations => Tag "f" "v" "a" "r"
  | TableGlyphData => Tag "g" "l" "y" "f"
  | TableFontHeader => Tag "h" "e" "a" "d"
  | TableHorizontalHeader => Tag "h" "h" "e" "a"
  | TableHorizontalMetrics => Tag "h" "m" "t" "x"
  | TableGlyphMapping => Tag "l" "o" "c" "a"
  | TableMaximumProfile => Tag "m" "a" "x" "p"
  | TableNames => Tag "n" "a" "m" "e"
  | TablePostScript => Tag "p" "o" "s" "t"
  end.

(** ** src/font.rs *)

(** [Font::read], src/font.rs:13-20 and 73-80. *)
Definition read_font (d : deps) : M Font :=
  offsets <- read_offsets d;;
  ret (mkFont offsets).

(** [Font::exists], src/font.rs:22-27. *)
Definition font_exists (this : Font) (t : table) : bool :=
  existsb (fun record => tag_eqb (offset_record_tag record) (table_tag t))
    (offsets_records (font_offsets this)).

(** The call [record.checksum(tape)?], src/font.rs:39. *)
Definition take_checksum (d : deps) (record : OffsetRecord) : M N := fun e p =>
  match record_checksum d (content e) record with
  | Ok v => Ok (v, p)
  | Err x => Err x
  | Panic => Panic
  end.

(** The loop of [Font::position], src/font.rs:36-45. *)
Fixpoint font_position_loop (d : deps) (records : list OffsetRecord) (t : tag) : M (option unit) :=
  match records with
  | [] => ret None
  | record :: records =>
      if tag_eqb (offset_record_tag record) t then
        o <- ask;;
        _ <- (if ignore_invalid_checksums o then ret tt else
                checksum <- take_checksum d record;;
                if offset_record_checksum record =? checksum then ret tt else raise Malformed);;
        _ <- jump (offset_record_offset record);;
        ret (Some tt)
      else font_position_loop d records t
  end.

(** [Font::position], src/font.rs:29-47. *)
Definition font_position (d : deps) (this : Font) (t : table) : M (option unit) :=
  font_position_loop d (offsets_records (font_offsets this)) (table_tag t).

(** [Font::take], src/font.rs:49-59, and [Font::take_given], src/font.rs:61-70, with
    the parameter already applied to the reader. *)
Definition font_take {A} (d : deps) (this : Font) (t : table) (m : M A) : M (option A) :=
  found <- font_position d this t;;
  match found with
  | Some _ => v <- m;; ret (Some v)
  | None => ret None
  end.

(** ** src/file.rs *)

(** [File::read], src/file.rs:12-22. *)
Definition read_file (d : deps) : M File :=
  tag <- peek take_tag;;
  if tag_eqb tag ttcf then raise Unsupported else
  font <- read_font d;;
  ret (mkFile [font]).
