(** Small files on which the hypotheses of the property theorems are met.  Nothing of
    the code is modelled here. *)

From Verif Require Export Encode Requests SpecAccess SpecHistory.

(** ** A font *)

(** The checksum of OpenType: the sum of the 32-bit words from [p] on, of [n] bytes, the
    last word being filled up with zeros.  [record_checksum] of the crate [truetype]
    computes this; no theorem depends on it. *)
Definition byte_value (f : file) (p : N) : N :=
  match f p with Some b => Byte.to_N b | None => 0 end.

Fixpoint word_sum (f : file) (p : N) (n : nat) : N :=
  match n with
  | S (S (S (S n))) =>
      byte_value f p * 2 ^ 24 + byte_value f (p + 1) * 2 ^ 16 + byte_value f (p + 2) * 2 ^ 8 +
      byte_value f (p + 3) + word_sum f (p + 4) n
  | 3%nat => byte_value f p * 2 ^ 24 + byte_value f (p + 1) * 2 ^ 16 + byte_value f (p + 2) * 2 ^ 8
  | 2%nat => byte_value f p * 2 ^ 24 + byte_value f (p + 1) * 2 ^ 16
  | 1%nat => byte_value f p * 2 ^ 24
  | 0%nat => 0
  end.

Definition word_checksum (f : file) (r : OffsetRecord) : res N :=
  Ok (word_sum f (offset_record_offset r) (N.to_nat (offset_record_length r)) mod 2 ^ 32).

Definition sample_deps : deps := mkDeps
  (fun t => tag_eqb t (Tag x00 x01 x00 x00) || tag_eqb t (Tag "O" "T" "T" "O")) word_checksum.

(** [CPAL]: one palette of two colors out of three, starting with the second one. *)
Definition sample_cpal : list byte :=
  be16 0 ++ be16 2 ++ be16 1 ++ be16 3 ++ be32 14 ++ be16 1 ++
  bytes [1; 2; 3; 255; 4; 5; 6; 255; 7; 8; 9; 255].

Definition sample_colors : ColorPalettes :=
  mkColorPalettes (CpalVersion0 (mkCpalHeader0 0 2 1 3 14 [1]))
    [mkColor 1 2 3 255; mkColor 4 5 6 255; mkColor 7 8 9 255].

(** [CPAL] twice, first at 60 and then at 88; [GSUB] at 86 with a checksum that is not
    its own. *)
Definition sample_records : list OffsetRecord :=
  [mkOffsetRecord (Tag "C" "P" "A" "L") 352259106 60 26;
   mkOffsetRecord (Tag "G" "S" "U" "B") 7 86 10;
   mkOffsetRecord (Tag "C" "P" "A" "L") 0 88 8].

Definition tag_bytes (t : tag) : list byte := let '(Tag a b c d) := t in [a; b; c; d].

Definition record_bytes (r : OffsetRecord) : list byte :=
  tag_bytes (offset_record_tag r) ++ be32 (offset_record_checksum r) ++
  be32 (offset_record_offset r) ++ be32 (offset_record_length r).

Definition sample_gsub : list byte := be16 1 ++ be16 0 ++ be16 0 ++ be16 0 ++ be16 0.

Definition sample_font_bytes : list byte :=
  bytes [0; 1; 0; 0] ++ be16 3 ++ be16 32 ++ be16 1 ++ be16 16 ++
  flat_map record_bytes sample_records ++ sample_cpal ++ sample_gsub.

Definition sample_file : file := file_of sample_font_bytes.

Definition sample_font : Font :=
  mkFont (mkOffsets (mkOffsetsHeader (Tag x00 x01 x00 x00) 3 32 1 16) sample_records).

(** The build that ignores checksums. *)
Definition careless_build : options := mkOptions true false false true true.

(** ** Tables *)

Definition words (l : list N) : file := file_of (flat_map be16 l).

(** [GDEF] whose only item variation data has counts that add up to 2^16. *)
Definition overflowing_gdef : list byte :=
  flat_map be16 [1; 3; 0; 0; 0; 0; 18; 0; 0; 1; 0; 0; 1; 0; 12; 0; 65535; 1; 0].

Definition overflowing_definition : GlyphDefinition :=
  mkGlyphDefinition (GdefVersion13 (mkGdefHeader13 1 3 0 0 0 0 18 0)) None None None None
    (Some (mkMarks 1 0 [] [])) (Some (mkStore 1 0 1 [12] [mkStoreRecord 0 65535 1 [0] []])).

(** [GSUB] with a missing feature list and no lookups or scripts. *)
Definition partial_gsub : list byte := flat_map be16 [1; 0; 10; 0; 12; 0; 0].

(** A mark array with two marks, the first one without an anchor. *)
Definition partial_marks : list byte := flat_map be16 [2; 1; 0; 2; 10; 1; 7; 8].

(** Two bytes between the header and the only color. *)
Definition gap (n : N) : list N := [0; 1; 1; 1; 0; 16; 0; n; 258; 1023].

Definition gap_value : ColorPalettes :=
  mkColorPalettes (CpalVersion0 (mkCpalHeader0 0 1 1 1 16 [0])) [mkColor 1 2 3 255].

(** Other colors for the sample font, and a build that ignores checksums and tolerates missing lists. *)
Definition other_colors : ColorPalettes :=
  mkColorPalettes (CpalVersion0 (mkCpalHeader0 0 1 2 2 16 [0; 1])) [mkColor 9 8 7 6; mkColor 5 4 3 2].

Definition lenient_build : options := mkOptions true true false true true.

(** A font with the given directory. *)
Definition font_of (records : list OffsetRecord) : Font :=
  mkFont (mkOffsets (mkOffsetsHeader (Tag "O" "T" "T" "O") 2 32 1 0) records).

(** The coverage of the only subtable of the second lookup has the format 7. *)
Definition bad_coverage : list N :=
  [1; 0; 10; 12; 14; 0; 0; 2; 6; 12; 1; 0; 0; 1; 0; 1; 8; 1; 6; 1; 7; 0].
