(** The names of tables in a file, and of numbered features (C07, C69). *)

From Verif Require Export ModelFont SpecTags.
From Coq Require Import Ascii String.
Local Open Scope string_scope.

(** The characters of a tag. *)
Definition spelled (t : tag) : string :=
  let '(Tag a b c d) := t in
  String (ascii_of_byte a) (String (ascii_of_byte b) (String (ascii_of_byte c) (String (ascii_of_byte d) ""))).

(** The names of the OpenType specification. *)
Definition table_name (t : table) : string :=
  match t with
  | TableFontSet => "CFF "
  | TableColorPalettes => "CPAL"
  | TableGlyphDefinition => "GDEF"
  | TableGlyphPositioning => "GPOS"
  | TableGlyphSubstitution => "GSUB"
  | TableWindowsMetrics => "OS/2"
  | TableCharacterMapping => "cmap"
  | TableFontVariations => "fvar"
  | TableGlyphData => "glyf"
  | TableFontHeader => "head"
  | TableHorizontalHeader => "hhea"
  | TableHorizontalMetrics => "hmtx"
  | TableGlyphMapping => "loca"
  | TableMaximumProfile => "maxp"
  | TableNames => "name"
  | TablePostScript => "post"
  end.

Definition digit (n : N) : string := String (ascii_of_N (48 + n)%N) "".

(** A number below a hundred, with and without a leading zero. *)
Definition two_digits (n : N) : string := digit (n / 10)%N ++ digit (n mod 10)%N.
Definition decimal (n : N) : string := if (n <? 10)%N then digit n else two_digits n.

(** The tags of revised scripts, as of [dev2]. *)
Definition revised (t : tag) : Prop := let '(Tag _ _ _ d) := t in d = "2"%byte.
