(** What corrections, glyph definitions, stores of variations and axes say, once in terms of the bytes and once in terms
    of the value; see SpecMeaning.v. *)

From Verif Require Export SpecMeaning SpecGdef SpecFvar.

(** ** Devices *)

(** A number of [bits] bits in two's complement. *)
Definition signed (bits x : N) : Z := if x <? 2 ^ (bits - 1) then Z.of_N x else (Z.of_N x - Z.of_N (2 ^ bits))%Z.

(** Numbers of [2 ^ format] bits each are packed into words, the first one in the upper bits: where the number with the
    index [k] is, and what it is. *)
Definition word_of (format k : N) : N := 2 ^ format * k / 16.
Definition packed (format k word : N) : Z :=
  signed (2 ^ format) (word / 2 ^ (16 - 2 ^ format - (2 ^ format * k) mod 16) mod 2 ^ (2 ^ format)).

(** The device at [p] corrects by [z] at a size. *)
Definition tunes_at (f : file) (p size : N) (z : Z) : Prop :=
  exists first last format word, u16_at f p first /\ u16_at f (p + 2) last /\ u16_at f (p + 4) format /\
    first <= size <= last /\ u16_at f (p + 6 + 2 * word_of format (size - first)) word /\
    z = packed format (size - first) word.

Definition tunes (v : Device) (size : N) (z : Z) : Prop :=
  device_start_size v <= size <= device_end_size v /\
  exists word, entry (device_deltas v) (word_of (device_format v) (size - device_start_size v)) = Some word /\
    z = packed (device_format v) (size - device_start_size v) word.

(** ** Glyph definitions *)

(** The part of the definitions at [p] whose offset is in the field [k] is at [r]; the fifth field is there from version
    1.2 on. *)
Definition defined_at (f : file) (p k r : N) : Prop :=
  exists minor link, u16_at f (p + 2) minor /\ (k < 4 \/ (k = 4 /\ 2 <= minor)) /\
    u16_at f (p + 4 + 2 * k) link /\ link <> 0 /\ r = p + link.

(** The glyph has an attachment point. *)
Definition pointed_at (f : file) (p g point : N) : Prop :=
  exists r c i n link m j, defined_at f p 1 r /\ u16_at f r c /\ covered_at f (r + c) g i /\ u16_at f (r + 2) n /\ i < n /\
    u16_at f (r + 4 + 2 * i) link /\ u16_at f (r + link) m /\ j < m /\ u16_at f (r + link + 2 + 2 * j) point.

Definition pointed (v : GlyphDefinition) (g point : N) : Prop :=
  exists t i r, glyph_definition_attachments v = Some t /\ covers (attachments_coverage t) g i /\
    entry (attachments_records t) i = Some r /\ In point (attachment_indices r).

(** The glyph is in a class of glyphs (the field 0) or of marks (the field 3). *)
Definition defined_class_at (f : file) (p k g c : N) : Prop := exists r, defined_at f p k r /\ classified_at f r g c.
Definition defined_class (v : option Class) (g c : N) : Prop := exists t, v = Some t /\ classifies t g c.

(** The glyph is in the set of marks with the index [k]. *)
Definition gathered_at (f : file) (p k g : N) : Prop :=
  exists r n link i, defined_at f p 4 r /\ u16_at f (r + 2) n /\ k < n /\ u32_at f (r + 4 + 4 * k) link /\
    covered_at f (r + link) g i.

Definition gathered (v : GlyphDefinition) (k g : N) : Prop :=
  exists t c i, glyph_definition_marks v = Some t /\ entry (marks_coverages t) k = Some c /\ covers c g i.

(** ** Stores of variations *)

Definition i8_at (f : file) (p : N) (z : Z) : Prop := exists b, u8_at f p b /\ z = signed 8 b.

(** The store at [p] has for the item [inner] of the group [outer] a difference of [z] in a region.  The differences of
    an item are 16-bit numbers for the first regions of the group, and 8-bit numbers for the others. *)
Definition varies_at (f : file) (p outer inner region : N) (z : Z) : Prop :=
  exists n link q items short regions j,
    u16_at f (p + 6) n /\ outer < n /\ u32_at f (p + 8 + 4 * outer) link /\ q = p + link /\
    u16_at f q items /\ u16_at f (q + 2) short /\ u16_at f (q + 4) regions /\
    j < regions /\ u16_at f (q + 6 + 2 * j) region /\ inner < items /\
    if j <? short then i16_at f (q + 6 + 2 * regions + (short + regions) * inner + 2 * j) z
    else i8_at f (q + 6 + 2 * regions + (short + regions) * inner + short + j) z.

Definition varies (v : Store) (outer inner region : N) (z : Z) : Prop :=
  exists r j, entry (store_records v) outer = Some r /\ entry (store_record_region_indices r) j = Some region /\
    inner < store_record_item_count r /\
    let row := (store_record_short_delta_count r + store_record_region_count r) * inner in
    if j <? store_record_short_delta_count r then
      exists a b, entry (store_record_deltas r) (row + 2 * j) = Some a /\
        entry (store_record_deltas r) (row + 2 * j + 1) = Some b /\ z = signed 16 (256 * a + b)
    else exists a, entry (store_record_deltas r) (row + store_record_short_delta_count r + j) = Some a /\ z = signed 8 a.

(** ** Axes *)

(** The axis with a tag is from [least] to [most], and [default] if not set. *)
Definition axis_at (f : file) (p i : N) (t : tag) (least default most : Z) : Prop :=
  exists start n size, u16_at f (p + 4) start /\ u16_at f (p + 8) n /\ u16_at f (p + 10) size /\ i < n /\
    tag_at f (p + start + size * i) t /\ i32_at f (p + start + size * i + 4) least /\
    i32_at f (p + start + size * i + 8) default /\ i32_at f (p + start + size * i + 12) most.

Definition axis (v : FontVariations) (i : N) (t : tag) (least default most : Z) : Prop :=
  exists a, entry (font_variations_axis_records v) i = Some a /\ axis_record_tag a = t /\
    axis_record_min_value a = least /\ axis_record_default_value a = default /\ axis_record_max_value a = most.

(** The instance with the index [k] and a name puts the axis with a tag at [z]. *)
Definition situates_at (f : file) (p k name : N) (t : tag) (z : Z) : Prop :=
  exists start n size m length j q, u16_at f (p + 4) start /\ u16_at f (p + 8) n /\ u16_at f (p + 10) size /\
    u16_at f (p + 12) m /\ u16_at f (p + 14) length /\ j < n /\ tag_at f (p + start + size * j) t /\
    k < m /\ q = p + start + n * size + length * k /\ u16_at f q name /\ i32_at f (q + 4 + 4 * j) z.

Definition situates (v : FontVariations) (k name : N) (t : tag) (z : Z) : Prop :=
  exists r a j, entry (font_variations_instance_records v) k = Some r /\
    instance_record_subfamily_name_id r = name /\ entry (font_variations_axis_records v) j = Some a /\
    axis_record_tag a = t /\ entry (instance_record_coordinates r) j = Some z.
