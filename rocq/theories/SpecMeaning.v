(** What a table says about glyphs, once in terms of the bytes, one word at a time, and once in terms of the value
    that a caller has after reading it. *)

From Verif Require Export SpecGsub SpecGpos.

Definition entry {A} (l : list A) (i : N) : option A := nth_error l (N.to_nat i).

(** ** Coverage and classes *)

(** The glyph [g] is covered with the index [i]: what the coverage table at [p] says, *)
Definition covered_at (f : file) (p g i : N) : Prop :=
  (u16_at f p 1 /\ exists n, u16_at f (p + 2) n /\ i < n /\ u16_at f (p + 4 + 2 * i) g) \/
  (u16_at f p 2 /\ exists n k first last start,
    u16_at f (p + 2) n /\ k < n /\
    u16_at f (p + 4 + 6 * k) first /\ u16_at f (p + 6 + 6 * k) last /\ u16_at f (p + 8 + 6 * k) start /\
    first <= g <= last /\ i = start + (g - first)).

(** and what the value says. *)
Definition covers (v : Coverage) (g i : N) : Prop :=
  match v with
  | CoverageFormat1 t => entry (coverage1_glyph_ids t) i = Some g
  | CoverageFormat2 t => exists r, In r (coverage2_records t) /\
      coverage_record_start_glyph_id r <= g <= coverage_record_end_glyph_id r /\
      i = coverage_record_index r + (g - coverage_record_start_glyph_id r)
  end.

(** The glyph [g] is put into the class [c]. *)
Definition classified_at (f : file) (p g c : N) : Prop :=
  (u16_at f p 1 /\ exists first n,
    u16_at f (p + 2) first /\ u16_at f (p + 4) n /\ first <= g < first + n /\
    u16_at f (p + 6 + 2 * (g - first)) c) \/
  (u16_at f p 2 /\ exists n k first last,
    u16_at f (p + 2) n /\ k < n /\
    u16_at f (p + 4 + 6 * k) first /\ u16_at f (p + 6 + 6 * k) last /\ u16_at f (p + 8 + 6 * k) c /\
    first <= g <= last).

Definition classifies (v : Class) (g c : N) : Prop :=
  match v with
  | ClassFormat1 t => class1_start_glyph_id t <= g /\ entry (class1_indices t) (g - class1_start_glyph_id t) = Some c
  | ClassFormat2 t => exists r, In r (class2_records t) /\
      class_record_start_glyph_id r <= g <= class_record_end_glyph_id r /\ c = class_record_index r
  end.

(** Glyphs that are not put into a class are in the class zero. *)
Definition or_zero (class : N -> N -> Prop) (g c : N) : Prop :=
  class g c \/ (c = 0 /\ forall d, ~ class g d).

(** ** Substitutions *)

(** A glyph with a number added, modulo 65536. *)
Definition shifted (g : N) (delta : Z) : N := Z.to_N ((Z.of_N g + delta) mod 65536).

(** The subtable at [p] of a lookup of a type replaces the glyphs [xs] by the glyphs [ys], if it is one of the four
    types that do so by themselves: one glyph for one, several for one, one of several for one, one for several. *)
Definition replaces_at (f : file) (p type_ : N) (xs ys : list N) : Prop :=
  exists g rest c i, xs = g :: rest /\ u16_at f (p + 2) c /\ covered_at f (p + c) g i /\
  ((type_ = 1 /\ u16_at f p 1 /\ rest = [] /\ exists delta, i16_at f (p + 4) delta /\ ys = [shifted g delta]) \/
   (type_ = 1 /\ u16_at f p 2 /\ rest = [] /\ exists n y,
     u16_at f (p + 4) n /\ i < n /\ u16_at f (p + 6 + 2 * i) y /\ ys = [y]) \/
   (2 <= type_ <= 4 /\ exists n offset m, u16_at f (p + 4) n /\ i < n /\ u16_at f (p + 6 + 2 * i) offset /\
     u16_at f (p + offset) m /\
     ((type_ = 2 /\ rest = [] /\ u16s_at f (p + offset + 2) m ys) \/
      (type_ = 3 /\ rest = [] /\ exists j y, j < m /\ u16_at f (p + offset + 2 + 2 * j) y /\ ys = [y]) \/
      (type_ = 4 /\ exists j link y k, j < m /\ u16_at f (p + offset + 2 + 2 * j) link /\
        u16_at f (p + offset + link) y /\ u16_at f (p + offset + link + 2) k /\
        u16s_at f (p + offset + link + 4) (k - 1) rest /\ ys = [y])))).

Definition replaces (v : GsubType) (xs ys : list N) : Prop :=
  match v with
  | GsubSingleSubstitution (SingleSubstitutionFormat1 t) =>
      exists g i, covers (single_substitution1_coverage t) g i /\
        xs = [g] /\ ys = [shifted g (single_substitution1_delta_glyph_id t)]
  | GsubSingleSubstitution (SingleSubstitutionFormat2 t) =>
      exists g i y, covers (single_substitution2_coverage t) g i /\
        entry (single_substitution2_glyph_ids t) i = Some y /\ xs = [g] /\ ys = [y]
  | GsubMultipleSubstitution t =>
      exists g i r, covers (multiple_substitution_coverage t) g i /\
        entry (multiple_substitution_records t) i = Some r /\ xs = [g] /\ ys = sequence_glyph_ids r
  | GsubAlternateSubstitution t =>
      exists g i r y, covers (alternate_substitution_coverage t) g i /\
        entry (alternate_substitution_records t) i = Some r /\ In y (alternates_glyph_ids r) /\ xs = [g] /\ ys = [y]
  | GsubLigatureSubstitution t =>
      exists g i r l, covers (ligature_substitution_coverage t) g i /\
        entry (ligature_substitution_records t) i = Some r /\ In l (ligatures_records r) /\
        xs = g :: ligature_glyph_ids l /\ ys = [ligature_glyph_id l]
  | _ => False
  end.

(** ** Adjustments *)

(** The components of a value record: horizontal and vertical placement, horizontal and vertical advance. *)
Definition component (s : Single) (c : nat) : option Z :=
  match c with
  | O => single_x_placement s
  | S O => single_y_placement s
  | S (S O) => single_x_advance s
  | S (S (S O)) => single_y_advance s
  | _ => None
  end.

(** The value record at [q] with format [flags] has the component [c], and it is [z]. *)
Definition moves_at (f : file) (q flags : N) (c : nat) (z : Z) : Prop :=
  (c < 4)%nat /\ N.testbit flags (N.of_nat c) = true /\ i16_at f (q + 2 * bits_below flags c) z.

Definition moves (s : option Single) (c : nat) (z : Z) : Prop := exists s', s = Some s' /\ component s' c = Some z.

(** One of the two value records of a pair. *)
Definition pair_moves_at (f : file) (q flags1 flags2 : N) (second : bool) (c : nat) (z : Z) : Prop :=
  if second then moves_at f (q + value_size flags1) flags2 c z else moves_at f q flags1 c z.

(** The subtable at [p] of a lookup of a type adjusts the first or the second of the glyphs [xs] by [z] in the
    component [c], if it is one of the two types that do so by themselves: single glyphs and pairs. *)
Definition adjusts_at (f : file) (p type_ : N) (xs : list N) (second : bool) (c : nat) (z : Z) : Prop :=
  exists g a i flags1, u16_at f (p + 2) a /\ covered_at f (p + a) g i /\ u16_at f (p + 4) flags1 /\
  ((type_ = 1 /\ xs = [g] /\ second = false /\
    ((u16_at f p 1 /\ moves_at f (p + 6) flags1 c z) \/
     (u16_at f p 2 /\ exists n, u16_at f (p + 6) n /\ i < n /\ moves_at f (p + 8 + value_size flags1 * i) flags1 c z))) \/
   (type_ = 2 /\ exists h flags2, xs = [g; h] /\ u16_at f (p + 6) flags2 /\
    ((u16_at f p 1 /\ exists n offset m j q,
       u16_at f (p + 8) n /\ i < n /\ u16_at f (p + 10 + 2 * i) offset /\ u16_at f (p + offset) m /\ j < m /\
       q = p + offset + 2 + (2 + value_size flags1 + value_size flags2) * j /\
       u16_at f q h /\ pair_moves_at f (q + 2) flags1 flags2 second c z) \/
     (u16_at f p 2 /\ exists a1 a2 n1 n2 c1 c2,
       u16_at f (p + 8) a1 /\ u16_at f (p + 10) a2 /\ u16_at f (p + 12) n1 /\ u16_at f (p + 14) n2 /\
       or_zero (classified_at f (p + a1)) g c1 /\ c1 < n1 /\ or_zero (classified_at f (p + a2)) h c2 /\ c2 < n2 /\
       pair_moves_at f (p + 16 + (value_size flags1 + value_size flags2) * (n2 * c1 + c2)) flags1 flags2 second c z)))).

Definition adjusts (v : GposType) (xs : list N) (second : bool) (c : nat) (z : Z) : Prop :=
  match v with
  | GposSingleAdjustment (SingleAdjustmentFormat1 t) =>
      exists g i, covers (single_adjustment1_coverage t) g i /\ xs = [g] /\ second = false /\
        component (single_adjustment1_value t) c = Some z
  | GposSingleAdjustment (SingleAdjustmentFormat2 t) =>
      exists g i, covers (single_adjustment2_coverage t) g i /\ xs = [g] /\ second = false /\
        moves (entry (single_adjustment2_values t) i) c z
  | GposPairAdjustment (PairAdjustmentFormat1 t) =>
      exists g i r s, covers (pair_adjustment1_coverage t) g i /\
        entry (pair_adjustment1_records t) i = Some r /\ In s (pair1s_records r) /\ xs = [g; pair1_glyph2_id s] /\
        moves (if second then pair1_value2 s else pair1_value1 s) c z
  | GposPairAdjustment (PairAdjustmentFormat2 t) =>
      exists g i h c1 c2 r s, covers (pair_adjustment2_coverage t) g i /\
        or_zero (classifies (pair_adjustment2_class1 t)) g c1 /\ or_zero (classifies (pair_adjustment2_class2 t)) h c2 /\
        entry (pair_adjustment2_records t) c1 = Some r /\ entry (pair2s_records r) c2 = Some s /\ xs = [g; h] /\
        moves (if second then pair2_value2 s else pair2_value1 s) c z
  | _ => False
  end.

(** ** Attachments *)

(** The coordinates of an anchor, which are in the same place whatever its format. *)
Definition spot_at (f : file) (p : N) (a : Z * Z) : Prop := i16_at f (p + 2) (fst a) /\ i16_at f (p + 4) (snd a).

Definition spot (v : Anchor) : Z * Z :=
  match v with
  | AnchorFormat1 t => (anchor1_x t, anchor1_y t)
  | AnchorFormat2 t => (anchor2_x t, anchor2_y t)
  | AnchorFormat3 t => (anchor3_x t, anchor3_y t)
  end.

(** An anchor that may be missing, its offset being at [q]. *)
Definition spotted_at (f : file) (base q : N) (a : Z * Z) : Prop :=
  exists link, u16_at f q link /\ link <> 0 /\ spot_at f (base + link) a.

Definition spotted (v : option Anchor) (a : Z * Z) : Prop := exists v', v = Some v' /\ spot v' = a.

(** The anchor and the class of the first mark with the index [i] of the array at [p]. *)
Definition marked_at (o : options) (f : file) (p i class : N) (a : Z * Z) : Prop :=
  exists n link, u16_at f p n /\ i < n /\ u16_at f (p + 2 + 4 * i) class /\ u16_at f (p + 4 + 4 * i) link /\
    if (link =? 0) && ignore_incomplete_marks o then a = (0, 0)%Z else spot_at f (p + link) a.

Definition marked (v : Mark1s) (i class : N) (a : Z * Z) : Prop :=
  exists r, entry (mark1s_records v) i = Some r /\ mark1_class_id r = class /\ spot (mark1_anchor r) = a.

(** The subtable at [p] of a lookup of a type attaches the glyph [x] to the part [k] of the glyph [y], by the anchor
    [a] of the former and the anchor [b] of the latter.  In cursive attachments, the former follows the latter. *)
Definition attaches_at (o : options) (f : file) (p type_ x y k : N) (a b : Z * Z) : Prop :=
  (type_ = 3 /\ k = 0 /\ exists c n i j,
    u16_at f (p + 2) c /\ u16_at f (p + 4) n /\ covered_at f (p + c) x i /\ covered_at f (p + c) y j /\
    i < n /\ j < n /\ spotted_at f p (p + 6 + 4 * i) a /\ spotted_at f p (p + 8 + 4 * j) b) \/
  (4 <= type_ <= 6 /\ exists c d n r s i j class m,
    u16_at f (p + 2) c /\ u16_at f (p + 4) d /\ u16_at f (p + 6) n /\ u16_at f (p + 8) r /\ u16_at f (p + 10) s /\
    covered_at f (p + c) x i /\ covered_at f (p + d) y j /\ marked_at o f (p + r) i class a /\ class < n /\
    u16_at f (p + s) m /\ j < m /\
    ((type_ <> 5 /\ k = 0 /\ spotted_at f (p + s) (p + s + 2 + 2 * (n * j + class)) b) \/
     (type_ = 5 /\ exists link parts, u16_at f (p + s + 2 + 2 * j) link /\ u16_at f (p + s + link) parts /\ k < parts /\
       spotted_at f (p + s + link) (p + s + link + 2 + 2 * (n * k + class)) b))).

Definition attaches (v : GposType) (x y k : N) (a b : Z * Z) : Prop :=
  match v with
  | GposCursiveAttachment t => k = 0 /\ exists i j r s,
      covers (cursive_attachment_coverage t) x i /\ covers (cursive_attachment_coverage t) y j /\
      entry (cursive_attachment_connections t) i = Some r /\ entry (cursive_attachment_connections t) j = Some s /\
      spotted (connection_start_anchor r) a /\ spotted (connection_end_anchor s) b
  | GposMarkToBaseAttachment t => k = 0 /\ exists i j class r anchor,
      covers (mark_to_base_attachment_mark_coverage t) x i /\ covers (mark_to_base_attachment_base_coverage t) y j /\
      marked (mark_to_base_attachment_marks t) i class a /\
      entry (bases_records (mark_to_base_attachment_bases t)) j = Some r /\
      entry (base_anchors r) class = Some anchor /\ spotted anchor b
  | GposMarkToLigatureAttachment t => exists i j class l r anchor,
      covers (mark_to_ligature_attachment_mark_coverage t) x i /\
      covers (mark_to_ligature_attachment_ligature_coverage t) y j /\
      marked (mark_to_ligature_attachment_marks t) i class a /\
      entry (gpos_ligatures_records (mark_to_ligature_attachment_ligatures t)) j = Some l /\
      entry (gpos_ligature_components l) k = Some r /\
      entry (component_anchors r) class = Some anchor /\ spotted anchor b
  | GposMarkToMarkAttachment t => k = 0 /\ exists i j class r anchor,
      covers (mark_to_mark_attachment_mark1_coverage t) x i /\ covers (mark_to_mark_attachment_mark2_coverage t) y j /\
      marked (mark_to_mark_attachment_mark1s t) i class a /\
      entry (mark2s_records (mark_to_mark_attachment_mark2s t)) j = Some r /\
      entry (mark2_anchors r) class = Some anchor /\ spotted anchor b
  | _ => False
  end.

(** ** Lookups *)

(** The subtable with the index [j] of the lookup with the index [k] of a table at [p] is at [q] and of a type. *)
Definition in_lookup_at (o : options) (f : file) (p k j q type_ : N) : Prop :=
  exists list n lookup m table,
    u16_at f (p + 8) list /\ (list <> 0 \/ ignore_incomplete_directories o = false) /\
    u16_at f (p + list) n /\ k < n /\ u16_at f (p + list + 2 + 2 * k) lookup /\
    u16_at f (p + list + lookup) type_ /\ u16_at f (p + list + lookup + 4) m /\ j < m /\
    u16_at f (p + list + lookup + 6 + 2 * j) table /\ q = p + list + lookup + table.

Definition in_lookup {T} (v : Directory T) (k j : N) (t : T) : Prop :=
  exists l, entry (lookups_records (directory_lookups v)) k = Some l /\ entry (lookup_record_tables l) j = Some t.

(** ** Features *)

(** The list whose offset is at [q] of a table at [p] is at [r]: what a build makes of an offset of zero is the same for
    all three lists. *)
Definition list_found_at (o : options) (f : file) (p q r : N) : Prop :=
  exists list, u16_at f q list /\ (list <> 0 \/ ignore_incomplete_directories o = false) /\ r = p + list.

(** A list at [p] with its records from [q] on, of a tag and an offset each, has a tag with the index [i], with an offset
    to [r]. *)
Definition tagged_at (f : file) (p n q : N) (t : tag) (i r : N) : Prop :=
  exists link, i < n /\ tag_at f (q + 6 * i) t /\ u16_at f (q + 6 * i + 4) link /\ r = p + link.

(** A script, the default language or a language with a tag in it, and a feature in turn, required or not, call for the
    lookup with the index [k]. *)
Definition enables_at (o : options) (f : file) (p : N) (script : tag) (language : option tag) (required : bool)
    (feature : tag) (k : N) : Prop :=
  exists ss n i s l fs x m r j,
    list_found_at o f p (p + 4) ss /\ u16_at f ss n /\ tagged_at f ss n (ss + 2) script i s /\
    match language with
    | None => exists link, u16_at f s link /\ link <> 0 /\ l = s + link
    | Some t => exists n i, u16_at f (s + 2) n /\ tagged_at f s n (s + 4) t i l
    end /\
    (if required then u16_at f (l + 2) x else exists n i, u16_at f (l + 4) n /\ i < n /\ u16_at f (l + 6 + 2 * i) x) /\
    list_found_at o f p (p + 6) fs /\ u16_at f fs m /\ tagged_at f fs m (fs + 2) feature x r /\
    (exists n, u16_at f (r + 2) n /\ j < n) /\ u16_at f (r + 4 + 2 * j) k.

Definition enables {T} (v : Directory T) (script : tag) (language : option tag) (required : bool) (feature : tag)
    (k : N) : Prop :=
  exists i h s l x g r,
    entry (scripts_headers (directory_scripts v)) i = Some h /\ script_header_tag h = script /\
    entry (scripts_records (directory_scripts v)) i = Some s /\
    match language with
    | None => script_record_default_language s = Some l
    | Some t => exists i h, entry (script_record_language_headers s) i = Some h /\ language_header_tag h = t /\
        entry (script_record_language_records s) i = Some l
    end /\
    (if required then language_record_required_feature_index l = x else In x (language_record_feature_indices l)) /\
    entry (features_headers (directory_features v)) x = Some g /\ feature_header_tag g = feature /\
    entry (features_records (directory_features v)) x = Some r /\ In k (feature_record_lookup_indices r).
