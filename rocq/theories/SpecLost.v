(** Parts that the OpenType specification puts into a table, and whether a value tells them. *)

From Verif Require Export Api SpecGsub SpecGpos SpecCpal SpecSharing.

(** Whoever has the value has the part: it is a function of the value. *)
Definition tells {A B} (o : options) (m : M A) (part : file -> N -> A -> B -> Prop) : Prop :=
  exists give : A -> B, forall f p v x, bounded f -> reads o m f p v -> part f p v x -> give v = x.

(** The records of feature variations: offsets of a set of conditions and of a substitution of features
    (FeatureVariationRecord of the specification). *)
Definition variation_records {T} (f : file) (p : N) (v : Directory T) (records : list (N * N)) : Prop :=
  directory_variation_offset v <> 0 /\
  u32_at f (p + directory_variation_offset v + 4) (N.of_nat (length records)) /\
  vec_at (fun q r => u32_at f q (fst r) /\ u32_at f (q + 4) (snd r)) 8
    (p + directory_variation_offset v + 8) (N.of_nat (length records)) records.

(** What a header of version 1 of [CPAL] ends with: the offsets of the types of palettes, of the labels of
    palettes, and of the labels of their entries. *)
Definition palette_offsets (f : file) (p : N) (v : ColorPalettes) (offsets : N * N * N) : Prop :=
  exists h, color_palettes_header v = CpalVersion1 h /\
    let q := p + 12 + 2 * cpal_header1_palette_count h in
    let '(types, labels, entry_labels) := offsets in
    u32_at f q types /\ u32_at f (q + 4) labels /\ u32_at f (q + 8) entry_labels.

(** What is behind the extension that is the subtable [j] of the lookup [i]; [extension] is its type and its
    offset, and [table_at] the format of the subtables of a type. *)
Definition extended {T} (extension : T -> option (N * N)) (table_at : N -> file -> N -> T -> Prop)
    (i j : nat) (f : file) (p : N) (v : Directory T) (t : T) : Prop :=
  exists x lookup y table type_ offset,
    nth_error (lookups_offsets (directory_lookups v)) i = Some x /\
    nth_error (lookups_records (directory_lookups v)) i = Some lookup /\
    nth_error (lookup_record_table_offsets lookup) j = Some y /\
    nth_error (lookup_record_tables lookup) j = Some table /\
    extension table = Some (type_, offset) /\
    table_at type_ f (p + directory_lookup_offset v + x + y + offset) t.

Definition gsub_extension (t : GsubType) : option (N * N) :=
  match t with
  | GsubExtensionSubstitution (mkExtensionSubstitution _ type_ offset) => Some (type_, offset)
  | _ => None
  end.

Definition gpos_extension (t : GposType) : option (N * N) :=
  match t with
  | GposExtensionPositioning (mkExtensionPositioning _ type_ offset) => Some (type_, offset)
  | _ => None
  end.

(** [f] and [g] have the same bytes but for those from [a] to [b]. *)
Definition same_but (a b : N) (f g : file) : Prop := forall q, q < a \/ b <= q -> f q = g q.

(** The regions of an item variation store (VariationRegionList of the specification): for each region and each
    axis, where the region starts, peaks and ends. *)
Definition store_regions (f : file) (p : N) (v : Store) (regions : N * list (list (Z * Z * Z))) : Prop :=
  let q := p + store_region_offset v in
  let '(axes, list) := regions in
  u16_at f q axes /\ u16_at f (q + 2) (N.of_nat (length list)) /\
  vec_at (fun r => vec_at (fun a x => i16_at f a (fst (fst x)) /\ i16_at f (a + 2) (snd (fst x)) /\
    i16_at f (a + 4) (snd x)) 6 r axes) (6 * axes) (q + 4) (N.of_nat (length list)) list.

(** The [n] bytes at [p] are not among those from [a] to [b]. *)
Definition apart (a b p n : N) : Prop := p + n <= a \/ b <= p.

(** A store is not among them. *)
Definition store_apart (a b p : N) (v : Store) : Prop :=
  apart a b p (8 + 4 * store_count v) /\
  forall x r, paired (store_offsets v) (store_records v) x r ->
    apart a b (p + x) (6 + 2 * store_record_region_count r + N.of_nat (length (store_record_deltas r))).
