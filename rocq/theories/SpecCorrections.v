(** What corrections and palettes say, once in terms of the bytes and once in terms of the value; see SpecMeaning.v. *)

From Verif Require Export SpecDetails SpecCpal ModelCpal.

(** ** Palettes *)

(** The color of the entry [j] of the palette [k]: what the table at [p] says, *)
Definition painted_at (f : file) (p k j blue green red alpha : N) : Prop :=
  exists entries n count offset first q,
    u16_at f (p + 2) entries /\ j < entries /\ u16_at f (p + 4) n /\ k < n /\ u16_at f (p + 6) count /\
    u32_at f (p + 8) offset /\ u16_at f (p + 12 + 2 * k) first /\ first + j < count /\
    q = p + offset + 4 * (first + j) /\
    u8_at f q blue /\ u8_at f (q + 1) green /\ u8_at f (q + 2) red /\ u8_at f (q + 3) alpha.

(** and what the palettes that one gets from the value say. *)
Definition painted (palettes : list (list (option Color))) (k j blue green red alpha : N) : Prop :=
  exists palette, entry palettes k = Some palette /\ entry palette j = Some (Some (mkColor blue green red alpha)).

(** ** Corrections *)

(** What a correction says: an amount at a size, or where in a store of variations to look. *)
Inductive remedy := AtSize (size : N) (z : Z) | Varying (outer inner : N).

Definition remedied_at (f : file) (p : N) (r : remedy) : Prop :=
  match r with
  | AtSize size z => (exists format, u16_at f (p + 4) format /\ format <> 0x8000) /\ tunes_at f p size z
  | Varying outer inner => u16_at f (p + 4) 0x8000 /\ u16_at f p outer /\ u16_at f (p + 2) inner
  end.

Definition remedied (v : Correction) (r : remedy) : Prop :=
  match v, r with
  | CorrectionDevice t, AtSize size z => tunes t size z
  | CorrectionVariation t, Varying outer inner => variation_outer_index t = outer /\ variation_inner_index t = inner
  | _, _ => False
  end.

(** Coordinates of anchors may have corrections. *)
Definition anchor_remedied_at (f : file) (p : N) (vertical : bool) (r : remedy) : Prop :=
  exists link, u16_at f p 3 /\ u16_at f (p + (if vertical then 8 else 6)) link /\ link <> 0 /\ remedied_at f (p + link) r.

Definition anchor_remedied (v : Anchor) (vertical : bool) (r : remedy) : Prop :=
  exists t c, v = AnchorFormat3 t /\ (if vertical then anchor3_y_correction t else anchor3_x_correction t) = Some c /\
    remedied c r.

(** So may the components of a value record, which is at [q] and has the format [flags]; offsets count from [base]. *)
Definition value_remedied_at (f : file) (base q flags : N) (c : nat) (r : remedy) : Prop :=
  (c < 4)%nat /\ N.testbit flags (N.of_nat (4 + c)) = true /\
  exists link, u16_at f (q + 2 * bits_below flags (4 + c)) link /\ link <> 0 /\ remedied_at f (base + link) r.

Definition value_remedied (s : Single) (c : nat) (r : remedy) : Prop :=
  exists d, remedied d r /\
    match c with
    | O => single_x_placement_correction s
    | S O => single_y_placement_correction s
    | S (S O) => single_x_advance_correction s
    | S (S (S O)) => single_y_advance_correction s
    | _ => None
    end = Some d.

(** ** Values *)

(** The subtable at [p] of a lookup of a type has for the first or the second of the glyphs [xs] a value record at [q]
    with the format [flags] and offsets from [base]. *)
Definition valued_at (f : file) (p type_ : N) (xs : list N) (second : bool) (base q flags : N) : Prop :=
  exists g a i flags1, u16_at f (p + 2) a /\ covered_at f (p + a) g i /\ u16_at f (p + 4) flags1 /\
  ((type_ = 1 /\ xs = [g] /\ second = false /\ base = p /\ flags = flags1 /\
    ((u16_at f p 1 /\ q = p + 6) \/
     (u16_at f p 2 /\ exists n, u16_at f (p + 6) n /\ i < n /\ q = p + 8 + value_size flags1 * i))) \/
   (type_ = 2 /\ exists h flags2 r, xs = [g; h] /\ u16_at f (p + 6) flags2 /\
    (if second then flags = flags2 /\ q = r + value_size flags1 else flags = flags1 /\ q = r) /\
    ((u16_at f p 1 /\ exists n offset m j,
       u16_at f (p + 8) n /\ i < n /\ u16_at f (p + 10 + 2 * i) offset /\ base = p + offset /\ u16_at f base m /\ j < m /\
       u16_at f (base + 2 + (2 + value_size flags1 + value_size flags2) * j) h /\
       r = base + 2 + (2 + value_size flags1 + value_size flags2) * j + 2) \/
     (u16_at f p 2 /\ base = p /\ exists a1 a2 n1 n2 c1 c2,
       u16_at f (p + 8) a1 /\ u16_at f (p + 10) a2 /\ u16_at f (p + 12) n1 /\ u16_at f (p + 14) n2 /\
       or_zero (classified_at f (p + a1)) g c1 /\ c1 < n1 /\ or_zero (classified_at f (p + a2)) h c2 /\ c2 < n2 /\
       r = p + 16 + (value_size flags1 + value_size flags2) * (n2 * c1 + c2))))).

Definition valued (v : GposType) (xs : list N) (second : bool) (s : Single) : Prop :=
  match v with
  | GposSingleAdjustment (SingleAdjustmentFormat1 t) =>
      exists g i, covers (single_adjustment1_coverage t) g i /\ xs = [g] /\ second = false /\
        single_adjustment1_value t = s
  | GposSingleAdjustment (SingleAdjustmentFormat2 t) =>
      exists g i, covers (single_adjustment2_coverage t) g i /\ xs = [g] /\ second = false /\
        entry (single_adjustment2_values t) i = Some s
  | GposPairAdjustment (PairAdjustmentFormat1 t) =>
      exists g i r u, covers (pair_adjustment1_coverage t) g i /\
        entry (pair_adjustment1_records t) i = Some r /\ In u (pair1s_records r) /\ xs = [g; pair1_glyph2_id u] /\
        (if second then pair1_value2 u else pair1_value1 u) = Some s
  | GposPairAdjustment (PairAdjustmentFormat2 t) =>
      exists g i h c1 c2 r u, covers (pair_adjustment2_coverage t) g i /\
        or_zero (classifies (pair_adjustment2_class1 t)) g c1 /\ or_zero (classifies (pair_adjustment2_class2 t)) h c2 /\
        entry (pair_adjustment2_records t) c1 = Some r /\ entry (pair2s_records r) c2 = Some u /\ xs = [g; h] /\
        (if second then pair2_value2 u else pair2_value1 u) = Some s
  | _ => False
  end.

(** The correction of the component [c] of the adjustment of the first or the second of the glyphs [xs]. *)
Definition refines_at (f : file) (p type_ : N) (xs : list N) (second : bool) (c : nat) (r : remedy) : Prop :=
  exists base q flags, valued_at f p type_ xs second base q flags /\ value_remedied_at f base q flags c r.

Definition refines (v : GposType) (xs : list N) (second : bool) (c : nat) (r : remedy) : Prop :=
  exists s, valued v xs second s /\ value_remedied s c r.
