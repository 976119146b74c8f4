(** By how much the glyphs of a text are moved by the adjustments of a font, of single glyphs and of pairs, and by rules
    that ask for them: once in terms of the bytes and once in terms of the values.  See SpecText.v for the rest. *)

From Verif Require Export SpecText.

(** ** Subtables *)

(** The subtable at [p] of a lookup of a type is about the glyphs [xs], whether or not it moves them; [past] tells if the
    second glyph of a pair has a value record, for then that glyph does not begin a pair itself. *)
Definition minds_at (f : file) (p type_ : N) (xs : list N) (past : bool) : Prop :=
  exists g a i, u16_at f (p + 2) a /\ covered_at f (p + a) g i /\
  ((type_ = 1 /\ xs = [g] /\ past = false /\
    (u16_at f p 1 \/ (u16_at f p 2 /\ exists n, u16_at f (p + 6) n /\ i < n))) \/
   (type_ = 2 /\ exists h flags1 flags2, xs = [g; h] /\ u16_at f (p + 4) flags1 /\ u16_at f (p + 6) flags2 /\
    (past = true <-> flags2 <> 0) /\
    ((u16_at f p 1 /\ exists n offset m j,
       u16_at f (p + 8) n /\ i < n /\ u16_at f (p + 10 + 2 * i) offset /\ u16_at f (p + offset) m /\ j < m /\
       u16_at f (p + offset + 2 + (2 + value_size flags1 + value_size flags2) * j) h) \/
     (u16_at f p 2 /\ exists a1 a2 n1 n2 c1 c2,
       u16_at f (p + 8) a1 /\ u16_at f (p + 10) a2 /\ u16_at f (p + 12) n1 /\ u16_at f (p + 14) n2 /\
       or_zero (classified_at f (p + a1)) g c1 /\ c1 < n1 /\ or_zero (classified_at f (p + a2)) h c2 /\ c2 < n2)))).

Definition minds (v : GposType) (xs : list N) (past : bool) : Prop :=
  match v with
  | GposSingleAdjustment (SingleAdjustmentFormat1 t) =>
      past = false /\ exists g i, covers (single_adjustment1_coverage t) g i /\ xs = [g]
  | GposSingleAdjustment (SingleAdjustmentFormat2 t) =>
      past = false /\ exists g i s, covers (single_adjustment2_coverage t) g i /\ xs = [g] /\
        entry (single_adjustment2_values t) i = Some s
  | GposPairAdjustment (PairAdjustmentFormat1 t) =>
      (past = true <-> pair_adjustment1_value2_flags t <> 0) /\
      exists g i r s, covers (pair_adjustment1_coverage t) g i /\
        entry (pair_adjustment1_records t) i = Some r /\ In s (pair1s_records r) /\ xs = [g; pair1_glyph2_id s]
  | GposPairAdjustment (PairAdjustmentFormat2 t) =>
      (past = true <-> pair_adjustment2_value2_flags t <> 0) /\
      exists g i h c1 c2 r s, covers (pair_adjustment2_coverage t) g i /\
        or_zero (classifies (pair_adjustment2_class1 t)) g c1 /\ or_zero (classifies (pair_adjustment2_class2 t)) h c2 /\
        entry (pair_adjustment2_records t) c1 = Some r /\ entry (pair2s_records r) c2 = Some s /\ xs = [g; h]
  | _ => False
  end.

(** ** Texts *)

(** By how much each glyph of a text, given by its index, is moved in each component. *)
Definition moved := nat -> nat -> Z.

(** The glyph with the index [i] is moved further, in the components in which it is adjusted. *)
Definition adds (adjusted : nat -> Z -> Prop) (i : nat) (m m' : moved) : Prop :=
  forall h c, (h = i /\ exists z, adjusted c z /\ m' h c = (m h c + z)%Z) \/
    ((h <> i \/ forall z, ~ adjusted c z) /\ m' h c = m h c).

(** The subtable [j] of a lookup is about the first glyphs of a text, which are [xs]. *)
Definition meets (skipped : N -> Prop) (minded : N -> list N -> bool -> Prop) (j : N) (text xs rest : list N) (past : bool) :
    Prop :=
  exists x ys tail kept, text = x :: tail /\ ~ skipped x /\ xs = x :: ys /\ begins skipped xs kept rest text /\
    minded j xs past.

(** It moves the first and the last of them, and is done with [n] glyphs. *)
Definition kerns (skipped : N -> Prop) (minded : N -> list N -> bool -> Prop)
    (adjusted : N -> list N -> bool -> nat -> Z -> Prop) (j : N) (i : nat) (text : list N) (m m' : moved) (n : nat) : Prop :=
  exists xs rest past mid, meets skipped minded j text xs rest past /\ adds (adjusted j xs false) i m mid /\
    adds (adjusted j xs true) (i + length text - length rest - 1) mid m' /\
    n = if past then (length text - length rest)%nat else 1%nat.

(** The actions of a rule are taken one after the other.  [does] says how a lookup moves the first glyphs of a text. *)
Inductive enacted (skipped : N -> Prop) (does : N -> list N -> list N -> moved -> moved -> nat -> Prop) (left text : list N)
    (n : nat) : list Action -> moved -> moved -> Prop :=
  | enacted_none m : enacted skipped does left text n [] m m
  | enacted_done a actions before here m mid l m' :
      placed skipped n text a before here -> does (action_lookup_index a) (rev before ++ left) here m mid l ->
      enacted skipped does left text n actions mid m' -> enacted skipped does left text n (a :: actions) m m'
  | enacted_not a actions m m' :
      (forall before here mid l, placed skipped n text a before here ->
        ~ does (action_lookup_index a) (rev before ++ left) here m mid l) ->
      enacted skipped does left text n actions m m' -> enacted skipped does left text n (a :: actions) m m'.

(** A subtable has something to do at the beginning of a text, by what has the rank [r] in it. *)
Definition heeds (skipped : N -> Prop) (minded : N -> list N -> bool -> Prop)
    (ruled : N -> N -> list N -> list N -> list N -> list Action -> Prop) (j r : N) (left text : list N) : Prop :=
  (r = 0 /\ exists xs rest past, meets skipped minded j text xs rest past) \/
  (exists actions rest, ruled_by skipped ruled j r left text actions rest).

(** How the lookup [k] moves the first glyphs of a text, and with how many of them it is done: by the first of its
    subtables that has something to do. *)
Fixpoint nudges (depth : nat) (skipped : N -> N -> Prop) (minded : N -> N -> list N -> bool -> Prop)
    (adjusted : N -> N -> list N -> bool -> nat -> Z -> Prop)
    (ruled : N -> N -> N -> list N -> list N -> list N -> list Action -> Prop)
    (k : N) (left text : list N) (m m' : moved) (n : nat) : Prop :=
  match depth with
  | O => False
  | S depth => exists j r,
      (forall i s, earlier i s j r -> ~ heeds (skipped k) (minded k) (ruled k) i s left text) /\
      ((r = 0 /\ kerns (skipped k) (minded k) (adjusted k) j (length left) text m m' n) \/
       (exists actions rest, ruled_by (skipped k) (ruled k) j r left text actions rest /\
         n = (length text - length rest)%nat /\
         enacted (skipped k) (nudges depth skipped minded adjusted ruled) left text n actions m m'))
  end.

(** A lookup goes through a text from its beginning to its end. *)
Inductive runs_through (does : list N -> list N -> moved -> moved -> nat -> Prop) : list N -> list N -> moved -> moved -> Prop :=
  | runs_end left m : runs_through does left [] m m
  | runs_does left text m mid n m' : does left text m mid n ->
      runs_through does (rev (firstn n text) ++ left) (skipn n text) mid m' -> runs_through does left text m m'
  | runs_on left x text m m' : (forall mid n, ~ does left (x :: text) m mid n) ->
      runs_through does (x :: left) text m m' -> runs_through does left (x :: text) m m'.

(** The lookups before the one with the index [n] go through a text in the order of their indices, if they are on. *)
Inductive kerned (depth : nat) (on : N -> Prop) (skipped : N -> N -> Prop)
    (minded : N -> N -> list N -> bool -> Prop) (adjusted : N -> N -> list N -> bool -> nat -> Z -> Prop)
    (ruled : N -> N -> N -> list N -> list N -> list N -> list Action -> Prop) (text : list N) : N -> moved -> Prop :=
  | kerned_none : kerned depth on skipped minded adjusted ruled text 0 (fun _ _ => 0%Z)
  | kerned_on n m m' : kerned depth on skipped minded adjusted ruled text n m -> on n ->
      runs_through (nudges (S depth) skipped minded adjusted ruled n) [] text m m' ->
      kerned depth on skipped minded adjusted ruled text (n + 1) m'
  | kerned_off n m : kerned depth on skipped minded adjusted ruled text n m -> ~ on n ->
      kerned depth on skipped minded adjusted ruled text (n + 1) m.

(** ** In terms of the bytes *)

Definition kerned_at (o : options) (f : file) (p d : N) (script : tag) (language : option tag) (wanted : tag -> Prop)
    (depth : nat) (text : list N) (n : N) (m : moved) : Prop :=
  kerned depth (turned_on_at o f p script language wanted) (skips_at o f p d)
    (fun k j xs past => exists q ty, in_lookup_at o f p k j q ty /\ minds_at f q ty xs past)
    (fun k j xs second c z => exists q ty, in_lookup_at o f p k j q ty /\ adjusts_at f q ty xs second c z)
    (fun k j r before xs after actions => exists q ty, in_lookup_at o f p k j q ty /\
      rule_as_at f q 7 ty r before xs after actions) text n m.

(** ** In terms of the values *)

Definition kerned_by (v : Directory GposType) (d : GlyphDefinition) (script : tag) (language : option tag)
    (wanted : tag -> Prop) (depth : nat) (text : list N) (n : N) (m : moved) : Prop :=
  kerned depth (turned_on v script language wanted) (skips v d)
    (fun k j xs past => exists t, in_lookup v k j t /\ minds t xs past)
    (fun k j xs second c z => exists t, in_lookup v k j t /\ adjusts t xs second c z)
    (fun k j r before xs after actions => exists t, in_lookup v k j t /\ gpos_rule_as t r before xs after actions) text n m.

(** ** With extensions followed *)

Definition kerned_beyond_at (o : options) (f : file) (p d : N) (script : tag) (language : option tag)
    (wanted : tag -> Prop) (depth : nat) (text : list N) (n : N) (m : moved) : Prop :=
  kerned depth (turned_on_at o f p script language wanted) (skips_at o f p d)
    (fun k j xs past => exists q ty, subtable_for_at o Positioning f p k j q ty /\ readable o Positioning f q ty /\
      minds_at f q ty xs past)
    (fun k j xs second c z => exists q ty, subtable_for_at o Positioning f p k j q ty /\ readable o Positioning f q ty /\
      adjusts_at f q ty xs second c z)
    (fun k j r before xs after actions => exists q ty, subtable_for_at o Positioning f p k j q ty /\
      readable o Positioning f q ty /\ rule_as_at f q 7 ty r before xs after actions) text n m.

Definition kerned_beyond (o : options) (f : file) (p : N) (v : Directory GposType) (d : GlyphDefinition) (script : tag)
    (language : option tag) (wanted : tag -> Prop) (depth : nat) (text : list N) (n : N) (m : moved) : Prop :=
  kerned depth (turned_on v script language wanted) (skips v d)
    (fun k j xs past => exists u, subtable_for o Positioning f p v k j u /\ minds u xs past)
    (fun k j xs second c z => exists u, subtable_for o Positioning f p v k j u /\ adjusts u xs second c z)
    (fun k j r before xs after actions => exists u, subtable_for o Positioning f p v k j u /\
      gpos_rule_as u r before xs after actions) text n m.
