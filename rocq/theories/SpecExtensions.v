(** Following extension subtables, which is left to the caller: the subtable an extension leads
    to is read with the type it gives, at the offset it gives, which counts from the extension. *)

From Verif Require Export Pieces Api.

(** The two kinds of subtables. *)
Inductive family : Type -> Type :=
| Substitution : family GsubType
| Positioning : family GposType.

(** [Type::read] of the family, src/tables/glyph_substitution/mod.rs:184-200 and
    src/tables/glyph_positioning/mod.rs:265-282. *)
Definition subtable {T} (k : family T) (type_ : N) : M T :=
  match k in family T return M T with
  | Substitution => piece_reader (PieceGsubType type_)
  | Positioning => piece_reader (PieceGposType type_)
  end.

(** The lookup type of extensions. *)
Definition extension_type {T} (k : family T) : N :=
  match k with Substitution => 7 | Positioning => 9 end.

(** The type and the offset of an extension. *)
Definition extension {T} (k : family T) : T -> option (N * N) :=
  match k in family T return T -> option (N * N) with
  | Substitution => fun v =>
      match v with
      | GsubExtensionSubstitution (mkExtensionSubstitution _ type_ offset) => Some (type_, offset)
      | _ => None
      end
  | Positioning => fun v =>
      match v with
      | GposExtensionPositioning (mkExtensionPositioning _ type_ offset) => Some (type_, offset)
      | _ => None
      end
  end.

(** The subtable of type [fst x] at [snd x] is an extension that leads to [y]. *)
Definition leads {T} (o : options) (k : family T) (f : file) (x y : N * N) : Prop :=
  exists v offset, reads o (subtable k (fst x)) f (snd x) v /\
    extension k v = Some (fst y, offset) /\ snd y = snd x + offset.

(** In [n] steps. *)
Inductive follows {T} (o : options) (k : family T) (f : file) : nat -> N * N -> N * N -> Prop :=
| follows_none x : follows o k f 0 x x
| follows_more n x y z : leads o k f x y -> follows o k f n y z -> follows o k f (S n) x z.

(** One comes to a subtable that is not an extension, or that is not read. *)
Definition ends {T} (o : options) (k : family T) (f : file) (x : N * N) : Prop :=
  exists n y, follows o k f n x y /\ forall z, ~ leads o k f y z.

(** One comes to an extension that leads to itself. *)
Definition loops {T} (o : options) (k : family T) (f : file) (x : N * N) : Prop :=
  exists n y, follows o k f n x y /\ leads o k f y y.
