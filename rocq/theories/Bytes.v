(** Vocabulary for talking about the bytes of a file.

    This file belongs to the specification side: it mentions no reader, no
    cursor and no error.  A position is an absolute byte position in the file;
    all multi-byte integers are big-endian, as OpenType prescribes. *)

From Coq Require Export List NArith ZArith Bool Lia.
From Coq Require Export Strings.Byte.
Export ListNotations.
#[global] Open Scope N_scope.

(** ** Files *)

(** The content of a file: the byte at each position, if there is one.  Every
    actual file is [file_of l] for a list of bytes [l]. *)
Definition file := N -> option byte.

Definition file_of (l : list byte) : file := fun p => nth_error l (N.to_nat p).

(** No operating system supports a file with a byte at or beyond 2^63 ([off_t]
    is a signed 64-bit integer), and no Rust slice has one either. *)
Definition bounded (f : file) : Prop := forall p, 2 ^ 63 <= p -> f p = None.

(** [g] has every byte of [f] at the same position, and possibly more. *)
Definition extends (f g : file) : Prop := forall p b, f p = Some b -> g p = Some b.

(** [g] is [f] without its first [k] bytes. *)
Definition drops (k : N) (f g : file) : Prop := forall p, g p = f (k + p).

(** ** Tags: [truetype::Tag(pub [u8; 4])] *)

Inductive tag := Tag (a b c d : byte).

Definition byte_eqb (a b : byte) : bool := Byte.eqb a b.

Definition tag_eqb (s t : tag) : bool :=
  match s, t with
  | Tag a b c d, Tag a' b' c' d' =>
      byte_eqb a a' && byte_eqb b b' && byte_eqb c c' && byte_eqb d d'
  end.

(** ** Scalars at a position *)

Definition u8_at (f : file) (p v : N) : Prop :=
  exists b, f p = Some b /\ v = Byte.to_N b.

Definition u16_at (f : file) (p v : N) : Prop :=
  exists b0 b1, f p = Some b0 /\ f (p + 1) = Some b1 /\
    v = 256 * Byte.to_N b0 + Byte.to_N b1.

Definition u32_at (f : file) (p v : N) : Prop :=
  exists h l, u16_at f p h /\ u16_at f (p + 2) l /\ v = 65536 * h + l.

(** Two's complement: the representative of [v] modulo 2^n in [-2^(n-1), 2^(n-1)). *)
Definition i16_at (f : file) (p : N) (v : Z) : Prop :=
  exists u, u16_at f p u /\
    v = if u <? 32768 then Z.of_N u else (Z.of_N u - 65536)%Z.

Definition i32_at (f : file) (p : N) (v : Z) : Prop :=
  exists u, u32_at f p u /\
    v = if u <? 2147483648 then Z.of_N u else (Z.of_N u - 4294967296)%Z.

Definition tag_at (f : file) (p : N) (t : tag) : Prop :=
  match t with
  | Tag a b c d =>
      f p = Some a /\ f (p + 1) = Some b /\ f (p + 2) = Some c /\ f (p + 3) = Some d
  end.

(** ** Arrays and links *)

(** [n] consecutive elements, each [stride] bytes after the previous one. *)
Definition vec_at {A} (elem : N -> A -> Prop) (stride p n : N) (vs : list A) : Prop :=
  N.of_nat (length vs) = n /\
  forall i v, nth_error vs i = Some v -> elem (p + stride * N.of_nat i) v.

Definition u8s_at (f : file) := vec_at (u8_at f) 1.
Definition u16s_at (f : file) := vec_at (u16_at f) 2.
Definition u32s_at (f : file) := vec_at (u32_at f) 4.
Definition i32s_at (f : file) := vec_at (i32_at f) 4.

(** One element per offset, at [base] plus that offset. *)
Definition linked_at {A} (elem : N -> A -> Prop) (base : N) (offsets : list N) (vs : list A) : Prop :=
  Forall2 (fun offset v => elem (base + offset) v) offsets vs.

(** A nullable link: zero means absent. *)
Definition maybe_at {A} (elem : N -> A -> Prop) (base offset : N) (v : option A) : Prop :=
  match v with
  | None => offset = 0
  | Some x => offset <> 0 /\ elem (base + offset) x
  end.

Definition maybes_at {A} (elem : N -> A -> Prop) (base : N) (offsets : list N) (vs : list (option A)) : Prop :=
  Forall2 (fun offset v => maybe_at elem base offset v) offsets vs.
