(** The tape: the cursor operations the readers are written with.

    These operations live in the crate [typeface] (re-exported by src/lib.rs:54
    as [tape], [value] and [walue]; its macros are imported by src/lib.rs:35-44).
    That crate is a dependency and not part of /repo, so this file is a model of
    its documented behaviour and is listed in the trusted base (DESIGN.md). *)

From Verif Require Export Options Types.

(** ** Outcomes *)

(** Why a read failed: one constructor per kind of [raise!] (src/font.rs:40,
    src/file.rs:16 and so on) or I/O error. *)
Inductive error :=
| UnexpectedEnd       (* std::io::ErrorKind::UnexpectedEof from read_exact *)
| UnexpectedValue     (* a [table!] field declared [= { constant }] with another value *)
| InvalidFlags        (* a [flags!] value with [is_invalid] bits *)
| UnknownFormat       (* raise!("found an unknown format ...") *)
| UnknownVersion      (* raise!("found an unknown version ...") *)
| UnknownType         (* raise!("found an unknown type ...") *)
| Malformed           (* raise!("found a malformed ...") *)
| Unsupported.        (* collections (src/file.rs:16); tags the TrueType layer refuses *)

(** [Ok] and [Err] are Rust's [Result]; [Panic] is an index out of bounds or an
    arithmetic overflow in an overflow-checked build. *)
Inductive res (A : Type) :=
| Ok (a : A)
| Err (e : error)
| Panic.
Arguments Ok {A}.
Arguments Err {A}.
Arguments Panic {A}.

(** ** Environment *)

(** What a reader is given besides the cursor: the [tape] of
    src/tables/font_variations/mod.rs:73 and the build (Cargo.toml:20-27). *)
Record env := mkEnv {
  content : file;
  opts : options }.

(** ** The monad: environment, cursor in, value and cursor out *)

(** [fn read<T: tape::Read>(tape: &mut T) -> Result<Self>], as in
    src/tables/font_variations/mod.rs:73. *)
Definition M (A : Type) := env -> N -> res (A * N).

(** [Ok(value)], as in src/font.rs:46. *)
Definition ret {A} (a : A) : M A := fun _ p => Ok (a, p).

(** Rust's [?], as in src/font.rs:42. *)
Definition bind {A B} (m : M A) (k : A -> M B) : M B := fun e p =>
  match m e p with
  | Ok (a, q) => k a e q
  | Err x => Err x
  | Panic => Panic
  end.

Notation "x <- m ;; k" := (bind m (fun x => k))
  (at level 61, m at next level, right associativity).

(** [raise!] (src/file.rs:16), a panic, and [cfg(feature = ..)] (src/font.rs:38). *)
Definition raise {A} (x : error) : M A := fun _ _ => Err x.
Definition panic {A} : M A := fun _ _ => Panic.
Definition ask : M options := fun e p => Ok (opts e, p).

(** [tape::Read::position], [jump] ([Seek::seek(SeekFrom::Start)], which may go
    beyond the end; src/font.rs:42), [stay] (run and come back;
    src/tables/glyph_positioning/element.rs:259) and [peek] (src/file.rs:15). *)
Definition get_position : M N := fun _ p => Ok (p, p).
Definition jump (q : N) : M unit := fun _ _ => Ok (tt, q).
Definition stay {A} (m : M A) : M A := fun e p =>
  match m e p with
  | Ok (a, _) => Ok (a, p)
  | Err x => Err x
  | Panic => Panic
  end.
Definition peek {A} (m : M A) : M A := stay m.

(** ** Scalars: [value::Read] for the primitive types *)

(** [read_exact] of one byte, under every field of every [table!]. *)
Definition take_byte : M byte := fun e p =>
  match content e p with
  | Some b => Ok (b, p + 1)
  | None => Err UnexpectedEnd
  end.

(** A field [(u8)], as in src/tables/color_palettes.rs:56. *)
Definition take_u8 : M N :=
  b <- take_byte;;
  ret (Byte.to_N b).

(** A field [(u16)], as in src/layout/language.rs:16. *)
Definition take_u16 : M N :=
  b0 <- take_byte;;
  b1 <- take_byte;;
  ret (256 * Byte.to_N b0 + Byte.to_N b1).

(** A field [(u32)], as in src/tables/color_palettes.rs:29. *)
Definition take_u32 : M N :=
  b0 <- take_byte;;
  b1 <- take_byte;;
  b2 <- take_byte;;
  b3 <- take_byte;;
  ret (16777216 * Byte.to_N b0 + 65536 * Byte.to_N b1 + 256 * Byte.to_N b2 + Byte.to_N b3).

(** [u as i16] and [u as i32]. *)
Definition to_i16 (u : N) : Z := ((Z.of_N u + 32768) mod 65536 - 32768)%Z.
Definition to_i32 (u : N) : Z := ((Z.of_N u + 2147483648) mod 4294967296 - 2147483648)%Z.

(** A field [(i16)], as in src/tables/glyph_substitution/mod.rs:45. *)
Definition take_i16 : M Z :=
  u <- take_u16;;
  ret (to_i16 u).

(** A field [(q32)], as in src/tables/font_variations/mod.rs:38: the raw signed
    32-bit number. *)
Definition take_q32 : M Z :=
  u <- take_u32;;
  ret (to_i32 u).

(** A field [(Tag)], as in src/tables/font_variations/mod.rs:37. *)
Definition take_tag : M tag :=
  a <- take_byte;;
  b <- take_byte;;
  c <- take_byte;;
  d <- take_byte;;
  ret (Tag a b c d).

(** A [table!] field declared with [= { constant }], as in src/layout/language.rs:16. *)
Definition take_const (m : M N) (constant : N) : M N :=
  v <- m;;
  if v =? constant then ret v else raise UnexpectedValue.

(** [flags!]: a 16-bit set; [invalid] is the mask of [is_invalid], as in
    src/layout/lookup.rs:28-36. *)
Definition take_flags (invalid : N) : M N :=
  v <- take_u16;;
  o <- ask;;
  if checked_flags o && negb (N.land v invalid =? 0) then raise InvalidFlags else ret v.

(** The accessor that [flags!] generates: [self.0 & mask > 0], as in
    src/layout/lookup.rs:28-36. *)
Definition has_flag (flags mask : N) : bool := 0 <? N.land flags mask.

(** ** Arithmetic on machine integers *)

(** [a + b] on unsigned integers, as in src/variations/item.rs:33. *)
Definition add_wrapping (bits a b : N) : M N :=
  o <- ask;;
  if a + b <? 2 ^ bits then ret (a + b)
  else if overflow_checks o then panic
  else ret ((a + b) mod 2 ^ bits).

Definition add_u16 : N -> N -> M N := add_wrapping 16.
Definition add_u64 : N -> N -> M N := add_wrapping 64.

(** ** Loops *)

(** [(0..count).map(|i| f(i)).collect::<Result<Vec<_>>>()] from index [i] on,
    as in src/tables/glyph_positioning/element.rs:137. *)
Fixpoint for_range {A} (i count : nat) (f : nat -> M A) : M (list A) :=
  match count with
  | O => ret []
  | S count' =>
      v <- f i;;
      vs <- for_range (S i) count' f;;
      ret (v :: vs)
  end.

(** The whole loop, as in src/tables/glyph_positioning/element.rs:137. *)
Definition for_n {A} (count : N) (f : nat -> M A) : M (list A) :=
  for_range 0 (N.to_nat count) f.

(** [walue::Read for Vec<T>] given a count: [tape.take_given(count)], as in
    src/layout/language.rs:21. *)
Definition take_vec {A} (count : N) (m : M A) : M (list A) :=
  for_n count (fun _ => m).

(** [values[i]], as in src/layout/script.rs:61: out of bounds is a panic. *)
Definition index {A} (values : list A) (i : nat) : M A :=
  match nth_error values i with
  | Some v => ret v
  | None => panic
  end.

(** ** The jump macros *)

(** [jump_take!(tape, position, offset)] and, with a parametrised reader,
    [jump_take_given!(tape, position, offset, parameter)], as in
    src/tables/glyph_substitution/mod.rs:48 and src/tables/color_palettes.rs:98. *)
Definition jump_take {A} (position offset : N) (m : M A) : M A :=
  q <- add_u64 position offset;;
  _ <- jump q;;
  m.

(** [jump_take!(tape, position, count, offsets)] and
    [jump_take!(tape, position, count, i => expression)]: [offset i] evaluates
    the offset expression for index [i], which may panic.  As in
    src/tables/glyph_substitution/mod.rs:88. *)
Definition jump_take_each {A} (position count : N) (offset : nat -> M N) (m : M A) : M (list A) :=
  for_n count (fun i =>
    o <- offset i;;
    jump_take position o m).

(** The first of the two forms, src/tables/glyph_substitution/mod.rs:88. *)
Definition jump_take_n {A} (position count : N) (offsets : list N) (m : M A) : M (list A) :=
  jump_take_each position count (index offsets) m.

(** [jump_take_maybe!(tape, position, offset)], as in
    src/tables/glyph_positioning/element.rs:49. *)
Definition jump_take_maybe {A} (position offset : N) (m : M A) : M (option A) :=
  if 0 <? offset then
    v <- jump_take position offset m;;
    ret (Some v)
  else ret None.

(** [jump_take_maybe!(tape, position, count, offsets)], as in
    src/tables/glyph_positioning/element.rs:259. *)
Definition jump_take_maybe_n {A} (position count : N) (offsets : list N) (m : M A) : M (list (option A)) :=
  for_n count (fun i =>
    o <- index offsets i;;
    jump_take_maybe position o m).
