(** What the getters return on values that need not come from a file. *)

From Verif Require Export SpecAccess SpecCpal Tape.

(** [i] is the index of the first header with the tag [t]. *)
Definition first_index {H} (tag_of : H -> tag) (headers : list H) (t : tag) (i : nat) : Prop :=
  (exists h, nth_error headers i = Some h /\ tag_of h = t) /\
  forall j h, (j < i)%nat -> nth_error headers j = Some h -> tag_of h <> t.

(** All that a getter does: nothing without a header, the record with its index
    otherwise, and a panic if the records end before it. *)
Definition gets {H R} (tag_of : H -> tag) (headers : list H) (records : list R)
    (get : tag -> res (option R)) : Prop :=
  forall t,
    (get t = Ok None <-> forall h, In h headers -> tag_of h <> t) /\
    (forall r, get t = Ok (Some r) <-> exists i, first_index tag_of headers t i /\ nth_error records i = Some r) /\
    (get t = Panic <-> exists i, first_index tag_of headers t i /\ (length records <= i)%nat) /\
    (forall error, get t <> Err error).

(** A record is within reach if a getter returns it for the tag of its own header. *)
Definition shadowed {H} (tag_of : H -> tag) (headers : list H) (i : nat) : Prop :=
  exists j h h', (j < i)%nat /\ nth_error headers j = Some h /\ nth_error headers i = Some h' /\ tag_of h = tag_of h'.

(** A getter that returns every record of a list. *)
Definition complete_get {R} (records : list R) (get : tag -> res (option R)) : Prop :=
  forall r, In r records -> exists t, get t = Ok (Some r).

(** What becomes of the record with the index [i]: its own tag returns it, or it returns an
    earlier one, and then no tag leads to the record. *)
Definition reach {H R} (tag_of : H -> tag) (headers : list H) (records : list R)
    (get : tag -> res (option R)) : Prop :=
  forall i h r, nth_error headers i = Some h -> nth_error records i = Some r ->
    (~ shadowed tag_of headers i -> get (tag_of h) = Ok (Some r)) /\
    (shadowed tag_of headers i ->
      (exists j r', (j < i)%nat /\ nth_error records j = Some r' /\ get (tag_of h) = Ok (Some r')) /\
      forall t, ~ first_index tag_of headers t i).

(** All that the iterators over the palettes of [v] do, a list of steps for each: the
    step [j] of the palette that starts at [first] yields a color exactly if the colors
    have one with the number [first + j] and, with debug assertions, the declared count
    exceeds that number; it panics otherwise, which is [None]. *)
Definition steps_of (debug_assertions : bool) (v : ColorPalettes) (palettes : list (list (option Color))) : Prop :=
  let '(mkColorPalettes header colors) := v in
  let '(entry_count, color_count, _, color_indices) := cpal_layout header in
  length palettes = length color_indices /\
  forall i palette first,
    nth_error palettes i = Some palette -> nth_error color_indices i = Some first ->
    N.of_nat (length palette) = entry_count /\
    forall j entry, nth_error palette j = Some entry -> forall c,
      entry = Some c <->
      (debug_assertions = true -> first + N.of_nat j < color_count) /\
      nth_error colors (N.to_nat first + j) = Some c.
