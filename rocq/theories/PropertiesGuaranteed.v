(** Property C93: what can be relied on in a value that was read. *)

From Verif Require Import ProofGuaranteed.

(** C93: a property of content is guaranteed, of the values small enough to be written, exactly if it follows
    from the numbers being in range and the value being in shape; *)
Theorem C93_exactly {A} (r : request A) o (P : A -> Prop) :
  by_content r P ->
  guaranteed o r (fun v => writable r v -> P v) <->
  forall v, in_range o r v -> well_formed o r v -> writable r v -> P v.
Proof. exact (guaranteed_exactly r o P). Qed.
Print Assumptions C93_exactly.

(** whatever follows from that is guaranteed of all values; *)
Theorem C93_all {A} (r : request A) o (P : A -> Prop) :
  (forall v, in_range o r v -> well_formed o r v -> P v) -> guaranteed o r P.
Proof. exact (guaranteed_all r o P). Qed.
Print Assumptions C93_all.

(** and whatever is guaranteed follows. *)
Theorem C93_nothing_more {A} (r : request A) o (P : A -> Prop) :
  by_content r P -> guaranteed o r P ->
  forall v, in_range o r v -> well_formed o r v -> writable r v -> P v.
Proof. exact (nothing_more r o P). Qed.
Print Assumptions C93_nothing_more.

(** So it is not guaranteed that the coordinates of instances are within the limits of their axes, *)
Theorem C93_instances o : ~ guaranteed o RequestFvar instances_within.
Proof. exact (instances_not o). Qed.
Print Assumptions C93_instances.

(** nor that the tags of axes differ, *)
Theorem C93_axes o : ~ guaranteed o RequestFvar axes_distinct.
Proof. exact (axes_not o). Qed.
Print Assumptions C93_axes.

(** nor that the ranges of a coverage record how many glyphs there are before them, *)
Theorem C93_indices o : ~ guaranteed o RequestGsub coverages_indexed.
Proof. exact (indices_not o). Qed.
Print Assumptions C93_indices.

(** nor that the classes of pairs are below their numbers, *)
Theorem C93_pairs o : ~ guaranteed o RequestGpos pairs_known.
Proof. exact (pairs_not o). Qed.
Print Assumptions C93_pairs.

(** nor that palettes are within the colors, *)
Theorem C93_palettes o : ~ guaranteed o RequestCpal palettes_within.
Proof. exact (palettes_not o). Qed.
Print Assumptions C93_palettes.

(** nor that the points of glyphs that others are attached to are in order. *)
Theorem C93_points o : ~ guaranteed o RequestGdef points_increasing.
Proof. exact (points_not o). Qed.
Print Assumptions C93_points.

(** The lengths of lists are guaranteed, and the ranges of numbers. *)
Example C93_example :
  guaranteed debug_build RequestFvar (fun v =>
    N.of_nat (length (font_variations_axis_records v)) = fvar_header_axis_count (font_variations_header v) /\
    Forall (fun r => (- 2147483648 <= axis_record_min_value r < 2147483648)%Z) (font_variations_axis_records v)).
Proof.
  apply guaranteed_all. intros [[] axes instances] (_ & _ & _ & _ & F & _) (_ & L & _). cbn. split; [exact (eq_sym L)|].
  revert F. apply Forall_impl. intros [] (H & _). exact H.
Qed.

(** Which of some values have the properties that are not guaranteed. *)
Example C93_example_values x a k b c first y :
  (instances_within (instance_of x) <-> (2 <= x <= 8)%Z) /\
  (axes_distinct (axes_of a) <-> a <> Tag "w" "g" "h" "t") /\
  (coverages_indexed (index_of k) <-> k = 4) /\
  (pairs_known (pairs_of b c) <-> b < 1 /\ c < 2) /\
  (palettes_within (palettes_of_two first) <-> first <= 1) /\
  (points_increasing (points_of y) <-> 9 < y).
Proof.
  split; [apply instance_within|]. split; [apply axes_of_distinct|]. split; [apply index_of_indexed|].
  split; [apply pairs_of_known|]. split; [apply palettes_of_two_within|apply points_of_increasing].
Qed.

(** Values that are in range and in shape, and do not have them. *)
Example C93_example_plausible o :
  plausible o RequestFvar (instance_of 9) /\ plausible o RequestFvar (axes_of (Tag "w" "g" "h" "t")) /\
  plausible o RequestGsub (index_of 5) /\ plausible o RequestGpos (pairs_of 1 2) /\
  plausible o RequestCpal (palettes_of_two 2) /\ plausible o RequestGdef (points_of 9).
Proof.
  split; [apply instance_plausible|]. split; [apply axes_plausible|]. split; [apply index_plausible|].
  split; [apply pairs_plausible|]. split; [apply palettes_plausible|apply points_plausible].
Qed.
