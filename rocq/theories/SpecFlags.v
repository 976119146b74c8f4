(** What the methods of the flags mean. *)

From Verif Require Export SpecBuilds.

(** One of the bits from [a] to [b] is set. *)
Definition some_bit (flags a b : N) : Prop := exists k, a <= k <= b /\ N.testbit flags k = true.

Definition filled {A} (v : option A) : bool := match v with Some _ => true | None => false end.

(** The value records of a subtable, each with its flags. *)
Definition values_of (v : GposType) : list (N * option Single) :=
  match v with
  | GposSingleAdjustment (SingleAdjustmentFormat1 t) =>
      [(single_adjustment1_value_flags t, Some (single_adjustment1_value t))]
  | GposSingleAdjustment (SingleAdjustmentFormat2 t) =>
      map (fun s => (single_adjustment2_value_flags t, Some s)) (single_adjustment2_values t)
  | GposPairAdjustment (PairAdjustmentFormat1 t) =>
      flat_map (fun set => flat_map (fun r =>
        [(pair_adjustment1_value1_flags t, pair1_value1 r); (pair_adjustment1_value2_flags t, pair1_value2 r)])
        (pair1s_records set)) (pair_adjustment1_records t)
  | GposPairAdjustment (PairAdjustmentFormat2 t) =>
      flat_map (fun set => flat_map (fun r =>
        [(pair_adjustment2_value1_flags t, pair2_value1 r); (pair_adjustment2_value2_flags t, pair2_value2 r)])
        (pair2s_records set)) (pair_adjustment2_records t)
  | _ => []
  end.

(** The flags of the value records of a subtable, whether or not there are any records. *)
Definition value_flags_of (v : GposType) : list N :=
  match v with
  | GposSingleAdjustment (SingleAdjustmentFormat1 t) => [single_adjustment1_value_flags t]
  | GposSingleAdjustment (SingleAdjustmentFormat2 t) => [single_adjustment2_value_flags t]
  | GposPairAdjustment (PairAdjustmentFormat1 t) =>
      [pair_adjustment1_value1_flags t; pair_adjustment1_value2_flags t]
  | GposPairAdjustment (PairAdjustmentFormat2 t) =>
      [pair_adjustment2_value1_flags t; pair_adjustment2_value2_flags t]
  | _ => []
  end.

(** A subtable somewhere in a table. *)
Definition has_subtable {T} (v : Directory T) (t : T) : Prop :=
  exists l, In l (lookups_records (directory_lookups v)) /\ In t (lookup_record_tables l).
