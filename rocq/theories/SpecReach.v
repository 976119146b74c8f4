(** How far from its beginning a table is looked at. *)

From Verif Require Export Requests.

(** The same bytes, and the same end if there is one, from [lo] to [hi]. *)
Definition agree (lo hi : N) (f g : file) : Prop := forall p, lo <= p < hi -> f p = g p.

(** The second has the bytes of the first, and may have more, from [lo] to [hi]. *)
Definition supplies (lo hi : N) (f g : file) : Prop := forall p b, lo <= p < hi -> f p = Some b -> g p = Some b.

(** The first byte after all those that a read at position 0 may look at. *)
Definition reach {A} (r : request A) : N :=
  match r with
  (* the header and 65535 records *)
  | RequestFile _ | RequestFont _ => 12 + 16 * 65535
  (* the variation data, at an offset from the variation store, at an offset from the table *)
  | RequestGdef => 65535 + (2 ^ 32 - 1) + (6 + 2 * 65535 + 65535 * 65535)
  (* a class-based pair adjustment with all eight components in both values *)
  | RequestGpos => 3 * 65535 + (16 + 65535 * 65535 * 32)
  (* the feature variations *)
  | RequestGsub => (2 ^ 32 - 1) + 8
  (* the colors *)
  | RequestCpal => (2 ^ 32 - 1) + 4 * 65535
  (* the last instance *)
  | RequestFvar => 65535 + 65535 * 65535 + 65534 * 65535 + (6 + 4 * 65535)
  end.
