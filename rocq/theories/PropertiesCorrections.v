(** Properties C102 and C103: what palettes and corrections say. *)

From Verif Require Import ProofCorrections.

(** C102: the color of an entry of a palette that one gets by iterating is the one in the bytes. *)
Theorem C102_colors o f p v debug_assertions k j blue green red alpha :
  bounded f -> reads o read_color_palettes f p v ->
  (painted (color_palettes_iter debug_assertions v) k j blue green red alpha <-> painted_at f p k j blue green red alpha).
Proof. exact (palettes_mean o f p v debug_assertions k j blue green red alpha). Qed.
Print Assumptions C102_colors.

(** C103: what a correction says, *)
Theorem C103_corrections o f p v r :
  bounded f -> reads o read_correction f p v -> (remedied v r <-> remedied_at f p r).
Proof. exact (correction_means o f p v r). Qed.
Print Assumptions C103_corrections.

(** how a coordinate of an anchor is to be corrected, *)
Theorem C103_anchors o f p v vertical r :
  bounded f -> reads o read_anchor f p v -> (anchor_remedied v vertical r <-> anchor_remedied_at f p vertical r).
Proof. exact (anchor_means o f p v vertical r). Qed.
Print Assumptions C103_anchors.

(** and how an adjustment of a glyph or of one of a pair of glyphs is to be corrected are the same whether one looks at the
    bytes or at the value, *)
Theorem C103_adjustments o ty f p t xs second c r :
  bounded f -> reads o (read_gpos_type ty) f p t -> (refines t xs second c r <-> refines_at f p ty xs second c r).
Proof. exact (refinement_means o ty f p t xs second c r). Qed.
Print Assumptions C103_adjustments.

(** also in a whole table. *)
Theorem C103_gpos o f p v k j xs second c r :
  bounded f -> reads o read_glyph_positioning f p v ->
  ((exists t, in_lookup v k j t /\ refines t xs second c r) <->
   (exists q ty, in_lookup_at o f p k j q ty /\ refines_at f q ty xs second c r)).
Proof. exact (gpos_refines o f p v k j xs second c r). Qed.
Print Assumptions C103_gpos.

(** Two palettes that share a color. *)
Example C102_example :
  let f := words [0; 2; 2; 3; 0; 16; 0; 1;  258; 772; 1286; 1800; 2314; 2828] in
  exists v, bounded f /\ reads debug_build read_color_palettes f 0 v /\
    let palettes := color_palettes_iter true v in
    painted palettes 0 0 1 2 3 4 /\ painted palettes 0 1 5 6 7 8 /\ painted palettes 1 0 5 6 7 8 /\
    painted palettes 1 1 9 10 11 12 /\ (forall b g r a, ~ painted palettes 1 2 b g r a) /\
    (forall b g r a, ~ painted palettes 2 0 b g r a) /\ (forall g r a, ~ painted palettes 0 0 2 g r a).
Proof.
  eexists. split; [apply file_of_bounded; vm_compute; discriminate|]. split; [eexists; vm_compute; reflexivity|]. cbv zeta.
  do 4 (split; [eexists; split; reflexivity|]).
  split; [intros b g r a (l & [= <-] & E); discriminate E|]. split; [intros b g r a (l & E & _); discriminate E|].
  intros g r a (l & [= <-] & E). discriminate E.
Qed.

(** An adjustment of a glyph with corrections at two sizes; one of the second glyph of a pair that varies, the offset of
    which counts from the set of pairs; and an anchor whose vertical coordinate varies. *)
Example C103_example :
  let f := words [1; 10; 17; 5; 16;  1; 1; 30;  10; 11; 3; 1534; 0] in
  let g := words [1; 12; 0; 132; 1; 18;  1; 1; 30;  1; 40; 7; 8;  3; 4; 32768] in
  let h := words [3; 10; 20; 0; 10;  1; 2; 32768] in
  exists t u a, bounded f /\ bounded g /\ bounded h /\
    reads debug_build (read_gpos_type 1) f 0 t /\ reads debug_build (read_gpos_type 2) g 0 u /\
    reads debug_build read_anchor h 0 a /\
    refines t [30] false 0 (AtSize 10 5) /\ refines t [30] false 0 (AtSize 11 (-2)) /\
    (forall z, ~ refines t [30] false 0 (AtSize 12 z)) /\ (forall r, ~ refines t [30] false 1 r) /\
    refines u [30; 40] true 3 (Varying 3 4) /\ (forall c r, ~ refines u [30; 40] false c r) /\
    (forall c r, ~ refines u [30; 41] true c r) /\
    anchor_remedied a true (Varying 1 2) /\ (forall r, ~ anchor_remedied a false r).
Proof.
  eexists. eexists. eexists. do 3 (split; [apply file_of_bounded; vm_compute; discriminate|]).
  do 3 (split; [eexists; vm_compute; reflexivity|]).
  do 2 (split; [eexists; split; [exists 30, 0; split; [reflexivity|]; split; [reflexivity|]; split; reflexivity|]; eexists;
    split; [|reflexivity]; split; [cbn; lia|]; eexists; split; vm_compute; reflexivity|]).
  split; [intros z (s & (g & i & _ & _ & _ & <-) & d & R & [= <-]); destruct R as (I & _); cbn in I; lia|].
  split; [intros r (s & (g & i & _ & _ & _ & <-) & d & _ & E); discriminate E|].
  split.
  { eexists. split.
    - exists 30, 0. do 2 eexists. split; [reflexivity|]. split; [reflexivity|]. split; [left; reflexivity|]. split; reflexivity.
    - eexists. split; [|reflexivity]. split; reflexivity. }
  split.
  { intros c r (s & (g & i & set & x & _ & Es & Hx & _ & E) & _). apply nth_error_In in Es. destruct Es as [<-|[]].
    destruct Hx as [<-|[]]. discriminate E. }
  split.
  { intros c r (s & (g & i & set & x & _ & Es & Hx & E & _) & _). apply nth_error_In in Es. destruct Es as [<-|[]].
    destruct Hx as [<-|[]]. discriminate E. }
  split; [eexists _, _; split; [reflexivity|]; split; [reflexivity|]; split; reflexivity|].
  intros r (t & c & [= <-] & E & _). discriminate E.
Qed.
