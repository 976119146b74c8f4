(** Properties C98 to C101: what corrections, glyph definitions, stores of variations and axes say. *)

From Verif Require Import ProofDetails.

(** C98: by how much a device corrects at a size is the same whether one looks at the bytes or at the value, *)
Theorem C98_devices o f p v size z :
  bounded f -> reads o read_device f p v -> (tunes v size z <-> tunes_at f p size z).
Proof. exact (device_means o f p v size z). Qed.
Print Assumptions C98_devices.

(** it does so at all sizes from the first to the last one, and at no others, *)
Theorem C98_sizes o f p v size :
  bounded f -> reads o read_device f p v ->
  ((exists z, tunes_at f p size z) <-> device_start_size v <= size <= device_end_size v).
Proof. exact (device_total o f p v size). Qed.
Print Assumptions C98_sizes.

(** and by what fits into two, four or eight bits. *)
Theorem C98_range o f p v size z :
  bounded f -> reads o read_device f p v -> tunes v size z ->
  exists format, u16_at f (p + 4) format /\
    (format = 1%N /\ -2 <= z < 2 \/ format = 2%N /\ -8 <= z < 8 \/ format = 3%N /\ -128 <= z < 128)%Z.
Proof. exact (device_range o f p v size z). Qed.
Print Assumptions C98_range.

(** C99: the classes of glyphs, the attachment points, the classes of marks and the sets of marks are the same whether one
    looks at the bytes or at the value. *)
Theorem C99_definitions o f p v :
  bounded f -> reads o read_glyph_definition f p v ->
  (forall g c, defined_class (glyph_definition_glyph_class v) g c <-> defined_class_at f p 0 g c) /\
  (forall g point, pointed v g point <-> pointed_at f p g point) /\
  (forall g c, defined_class (glyph_definition_mark_class v) g c <-> defined_class_at f p 3 g c) /\
  (forall k g, gathered v k g <-> gathered_at f p k g).
Proof. exact (gdef_means o f p v). Qed.
Print Assumptions C99_definitions.

(** C100: which axes there are, and where on them an instance is. *)
Theorem C100_axes o f p v :
  bounded f -> reads o read_font_variations f p v ->
  (forall i t least default most, axis v i t least default most <-> axis_at f p i t least default most) /\
  (forall k name t z, situates v k name t z <-> situates_at f p k name t z).
Proof. exact (axes_mean o f p v). Qed.
Print Assumptions C100_axes.

(** C101: by how much an item varies in a region.  Without overflow checks one has to know that the counts add up to less
    than 2^16. *)
Theorem C101_variations o f p v outer inner region z :
  bounded f -> reads o read_store f p v ->
  (overflow_checks o = true \/ forall r, In r (store_records v) ->
    store_record_short_delta_count r + store_record_region_count r < 2 ^ 16) ->
  (varies v outer inner region z <-> varies_at f p outer inner region z).
Proof. exact (store_means o f p v outer inner region z). Qed.
Print Assumptions C101_variations.

(** Four-bit corrections at the sizes from 10 to 14, and two-bit ones at the sizes from 9 to 16. *)
Example C98_example :
  let f := words [10; 14; 2; 4767; 28672] in
  let g := words [9; 16; 1; 27; 6912] in
  exists t u, bounded f /\ bounded g /\ reads debug_build read_device f 0 t /\ reads debug_build read_device g 0 u /\
    tunes t 10 1 /\ tunes t 11 2 /\ tunes t 12 (-7) /\ tunes t 13 (-1) /\ tunes t 14 7 /\ (forall z, ~ tunes t 15 z) /\
    (forall z, ~ tunes t 9 z) /\ tunes u 9 0 /\ tunes u 14 1 /\ tunes u 15 (-2) /\ tunes u 16 (-1) /\ ~ tunes u 16 3.
Proof.
  eexists. eexists. do 2 (split; [apply file_of_bounded; vm_compute; discriminate|]).
  do 2 (split; [eexists; vm_compute; reflexivity|]).
  do 5 (split; [split; [cbn; lia|]; eexists; split; [vm_compute; reflexivity|]; vm_compute; reflexivity|]).
  split; [intros z (I & _); cbn in I; lia|]. split; [intros z (I & _); cbn in I; lia|].
  do 4 (split; [split; [cbn; lia|]; eexists; split; [vm_compute; reflexivity|]; vm_compute; reflexivity|]).
  intros (_ & w & E & Z). vm_compute in E. injection E as <-. vm_compute in Z. discriminate Z.
Qed.

(** Glyphs and marks with classes, two attachment points and two sets of marks. *)
Example C99_example :
  let f := words [1; 2; 14; 24; 0; 48; 58;  1; 30; 2; 1; 3;  8; 2; 16; 22;  1; 2; 30; 31;  2; 5; 9;  0;  2; 1; 50; 52; 7;
    1; 2; 0; 12; 0; 18;  1; 1; 50;  2; 1; 50; 52; 0] in
  exists v, bounded f /\ reads debug_build read_glyph_definition f 0 v /\
    defined_class (glyph_definition_glyph_class v) 31 3 /\ ~ defined_class (glyph_definition_glyph_class v) 31 1 /\
    pointed v 30 5 /\ pointed v 30 9 /\ (forall x, ~ pointed v 31 x) /\
    defined_class (glyph_definition_mark_class v) 51 7 /\ (forall c, ~ defined_class (glyph_definition_mark_class v) 31 c) /\
    gathered v 0 50 /\ ~ gathered v 0 51 /\ gathered v 1 51 /\ (forall g, ~ gathered v 2 g).
Proof.
  eexists. split; [apply file_of_bounded; vm_compute; discriminate|]. split; [eexists; vm_compute; reflexivity|].
  split; [eexists; split; [reflexivity|]; split; [cbn; lia|reflexivity]|].
  split; [intros (t & [= <-] & _ & E); discriminate E|].
  split; [eexists _, 0, _; split; [reflexivity|]; split; [reflexivity|]; split; [reflexivity|]; cbn; auto|].
  split; [eexists _, 0, _; split; [reflexivity|]; split; [reflexivity|]; split; [reflexivity|]; cbn; auto|].
  split.
  { intros x (t & i & r & [= <-] & C & E & I). cbn in C. unfold entry in C, E.
    destruct (N.to_nat i) as [|[|n]]; cbn in C, E; [discriminate C| |destruct n; discriminate C]. injection E as <-. destruct I. }
  split; [eexists; split; [reflexivity|]; eexists; split; [left; reflexivity|]; cbn; lia|].
  split; [intros c (t & [= <-] & r & [<-|[]] & H); cbn in H; lia|].
  split; [eexists _, _, 0; do 2 (split; [reflexivity|]); reflexivity|].
  split.
  { intros (t & c & i & [= <-] & [= <-] & C). apply nth_error_In in C. destruct C as [E|[]]. discriminate E. }
  split; [eexists _, _, 1; do 2 (split; [reflexivity|]); eexists; split; [left; reflexivity|]; cbn; lia|].
  intros g (t & c & i & [= <-] & E & _). discriminate E.
Qed.

(** An axis and two instances. *)
Example C100_example :
  let f := words [1; 0; 16; 2; 1; 20; 2; 10;  30567; 26740; 100; 0; 400; 0; 900; 0; 0; 256;
    257; 0; 700; 0; 258;  259; 0; 65535; 32768; 260] in
  let t := Tag "w" "g" "h" "t" in
  exists v, bounded f /\ reads debug_build read_font_variations f 0 v /\
    axis v 0 t (100 * 65536) (400 * 65536) (900 * 65536) /\ (forall s a b c, ~ axis v 1 s a b c) /\
    situates v 0 257 t (700 * 65536) /\ situates v 1 259 t (-32768) /\ (forall z, ~ situates v 1 257 t z) /\
    (forall n s z, ~ situates v 2 n s z).
Proof.
  eexists. split; [apply file_of_bounded; vm_compute; discriminate|]. split; [eexists; vm_compute; reflexivity|].
  split; [eexists; split; [reflexivity|]; cbn; auto|].
  split; [intros s a b c (r & E & _); discriminate E|].
  split; [eexists _, _, 0; split; [reflexivity|]; split; [reflexivity|]; split; [reflexivity|]; split; reflexivity|].
  split; [eexists _, _, 0; split; [reflexivity|]; split; [reflexivity|]; split; [reflexivity|]; split; reflexivity|].
  split; [intros z (r & a & j & [= <-] & E & _); discriminate E|].
  intros n s z (r & a & j & E & _). discriminate E.
Qed.

(** Two items that vary in two regions, by 16-bit numbers in the first and by 8-bit numbers in the other. *)
Example C101_example :
  let f := words [1; 0; 0; 1; 0; 12;  2; 1; 2; 3; 5;  65534; 1793; 11519] in
  exists v, bounded f /\ reads debug_build read_store f 0 v /\
    varies v 0 0 3 (-2) /\ varies v 0 0 5 7 /\ varies v 0 1 3 300 /\ varies v 0 1 5 (-1) /\
    (forall z, ~ varies v 0 2 3 z) /\ (forall z, ~ varies v 1 0 3 z) /\ (forall z, ~ varies v 0 0 4 z).
Proof.
  eexists. split; [apply file_of_bounded; vm_compute; discriminate|]. split; [eexists; vm_compute; reflexivity|].
  split; [eexists _, 0; do 3 (split; [reflexivity|]); eexists _, _; split; [reflexivity|]; split; reflexivity|].
  split; [eexists _, 1; do 3 (split; [reflexivity|]); eexists; split; reflexivity|].
  split; [eexists _, 0; do 3 (split; [reflexivity|]); eexists _, _; split; [reflexivity|]; split; reflexivity|].
  split; [eexists _, 1; do 3 (split; [reflexivity|]); eexists; split; reflexivity|].
  split; [intros z (r & j & [= <-] & _ & I & _); cbn in I; lia|].
  split; [intros z (r & j & E & _); discriminate E|].
  intros z (r & j & [= <-] & E & _). apply nth_error_In in E. destruct E as [E|[E|[]]]; discriminate E.
Qed.
