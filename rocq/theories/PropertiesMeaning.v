(** Properties C95 and C96: what tables say about glyphs. *)

From Verif Require Import ProofMeaning.

(** C95: whether a glyph is covered, and with which index, *)
Theorem C95_coverage o f p v g i :
  bounded f -> reads o read_coverage f p v -> (covers v g i <-> covered_at f p g i).
Proof. exact (coverage_means o f p v g i). Qed.
Print Assumptions C95_coverage.

(** which class it is in, *)
Theorem C95_class o f p v g c :
  bounded f -> reads o read_class f p v -> (classifies v g c <-> classified_at f p g c).
Proof. exact (class_means o f p v g c). Qed.
Print Assumptions C95_class.

(** which glyphs are replaced by which, *)
Theorem C95_substitutions o ty f p t xs ys :
  bounded f -> reads o (read_gsub_type ty) f p t -> (replaces t xs ys <-> replaces_at f p ty xs ys).
Proof. exact (substitution_means o ty f p t xs ys). Qed.
Print Assumptions C95_substitutions.

(** which are moved how far, *)
Theorem C95_adjustments o ty f p t xs second c z :
  bounded f -> reads o (read_gpos_type ty) f p t -> (adjusts t xs second c z <-> adjusts_at f p ty xs second c z).
Proof. exact (adjustment_means o ty f p t xs second c z). Qed.
Print Assumptions C95_adjustments.

(** and which are attached to which, and where, is the same whether one looks at the bytes or at the value. *)
Theorem C95_attachments o ty f p t x y k a b :
  bounded f -> reads o (read_gpos_type ty) f p t -> (attaches t x y k a b <-> attaches_at o f p ty x y k a b).
Proof. exact (attachment_means o ty f p t x y k a b). Qed.
Print Assumptions C95_attachments.

(** So it is for each subtable of each lookup of a whole table. *)
Theorem C95_gsub o f p v k j xs ys :
  bounded f -> reads o read_glyph_substitution f p v ->
  ((exists t, in_lookup v k j t /\ replaces t xs ys) <->
   (exists q ty, in_lookup_at o f p k j q ty /\ replaces_at f q ty xs ys)).
Proof. exact (gsub_means o f p v k j xs ys). Qed.
Print Assumptions C95_gsub.

Theorem C95_gpos o f p v k j :
  bounded f -> reads o read_glyph_positioning f p v ->
  (forall xs second c z, (exists t, in_lookup v k j t /\ adjusts t xs second c z) <->
    (exists q ty, in_lookup_at o f p k j q ty /\ adjusts_at f q ty xs second c z)) /\
  (forall x y n a b, (exists t, in_lookup v k j t /\ attaches t x y n a b) <->
    (exists q ty, in_lookup_at o f p k j q ty /\ attaches_at o f q ty x y n a b)).
Proof. exact (gpos_means o f p v k j). Qed.
Print Assumptions C95_gpos.

(** C96: which lookups a script, a language and a feature call for is the same whether one looks at the bytes or at the
    value. *)
Theorem C96_enables o f p script language required feature k :
  bounded f ->
  (forall v, reads o read_glyph_substitution f p v ->
    (enables v script language required feature k <-> enables_at o f p script language required feature k)) /\
  (forall v, reads o read_glyph_positioning f p v ->
    (enables v script language required feature k <-> enables_at o f p script language required feature k)).
Proof. exact (enabled_means o f p script language required feature k). Qed.
Print Assumptions C96_enables.

(** Two ligatures with the same beginning; a range of glyphs, each replaced by the one before, modulo 65536; two glyphs
    with replacements of their own. *)
Example C95_example_substitutions :
  let f := words [1; 8; 1; 14;  1; 1; 20;  2; 6; 14;  90; 3; 21; 22;  91; 2; 21] in
  let g := words [1; 6; 65535;  2; 1; 0; 9; 0] in
  let h := words [2; 10; 2; 40; 41;  1; 2; 5; 6] in
  exists t u v, bounded f /\ bounded g /\ bounded h /\
    reads debug_build (read_gsub_type 4) f 0 t /\
    replaces t [20; 21; 22] [90] /\ replaces t [20; 21] [91] /\ (forall ys, ~ replaces t [20; 22] ys) /\
    reads debug_build (read_gsub_type 1) g 0 u /\
    replaces u [9] [8] /\ replaces u [0] [65535] /\ (forall ys, ~ replaces u [10] ys) /\
    reads debug_build (read_gsub_type 1) h 0 v /\
    replaces v [5] [40] /\ replaces v [6] [41] /\ (forall ys, ~ replaces v [7] ys).
Proof.
  eexists. eexists. eexists. do 3 (split; [apply file_of_bounded; vm_compute; discriminate|]).
  split; [eexists; vm_compute; reflexivity|].
  split; [exists 20, 0; do 2 eexists; do 2 (split; [reflexivity|]); split; [left; reflexivity|]; split; reflexivity|].
  split; [exists 20, 0; do 2 eexists; do 2 (split; [reflexivity|]); split; [right; left; reflexivity|]; split; reflexivity|].
  split; [intros ys (g & i & r & l & Hg & Er & Hl & E & _)|].
  { apply nth_error_In in Er. destruct Er as [<-|[]]. destruct Hl as [<-|[<-|[]]]; discriminate E. }
  split; [eexists; vm_compute; reflexivity|].
  split; [exists 9, 9; split; [eexists; split; [left; reflexivity|]; cbn; lia|]; split; reflexivity|].
  split; [exists 0, 0; split; [eexists; split; [left; reflexivity|]; cbn; lia|]; split; reflexivity|].
  split; [intros ys (g & i & (r & [<-|[]] & Hr & _) & [= <-] & _); cbn in Hr; lia|].
  split; [eexists; vm_compute; reflexivity|].
  split; [exists 5, 0, 40; repeat split; reflexivity|]. split; [exists 6, 1, 41; repeat split; reflexivity|].
  intros ys (g & i & y & Hg & _ & [= <-] & _). apply nth_error_In in Hg. destruct Hg as [E|[E|[]]]; discriminate E.
Qed.

(** One glyph replaced by two, and one by either of two. *)
Example C95_example_sequences :
  let f := words [1; 8; 1; 14;  1; 1; 20;  2; 71; 72] in
  exists t u, bounded f /\
    reads debug_build (read_gsub_type 2) f 0 t /\ replaces t [20] [71; 72] /\ (forall ys, ~ replaces t [21] ys) /\
    reads debug_build (read_gsub_type 3) f 0 u /\ replaces u [20] [71] /\ replaces u [20] [72] /\
    ~ replaces u [20] [71; 72].
Proof.
  eexists. eexists. split; [apply file_of_bounded; vm_compute; discriminate|].
  split; [eexists; vm_compute; reflexivity|].
  split; [exists 20, 0; eexists; repeat split; reflexivity|].
  split; [intros ys (g & i & r & Hg & _ & [= <-] & _); apply nth_error_In in Hg; destruct Hg as [E|[]]; discriminate E|].
  split; [eexists; vm_compute; reflexivity|].
  split; [exists 20, 0; do 2 eexists; do 2 (split; [reflexivity|]); split; [left; reflexivity|]; split; reflexivity|].
  split; [exists 20, 0; do 2 eexists; do 2 (split; [reflexivity|]); split; [right; left; reflexivity|]; split; reflexivity|].
  intros (g & i & r & y & _ & _ & _ & _ & E). discriminate E.
Qed.

(** Pairs of classes, of which zero is the class of what is in no other. *)
Example C95_example_pairs :
  let f := words [2; 40; 5; 2; 48; 56; 2; 2;  1; 2; 3;  4; 5; 6;  7; 8; 65526;  10; 11; 12;  1; 2; 30; 31;
    1; 31; 1; 1;  2; 1; 50; 59; 1] in
  exists t, bounded f /\ reads debug_build (read_gpos_type 2) f 0 t /\
    adjusts t [31; 55] false 2 11 /\ adjusts t [30; 55] true 1 6 /\ adjusts t [31; 60] true 1 (-10) /\
    (forall s c z, ~ adjusts t [32; 55] s c z) /\ (forall z, ~ adjusts t [30; 55] false 1 z).
Proof.
  eexists. split; [apply file_of_bounded; vm_compute; discriminate|]. split; [eexists; vm_compute; reflexivity|].
  split; [exists 31, 1, 55, 1, 1; do 2 eexists; split; [reflexivity|]|].
  { split; [left; split; [cbn; lia|reflexivity]|].
    split; [left; eexists; split; [left; reflexivity|]; cbn; lia|]. do 3 (split; [reflexivity|]).
    eexists. split; reflexivity. }
  split; [exists 30, 0, 55, 0, 1; do 2 eexists; split; [reflexivity|]|].
  { split; [right; split; [reflexivity|]; intros d (Hd & _); cbn in Hd; lia|].
    split; [left; eexists; split; [left; reflexivity|]; cbn; lia|]. do 3 (split; [reflexivity|]).
    eexists. split; reflexivity. }
  split; [exists 31, 1, 60, 1, 0; do 2 eexists; split; [reflexivity|]|].
  { split; [left; split; [cbn; lia|reflexivity]|].
    split; [right; split; [reflexivity|]; intros d (r & [<-|[]] & Hr & _); cbn in Hr; lia|]. do 3 (split; [reflexivity|]).
    eexists. split; reflexivity. }
  split.
  - intros s c z (g & i & h & c1 & c2 & r & q & Hg & _ & _ & _ & _ & [= <- <-] & _).
    apply nth_error_In in Hg. destruct Hg as [E|[E|[]]]; discriminate E.
  - intros z (g & i & h & c1 & c2 & r & q & _ & _ & _ & Er & Eq & _ & s & Es & E).
    apply nth_error_In in Er. apply nth_error_In in Eq. cbn in Er. destruct Er as [<-|[<-|[]]]; cbn in Eq;
      destruct Eq as [<-|[<-|[]]]; injection Es as <-; discriminate E.
Qed.

(** Pairs of glyphs, and single glyphs with values of their own. *)
Example C95_example_values :
  let f := words [1; 12; 4; 0; 1; 18;  1; 1; 30;  2; 40; 7; 41; 65535] in
  let g := words [2; 16; 9; 2; 1; 2; 3; 4;  1; 2; 30; 35] in
  exists t u, bounded f /\ bounded g /\
    reads debug_build (read_gpos_type 2) f 0 t /\ adjusts t [30; 40] false 2 7 /\ adjusts t [30; 41] false 2 (-1) /\
    (forall s c z, ~ adjusts t [30; 42] s c z) /\ (forall c z, ~ adjusts t [30; 40] true c z) /\
    reads debug_build (read_gpos_type 1) g 0 u /\ adjusts u [30] false 0 1 /\ adjusts u [35] false 3 4 /\
    (forall s c z, ~ adjusts u [31] s c z).
Proof.
  eexists. eexists. do 2 (split; [apply file_of_bounded; vm_compute; discriminate|]).
  split; [eexists; vm_compute; reflexivity|].
  split; [exists 30, 0; do 2 eexists; do 2 (split; [reflexivity|]); split; [left; reflexivity|]; split; [reflexivity|];
    eexists; split; reflexivity|].
  split; [exists 30, 0; do 2 eexists; do 2 (split; [reflexivity|]); split; [right; left; reflexivity|]; split; [reflexivity|];
    eexists; split; reflexivity|].
  split; [intros s c z (g & i & r & q & _ & Er & Hq & E & _)|].
  { apply nth_error_In in Er. destruct Er as [<-|[]]. destruct Hq as [<-|[<-|[]]]; discriminate E. }
  split; [intros c z (g & i & r & q & _ & Er & Hq & _ & s & E & _)|].
  { apply nth_error_In in Er. destruct Er as [<-|[]]. destruct Hq as [<-|[<-|[]]]; discriminate E. }
  split; [eexists; vm_compute; reflexivity|].
  split; [exists 30, 0; do 3 (split; [reflexivity|]); eexists; split; reflexivity|].
  split; [exists 35, 1; do 3 (split; [reflexivity|]); eexists; split; reflexivity|].
  intros s c z (g & i & Hg & [= <-] & _). apply nth_error_In in Hg. destruct Hg as [E|[E|[]]]; discriminate E.
Qed.

(** A mark with a place on the first of two parts of a ligature, and two glyphs of which one follows the other. *)
Example C95_example_attachments :
  let f := words [1; 12; 18; 2; 24; 36;  1; 1; 70;  1; 1; 80;  1; 1; 6;  1; 3; 4;  1; 4;  2; 0; 10; 0; 0;  1; 100; 65436] in
  let g := words [1; 14; 2; 0; 22; 28; 0;  1; 2; 60; 61;  1; 5; 6;  1; 7; 8] in
  exists t u, bounded f /\ bounded g /\
    reads debug_build (read_gpos_type 5) f 0 t /\ attaches t 70 80 0 (3, 4)%Z (100, -100)%Z /\
    (forall a b, ~ attaches t 70 80 1 a b) /\
    reads debug_build (read_gpos_type 3) g 0 u /\ attaches u 61 60 0 (7, 8)%Z (5, 6)%Z /\
    (forall k a b, ~ attaches u 60 61 k a b).
Proof.
  eexists. eexists. do 2 (split; [apply file_of_bounded; vm_compute; discriminate|]).
  split; [eexists; vm_compute; reflexivity|].
  split; [exists 0, 0, 1; do 3 eexists; do 2 (split; [reflexivity|]); split; [eexists; repeat split; reflexivity|];
    do 3 (split; [reflexivity|]); eexists; split; reflexivity|].
  split; [intros a b (i & j & class & l & r & x & _ & _ & (m & Em & Hc & _) & El & Er & Ex & v & -> & _)|].
  { apply nth_error_In in Em, El. destruct Em as [<-|[]], El as [<-|[]]. subst class. injection Er as <-. discriminate Ex. }
  split; [eexists; vm_compute; reflexivity|].
  split; [split; [reflexivity|]; exists 1, 0; do 2 eexists; do 4 (split; [reflexivity|]); split; eexists; split; reflexivity|].
  intros k a b (_ & i & j & r & s & Hi & _ & Er & _ & (v & E & _) & _).
  unfold covers, entry in *. cbn in *. destruct (N.to_nat i) as [|[|n]]; [|discriminate Hi|destruct n; discriminate Hi].
  injection Er as <-. discriminate E.
Qed.

(** A table with a language that requires a feature, beside a default language that does not have it. *)
Example C96_example :
  let f := words [1; 0; 10; 44; 72;
    1; 27745; 29806; 8;  10; 1; 17477; 21792; 18;  0; 65535; 1; 1;  0; 0; 1; 1;
    2; 27753; 26465; 14; 29537; 27764; 20;  0; 1; 0;  0; 2; 1; 0;
    2; 6; 48;  4; 0; 1; 8;  1; 8; 1; 14;  1; 1; 20;  2; 6; 14;  90; 3; 21; 22;  91; 2; 21;
    1; 0; 2; 10; 26;  1; 6; 65535;  2; 1; 0; 9; 0;  2; 10; 2; 40; 41;  1; 2; 5; 6] in
  let latn := Tag "l" "a" "t" "n" in
  let deu := Tag "D" "E" "U" " " in
  let liga := Tag "l" "i" "g" "a" in
  let salt := Tag "s" "a" "l" "t" in
  exists v, bounded f /\ reads debug_build read_glyph_substitution f 0 v /\
    enables v latn (Some deu) true liga 0 /\ enables v latn (Some deu) false salt 1 /\
    enables v latn None false salt 1 /\ enables v latn None false salt 0 /\
    (forall r k, ~ enables v latn None r liga k) /\ (forall l r k, ~ enables v deu l r salt k) /\
    (exists t, in_lookup v 0 0 t /\ replaces t [20; 21] [91]) /\
    (exists t, in_lookup v 1 1 t /\ replaces t [6] [41]) /\ (forall t, ~ in_lookup v 0 1 t).
Proof.
  eexists. split; [apply file_of_bounded; vm_compute; discriminate|]. split; [eexists; vm_compute; reflexivity|].
  split; [exists 0; do 3 eexists; exists 0; do 2 eexists; do 3 (split; [reflexivity|])|].
  { split; [exists 0; eexists; repeat split; reflexivity|]. do 4 (split; [reflexivity|]). left. reflexivity. }
  split; [exists 0; do 3 eexists; exists 1; do 2 eexists; do 3 (split; [reflexivity|])|].
  { split; [exists 0; eexists; repeat split; reflexivity|]. split; [left; reflexivity|]. do 3 (split; [reflexivity|]). left. reflexivity. }
  split; [exists 0; do 3 eexists; exists 1; do 2 eexists; do 4 (split; [reflexivity|])|].
  { split; [left; reflexivity|]. do 3 (split; [reflexivity|]). left. reflexivity. }
  split; [exists 0; do 3 eexists; exists 1; do 2 eexists; do 4 (split; [reflexivity|])|].
  { split; [left; reflexivity|]. do 3 (split; [reflexivity|]). right. left. reflexivity. }
  split; [intros r k (i & h & s & l & x & g & q & _ & _ & Es & El & Hx & Eg & Tg & _)|].
  { apply nth_error_In in Es. destruct Es as [<-|[]]. injection El as <-. destruct r; cbn in Hx.
    - subst x. discriminate (entry_short _ _ _ Eg).
    - destruct Hx as [<-|[]]. injection Eg as <-. discriminate Tg. }
  split; [intros l r k (i & h & s & l' & x & g & q & Eh & Th & _)|].
  { apply nth_error_In in Eh. destruct Eh as [<-|[]]. discriminate Th. }
  split; [eexists; split; [eexists; split; reflexivity|]|].
  { exists 20, 0. do 2 eexists. do 2 (split; [reflexivity|]). split; [right; left; reflexivity|]. split; reflexivity. }
  split; [eexists; split; [eexists; split; reflexivity|]; exists 6, 1, 41; repeat split; reflexivity|].
  intros t (l & El & E). injection El as <-. discriminate E.
Qed.
