(** Property C110: which ligatures and rules are preferred. *)

From Verif Require Import ProofRanks.

(** C110: the glyphs that the ligature with a rank, its index in its set, replaces and what it puts in are the same by the
    value as by the bytes; where there are no sets, the rank is zero. *)
Theorem C110_ligatures o ty f p t rank xs ys :
  bounded f -> reads o (read_gsub_type ty) f p t -> (replaces_as t rank xs ys <-> replaces_as_at f p ty rank xs ys).
Proof. exact (substitution_ranks o ty f p t rank xs ys). Qed.
Print Assumptions C110_ligatures.

(** So are the glyphs that the rule with a rank applies to, and what it asks for. *)
Theorem C110_gsub_rules o ty f p t rank before xs after actions :
  bounded f -> reads o (read_gsub_type ty) f p t ->
  (gsub_rule_as t rank before xs after actions <-> rule_as_at f p 5 ty rank before xs after actions).
Proof. exact (gsub_rule_ranks o ty f p t rank before xs after actions). Qed.
Print Assumptions C110_gsub_rules.

Theorem C110_gpos_rules o ty f p t rank before xs after actions :
  bounded f -> reads o (read_gpos_type ty) f p t ->
  (gpos_rule_as t rank before xs after actions <-> rule_as_at f p 7 ty rank before xs after actions).
Proof. exact (gpos_rule_ranks o ty f p t rank before xs after actions). Qed.
Print Assumptions C110_gpos_rules.

(** The same holds of the subtables of the lookups of a whole table. *)
Theorem C110_gsub o f p v k j :
  bounded f -> reads o read_glyph_substitution f p v ->
  (forall rank xs ys, (exists t, in_lookup v k j t /\ replaces_as t rank xs ys) <->
    (exists q ty, in_lookup_at o f p k j q ty /\ replaces_as_at f q ty rank xs ys)) /\
  (forall rank before xs after actions, (exists t, in_lookup v k j t /\ gsub_rule_as t rank before xs after actions) <->
    (exists q ty, in_lookup_at o f p k j q ty /\ rule_as_at f q 5 ty rank before xs after actions)).
Proof. exact (gsub_ranks o f p v k j). Qed.
Print Assumptions C110_gsub.

Theorem C110_gpos o f p v k j rank before xs after actions :
  bounded f -> reads o read_glyph_positioning f p v ->
  ((exists t, in_lookup v k j t /\ gpos_rule_as t rank before xs after actions) <->
   (exists q ty, in_lookup_at o f p k j q ty /\ rule_as_at f q 7 ty rank before xs after actions)).
Proof. exact (gpos_ranks o f p v k j rank before xs after actions). Qed.
Print Assumptions C110_gpos.

(** What has some rank is what C95 and C97 are about. *)
Theorem C110_some_ligature v xs ys : (exists rank, replaces_as v rank xs ys) <-> replaces v xs ys.
Proof. exact (replaces_ranked v xs ys). Qed.
Print Assumptions C110_some_ligature.

Theorem C110_some_gsub_rule v before xs after actions :
  (exists rank, gsub_rule_as v rank before xs after actions) <-> gsub_rule v before xs after actions.
Proof. exact (gsub_rule_ranked v before xs after actions). Qed.
Print Assumptions C110_some_gsub_rule.

Theorem C110_some_gpos_rule v before xs after actions :
  (exists rank, gpos_rule_as v rank before xs after actions) <-> gpos_rule v before xs after actions.
Proof. exact (gpos_rule_ranked v before xs after actions). Qed.
Print Assumptions C110_some_gpos_rule.

(** Two ligatures and two rules with the same first glyph. *)
Example C110_example :
  let f := words [1; 8; 1; 14;  1; 1; 20;  2; 6; 14;  90; 3; 21; 22;  91; 2; 21] in
  let g := words [1; 8; 1; 14;  1; 1; 30;  2; 6; 16;  2; 1; 7; 0; 1;  3; 0; 8; 9] in
  exists t u, bounded f /\ bounded g /\ reads debug_build (read_gsub_type 4) f 0 t /\
    replaces_as t 0 [20; 21; 22] [90] /\ replaces_as t 1 [20; 21] [91] /\ (forall ys, ~ replaces_as t 0 [20; 21] ys) /\
    reads debug_build (read_gpos_type 7) g 0 u /\ gpos_rule_as u 0 [] [30; 7] [] [mkAction 0 1] /\
    gpos_rule_as u 1 [] [30; 8; 9] [] [] /\ (forall actions, ~ gpos_rule_as u 1 [] [30; 7] [] actions).
Proof.
  eexists. eexists. do 2 (split; [apply file_of_bounded; vm_compute; discriminate|]).
  split; [eexists; vm_compute; reflexivity|].
  split; [exists 20, 0; do 2 eexists; do 4 (split; [reflexivity|]); reflexivity|].
  split; [exists 20, 0; do 2 eexists; do 4 (split; [reflexivity|]); reflexivity|].
  split; [intros ys (g & i & r & l & _ & Er & El & E & _); apply nth_error_In in Er; destruct Er as [<-|[]];
    injection El as <-; discriminate E|].
  split; [eexists; vm_compute; reflexivity|].
  split; [do 2 (split; [reflexivity|]); exists 30, 0; do 2 eexists; do 4 (split; [reflexivity|]); reflexivity|].
  split; [do 2 (split; [reflexivity|]); exists 30, 0; do 2 eexists; do 4 (split; [reflexivity|]); reflexivity|].
  intros actions (_ & _ & g & i & r & l & _ & Er & El & E & _). apply nth_error_In in Er. destruct Er as [<-|[]].
  injection El as <-. discriminate E.
Qed.
