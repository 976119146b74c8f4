(** C112: where the glyphs of texts come from, and which texts are left alone. *)

From Verif Require Import ProofSources.

(** Each glyph of what becomes of a text is one of the text, or one that a subtable puts in, of a lookup that is on or that
    rules ask for. *)
Theorem C112_origin v d script language wanted depth n text out y :
  shaped_by v d script language wanted depth n text out -> In y out ->
  In y text \/ exists k j t, asked (in_lookup v) (turned_on v script language wanted) n k /\ in_lookup v k j t /\ puts t y.
Proof. exact (texts_origin v d script language wanted depth n text out y). Qed.
Print Assumptions C112_origin.

Theorem C112_origin_beyond o f p v d script language wanted depth n text out y :
  shaped_beyond o f p v d script language wanted depth n text out -> In y out ->
  In y text \/ exists k j t, asked (subtable_for o Substitution f p v) (turned_on v script language wanted) n k /\
    subtable_for o Substitution f p v k j t /\ puts t y.
Proof. exact (texts_origin_beyond o f p v d script language wanted depth n text out y). Qed.
Print Assumptions C112_origin_beyond.

(** Glyphs of 16 bits become glyphs of 16 bits. *)
Theorem C112_range o f p v d script language wanted depth n text out :
  bounded f -> reads o read_glyph_substitution f p v -> Forall (fun x => x < 65536) text ->
  shaped_by v d script language wanted depth n text out -> Forall (fun y => y < 65536) out.
Proof. exact (texts_small o f p v d script language wanted depth n text out). Qed.
Print Assumptions C112_range.

Theorem C112_range_beyond o f p v d script language wanted depth n text out :
  bounded f -> reads o read_glyph_substitution f p v -> Forall (fun x => x < 65536) text ->
  shaped_beyond o f p v d script language wanted depth n text out -> Forall (fun y => y < 65536) out.
Proof. exact (texts_small_beyond o f p v d script language wanted depth n text out). Qed.
Print Assumptions C112_range_beyond.

(** A text stays as it is if no subtable of a lookup that is on is about any of its glyphs. *)
Theorem C112_alone v d script language wanted depth n text out :
  (forall k j t x, turned_on v script language wanted k -> k < n -> in_lookup v k j t -> In x text -> ~ takes_up t x) ->
  shaped_by v d script language wanted depth n text out -> out = text.
Proof. exact (texts_alone v d script language wanted depth n text out). Qed.
Print Assumptions C112_alone.

Theorem C112_alone_beyond o f p v d script language wanted depth n text out :
  (forall k j t x, turned_on v script language wanted k -> k < n -> subtable_for o Substitution f p v k j t -> In x text ->
    ~ takes_up t x) ->
  shaped_beyond o f p v d script language wanted depth n text out -> out = text.
Proof. exact (texts_alone_beyond o f p v d script language wanted depth n text out). Qed.
Print Assumptions C112_alone_beyond.

(** Its glyphs stay where they are in the same case. *)
Theorem C112_still v d script language wanted depth text n m i c :
  (forall k j t x, turned_on v script language wanted k -> k < n -> in_lookup v k j t -> In x text -> ~ takes_up_to_move t x) ->
  kerned_by v d script language wanted depth text n m -> m i c = 0%Z.
Proof. exact (kerning_alone v d script language wanted depth text n m i c). Qed.
Print Assumptions C112_still.

Theorem C112_still_beyond o f p v d script language wanted depth text n m i c :
  (forall k j t x, turned_on v script language wanted k -> k < n -> subtable_for o Positioning f p v k j t -> In x text ->
    ~ takes_up_to_move t x) ->
  kerned_beyond o f p v d script language wanted depth text n m -> m i c = 0%Z.
Proof. exact (kerning_alone_beyond o f p v d script language wanted depth text n m i c). Qed.
Print Assumptions C112_still_beyond.

(** Nothing is moved that is not in the text. *)
Theorem C112_inside v d script language wanted depth text n m i c :
  kerned_by v d script language wanted depth text n m -> (length text <= i)%nat -> m i c = 0%Z.
Proof. exact (kerning_outside v d script language wanted depth text n m i c). Qed.
Print Assumptions C112_inside.

Theorem C112_inside_beyond o f p v d script language wanted depth text n m i c :
  kerned_beyond o f p v d script language wanted depth text n m -> (length text <= i)%nat -> m i c = 0%Z.
Proof. exact (kerning_outside_beyond o f p v d script language wanted depth text n m i c). Qed.
Print Assumptions C112_inside_beyond.

(** Here 20 becomes 5, which the lookup that is on puts in, and not the one that is off, and 7 and 8 are left alone. *)
Example C112_example :
  let f := words [1; 0; 0; 0; 0; 0;  1; 0; 10; 28; 42;  1; 27745; 29806; 8; 4; 0; 0; 0; 0;  1; 27753; 26465; 8; 0; 1; 0;
    2; 6; 32;  1; 0; 1; 8;  2; 10; 2; 5; 6;  1; 2; 20; 21;  1; 0; 1; 8;  2; 8; 1; 9;  1; 1; 21] in
  exists v d t u, bounded f /\ reads debug_build read_glyph_substitution f 12 v /\ reads debug_build read_glyph_definition f 0 d /\
    in_lookup v 0 0 t /\ in_lookup v 1 0 u /\
    asked (in_lookup v) (turned_on v (Tag "l" "a" "t" "n") None (fun _ => False)) 2 0 /\
    ~ asked (in_lookup v) (turned_on v (Tag "l" "a" "t" "n") None (fun _ => False)) 2 1 /\
    ~ asked (in_lookup v) (turned_on v (Tag "l" "a" "t" "n") None (fun _ => False)) 0 0 /\
    puts t 5 /\ ~ puts t 9 /\ puts u 9 /\ takes_up t 20 /\
    (forall k j t x, turned_on v (Tag "l" "a" "t" "n") None (fun _ => False) k -> k < 2 -> in_lookup v k j t ->
      In x [7; 8] -> ~ takes_up t x) /\
    shaped_by v d (Tag "l" "a" "t" "n") None (fun _ => False) 0 2 [20; 7] [5; 7] /\
    (forall out, shaped_by v d (Tag "l" "a" "t" "n") None (fun _ => False) 0 2 [7; 8] out <-> out = [7; 8]).
Proof.
  intros f. do 4 eexists. split; [apply file_of_bounded; vm_compute; discriminate|].
  do 2 (split; [eexists; vm_compute; reflexivity|]).
  split; [eexists; split; reflexivity|]. split; [eexists; split; reflexivity|].
  match goal with |- asked (in_lookup ?v) _ _ _ /\ _ => set (w := v) end.
  assert (T : turned_on w (Tag "l" "a" "t" "n") None (fun _ => False) 0).
  { exists (Tag "l" "i" "g" "a"). left. exists 0. do 3 eexists. exists 0. do 2 eexists.
    do 3 (split; [reflexivity|]). split; [reflexivity|]. do 4 (split; [reflexivity|]). left. reflexivity. }
  assert (O : forall k, turned_on w (Tag "l" "a" "t" "n") None (fun _ => False) k -> k = 0).
  { intros k (feature & [(i & h & s & l & x & g & r & _ & _ & Es & _ & _ & _ & _ & Er & I)|([] & _)]).
    apply nth_error_In in Er. destruct Er as [<-|[]]. destruct I as [<-|[]]. reflexivity. }
  assert (U : forall k j t b xs a l, in_lookup w k j t -> ~ gsub_rule t b xs a l).
  { intros k j t b xs a l (r & Er & Et) H. apply nth_error_In in Er. destruct Er as [<-|[<-|[]]];
      (apply nth_error_In in Et; destruct Et as [<-|[]]; exact H). }
  assert (Z : forall k j before x after y, ~ exists t, in_lookup w k j t /\ gsub_reverse t before x after y).
  { intros k j before x after y (t & (r & Er & Et) & H). apply nth_error_In in Er. destruct Er as [<-|[<-|[]]];
      (apply nth_error_In in Et; destruct Et as [<-|[]]; exact H). }
  assert (R : forall j t xs ys, in_lookup w 0 j t -> replaces t xs ys -> (xs = [20] /\ ys = [5]) \/ (xs = [21] /\ ys = [6])).
  { intros j t xs ys (r & Er & Et) H. injection Er as <-. apply nth_error_In in Et. destruct Et as [<-|[]].
    destruct H as (g & i & y & Hc & Hy & -> & ->). cbn in Hc, Hy. unfold entry in Hc, Hy.
    destruct (N.to_nat i) as [|[|a]]; [| |destruct a; discriminate Hc]; injection Hc as <-; injection Hy as <-; auto. }
  assert (N7 : forall k j t x, turned_on w (Tag "l" "a" "t" "n") None (fun _ => False) k -> k < 2 -> in_lookup w k j t -> In x [7; 8] -> ~ takes_up t x).
  { intros k j t x H _ I X. apply O in H. subst k. intros [(xs & ys & G)|[(b & xs & a & l & G)|(b & a & y & G)]].
    - destruct (R _ _ _ _ I G) as [([= -> _] & _)|([= -> _] & _)]; destruct X as [X|[X|[]]]; discriminate X.
    - exact (U _ _ _ _ _ _ _ I G).
    - exact (Z 0 j b x a y (ex_intro _ t (conj I G))). }
  split; [apply asked_on; [exact T|lia]|]. split.
  { intros H. inversion H as [k G L E|k j t b xs a l x G I G' J E]; [|exact (U _ _ _ _ _ _ _ I G')].
    apply O in G. lia. }
  split.
  { intros H. inversion H as [k G L E|k j t b xs a l x G I G' J E]; [lia|exact (U _ _ _ _ _ _ _ I G')]. }
  split; [left; exists [20], [5]; split; [exists 20, 0, 5; do 3 (split; [reflexivity|]); reflexivity|left; reflexivity]|].
  split.
  { intros [(xs & ys & H & I)|(b & x & a & [])].
    destruct (R 0 _ xs ys (ex_intro _ _ (conj eq_refl eq_refl)) H) as [(_ & ->)|(_ & ->)]; destruct I as [I|[]]; discriminate I. }
  split; [left; exists [21], [9]; split; [exists 21, 0, 9; do 3 (split; [reflexivity|]); reflexivity|left; reflexivity]|].
  split; [left; exists [], [5]; exists 20, 0, 5; do 3 (split; [reflexivity|]); reflexivity|].
  split; [exact N7|].
  match goal with |- shaped_by _ ?d _ _ _ _ _ _ _ /\ _ => set (e := d) end.
  assert (S : forall x, ~ skips w e 0 x).
  { intros x (l & El & G). injection El as <-. cbn zeta in G. cbn in G.
    destruct G as [(_ & G)|[(_ & G)|(_ & [G|[(s & G & _)|(G & _)]])]]; [discriminate G..|]. apply G. reflexivity. }
  assert (F : forall x left text ys rest, In x [7; 8] -> ~ does 1 (skips w e)
    (fun k j r xs ys => exists t, in_lookup w k j t /\ replaces_as t r xs ys)
    (fun k j r before xs after actions => exists t, in_lookup w k j t /\ gsub_rule_as t r before xs after actions) 0
    left (x :: text) ys rest).
  { intros x left text ys rest X. apply does_not. intros j rank [(ys' & kept & rest' & H)|(l & rest' & H)].
    - destruct H as (x' & xs & tail & [= <- _] & _ & _ & t & I & H). apply (N7 0 j t x T ltac:(lia) I X). left.
      exists xs, ys'. exact (as_replaces _ _ _ _ H).
    - destruct H as (x' & xs & tail & b & a & k1 & k2 & r1 & k3 & r2 & _ & _ & _ & _ & _ & t & I & H).
      exact (U _ _ _ _ _ _ _ I (as_rule _ _ _ _ _ _ H)). }
  assert (Y : forall text out, goes_through (does 1 (skips w e)
    (fun k j r xs ys => exists t, in_lookup w k j t /\ replaces_as t r xs ys)
    (fun k j r before xs after actions => exists t, in_lookup w k j t /\ gsub_rule_as t r before xs after actions) 0)
    [] text out -> shaped_by w e (Tag "l" "a" "t" "n") None (fun _ => False) 0 2 text out).
  { intros text out G. apply (shaped_off _ _ _ _ _ _ 1); [|intros H; apply O in H; discriminate H].
    apply (shaped_on _ _ _ _ _ _ 0 _ text out); [apply shaped_none|exact T|exact G|].
    pose proof (back_none (skips w e 0) _ (rev out) [] (Z 0)) as B. rewrite rev_involutive, app_nil_r in B. exact B. }
  split.
  - apply Y. apply (goes_does _ _ _ [5] [7]).
    + apply (does_fires 0 _ _ _ 0 _ [20; 7] [5] [] [7]). exists 20, [], [7].
      split; [reflexivity|]. split; [apply S|]. split; [apply begins_glyph; [apply S|apply begins_end]|].
      eexists. split; [eexists; split; reflexivity|]. split; [reflexivity|]. exists 20, 0, 5. do 3 (split; [reflexivity|]). reflexivity.
    + apply goes_on; [intros ys rest; apply F; left; reflexivity|]. exact (goes_end _ [7; 5]).
  - intros out. split; [exact (texts_alone w e _ _ _ _ _ _ _ N7)|]. intros ->. apply Y.
    apply goes_on; [intros ys rest; apply F; left; reflexivity|].
    apply goes_on; [intros ys rest; apply F; right; left; reflexivity|]. exact (goes_end _ [8; 7]).
Qed.

(** A pair begins with 30 here, and so 31 and 8 are left where they are. *)
Example C112_still_example :
  let f := words [1; 0; 0; 0; 0; 0;  1; 0; 10; 28; 42;  1; 27745; 29806; 8; 4; 0; 0; 0; 0;  1; 27493; 29294; 8; 0; 1; 0;
    1; 4; 2; 0; 1; 8;  1; 22; 4; 0; 1; 12;  2; 31; 100; 32; 65436;  1; 1; 30] in
  exists v d t, bounded f /\ reads debug_build read_glyph_positioning f 12 v /\ reads debug_build read_glyph_definition f 0 d /\
    turned_on v (Tag "l" "a" "t" "n") None (fun _ => False) 0 /\ in_lookup v 0 0 t /\ takes_up_to_move t 30 /\
    (forall k j t x, in_lookup v k j t -> In x [31; 8] -> ~ takes_up_to_move t x) /\
    kerned_by v d (Tag "l" "a" "t" "n") None (fun _ => False) 0 [31; 8] 1 (fun _ _ => 0%Z) /\
    (forall m i c, kerned_by v d (Tag "l" "a" "t" "n") None (fun _ => False) 0 [31; 8] 1 m -> m i c = 0%Z).
Proof.
  intros f. do 3 eexists. split; [apply file_of_bounded; vm_compute; discriminate|].
  do 2 (split; [eexists; vm_compute; reflexivity|]).
  match goal with |- turned_on ?v _ _ _ _ /\ _ => set (w := v) end.
  assert (T : turned_on w (Tag "l" "a" "t" "n") None (fun _ => False) 0).
  { exists (Tag "k" "e" "r" "n"). left. exists 0. do 3 eexists. exists 0. do 2 eexists.
    do 3 (split; [reflexivity|]). split; [reflexivity|]. do 4 (split; [reflexivity|]). left. reflexivity. }
  split; [exact T|]. split; [eexists; split; reflexivity|]. split.
  { left. exists [31], false. split; [split; [discriminate|intros X; destruct (X eq_refl)]|].
    exists 30, 0. do 2 eexists. do 2 (split; [reflexivity|]). split; [left; reflexivity|reflexivity]. }
  match goal with |- _ /\ kerned_by _ ?d _ _ _ _ _ _ _ /\ _ => set (e := d) end.
  assert (M : forall k j t x, in_lookup w k j t -> In x [31; 8] -> ~ takes_up_to_move t x).
  { intros k j t x (l & El & Et) X H. apply nth_error_In in El. destruct El as [<-|[]]. apply nth_error_In in Et.
    destruct Et as [<-|[]]. destruct H as [(xs & past & H)|(b & xs & a & l & [])].
    destruct H as (_ & g & i & r & s & G & _ & _ & [= -> _]). apply nth_error_In in G. destruct G as [<-|[]].
    destruct X as [X|[X|[]]]; discriminate X. }
  split; [exact M|]. split.
  - apply (kerned_on _ _ _ _ _ _ _ 0 (fun _ _ => 0%Z)); [apply kerned_none|exact T|].
    assert (F : forall x left text m mid n, In x [31; 8] -> ~ nudges 1 (skips w e)
      (fun k j xs past => exists t, in_lookup w k j t /\ minds t xs past)
      (fun k j xs second c z => exists t, in_lookup w k j t /\ adjusts t xs second c z)
      (fun k j r before xs after actions => exists t, in_lookup w k j t /\ gpos_rule_as t r before xs after actions) 0
      left (x :: text) m mid n).
    { intros x left text m mid n X. apply nudges_not.
      intros j rk [(_ & xs & rest & past & y & ys & tail & kept & [= <- _] & _ & -> & G & t & I & H)|(l & r & H)].
      - apply (M _ _ _ _ I X). left. eauto.
      - destruct H as (y & xs & tail & before & after & k0 & k' & r' & k'' & r'' & [= <- _] & _ & _ & _ & _ & t & I & H).
        apply (M _ _ _ _ I X). right. exists before, xs, after, l. exact (as_gpos_rule _ _ _ _ _ _ H). }
    apply runs_on; [intros mid n; apply F; left; reflexivity|].
    apply runs_on; [intros mid n; apply F; right; left; reflexivity|]. apply runs_end.
  - intros m i c. apply kerning_alone. intros k j t x _ _. apply M.
Qed.
