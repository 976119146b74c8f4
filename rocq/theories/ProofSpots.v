(** Files for which reading a part with parameters reports an error (C82). *)

From Verif Require Export SpecErrors.
From Verif Require Import Encode Reads ProofErrors ProofFlags.

(** ** Running readers *)

Section Run.
Context (e : env).

Lemma i16_run q n : u16_at (content e) q n -> take_i16 e q = Ok (to_i16 n, q + 2).
Proof. intros H. unfold take_i16. rewrite (run_bind _ _ _ _ _ _ (u16_run e _ _ H)). reflexivity. Qed.

Lemma jump_run {A} base offset (m : M A) q : base + offset < 2 ^ 64 ->
  jump_take base offset m e q = m e (base + offset).
Proof.
  intros H. unfold jump_take, add_u64, add_wrapping. apply N.ltb_lt in H. unfold bind at 1 2. unfold ask.
  rewrite H. reflexivity.
Qed.

Lemma maybe_stop {A} base offset (m : M A) q x : 0 < offset -> base + offset < 2 ^ 64 ->
  m e (base + offset) = Err x -> jump_take_maybe base offset m e q = Err x.
Proof.
  intros H B E. unfold jump_take_maybe. apply N.ltb_lt in H. rewrite H. apply run_stop.
  rewrite jump_run; assumption.
Qed.

Lemma stay_stop {A} (m : M A) q x : m e q = Err x -> stay m e q = Err x.
Proof. intros H. unfold stay. rewrite H. reflexivity. Qed.

Lemma for_stop {A} n (m : nat -> M A) q x : 0 < n -> m 0%nat e q = Err x -> for_n n m e q = Err x.
Proof.
  intros H E. unfold for_n. destruct (N.to_nat n) as [|k] eqn:K; [lia|]. cbn [for_range].
  apply run_stop, E.
Qed.

End Run.

(** Up to 257 bytes after [p] all bytes are one, so that all offsets are 257; then these words, and
    zeros ever after. *)
Definition spot (p : N) (words : list N) : file := fun q =>
  if q <? p + 257 then Some Byte.x01
  else if q <? 2 ^ 63 then
    let w := nth (N.to_nat ((q - (p + 257)) / 2)) words 0 in
    Some (byte_of (if N.even (q - (p + 257)) then w / 256 else w mod 256))
  else None.

Section Spot.
Context (o : options) (p : N) (words : list N) (L : p < 2 ^ 62) (W : Forall (fun w => w < 65536) words).
Notation f := (spot p words).
Notation e := (mkEnv f o).

Lemma spot_bounded : bounded f.
Proof.
  intros q H. unfold spot. destruct (N.ltb_spec q (p + 257)) as [C|_]; [lia|].
  destruct (N.ltb_spec q (2 ^ 63)) as [C|_]; [lia|reflexivity].
Qed.

Lemma spot_ones q : q + 1 < p + 257 -> u16_at f q 257.
Proof.
  intros H. unfold u16_at, spot. destruct (N.ltb_spec q (p + 257)) as [C|C]; [|lia].
  destruct (N.ltb_spec (q + 1) (p + 257)) as [C'|C']; [|lia]. exists Byte.x01, Byte.x01. repeat split.
Qed.

Lemma spot_some q : q < 2 ^ 63 -> exists b, f q = Some b.
Proof.
  intros H. unfold spot. destruct (N.ltb_spec q (p + 257)); [eexists; reflexivity|].
  destruct (N.ltb_spec q (2 ^ 63)); [eexists; reflexivity|lia].
Qed.

Lemma spot_any q : q + 1 < 2 ^ 63 -> exists n, u16_at f q n.
Proof.
  intros H. destruct (spot_some q) as [a A]; [lia|]. destruct (spot_some (q + 1)) as [b B]; [lia|].
  eexists. exists a, b. split; [exact A|]. split; [exact B|reflexivity].
Qed.

Lemma spot_word k q : k < 1000 -> q = p + 257 + 2 * k -> u16_at f q (nth (N.to_nat k) words 0).
Proof.
  intros K ->. set (w := nth (N.to_nat k) words 0).
  assert (B : w < 65536).
  { unfold w. destruct (nth_in_or_default (N.to_nat k) words 0) as [I|I]; [|rewrite I; reflexivity].
    rewrite Forall_forall in W. exact (W _ I). }
  exists (byte_of (w / 256)), (byte_of (w mod 256)). unfold spot.
  destruct (N.ltb_spec (p + 257 + 2 * k) (p + 257)) as [C|_]; [lia|].
  destruct (N.ltb_spec (p + 257 + 2 * k) (2 ^ 63)) as [_|C]; [|lia].
  destruct (N.ltb_spec (p + 257 + 2 * k + 1) (p + 257)) as [C|_]; [lia|].
  destruct (N.ltb_spec (p + 257 + 2 * k + 1) (2 ^ 63)) as [_|C]; [|lia].
  replace (p + 257 + 2 * k - (p + 257)) with (2 * k) by lia.
  replace (p + 257 + 2 * k + 1 - (p + 257)) with (2 * k + 1) by lia.
  replace (2 * k / 2) with k by (symmetry; rewrite N.mul_comm; apply N.div_mul; discriminate).
  replace ((2 * k + 1) / 2) with k
    by (symmetry; rewrite N.mul_comm, N.div_add_l by discriminate; cbn; lia).
  rewrite (N.even_mul 2 k). rewrite N.even_add, (N.even_mul 2 k). cbn [N.even orb Bool.eqb negb].
  fold w. split; [reflexivity|]. split; [reflexivity|].
  rewrite !byte_of_to.
  - rewrite (N.div_mod w 256) at 1 by discriminate. reflexivity.
  - apply N.mod_lt. discriminate.
  - apply N.div_lt_upper_bound; [discriminate|]. lia.
Qed.

Lemma words_run n : forall i q, q + 2 * N.of_nat n <= 2 ^ 63 ->
  exists vs, for_range i n (fun _ => take_u16) e q = Ok (vs, q + 2 * N.of_nat n) /\
    ((0 < n)%nat -> forall c, u16_at f q c -> nth_error vs 0 = Some c).
Proof.
  induction n as [|n IH]; intros i q H.
  - exists []. split; [cbn [for_range]; unfold ret; do 2 f_equal; lia|lia].
  - destruct (spot_any q) as [w Hw]; [lia|].
    destruct (IH (S i) (q + 2)) as (vs & E & _); [lia|]. exists (w :: vs). split.
    + cbn [for_range]. rewrite (run_bind _ _ _ _ _ _ (u16_run e _ _ Hw)), (run_bind _ _ _ _ _ _ E).
      unfold ret. f_equal. f_equal. lia.
    + intros _ c Hc. apply (u16_run e) in Hw, Hc. rewrite Hw in Hc. injection Hc as <-. reflexivity.
Qed.

Lemma words_read n q : n < 65536 -> q < 2 ^ 62 + 65536 ->
  exists vs r, take_vec n take_u16 e q = Ok (vs, r) /\
    (0 < n -> forall c, u16_at f q c -> nth_error vs 0 = Some c).
Proof.
  intros N Q. destruct (words_run (N.to_nat n) 0 q) as (vs & E & H); [rewrite N2Nat.id; lia|].
  exists vs. eexists. split; [exact E|]. intros C. apply H. lia.
Qed.

(** ** Anchors *)

Lemma anchors_stop {B} b c n q x (k : list N -> list (option Anchor) -> M B) :
  0 < n < 65536 -> q < 2 ^ 62 + 65536 -> u16_at f q c -> 0 < c -> b + c < 2 ^ 64 ->
  read_anchor e (b + c) = Err x ->
  (offsets <- take_vec n take_u16;;
   anchors <- stay (jump_take_maybe_n b n offsets read_anchor);;
   k offsets anchors) e q = Err x.
Proof.
  intros N Q C Z Y E. destruct (words_read n q) as (vs & r & V & F); [lia|lia|].
  rewrite (run_bind _ _ _ _ _ _ V). apply run_stop, stay_stop, for_stop; [lia|].
  unfold index. rewrite (F ltac:(lia) c C). apply maybe_stop; assumption.
Qed.

Lemma base_stop n q x : 0 < n < 65536 -> q + 1 < p + 257 -> read_anchor e (p + 257) = Err x ->
  read_base p n e q = Err x.
Proof. intros N Q. apply anchors_stop; [exact N|lia|apply spot_ones, Q|reflexivity|lia]. Qed.

Lemma component_stop n q x : 0 < n < 65536 -> q + 1 < p + 257 -> read_anchor e (p + 257) = Err x ->
  read_component p n e q = Err x.
Proof. intros N Q. apply anchors_stop; [exact N|lia|apply spot_ones, Q|reflexivity|lia]. Qed.

Lemma mark2_stop n q x : 0 < n < 65536 -> q + 1 < p + 257 -> read_anchor e (p + 257) = Err x ->
  read_mark2 p n e q = Err x.
Proof. intros N Q. apply anchors_stop; [exact N|lia|apply spot_ones, Q|reflexivity|lia]. Qed.

Lemma counted_stop {A B} (m : nat -> M A) (k : N -> list A -> B) x : m 0%nat e (p + 2) = Err x ->
  (count <- take_u16;; records <- for_n count m;; ret (k count records)) e p = Err x.
Proof.
  intros E. rewrite (run_bind _ _ _ _ _ _ (u16_run e p 257 (spot_ones p ltac:(lia)))).
  apply run_stop, for_stop; [reflexivity|exact E].
Qed.

Lemma bases_stop n x : 0 < n < 65536 -> read_anchor e (p + 257) = Err x -> read_bases n e p = Err x.
Proof.
  intros N E. unfold read_bases. rewrite bind_position. apply (counted_stop _ mkBases).
  apply base_stop; [exact N|lia|exact E].
Qed.

Lemma mark2s_stop n x : 0 < n < 65536 -> read_anchor e (p + 257) = Err x -> read_mark2s n e p = Err x.
Proof.
  intros N E. unfold read_mark2s. rewrite bind_position. apply (counted_stop _ mkMark2s).
  apply mark2_stop; [exact N|lia|exact E].
Qed.

Lemma gpos_ligature_stop n x : 0 < n < 65536 -> read_anchor e (p + 257) = Err x ->
  read_gpos_ligature n e p = Err x.
Proof.
  intros N E. unfold read_gpos_ligature. rewrite bind_position. apply (counted_stop _ mkGposLigature).
  apply component_stop; [exact N|lia|exact E].
Qed.

Lemma gpos_ligatures_stop n x : 0 < n < 65536 -> (exists tail, words = 1 :: 4 :: tail) ->
  read_anchor e (p + 261) = Err x -> read_gpos_ligatures n e p = Err x.
Proof.
  intros N [tail T] E. unfold read_gpos_ligatures. rewrite bind_position.
  rewrite (run_bind _ _ _ _ _ _ (u16_run e p 257 (spot_ones p ltac:(lia)))).
  destruct (words_read 257 (p + 2)) as (vs & r & V & F); [reflexivity|lia|].
  rewrite (run_bind _ _ _ _ _ _ V). apply run_stop, stay_stop, for_stop; [reflexivity|].
  unfold index. rewrite (F eq_refl 257 (spot_ones (p + 2) ltac:(lia))). cbn beta iota.
  rewrite (run_bind e (ret 257) _ _ 257 r eq_refl). rewrite jump_run by lia.
  unfold read_gpos_ligature. rewrite bind_position.
  assert (H1 : u16_at f (p + 257) 1).
  { pose proof (spot_word 0 (p + 257) eq_refl ltac:(lia)) as H. rewrite T in H. rewrite T. exact H. }
  rewrite (run_bind _ _ _ _ _ _ (u16_run e _ _ H1)).
  apply run_stop, for_stop; [reflexivity|].
  apply anchors_stop with (c := 4); [exact N|lia| |reflexivity|lia|].
  - pose proof (spot_word 1 (p + 257 + 2) eq_refl ltac:(lia)) as H. rewrite T in H. rewrite T. exact H.
  - replace (p + 257 + 4) with (p + 261) by lia. exact E.
Qed.

Lemma mark1_stop q x : q + 4 < p + 257 -> read_anchor e (p + 257) = Err x -> read_mark1 p e q = Err x.
Proof.
  intros Q E. unfold read_mark1.
  rewrite (run_bind _ _ _ _ _ _ (u16_run e q 257 (spot_ones q ltac:(lia)))).
  rewrite (run_bind _ _ _ _ _ _ (u16_run e (q + 2) 257 (spot_ones (q + 2) ltac:(lia)))).
  rewrite bind_ask. apply run_stop. cbn [opts].
  destruct (ignore_incomplete_marks o).
  - apply run_stop, stay_stop, maybe_stop; [reflexivity|lia|exact E].
  - apply stay_stop. rewrite jump_run; [exact E|lia].
Qed.

Lemma connection_stop q x : q + 4 < p + 257 -> read_anchor e (p + 257) = Err x ->
  read_connection p e q = Err x.
Proof.
  intros Q E. unfold read_connection.
  rewrite (run_bind _ _ _ _ _ _ (u16_run e q 257 (spot_ones q ltac:(lia)))).
  rewrite (run_bind _ _ _ _ _ _ (u16_run e (q + 2) 257 (spot_ones (q + 2) ltac:(lia)))).
  apply run_stop, stay_stop, run_stop, maybe_stop; [reflexivity|lia|exact E].
Qed.

(** ** Values *)

Lemma field_run {A} b (m : M A) v q : m e q = Ok (v, q + 2) ->
  exists r, take_if b m e q = Ok (if b then Some v else None, r) /\ q <= r <= q + 2.
Proof.
  intros E. unfold take_if. destruct b.
  - exists (q + 2). rewrite (run_bind _ _ _ _ _ _ E). split; [reflexivity|lia].
  - exists q. split; [reflexivity|lia].
Qed.

Definition correctable (flags : N) : bool :=
  has_x_placement_correction flags || (has_y_placement_correction flags ||
  (has_x_advance_correction flags || (has_y_advance_correction flags || false))).

Lemma single_run flags q x : q + 16 < p + 257 ->
  (correctable flags = true -> read_correction e (p + 257) = Err x) ->
  if correctable flags then read_single p flags e q = Err x
  else exists v r, read_single p flags e q = Ok (v, r) /\ r <= q + 16.
Proof.
  intros Q E. unfold read_single, correctable in *.
  assert (K : forall b s, (b = true -> read_correction e (p + 257) = Err x) ->
    take_linked p (if b then Some 257 else None) e s = if b then Err x else Ok (None, s)).
  { intros b s C. destruct b; [|reflexivity]. cbn [take_linked].
    apply maybe_stop; [reflexivity|lia|auto]. }
  repeat match goal with
  | |- context [bind (take_if ?b take_i16) _ _ ?s] =>
      let r := fresh "r" in let T := fresh "T" in let B := fresh "B" in
      destruct (field_run b take_i16 _ s (i16_run e s 257 (spot_ones s ltac:(lia)))) as (r & T & B);
      rewrite (run_bind _ _ _ _ _ _ T)
  | |- context [bind (take_if ?b take_u16) _ _ ?s] =>
      let r := fresh "r" in let T := fresh "T" in let B := fresh "B" in
      destruct (field_run b take_u16 _ s (u16_run e s 257 (spot_ones s ltac:(lia)))) as (r & T & B);
      rewrite (run_bind _ _ _ _ _ _ T)
  end.
  destruct (has_x_placement_correction flags); cbn [orb] in *.
  { apply run_stop, stay_stop, run_stop. apply (K true). exact E. }
  destruct (has_y_placement_correction flags); cbn [orb] in *.
  { apply run_stop, stay_stop. rewrite (run_bind _ _ _ _ None r6) by reflexivity.
    apply run_stop. apply (K true). exact E. }
  destruct (has_x_advance_correction flags); cbn [orb] in *.
  { apply run_stop, stay_stop. do 2 rewrite (run_bind _ _ _ _ None r6) by reflexivity.
    apply run_stop. apply (K true). exact E. }
  destruct (has_y_advance_correction flags); cbn [orb] in *.
  { apply run_stop, stay_stop. do 3 rewrite (run_bind _ _ _ _ None r6) by reflexivity.
    apply run_stop. apply (K true). exact E. }
  eexists. eexists. split; [reflexivity|]. lia.
Qed.

Lemma correctable_some flags : correctable flags = true -> 0 <? flags = true.
Proof. destruct flags; [intros H; discriminate H|reflexivity]. Qed.

Lemma values_stop {B} flags1 flags2 q x (k : option Single -> option Single -> B) : q + 32 < p + 257 ->
  correctable flags1 || correctable flags2 = true -> read_correction e (p + 257) = Err x ->
  (value1 <- (if 0 <? flags1 then v <- read_single p flags1;; ret (Some v) else ret None);;
   value2 <- (if 0 <? flags2 then v <- read_single p flags2;; ret (Some v) else ret None);;
   ret (k value1 value2)) e q = Err x.
Proof.
  intros Q C E. pose proof (single_run flags1 q x ltac:(lia) (fun _ => E)) as R1.
  destruct (correctable flags1) eqn:C1.
  - rewrite (correctable_some _ C1). apply run_stop, run_stop, R1.
  - cbn [orb] in C.
    assert (exists v r, (if 0 <? flags1 then v <- read_single p flags1;; ret (Some v) else ret None) e q =
      Ok (v, r) /\ r <= q + 16) as (v & r & V & Lr).
    { destruct (0 <? flags1).
      - destruct R1 as (v & r & V & Lr). exists (Some v), r. rewrite (run_bind _ _ _ _ _ _ V). auto.
      - exists None, q. split; [reflexivity|lia]. }
    rewrite (run_bind _ _ _ _ _ _ V).
    pose proof (single_run flags2 r x ltac:(lia) (fun _ => E)) as R2. rewrite C in R2.
    rewrite (correctable_some _ C). apply run_stop, run_stop, R2.
Qed.

Lemma pair1_stop flags1 flags2 q x : q + 34 < p + 257 -> correctable flags1 || correctable flags2 = true ->
  read_correction e (p + 257) = Err x -> read_pair1 p flags1 flags2 e q = Err x.
Proof.
  intros Q C E. unfold read_pair1.
  rewrite (run_bind _ _ _ _ _ _ (u16_run e q 257 (spot_ones q ltac:(lia)))).
  apply (values_stop _ _ _ _ (mkPair1 257)); [lia|assumption|assumption].
Qed.

Lemma pair1s_stop flags1 flags2 x : correctable flags1 || correctable flags2 = true ->
  read_correction e (p + 257) = Err x -> read_pair1s flags1 flags2 e p = Err x.
Proof.
  intros C E. unfold read_pair1s. rewrite bind_position. apply (counted_stop _ mkPair1s).
  apply pair1_stop; [lia|assumption|assumption].
Qed.

Lemma pair2_stop flags1 flags2 q x : q + 34 < p + 257 -> correctable flags1 || correctable flags2 = true ->
  read_correction e (p + 257) = Err x -> read_pair2 p flags1 flags2 e q = Err x.
Proof. intros Q. apply (values_stop _ _ _ _ mkPair2). lia. Qed.

Lemma pair2s_stop n flags1 flags2 q x : 0 < n -> q + 34 < p + 257 ->
  correctable flags1 || correctable flags2 = true ->
  read_correction e (p + 257) = Err x -> read_pair2s p n flags1 flags2 e q = Err x.
Proof. intros N Q C E. apply run_stop, for_stop; [exact N|]. apply pair2_stop; assumption. Qed.
End Spot.

(** ** What lies there *)

Definition anchor_words (x : error) : list N :=
  match x with Malformed => [3; 0; 0; 10; 0; 1; 0; 1] | _ => [0] end.

Definition correction_words (x : error) : list N :=
  match x with Malformed => [1; 0; 1] | _ => [0; 0; 0] end.

Lemma correction_wrong o f q x : x = UnknownFormat \/ x = Malformed ->
  (forall k, k < 3 -> u16_at f (q + 2 * k) (nth (N.to_nat k) (correction_words x) 0)) ->
  read_correction (mkEnv f o) q = Err x.
Proof.
  intros [->| ->] H.
  - apply correction_format. split.
    + exists 0. exists 0, 0. split; [|split; [|reflexivity]].
      * rewrite <- (N.add_0_r q). apply (H 0). reflexivity.
      * apply (H 1). reflexivity.
    + exists 0. split; [apply (H 2); reflexivity|]. intros [C|[C|[C|[C|[]]]]]; discriminate.
  - apply (device_sizes o f q 1 0 1); [|apply (H 1); reflexivity|apply (H 2); reflexivity|lia|lia].
    rewrite <- (N.add_0_r q). apply (H 0). reflexivity.
Qed.

Lemma anchor_wrong o f q x : q < 2 ^ 63 -> x = UnknownFormat \/ x = Malformed ->
  (forall k, k < 8 -> u16_at f (q + 2 * k) (nth (N.to_nat k) (anchor_words x) 0)) ->
  read_anchor (mkEnv f o) q = Err x.
Proof.
  intros L [->| ->] H.
  - apply anchor_format. exists 0. split; [rewrite <- (N.add_0_r q); apply (H 0); reflexivity|].
    intros [C|[C|[C|[]]]]; discriminate.
  - pose proof (H 0 eq_refl) as H0. rewrite N.mul_0_r, N.add_0_r in H0.
    unfold read_anchor. rewrite (run_peek _ _ _ _ _ _ (u16_run (mkEnv f o) _ _ H0)). cbn [nth N.to_nat].
    apply run_stop. unfold read_anchor3. rewrite bind_position.
    rewrite (run_bind _ _ _ _ _ _ (u16_run (mkEnv f o) _ _ H0)).
    rewrite (run_bind _ _ _ _ _ _ (i16_run (mkEnv f o) _ _ (H 1 eq_refl))).
    replace (q + 2 * 1 + 2) with (q + 2 * 2) by lia.
    rewrite (run_bind _ _ _ _ _ _ (i16_run (mkEnv f o) _ _ (H 2 eq_refl))).
    replace (q + 2 * 2 + 2) with (q + 2 * 3) by lia.
    rewrite (run_bind _ _ _ _ _ _ (u16_run (mkEnv f o) _ _ (H 3 eq_refl))).
    replace (q + 2 * 3 + 2) with (q + 2 * 4) by lia.
    rewrite (run_bind _ _ _ _ _ _ (u16_run (mkEnv f o) _ _ (H 4 eq_refl))).
    apply run_stop, maybe_stop; [reflexivity|change (nth _ _ _) with 10; lia|].
    apply correction_wrong; [right; reflexivity|]. intros k K.
    change (nth (N.to_nat 3) (anchor_words Malformed) 0) with 10.
    assert (k = 0 \/ k = 1 \/ k = 2) as [->|[->| ->]] by lia.
    + replace (q + 10 + 2 * 0) with (q + 2 * 5) by lia. apply (H 5). reflexivity.
    + replace (q + 10 + 2 * 1) with (q + 2 * 6) by lia. apply (H 6). reflexivity.
    + replace (q + 10 + 2 * 2) with (q + 2 * 7) by lia. apply (H 7). reflexivity.
Qed.

(** ** Lying there *)

Lemma anchor_words_small x : Forall (fun w => w < 65536) (anchor_words x).
Proof. destruct x; repeat constructor. Qed.

Lemma correction_words_small x : Forall (fun w => w < 65536) (correction_words x).
Proof. destruct x; repeat constructor. Qed.

Lemma anchor_spot o p x : p < 2 ^ 62 -> x = UnknownFormat \/ x = Malformed ->
  read_anchor (mkEnv (spot p (anchor_words x)) o) (p + 257) = Err x.
Proof.
  intros L X. apply anchor_wrong; [lia|exact X|]. intros k K.
  apply spot_word; [exact L|apply anchor_words_small|lia|reflexivity].
Qed.

Lemma anchor_spot_deep o p x : p < 2 ^ 62 -> x = UnknownFormat \/ x = Malformed ->
  read_anchor (mkEnv (spot p (1 :: 4 :: anchor_words x)) o) (p + 261) = Err x.
Proof.
  intros L X. apply anchor_wrong; [lia|exact X|]. intros k K.
  replace (nth (N.to_nat k) (anchor_words x) 0) with (nth (N.to_nat (k + 2)) (1 :: 4 :: anchor_words x) 0).
  - apply spot_word; [exact L| |lia|lia].
    repeat (constructor; [reflexivity|]). apply anchor_words_small.
  - replace (N.to_nat (k + 2)) with (S (S (N.to_nat k))) by lia. reflexivity.
Qed.

Lemma correction_spot o p x : p < 2 ^ 62 -> x = UnknownFormat \/ x = Malformed ->
  read_correction (mkEnv (spot p (correction_words x)) o) (p + 257) = Err x.
Proof.
  intros L X. apply correction_wrong; [exact X|]. intros k K.
  apply spot_word; [exact L|apply correction_words_small|lia|reflexivity].
Qed.
