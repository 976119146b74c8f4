(** What the property theorems about whole reads need. *)

From Verif Require Export ProofOverflow ProofBuilds ProofCpal Samples.
From Verif Require Import Reads ReadsTactics ProofExtend ProofRelocate ProofRequests ProofShape.

(** ** Relocation of panics *)

Section Moved.
Context (k : N) (f g : file) (Hd : drops k f g).

Lemma ex_iff {A} (P Q : A -> Prop) : (forall x, P x <-> Q x) -> ((exists x, P x) <-> exists x, Q x).
Proof. intros H. split; intros [x Hx]; exists x; apply H, Hx. Qed.

Lemma store_record_overflows_moved p q :
  q = k + p -> (store_record_overflows g p <-> store_record_overflows f q).
Proof.
  intros H. unfold store_record_overflows. do 4 (apply ex_iff; intros ?).
  rewrite (u16_moved k f g Hd p q), (u16_moved k f g Hd (p + 2) (q + 2)),
    (u16_moved k f g Hd (p + 4) (q + 4)), (u16s_moved k f g Hd (p + 6) (q + 6)) by lia.
  reflexivity.
Qed.

Lemma store_overflows_moved o p q :
  q = k + p -> (store_overflows o g p <-> store_overflows o f q).
Proof.
  intros H. unfold store_overflows. do 3 (apply ex_iff; intros ?).
  rewrite (u16_moved k f g Hd p q), (u32_moved k f g Hd (p + 2) (q + 2)),
    (u16_moved k f g Hd (p + 6) (q + 6)), (u32s_moved k f g Hd (p + 8) (q + 8)) by lia.
  do 4 (apply and_moved; [reflexivity|]). do 3 (apply ex_iff; intros ?).
  apply and_moved; [reflexivity|]. apply and_moved.
  - apply (linked_moved k); [|exact H]. intros p' q' v. apply (store_record_moved k f g Hd).
  - apply store_record_overflows_moved. lia.
Qed.

Lemma glyph_definition_overflows_moved o p q :
  q = k + p -> (glyph_definition_overflows o g p <-> glyph_definition_overflows o f q).
Proof.
  intros H. unfold glyph_definition_overflows. do 6 (apply ex_iff; intros ?).
  destruct (gdef_offsets _) as [[[[[? ?] ?] ?] ?] ?].
  apply and_moved; [apply (gdef_header_moved k f g Hd), H|].
  apply and_moved; [apply (maybe_moved k); [intros ? ? ?; apply (class_moved k f g Hd)|exact H]|].
  apply and_moved; [apply (maybe_moved k); [intros ? ? ?; apply (attachments_moved k f g Hd)|exact H]|].
  apply and_moved; [apply (maybe_moved k); [intros ? ? ?; apply (gdef_ligatures_moved k f g Hd)|exact H]|].
  apply and_moved; [apply (maybe_moved k); [intros ? ? ?; apply (class_moved k f g Hd)|exact H]|].
  apply and_moved; [apply (maybe_moved k); [intros ? ? ?; apply (marks_moved k f g Hd)|exact H]|].
  apply and_moved; [reflexivity|]. apply store_overflows_moved. lia.
Qed.
End Moved.

Lemma request_panics_moved {A} (r : request A) o k f g p :
  bounded f -> drops k f g -> (panics o (reader r) f (k + p) <-> panics o (reader r) g p).
Proof.
  intros Hb Hd. pose proof (drops_bounded k f g Hd Hb) as Hg.
  destruct (is_gdef r) eqn:E.
  - destruct r; try discriminate E. cbn [reader]. rewrite !gdef_panics by assumption.
    rewrite (glyph_definition_overflows_moved k f g Hd o p (k + p) eq_refl). reflexivity.
  - split; intros H; exfalso; revert H; apply request_no_panic; auto.
Qed.

Lemma three_ways {A} o (m : M A) f p : (exists v, reads o m f p v) \/ fails o m f p \/ panics o m f p.
Proof.
  unfold reads, fails, panics. destruct (m (mkEnv f o) p) as [[v q]|x|]; eauto.
Qed.

Lemma request_prefix {A} (r : request A) o prefix l p :
  N.of_nat (length (prefix ++ l)) <= 2 ^ 63 ->
  (forall v, reads o (reader r) (file_of (prefix ++ l)) (N.of_nat (length prefix) + p) v <->
             reads o (reader r) (file_of l) p v) /\
  (fails o (reader r) (file_of (prefix ++ l)) (N.of_nat (length prefix) + p) <->
   fails o (reader r) (file_of l) p) /\
  (panics o (reader r) (file_of (prefix ++ l)) (N.of_nat (length prefix) + p) <->
   panics o (reader r) (file_of l) p).
Proof.
  intros Hl. pose proof (file_of_bounded _ Hl) as Hb. pose proof (drops_prefix prefix l) as Hd.
  assert (R : forall v, reads o (reader r) (file_of (prefix ++ l)) (N.of_nat (length prefix) + p) v <->
             reads o (reader r) (file_of l) p v).
  { intros v. apply request_relocate; assumption. }
  pose proof (request_panics_moved r o _ _ _ p Hb Hd) as P.
  split; [exact R|]. split; [|exact P].
  split; intros [x Hx].
  - destruct (three_ways o (reader r) (file_of l) p) as [[v Hv]|[H|H]]; [|exact H|].
    + apply R in Hv as [q Hq]. congruence.
    + apply P in H. unfold panics in H. congruence.
  - destruct (three_ways o (reader r) (file_of (prefix ++ l)) (N.of_nat (length prefix) + p))
      as [[v Hv]|[H|H]]; [|exact H|].
    + apply R in Hv as [q Hq]. congruence.
    + apply P in H. unfold panics in H. congruence.
Qed.

(** ** Errors *)

Lemma gdef_fails o f p : bounded f ->
  (fails o read_glyph_definition f p <->
   (forall v, ~ glyph_definition_at o f p v) /\
   ~ (overflow_checks o = true /\ glyph_definition_overflows o f p)).
Proof.
  intros Hb. rewrite <- (gdef_panics o f p Hb).
  assert (R : forall v, reads o read_glyph_definition f p v <-> glyph_definition_at o f p v).
  { intros v. apply (request_reads RequestGdef), Hb. }
  split.
  - intros [x Hx]. split.
    + intros v Hv. apply R in Hv as [q Hq]. congruence.
    + unfold panics. congruence.
  - intros [Hv Hp]. destruct (three_ways o read_glyph_definition f p) as [[v H]|[H|H]];
      [|exact H|elim (Hp H)]. apply R in H. elim (Hv v H).
Qed.

(** ** Extension *)

Lemma request_appended {A} (r : request A) o l more p v :
  reads o (reader r) (file_of l) p v -> reads o (reader r) (file_of (l ++ more)) p v.
Proof. apply request_extend, extends_append. Qed.

Lemma request_truncated {A} (r : request A) o n l p v :
  reads o (reader r) (file_of l) p v ->
  reads o (reader r) (file_of (firstn n l)) p v \/
  reader r (mkEnv (file_of (firstn n l)) o) p = Err UnexpectedEnd.
Proof. apply request_truncate, extends_truncate. Qed.

Lemma request_hopeless {A} (r : request A) o l more p x :
  reader r (mkEnv (file_of l) o) p = Err x -> x <> UnexpectedEnd ->
  reader r (mkEnv (file_of (l ++ more)) o) p = Err x.
Proof. apply request_refused, extends_append. Qed.

(** ** Palettes *)

Lemma cpal_iter o f p v debug_assertions : bounded f -> reads o read_color_palettes f p v ->
  palettes_of v (color_palettes_iter debug_assertions v).
Proof.
  intros Hb H. apply (iter_palettes debug_assertions f p).
  apply (request_reads RequestCpal o f p v Hb), H.
Qed.

(** ** Taking a table from a font *)

Lemma font_take_no_panic {A} (r : request A) d o this t f p :
  bounded f -> is_gdef r = false \/ overflow_checks o = false ->
  (forall record, record_checksum d f record <> Panic) ->
  ~ panics o (font_take d this t (reader r)) f p.
Proof.
  intros Hb Hr Hc. apply ProofAccess.take_no_panic; [exact Hc|].
  intros q. apply (request_no_panic r o f q Hb Hr).
Qed.

(** ** Overflow *)

Lemma gdef_never_panics_fails : ~ forall o f p, bounded f -> ~ panics o read_glyph_definition f p.
Proof.
  intros H. apply (H debug_build (file_of overflowing_gdef) 0).
  - apply file_of_bounded. vm_compute. discriminate.
  - vm_compute. reflexivity.
Qed.
