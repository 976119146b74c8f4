(** Running out of bytes. *)

From Verif Require Export SpecErrors SpecReach.
From Verif Require Import ProofReach ProofRequests ProofExtend ProofAccess ProofFontProperties.
From Verif Require Export Samples.

Lemma request_missing {A} (r : request A) o f p :
  bounded f -> refuses o (reader r) f p UnexpectedEnd ->
  exists i, p <= i < p + reach r /\ f i = None /\
    forall g, bounded g -> supplies p (p + reach r) f g -> g i = None -> refuses o (reader r) g p UnexpectedEnd.
Proof. exact (request_stuck r o f p). Qed.

Lemma request_provided {A} (r : request A) o f p :
  bounded f -> (forall i, p <= i < p + reach r -> f i <> None) -> ~ refuses o (reader r) f p UnexpectedEnd.
Proof.
  intros Hf H E. destruct (request_stuck r o f p Hf E) as (i & Hi & N & _). exact (H i Hi N).
Qed.

(** Zeros instead of the bytes that are missing. *)
Definition filled (f : file) : file := fun i =>
  match f i with Some b => Some b | None => if i <? 9223372036854775808 then Some "000"%byte else None end.

Lemma filled_bounded f : bounded f -> bounded (filled f).
Proof.
  intros H i L. unfold filled. rewrite (H i L). change (2 ^ 63) with 9223372036854775808 in L.
  destruct (N.ltb_spec i 9223372036854775808); [lia|reflexivity].
Qed.

Lemma filled_extends f : extends f (filled f).
Proof. intros i b H. unfold filled. rewrite H. reflexivity. Qed.

Lemma request_end {A} (r : request A) o f p :
  bounded f -> p + reach r <= 2 ^ 63 ->
  refuses o (reader r) f p UnexpectedEnd <->
  exists g, bounded g /\ extends f g /\ reader r (mkEnv g o) p <> reader r (mkEnv f o) p.
Proof.
  intros Hf L. split.
  - intros H. exists (filled f). split; [apply filled_bounded, Hf|]. split; [apply filled_extends|].
    unfold refuses in H. rewrite H. apply request_provided; [apply filled_bounded, Hf|].
    intros i Hi. unfold filled. destruct (f i); [discriminate|].
    change (2 ^ 63) with 9223372036854775808 in L.
    destruct (N.ltb_spec i 9223372036854775808); [discriminate|lia].
  - intros (g & _ & E & N). destruct (request_holes r o f g p E) as [X|X]; [|exact X].
    destruct N. symmetry. exact X.
Qed.

Lemma file_of_length l i : file_of l i = None <-> N.of_nat (length l) <= i.
Proof. unfold file_of. rewrite nth_error_None. lia. Qed.

(** At the end of a file: how many bytes there have to be at least. *)
Lemma request_short {A} (r : request A) o l p :
  N.of_nat (length l) <= 2 ^ 63 -> refuses o (reader r) (file_of l) p UnexpectedEnd ->
  exists n, N.of_nat (length l) < n <= p + reach r /\
    forall more, N.of_nat (length (l ++ more)) < n -> N.of_nat (length (l ++ more)) <= 2 ^ 63 ->
    refuses o (reader r) (file_of (l ++ more)) p UnexpectedEnd.
Proof.
  intros L H. destruct (request_stuck r o (file_of l) p (file_of_bounded l L) H) as (i & Hi & N & Y).
  exists (i + 1). apply file_of_length in N. split; [lia|].
  intros more G B. apply Y; [apply file_of_bounded, B| |apply file_of_length; lia].
  intros j b _. apply extends_append.
Qed.

(** Taking a table, once its checksum has been computed. *)
Lemma take_missing {A} (r : request A) d o this t f record p c :
  bounded f -> first_record (offsets_records (font_offsets this)) (table_tag t) record ->
  record_checksum d f record = Ok c -> refuses o (font_take d this t (reader r)) f p UnexpectedEnd ->
  exists i, offset_record_offset record <= i < offset_record_offset record + reach r /\ f i = None.
Proof.
  intros Hf Hr Hc. unfold refuses. rewrite (take_present _ _ _ _ _ _ _ Hr). unfold checksum_test.
  cbn [content opts].
  rewrite Hc. intros H.
  assert (E : reader r (mkEnv f o) (offset_record_offset record) = Err UnexpectedEnd).
  { destruct (ignore_invalid_checksums o); [|destruct (_ =? _); [|discriminate]];
      destruct (reader r (mkEnv f o) (offset_record_offset record)) as [[v q]|x|]; congruence. }
  destruct (request_stuck r o f _ Hf E) as (i & Hi & N & _). eauto.
Qed.
