(** What holds of every request, from the lemmas about its reader. *)

From Verif Require Export Requests.
From Verif Require Import Reads ReadsTactics ProofGsub ProofGpos ProofGdef ProofCpal ProofFvar ProofFont
  ProofExtend ProofRelocate ProofShape.

Lemma request_finds {A} (r : request A) (S : Prop) o f p :
  bounded f -> (S -> is_gdef r = false \/ overflow_checks o = false) ->
  finds S (reader r) (mkEnv f o) p (conforms o r f p).
Proof.
  intros Hb Hs. destruct r; cbn [reader conforms].
  - apply read_file_finds.
  - apply read_font_finds.
  - apply (read_glyph_definition_finds S (mkEnv f o) Hb p).
    intros H. destruct (Hs H) as [E|E]; [discriminate E|exact E].
  - exact (read_glyph_positioning_finds S (mkEnv f o) Hb p).
  - exact (read_glyph_substitution_finds S (mkEnv f o) Hb p).
  - exact (read_color_palettes_finds S (mkEnv f o) Hb p).
  - exact (read_font_variations_finds S (mkEnv f o) Hb p).
Qed.

Lemma request_reads {A} (r : request A) o f p v :
  bounded f -> (reads o (reader r) f p v <-> conforms o r f p v).
Proof. intros Hb. apply (proj2 (request_finds r False o f p Hb ltac:(tauto))). Qed.

Lemma request_unique {A} (r : request A) o f p v w :
  bounded f -> conforms o r f p v -> conforms o r f p w -> v = w.
Proof. intros Hb. apply (finds_functional _ _ _ _ _ _ _ (request_finds r False o f p Hb ltac:(tauto))). Qed.

Lemma request_no_panic {A} (r : request A) o f p :
  bounded f -> is_gdef r = false \/ overflow_checks o = false -> ~ panics o (reader r) f p.
Proof. intros Hb Hs. apply (proj1 (request_finds r True o f p Hb (fun _ => Hs)) I). Qed.

Lemma request_fails {A} (r : request A) o f p :
  bounded f -> is_gdef r = false \/ overflow_checks o = false ->
  (fails o (reader r) f p <-> ~ exists v, conforms o r f p v).
Proof. intros Hb Hs. apply (finds_fails _ _ _ _ (request_finds r True o f p Hb (fun _ => Hs))). Qed.

(** ** Extension *)

Lemma request_mono {A} (r : request A) : mono (reader r).
Proof. destruct r; cbn [reader]; auto with mono. Qed.

Lemma request_holes {A} (r : request A) o f g p : extends f g ->
  reader r (mkEnv f o) p = reader r (mkEnv g o) p \/ reader r (mkEnv f o) p = Err UnexpectedEnd.
Proof.
  intros He. pose proof (request_mono r o o f g p (or_introl eq_refl) He) as H.
  destruct (reader r (mkEnv f o) p) as [x|[]|]; auto; left; symmetry; auto.
Qed.

Lemma request_extend {A} (r : request A) o f g p v :
  extends f g -> reads o (reader r) f p v -> reads o (reader r) g p v.
Proof. intros He. apply mono_reads; [apply request_mono|exact He]. Qed.

Lemma request_truncate {A} (r : request A) o f g p v :
  extends f g -> reads o (reader r) g p v ->
  reads o (reader r) f p v \/ reader r (mkEnv f o) p = Err UnexpectedEnd.
Proof. intros He. apply mono_truncated; [apply request_mono|exact He]. Qed.

Lemma request_refused {A} (r : request A) o f g p x :
  extends f g -> reader r (mkEnv f o) p = Err x -> x <> UnexpectedEnd ->
  reader r (mkEnv g o) p = Err x.
Proof. intros He. apply mono_refused; [apply request_mono|exact He]. Qed.

(** ** Relocation *)

Lemma drops_bounded k f g : drops k f g -> bounded f -> bounded g.
Proof. intros Hd Hb p Hp. rewrite Hd. apply Hb. lia. Qed.

Lemma request_moved {A} (r : request A) o k f g p v :
  drops k f g -> (conforms o r g p v <-> conforms o r f (k + p) v).
Proof.
  intros Hd. destruct r; cbn [conforms].
  - split; intros (x & Hv & Ht & Ha & Hx); exists x; (repeat split; try assumption);
      revert Hx; apply (offsets_moved k f g Hd); reflexivity.
  - apply and_moved; [reflexivity|]. apply (offsets_moved k f g Hd); reflexivity.
  - apply (glyph_definition_moved k f g Hd); reflexivity.
  - apply (glyph_positioning_moved k f g Hd); reflexivity.
  - apply (glyph_substitution_moved k f g Hd); reflexivity.
  - apply (color_palettes_moved k f g Hd); reflexivity.
  - apply (font_variations_moved k f g Hd); reflexivity.
Qed.

Lemma request_relocate {A} (r : request A) o k f g p v :
  bounded f -> drops k f g ->
  (reads o (reader r) f (k + p) v <-> reads o (reader r) g p v).
Proof.
  intros Hb Hd. rewrite !request_reads by eauto using drops_bounded.
  symmetry. apply request_moved, Hd.
Qed.

Lemma request_relocate_fails {A} (r : request A) o k f g p :
  bounded f -> drops k f g -> is_gdef r = false \/ overflow_checks o = false ->
  (fails o (reader r) f (k + p) <-> fails o (reader r) g p).
Proof.
  intros Hb Hd Hs. rewrite !request_fails by eauto using drops_bounded.
  split; intros H [v Hv]; apply H; exists v; apply (request_moved r o k f g p v Hd); exact Hv.
Qed.

Lemma drops_prefix (prefix l : list byte) :
  drops (N.of_nat (length prefix)) (file_of (prefix ++ l)) (file_of l).
Proof.
  intros p. unfold file_of. replace (N.to_nat (_ + p)) with (length prefix + N.to_nat p)%nat by lia.
  rewrite nth_error_app2 by lia. f_equal. lia.
Qed.

(** ** Shape *)

Lemma request_shape {A} (r : request A) o f p v :
  bounded f -> reads o (reader r) f p v -> well_formed o r v.
Proof.
  intros Hb H. apply request_reads in H; [|exact Hb]. destruct r; cbn [conforms well_formed] in *.
  - destruct H as ([h rs] & -> & _ & _ & _ & H). exact (vec_counts _ _ _ _ _ H).
  - destruct v as [[h rs]]. destruct H as (_ & _ & H). exact (vec_counts _ _ _ _ _ H).
  - eapply glyph_definition_shape; exact H.
  - eapply glyph_positioning_shape; exact H.
  - eapply glyph_substitution_shape; exact H.
  - eapply color_palettes_shape; exact H.
  - eapply font_variations_shape; exact H.
Qed.
