(** Lemmas about whole fonts. *)

From Coq Require Import Wf_nat.
From Verif Require Import ProofFontProperties ProofWriter ProofWritten Copies Samples.
From Verif Require Export Assembly.

Lemma size_app k l : size (k ++ l) = size k + size l.
Proof. unfold size. rewrite app_length. lia. Qed.

Lemma padded_size l : size l <= size (padded l).
Proof. unfold padded. rewrite size_app. lia. Qed.

Section Assembly.
Context (sum : tag -> list byte -> N).

Lemma placed_length p tables : length (placed sum p tables) = length tables.
Proof. revert p. induction tables as [|[t l] tables IH]; intros p; cbn; [reflexivity|]. rewrite IH.
  reflexivity. Qed.

Lemma placed_nth p tables i t l :
  nth_error tables i = Some (t, l) ->
  exists q, nth_error (placed sum p tables) i = Some (mkOffsetRecord t (sum t l) q (size l)) /\
    forall f, bytes_at f p (flat_map (fun table => padded (snd table)) tables) -> bytes_at f q l.
Proof.
  revert p i. induction tables as [|[t' l'] tables IH]; intros p [|i]; cbn; try discriminate.
  - intros [= -> ->]. exists p. split; [reflexivity|]. intros f H.
    apply bytes_at_app in H. destruct H as [H _]. apply bytes_at_app in H. apply H.
  - intros H. destruct (IH (p + size (padded l')) i H) as (q & E & Hq). exists q. split; [exact E|].
    intros f Hf. apply bytes_at_app in Hf. apply Hq, Hf.
Qed.

Lemma placed_tags p tables r :
  In r (placed sum p tables) -> exists l, In (offset_record_tag r, l) tables.
Proof.
  revert p. induction tables as [|[t l] tables IH]; intros p; cbn; [intros []|].
  intros [<-|H]; [exists l; left; reflexivity|]. destruct (IH _ H) as [l' Hl]. exists l'. right. exact Hl.
Qed.

Lemma placed_tag_nth p tables i r :
  nth_error (placed sum p tables) i = Some r ->
  exists l, nth_error tables i = Some (offset_record_tag r, l).
Proof.
  revert p i. induction tables as [|[t l] tables IH]; intros p [|i]; cbn; try discriminate.
  - intros [= <-]. exists l. reflexivity.
  - apply IH.
Qed.

Lemma placed_first p tables t l :
  first_table tables t l ->
  exists q, first_record (placed sum p tables) t (mkOffsetRecord t (sum t l) q (size l)) /\
    forall f, bytes_at f p (flat_map (fun table => padded (snd table)) tables) -> bytes_at f q l.
Proof.
  intros (i & Hi & Hb). destruct (placed_nth p tables i t l Hi) as (q & Hq & Hf).
  exists q. split; [|exact Hf]. exists i. split; [exact Hq|]. split; [reflexivity|].
  intros j r Hj Hr E. destruct (placed_tag_nth _ _ _ _ Hr) as [l' Hl']. rewrite E in Hl'.
  exact (Hb j l' Hj Hl').
Qed.

Lemma placed_fits p tables :
  (forall t l, sum t l < 4294967296) ->
  p + size (flat_map (fun table => padded (snd table)) tables) < 4294967296 ->
  Forall offset_record_fits (placed sum p tables).
Proof.
  intros Hs. revert p. induction tables as [|[t l] tables IH]; intros p H; cbn; [constructor|].
  cbn [flat_map snd] in H. rewrite size_app in H. pose proof (padded_size l). constructor.
  - unfold offset_record_fits, u32. pose proof (Hs t l). lia.
  - apply IH. lia.
Qed.
End Assembly.

Lemma offset_record_size r : length (offset_record_bytes r) = 16%nat.
Proof. destruct r as [[] ? ? ?]. reflexivity. Qed.

Lemma offsets_size header records :
  size (offsets_bytes (mkOffsets header records)) = 12 + 16 * N.of_nat (length records).
Proof.
  destruct header as [[] n a b c]. unfold offsets_bytes. unfold size.
  rewrite !app_length, (flat_map_size _ 16) by (intros r _; apply offset_record_size).
  change (length (tag_bytes _)) with 4%nat. repeat change (length (be16 _)) with 2%nat. lia.
Qed.

Lemma assembled_read d o sum version a b c tables :
  assembles d sum version a b c tables ->
  reads o (read_file d) (file_of (assembled sum version a b c tables)) 0
    (mkFile [assembled_font sum version a b c tables]).
Proof.
  intros (Hd & Hv & Ha & Hb & Hc & Hn & Hs & Hl).
  set (f := file_of _). set (font := assembled_font _ _ _ _ _ _).
  assert (B : bounded f) by (apply file_of_bounded; unfold size in Hl; lia).
  assert (H : bytes_at f 0 (written (RequestFile d) (mkFile [font]))).
  { cbn [written file_fonts flat_map]. rewrite app_nil_r.
    pose proof (bytes_at_file (assembled sum version a b c tables)) as H.
    unfold assembled in H at 2. apply bytes_at_app in H. apply H. }
  unfold assembled in Hl. rewrite size_app in Hl.
  destruct (written_reads (RequestFile d) o f 0 (mkFile [font]) B) as (w & Hw & E).
  - constructor; [|constructor]. split; [split|]; [exact Hd| |exact Hv].
    cbn [font font_offsets assembled_font] in Hl |- *. unfold font, assembled_font in Hl.
    cbn [font_offsets] in Hl. rewrite offsets_size, placed_length in Hl.
    unfold offsets_fits, u16. repeat split; try assumption.
    apply placed_fits; [exact Hs|exact Hl].
  - cbn. unfold counts. rewrite placed_length. reflexivity.
  - exact I.
  - exact H.
  - cbn [erased] in E. rewrite E in Hw. exact Hw.
Qed.

Lemma assembled_absent {A} d sum version a b c tables t (m : M A) e p :
  (forall l, ~ In (table_tag t, l) tables) ->
  font_exists (assembled_font sum version a b c tables) t = false /\
  font_take d (assembled_font sum version a b c tables) t m e p = Ok (None, p).
Proof.
  intros H. set (font := assembled_font _ _ _ _ _ _).
  destruct (presence_agrees d font t m e p) as (P & F & _).
  assert (E : font_exists font t = false).
  { destruct (font_exists font t); [|reflexivity]. exfalso.
    destruct (proj1 P eq_refl) as (r & Hr & Et). apply placed_tags in Hr. destruct Hr as [l Hl].
    rewrite Et in Hl. exact (H l Hl). }
  split; [exact E|]. apply F, E.
Qed.

Lemma assembled_take {A} d o sum version a b c tables t (r : request A) v p :
  assembles d sum version a b c tables -> first_table tables (table_tag t) (written r v) ->
  ignore_invalid_checksums o = true \/ sums d sum (table_tag t) ->
  in_range o r v -> well_formed o r v -> writable r v ->
  exists w, erased r w = erased r v /\
    reads o (font_take d (assembled_font sum version a b c tables) t (reader r))
      (file_of (assembled sum version a b c tables)) p (Some w).
Proof.
  intros Ha Ht Hc R W S. set (f := file_of _). set (font := assembled_font _ _ _ _ _ _).
  assert (B : bounded f) by (apply file_of_bounded; destruct Ha as (_ & _ & _ & _ & _ & _ & _ & Ha);
    unfold size in Ha; lia).
  destruct (placed_first sum (12 + 16 * N.of_nat (length tables)) tables _ _ Ht) as (q & Hq & Hf).
  assert (Hb : bytes_at f q (written r v)).
  { apply Hf. pose proof (bytes_at_file (assembled sum version a b c tables)) as H.
    unfold assembled in H at 2. apply bytes_at_app in H. destruct H as [_ H].
    change (N.of_nat (length ?l)) with (size l) in H. unfold assembled_font in H at 1.
    cbn [font_offsets] in H.
    rewrite offsets_size, placed_length, N.add_0_l in H. exact H. }
  destruct (written_reads r o f q v B R W S Hb) as (w & Hw & E). exists w. split; [exact E|].
  destruct (take_first d o font t _ (reader r) f p Hq) as [T _].
  - destruct Hc as [Hc|Hc]; [left; exact Hc|right]. apply Hc, Hb.
  - cbn [offset_record_offset] in T. destruct Hw as [q' Hw]. rewrite Hw in T. cbn in T.
    unfold reads. destruct (font_take _ _ _ _ _ _) as [[x y]| |]; try discriminate T.
    injection T as ->. exists y. reflexivity.
Qed.

(** ** The checksum of OpenType is one of the checksums meant by [sums] *)

Lemma word_sum_same f g p q n :
  (forall i, (i < n)%nat -> f (p + N.of_nat i) = g (q + N.of_nat i)) -> word_sum f p n = word_sum g q n.
Proof.
  revert p q. induction n as [n IH] using lt_wf_ind. intros p q H.
  assert (E : forall i, (i < n)%nat -> byte_value f (p + N.of_nat i) = byte_value g (q + N.of_nat i)).
  { intros i Hi. unfold byte_value. rewrite (H i Hi). reflexivity. }
  pose proof (E 0%nat) as E0. pose proof (E 1%nat) as E1. pose proof (E 2%nat) as E2.
  pose proof (E 3%nat) as E3.
  cbn in E0, E1, E2, E3. rewrite !N.add_0_r in E0.
  destruct n as [|[|[|[|n]]]]; cbn [word_sum].
  - reflexivity.
  - rewrite E0 by lia. reflexivity.
  - rewrite E0, E1 by lia. reflexivity.
  - rewrite E0, E1, E2 by lia. reflexivity.
  - rewrite E0, E1, E2, E3 by lia. f_equal. apply IH; [lia|]. intros i Hi.
    specialize (H (4 + i)%nat ltac:(lia)). rewrite Nat2N.inj_add in H. rewrite <- !N.add_assoc. exact H.
Qed.

Definition word_sum_of (t : tag) (l : list byte) : N := word_sum (file_of l) 0 (length l) mod 2 ^ 32.

Lemma sample_sums t : sums sample_deps word_sum_of t.
Proof.
  intros f c p l H. cbn [record_checksum sample_deps]. unfold word_checksum, word_sum_of.
  cbn [offset_record_offset offset_record_length]. unfold size. rewrite Nat2N.id.
  f_equal. f_equal. apply word_sum_same. intros i Hi.
  destruct (nth_error l i) as [b|] eqn:E.
  - rewrite (H i b E). symmetry. rewrite N.add_0_l. unfold file_of. rewrite Nat2N.id. exact E.
  - apply nth_error_None in E. lia.
Qed.

Lemma word_sum_bound t l : word_sum_of t l < 4294967296.
Proof. apply N.mod_lt. discriminate. Qed.

(** A font of three tables, one of them listed twice, with the checksums of OpenType. *)
Definition assembled_tables : list (tag * list byte) :=
  [(Tag "C" "P" "A" "L", written RequestCpal sample_colors);
   (Tag "f" "v" "a" "r", copy_of debug_build RequestFvar adobe_vf_fvar);
   (Tag "C" "P" "A" "L", []);
   (Tag "G" "S" "U" "B", copy_of debug_build RequestGsub source_serif_gsub)].
