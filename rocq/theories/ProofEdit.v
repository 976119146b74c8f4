(** Editing a file, and putting the table directory in another order. *)

From Verif Require Export SpecEdit SpecReach SpecExtent.
From Verif Require Import ProofReach ProofRequests ProofExtend ProofAccess ProofFontProperties ProofExtentUse.
From Verif Require Import ProofWritten ProofFont ProofAssembly.
From Verif Require Export Samples.

Lemma overwrite_outside a l f b m : disjoint a (N.of_nat (length l)) b m -> agree b (b + m) f (overwrite a l f).
Proof.
  intros D i Hi. unfold overwrite. destruct (N.leb_spec a i), (N.ltb_spec i (a + N.of_nat (length l)));
    cbn [andb]; try reflexivity. unfold disjoint in D. lia.
Qed.

Lemma overwrite_bounded a l f : bounded f -> a + N.of_nat (length l) <= 2 ^ 63 -> bounded (overwrite a l f).
Proof.
  intros B L i Hi. unfold overwrite. destruct (N.leb_spec a i), (N.ltb_spec i (a + N.of_nat (length l)));
    cbn [andb]; try (apply B, Hi). lia.
Qed.

Lemma overwrite_there a l f : bytes_at (overwrite a l f) a l.
Proof.
  intros i b H. assert (L : (i < length l)%nat) by (apply nth_error_Some; congruence).
  unfold overwrite. destruct (N.leb_spec a (a + N.of_nat i)); [|lia].
  destruct (N.ltb_spec (a + N.of_nat i) (a + N.of_nat (length l))); [|lia]. cbn [andb].
  replace (N.to_nat (a + N.of_nat i - a)) with i by lia. exact H.
Qed.

Lemma edit_elsewhere {A} (r : request A) o f p v a l :
  bounded f -> a + N.of_nat (length l) <= 2 ^ 63 -> reads o (reader r) f p v ->
  disjoint a (N.of_nat (length l)) p (extent o r v) -> reads o (reader r) (overwrite a l f) p v.
Proof.
  intros B L [q H] D. exists q.
  exact (extent_enough r o f _ p v q B (overwrite_bounded a l f B L) H (overwrite_outside a l f _ _ D)).
Qed.

Lemma taken_at {A} d o this t record (m : M A) f p v :
  first_record (offsets_records (font_offsets this)) (table_tag t) record -> accepted d o f record ->
  reads o (font_take d this t m) f p (Some v) <-> reads o m f (offset_record_offset record) v.
Proof.
  intros Hr Hc. unfold reads.
  assert (E : font_take d this t m (mkEnv f o) p =
    match m (mkEnv f o) (offset_record_offset record) with
    | Ok (v, q) => Ok (Some v, q) | Err x => Err x | Panic => Panic end).
  { rewrite (take_present _ _ _ _ _ _ _ Hr). unfold checksum_test. cbn [content opts].
    destruct Hc as [->| ->]; [reflexivity|]. rewrite N.eqb_refl.
    destruct (ignore_invalid_checksums o); reflexivity. }
  rewrite E. split; intros [q H]; exists q.
  - destruct (m (mkEnv f o) (offset_record_offset record)) as [[w s]|x|]; congruence.
  - rewrite H. reflexivity.
Qed.

Lemma edit_take {A} (r : request A) d o this t record f p v a l :
  bounded f -> a + N.of_nat (length l) <= 2 ^ 63 ->
  first_record (offsets_records (font_offsets this)) (table_tag t) record ->
  accepted d o f record -> accepted d o (overwrite a l f) record ->
  reads o (font_take d this t (reader r)) f p (Some v) ->
  disjoint a (N.of_nat (length l)) (offset_record_offset record) (extent o r v) ->
  reads o (font_take d this t (reader r)) (overwrite a l f) p (Some v).
Proof.
  intros B L Hr Hf Hg H D. apply (taken_at _ _ _ _ _ _ _ _ _ Hr Hg).
  apply (taken_at _ _ _ _ _ _ _ _ _ Hr Hf) in H.
  apply edit_elsewhere; assumption.
Qed.

Lemma edit_replaced {A} (r : request A) d o this t record f p v :
  bounded f -> offset_record_offset record + N.of_nat (length (written r v)) <= 2 ^ 63 ->
  first_record (offsets_records (font_offsets this)) (table_tag t) record ->
  accepted d o (overwrite (offset_record_offset record) (written r v) f) record ->
  in_range o r v -> well_formed o r v -> writable r v ->
  exists w, erased r w = erased r v /\
    reads o (font_take d this t (reader r))
      (overwrite (offset_record_offset record) (written r v) f) p (Some w).
Proof.
  intros B L Hr Hg Hi Hw Hv.
  destruct (written_reads r o (overwrite (offset_record_offset record) (written r v) f)
    (offset_record_offset record) v)
    as (w & H & E); try assumption.
  - apply overwrite_bounded; assumption.
  - apply overwrite_there.
  - exists w. split; [exact E|]. apply (taken_at _ _ _ _ _ _ _ _ _ Hr Hg). exact H.
Qed.

(** ** The order of the records *)

Lemma first_unique records t r :
  NoDup (map offset_record_tag records) -> In r records -> offset_record_tag r = t -> first_record records t r.
Proof.
  intros N I E. destruct (In_nth_error _ _ I) as [i Hi]. exists i. split; [exact Hi|]. split; [exact E|].
  intros j s Hj Hs F.
  assert (X : (i < length (map offset_record_tag records))%nat) by (rewrite map_length;
    apply nth_error_Some; congruence).
  assert (Y : j = i); [|lia].
  apply (proj1 (NoDup_nth_error _) N); [lia|].
  rewrite (map_nth_error _ _ _ Hi), (map_nth_error _ _ _ Hs). congruence.
Qed.

Lemma reordered_same {A} x y t : reordered x y ->
  font_exists x t = font_exists y t /\
  forall d (m : M A) e p, font_position d x t e p = font_position d y t e p /\
    font_take d x t m e p = font_take d y t m e p.
Proof.
  intros [P N]. pose proof (Permutation_NoDup (Permutation_map _ P) N) as N'.
  destruct (font_exists x t) eqn:E.
  - apply exists_iff in E. destruct E as (r & I & T).
    pose proof (first_unique _ _ r N I T) as F.
    pose proof (first_unique _ _ r N' (Permutation_in r P I) T) as F'.
    split.
    + symmetry. apply exists_iff. exists r. split; [exact (Permutation_in r P I)|exact T].
    + intros d m e p. split.
      * unfold font_position. rewrite (loop_present _ _ _ _ _ _ F), (loop_present _ _ _ _ _ _ F'). reflexivity.
      * rewrite (take_present _ _ _ _ _ _ _ F), (take_present _ _ _ _ _ _ _ F'). reflexivity.
  - assert (X : forall r, In r (offsets_records (font_offsets x)) -> offset_record_tag r <> table_tag t).
    { intros r I T. apply Bool.not_true_iff_false in E. apply E, exists_iff. eauto. }
    assert (Y : forall r, In r (offsets_records (font_offsets y)) -> offset_record_tag r <> table_tag t).
    { intros r I. apply X. exact (Permutation_in r (Permutation_sym P) I). }
    split.
    + symmetry. apply Bool.not_true_iff_false. intros G. apply exists_iff in G. destruct G as (r & I & T).
      exact (Y r I T).
    + intros d m e p. split.
      * unfold font_position. rewrite !loop_absent by assumption. reflexivity.
      * rewrite !take_absent by assumption. reflexivity.
Qed.

Definition pair_with {H R} (tag_of : H -> tag) (t : tag) (x : H * R) : bool := tag_eqb (tag_of (fst x)) t.

Lemma find_permuted {H R} (tag_of : H -> tag) t (l l' : list (H * R)) :
  Permutation l l' -> NoDup (map (fun x => tag_of (fst x)) l) ->
    find (pair_with tag_of t) l = find (pair_with tag_of t) l'.
Proof.
  intros P. induction P as [|x l l' P IH|x y l|l l' l'' P IH Q IH']; intros N.
  - reflexivity.
  - cbn [find]. destruct (pair_with tag_of t x); [reflexivity|]. apply IH. inversion N. assumption.
  - cbn [find]. destruct (pair_with tag_of t x) eqn:X, (pair_with tag_of t y) eqn:Y; try reflexivity.
    exfalso. unfold pair_with in X, Y. apply tag_eqb_eq in X, Y. cbn in N. inversion N as [|? ? M _]. apply M.
    left. congruence.
  - rewrite (IH N). apply IH'. exact (Permutation_NoDup (Permutation_map _ P) N).
Qed.

Lemma find_record_pairs {H R} (tag_of : H -> tag) (headers : list H) (before records : list R) t :
  length headers = length records ->
  find_record tag_of headers (before ++ records) (length before) t =
  Ok (option_map snd (find (pair_with tag_of t) (combine headers records))).
Proof.
  revert before records. induction headers as [|h headers IH]; intros before [|r records] L; try discriminate L.
  - reflexivity.
  - cbn [find_record combine find]. unfold pair_with at 1. cbn [fst]. destruct (tag_eqb (tag_of h) t).
    + rewrite nth_error_app2 by lia. rewrite Nat.sub_diag. reflexivity.
    + specialize (IH (before ++ [r]) records). rewrite <- app_assoc, app_length, Nat.add_1_r in IH. apply IH.
      injection L as L. exact L.
Qed.

Lemma combine_tags {H R} (tag_of : H -> tag) (headers : list H) (records : list R) :
  length headers = length records -> map (fun x => tag_of (fst x)) (combine headers records) = map
    tag_of headers.
Proof.
  revert records. induction headers as [|h headers IH]; intros [|r records] L; try discriminate L;
    [reflexivity|].
  cbn. f_equal. apply IH. injection L as L. exact L.
Qed.

Lemma rearranged_same {H R} (tag_of : H -> tag) headers headers' (records records' : list R) t :
  rearranged tag_of headers headers' records records' ->
  find_record tag_of headers records 0 t = find_record tag_of headers' records' 0 t.
Proof.
  intros (L & L' & P & N). pose proof (find_record_pairs tag_of headers [] records t L) as X.
  pose proof (find_record_pairs tag_of headers' [] records' t L') as Y. cbn [app length] in X, Y. rewrite X, Y.
  do 2 f_equal. apply find_permuted; [exact P|].
  rewrite (combine_tags _ _ _ L). exact N.
Qed.

Lemma getters_rearranged :
  (forall x y t, rearranged script_header_tag (scripts_headers x) (scripts_headers y)
    (scripts_records x) (scripts_records y) ->
    scripts_get x t = scripts_get y t) /\
  (forall x y t, rearranged language_header_tag (script_record_language_headers x)
    (script_record_language_headers y)
      (script_record_language_records x) (script_record_language_records y) ->
    script_record_get x t = script_record_get y t) /\
  (forall x y t, rearranged feature_header_tag (features_headers x) (features_headers y)
    (features_records x) (features_records y) ->
    features_get x t = features_get y t).
Proof. split; [|split]; intros x y t H; apply rearranged_same; exact H. Qed.

(** One table replaced, in a file with others. *)
Lemma update_table {A B} (r : request A) (s : request B) d o f font a b ra rb va vb p q :
  bounded f ->
  reads o (read_file d) f 0 (mkFile [font]) ->
  first_record (offsets_records (font_offsets font)) (table_tag a) ra ->
  first_record (offsets_records (font_offsets font)) (table_tag b) rb ->
  reads o (font_take d font b (reader s)) f q (Some vb) ->
  in_range o r va -> well_formed o r va -> writable r va ->
  offset_record_offset ra + N.of_nat (length (written r va)) <= 2 ^ 63 ->
  12 + 16 * N.of_nat (length (offsets_records (font_offsets font))) <= offset_record_offset ra ->
  disjoint (offset_record_offset ra) (N.of_nat (length (written r va))) (offset_record_offset rb)
    (extent o s vb) ->
  ignore_invalid_checksums o = true ->
  let g := overwrite (offset_record_offset ra) (written r va) f in
  reads o (read_file d) g 0 (mkFile [font]) /\
  reads o (font_take d font b (reader s)) g q (Some vb) /\
  exists wa, erased r wa = erased r va /\ reads o (font_take d font a (reader r)) g p (Some wa).
Proof.
  intros B0 Hd Ha Hb Hv Hi Hw Hx L Dd Db Ho g. split; [|split].
  - apply (edit_elsewhere (RequestFile d)); try assumption. right.
    cbn [extent file_fonts flat_map]. rewrite app_nil_r. destruct font as [[header records]].
    cbn [font_offsets offsets_records] in *. rewrite offsets_size. lia.
  - apply (edit_take s d o font b rb); try assumption; left; exact Ho.
  - apply edit_replaced; try assumption. left. exact Ho.
Qed.
