(** What is read is not checked any further. *)

From Verif Require Import Encode ProofPortable ProofWriterTables ProofWritten ProofFormats.
From Verif Require Export SpecUnchecked Encode SpecPortable SpecFits SpecShape Writer.

(** ** References *)

(** One script, one feature and one lookup.  All indices are given by two bytes. *)
Definition dangling (a b : byte) : list byte :=
  flat_map be16 [1; 0; 10; 30; 44; 1; 0x6C61; 0x746E; 8; 4; 0; 0] ++ [a; b] ++ be16 1 ++ [a; b] ++
  flat_map be16 [1; 0x6C69; 0x6761; 8; 0; 1] ++ [a; b] ++
  flat_map be16 [1; 4; 5; 0x10; 1; 10] ++ [a; b] ++
  flat_map be16 [3; 1; 1; 12] ++ [a; b; a; b] ++ flat_map be16 [1; 0].

Definition dangling_table (n : N) : GlyphSubstitution :=
  mkDirectory 1 0 10 30 44 0
    (mkScripts 1 [mkScriptHeader (Tag "l" "a" "t" "n") 8]
      [mkScriptRecord 4 0 [] (Some (mkLanguageRecord 0 n 1 [n])) []])
    (mkFeatures 1 [mkFeatureHeader (Tag "l" "i" "g" "a") 8] [mkFeatureRecord 0 1 [n] None])
    (mkLookups 1 [4] [mkLookupRecord 5 0x10 1 [10] (Some n) [GsubContextualSubstitution
      (ContextFormat3 (mkContext3 3 1 1 [12] [mkAction n n] [CoverageFormat1 (mkCoverage1 1 0 [])]))]]) None.

Lemma dangling_bounded a b : bounded (file_of (dangling a b)).
Proof. apply file_of_bounded. vm_compute. discriminate. Qed.

Lemma dangling_read a b : exists q,
  read_glyph_substitution (mkEnv (file_of (dangling a b)) debug_build) 0 =
    Ok (dangling_table (256 * Byte.to_N a + Byte.to_N b), q).
Proof. eexists. vm_compute. reflexivity. Qed.

Lemma u16_bytes n : n < 65536 -> exists a b, n = 256 * Byte.to_N a + Byte.to_N b.
Proof.
  intros H.
  assert (B : forall k, k < 256 -> exists a, Byte.to_N a = k).
  { intros k Hk. destruct (Byte.of_N k) as [a|] eqn:E.
    - exists a. apply Byte.to_of_N, E.
    - apply Byte.of_N_None_iff in E. lia. }
  destruct (B (n / 256)) as [a Ha].
  { apply N.div_lt_upper_bound; lia. }
  destruct (B (n mod 256)) as [b Hb].
  { apply N.mod_lt. discriminate. }
  exists a, b. rewrite Ha, Hb. apply N.div_mod. discriminate.
Qed.

Lemma dangling_any o n : n < 65536 ->
  exists l, bounded (file_of l) /\ reads o read_glyph_substitution (file_of l) 0 (dangling_table n).
Proof.
  intros H. destruct (u16_bytes n H) as (a & b & ->). exists (dangling a b).
  split; [apply dangling_bounded|].
  refine (reads_strict debug_build o eq_refl eq_refl RequestGsub _ _ _ _ _ (dangling_read a b)).
  - apply dangling_bounded.
  - repeat apply conj; discriminate.
Qed.

Lemma dangling_resolve n :
  (features_resolve (dangling_table n) <-> n = 0) /\ (lookups_resolve (dangling_table n) <-> n = 0) /\
  (actions_resolve (dangling_table n) <-> n = 0).
Proof.
  split; [|split]; split.
  - intros H. specialize (H _ (mkLanguageRecord 0 n 1 [n]) n (or_introl eq_refl) (or_introl eq_refl)
    (or_introl eq_refl)).
    cbn in H. lia.
  - intros -> r l i [<-|[]] [E|[]]. injection E as <-. intros [<-|[]]. reflexivity.
  - intros H. specialize (H _ n (or_introl eq_refl) (or_introl eq_refl)). cbn in H. lia.
  - intros -> r i [<-|[]] [<-|[]]. reflexivity.
  - intros H. destruct (H _ (mkAction n n)
    (ex_intro _ _ (conj (or_introl eq_refl) (or_introl eq_refl))) (or_introl eq_refl)) as [_ E].
    cbn in E. lia.
  - intros -> c a (l & [<-|[]] & [E|[]]). injection E as <-. intros [<-|[]]. split; reflexivity.
Qed.

Lemma references_unchecked :
  (~ forall o f v, bounded f -> reads o read_glyph_substitution f 0 v -> features_resolve v) /\
  (~ forall o f v, bounded f -> reads o read_glyph_substitution f 0 v -> lookups_resolve v) /\
  (~ forall o f v, bounded f -> reads o read_glyph_substitution f 0 v -> actions_resolve v).
Proof.
  destruct (dangling_any debug_build 7 eq_refl) as (l & B & R).
  destruct (dangling_resolve 7) as (H1 & H2 & H3).
  split; [|split]; intros H; specialize (H _ _ _ B R); [apply H1 in H|apply H2 in H|apply H3 in H];
    discriminate H.
Qed.

(** ** Extensions *)

(** A lookup list with one extension, and nothing behind it. *)
Definition extended (a b c d e g : byte) : list byte :=
  flat_map be16 [1; 4; 7; 0; 1; 8; 1] ++ [a; b; c; d; e; g].

Definition extended_lookups (type_ n : N) : Lookups GsubType :=
  mkLookups 1 [4] [mkLookupRecord 7 0 1 [8] None
    [GsubExtensionSubstitution (mkExtensionSubstitution 1 type_ n)]].

Lemma extended_read o a b c d e g :
  reads o (read_lookups read_gsub_type) (file_of (extended a b c d e g)) 0
    (extended_lookups (256 * Byte.to_N a + Byte.to_N b)
      (16777216 * Byte.to_N c + 65536 * Byte.to_N d + 256 * Byte.to_N e + Byte.to_N g)).
Proof. destruct o as [[] x y z []]; eexists; vm_compute; reflexivity. Qed.

Lemma extended_any o type_ n : type_ < 65536 -> n < 4294967296 ->
  exists l, size l = 20 /\ bounded (file_of l) /\
    reads o (read_lookups read_gsub_type) (file_of l) 0 (extended_lookups type_ n).
Proof.
  intros Ht Hn. destruct (u16_bytes type_ Ht) as (a & b & ->).
  destruct (u16_bytes (n / 65536)) as (c & d & Hh); [apply N.div_lt_upper_bound; lia|].
  destruct (u16_bytes (n mod 65536)) as (e & g & Hl); [apply N.mod_lt; discriminate|].
  exists (extended a b c d e g). split; [reflexivity|].
  split; [apply file_of_bounded; vm_compute; discriminate|].
  replace n with (16777216 * Byte.to_N c + 65536 * Byte.to_N d + 256 * Byte.to_N e + Byte.to_N g);
    [apply extended_read|].
  rewrite (N.div_mod n 65536) by discriminate. lia.
Qed.

(** ** Order *)

Lemma coverage_any o v : coverage_fits v -> coverage_wf v ->
  reads o read_coverage (file_of (coverage_bytes v)) 0 v.
Proof.
  intros F W. apply (proj1 (coverage_exactly o _ 0)). apply coverage_plain; [exact F|exact W|].
  apply bytes_at_file.
Qed.

Lemma class_any o v : class_fits v -> class_wf v -> reads o read_class (file_of (class_bytes v)) 0 v.
Proof.
  intros F W. apply (proj1 (class_exactly o _ 0)). apply class_plain; [exact F|exact W|].
  apply bytes_at_file.
Qed.

Lemma axes_any o axes :
  N.of_nat (length axes) < 3276 -> Forall (axis_record_fits o) axes ->
  exists l v, bounded (file_of l) /\ reads o read_font_variations (file_of l) 0 v /\
    font_variations_axis_records v = axes.
Proof.
  intros Hn Ha.
  set (v := mkFontVariations (mkFvarHeader 1 0 16 2 (N.of_nat (length axes)) 20 0 0) axes []).
  assert (Hr : in_range o RequestFvar v).
  { cbn. repeat (apply conj; [unfold u16; lia|]). split; [exact Ha|constructor]. }
  assert (Hw : well_formed o RequestFvar v).
  { cbn. split; [reflexivity|]. repeat apply conj; try reflexivity. constructor. }
  assert (Hs : writable RequestFvar v).
  { cbn [writable]. unfold v, font_variations_bytes. cbn [flat_map]. rewrite !size_app, !size_be16.
    unfold size at 1. rewrite (flat_map_size axis_record_bytes 20%nat); [|intros [[] ? ? ? ? ?]; reflexivity].
    change (size []) with 0. lia. }
  assert (B : bounded (file_of (written RequestFvar v))) by exact (written_bounded RequestFvar o v Hr Hw Hs).
  destruct (written_reads RequestFvar o _ 0 v B Hr Hw Hs (bytes_at_file _)) as (w & H & E).
  exists (written RequestFvar v), w. split; [exact B|]. split; [exact H|].
  destruct w as [[? ? ? ? ? ? ? ?] axes' instances]. cbn in E. injection E as _ _ _ _ _ E _. exact E.
Qed.

Lemma order_unchecked :
  (~ forall o f v, bounded f -> reads o read_coverage f 0 v -> coverage_sorted v) /\
  (~ forall o f v, bounded f -> reads o read_class f 0 v -> class_sorted v) /\
  (~ forall o f v a, bounded f -> reads o read_font_variations f 0 v ->
      In a (font_variations_axis_records v) -> axis_ordered a).
Proof.
  split; [|split]; intros H.
  - set (v := CoverageFormat1 (mkCoverage1 1 2 [5; 5])).
    assert (B : bounded (file_of (coverage_bytes v))) by (apply file_of_bounded; vm_compute; discriminate).
    assert (F : coverage_fits v) by (cbn; unfold u16; repeat constructor).
    assert (W : coverage_wf v) by (cbn; repeat constructor).
    specialize (H debug_build _ v B (coverage_any debug_build v F W)). cbn in H. lia.
  - set (v := ClassFormat2 (mkClass2 2 1 [mkClassRecord 7 6 1])).
    assert (B : bounded (file_of (class_bytes v))) by (apply file_of_bounded; vm_compute; discriminate).
    assert (F : class_fits v) by (cbn; unfold u16; repeat constructor).
    assert (W : class_wf v) by (cbn; repeat constructor).
    specialize (H debug_build _ v B (class_any debug_build v F W)).
    destruct H as [_ H]. apply Forall_inv in H. cbn in H. lia.
  - destruct (axes_any debug_build [mkAxisRecord (Tag "w" "g" "h" "t") 9 5 1 0 256]) as (l & v & B & R & E).
    + reflexivity.
    + constructor; [|constructor]. cbn. unfold i32, flags16, u16. repeat split; lia.
    + specialize (H debug_build _ v (mkAxisRecord (Tag "w" "g" "h" "t") 9 5 1 0 256) B R).
      rewrite E in H. specialize (H (or_introl eq_refl)). unfold axis_ordered in H. cbn in H. lia.
Qed.
