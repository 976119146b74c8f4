(** Parts of tables that the values read do not tell. *)

From Verif Require ProofOpen.
From Verif Require Import ProofRequests ProofReads ProofShape ProofExtend ProofPortable ProofPieces.
From Verif Require Export SpecLost Requests Pieces Samples Encode.

(** Two files with one value and different parts. *)
Lemma untold {A B} o (m : M A) (part : file -> N -> A -> B -> Prop) f g p v x y :
  bounded f -> bounded g -> reads o m f p v -> reads o m g p v -> part f p v x -> part g p v y -> x <> y ->
  ~ tells o m part.
Proof.
  intros Bf Bg Rf Rg Pf Pg D (give & H). apply D.
  rewrite <- (H _ _ _ _ Bf Rf Pf). exact (H _ _ _ _ Bg Rg Pg).
Qed.

(** A value read from the first bytes is read from all. *)
Lemma reads_before {A} (r : request A) o l rest p v :
  bounded (file_of (l ++ rest)) -> complete r v -> reads debug_build (reader r) (file_of l) p v ->
  reads o (reader r) (file_of (l ++ rest)) p v.
Proof.
  intros B C R. refine (reads_strict debug_build o eq_refl eq_refl r _ _ _ B C _).
  destruct R as [q R]. exists q.
  destruct (request_holes r debug_build _ _ p (extends_append l rest)) as [E|E]; congruence.
Qed.

Ltac here :=
  do 2 eexists; split; [do 2 eexists; split; [reflexivity|]; split; reflexivity|];
  split; [do 2 eexists; split; [reflexivity|]; split; reflexivity|]; vm_compute; reflexivity.

(** ** Feature variations *)

Definition variations_words : list N := [1; 1; 14; 16; 18; 0; 20;  0; 0; 0;  1; 0].

Definition variations_bytes (b0 b1 b2 b3 : byte) : list byte :=
  flat_map be16 variations_words ++ [b0; b1; b2; b3].

Definition four_bytes (b0 b1 b2 b3 : byte) : N :=
  16777216 * Byte.to_N b0 + 65536 * Byte.to_N b1 + 256 * Byte.to_N b2 + Byte.to_N b3.

Definition variations_table {T} (count : N) : Directory T :=
  mkDirectory 1 1 14 16 18 20 (mkScripts 0 [] []) (mkFeatures 0 [] []) (mkLookups 0 [] [])
    (Some (mkFeatureVariations 1 0 count)).

Lemma variations_any o b0 b1 b2 b3 rest :
  let f := file_of (variations_bytes b0 b1 b2 b3 ++ rest) in
  bounded f ->
  reads o read_glyph_substitution f 0 (variations_table (four_bytes b0 b1 b2 b3)) /\
  reads o read_glyph_positioning f 0 (variations_table (four_bytes b0 b1 b2 b3)).
Proof.
  intros f B. split.
  - refine (reads_before RequestGsub o _ rest 0 _ B _ _).
    + repeat apply conj; discriminate.
    + eexists. vm_compute. reflexivity.
  - refine (reads_before RequestGpos o _ rest 0 _ B _ _).
    + split; [repeat apply conj; discriminate|]. intros m (l & t & [] & _).
    + eexists. vm_compute. reflexivity.
Qed.

Definition variations_file (a b : N) : list byte :=
  variations_bytes x00 x00 x00 x01 ++ be32 a ++ be32 b.

Lemma variations_bounded a b : bounded (file_of (variations_file a b)).
Proof. apply file_of_bounded. vm_compute. discriminate. Qed.

Lemma variations_part {T} :
  variation_records (T := T) (file_of (variations_file 1 2)) 0 (variations_table 1) [(1, 2)] /\
  variation_records (T := T) (file_of (variations_file 3 4)) 0 (variations_table 1) [(3, 4)].
Proof.
  split; (split; [discriminate|]; split; [here|]);
    (split; [reflexivity|]; intros [|i] v Hv; [|destruct i; discriminate Hv]; injection Hv as <-;
     split; here).
Qed.

Definition two_records : list byte :=
  variations_bytes x00 x00 x00 x02 ++ be32 1 ++ be32 2 ++ be32 3 ++ be32 4.

Lemma two_records_part {T} :
  bounded (file_of two_records) /\
  variation_records (T := T) (file_of two_records) 0 (variations_table 2) [(1, 2); (3, 4)].
Proof.
  split; [apply file_of_bounded; vm_compute; discriminate|].
  split; [discriminate|]. split; [here|]. split; [reflexivity|].
  intros [|[|i]] v Hv; [| |destruct i; discriminate Hv]; injection Hv as <-; split; here.
Qed.

Lemma variations_lost o :
  ~ tells o read_glyph_substitution variation_records /\ ~ tells o read_glyph_positioning variation_records.
Proof.
  split.
  - eapply (untold _ _ _ _ _ 0 _ [(1, 2)] [(3, 4)]);
      [apply (variations_bounded 1 2)|apply (variations_bounded 3 4)| | | | |discriminate].
    + apply (variations_any o x00 x00 x00 x01 (be32 1 ++ be32 2)), (variations_bounded 1 2).
    + apply (variations_any o x00 x00 x00 x01 (be32 3 ++ be32 4)), (variations_bounded 3 4).
    + apply variations_part.
    + apply variations_part.
  - eapply (untold _ _ _ _ _ 0 _ [(1, 2)] [(3, 4)]);
      [apply (variations_bounded 1 2)|apply (variations_bounded 3 4)| | | | |discriminate].
    + apply (variations_any o x00 x00 x00 x01 (be32 1 ++ be32 2)), (variations_bounded 1 2).
    + apply (variations_any o x00 x00 x00 x01 (be32 3 ++ be32 4)), (variations_bounded 3 4).
    + apply variations_part.
    + apply variations_part.
Qed.

(** ** Extensions *)

Definition extension_bytes (type_ : N) (a0 a1 b0 b1 b2 b3 : byte) : list byte :=
  flat_map be16 [1; 0; 10; 12; 14;  0;  0;  1; 4;  type_; 0; 1; 8;  1] ++ [a0; a1; b0; b1; b2; b3].

Definition extension_lookups {T} (type_ : N) (t : T) : Directory T :=
  mkDirectory 1 0 10 12 14 0 (mkScripts 0 [] []) (mkFeatures 0 [] [])
    (mkLookups 1 [4] [mkLookupRecord type_ 0 1 [8] None [t]]) None.

Definition gsub_extended (type_ offset : N) : GlyphSubstitution :=
  extension_lookups 7 (GsubExtensionSubstitution (mkExtensionSubstitution 1 type_ offset)).

Definition gpos_extended (type_ offset : N) : GlyphPositioning :=
  extension_lookups 9 (GposExtensionPositioning (mkExtensionPositioning 1 type_ offset)).

Lemma extensions_any o a0 a1 b0 b1 b2 b3 rest :
  let gsub := file_of (extension_bytes 7 a0 a1 b0 b1 b2 b3 ++ rest) in
  let gpos := file_of (extension_bytes 9 a0 a1 b0 b1 b2 b3 ++ rest) in
  let type_ := 256 * Byte.to_N a0 + Byte.to_N a1 in
  let offset := four_bytes b0 b1 b2 b3 in
  (bounded gsub -> reads o read_glyph_substitution gsub 0 (gsub_extended type_ offset)) /\
  (bounded gpos -> reads o read_glyph_positioning gpos 0 (gpos_extended type_ offset)).
Proof.
  intros gsub gpos type_ offset. split; intros B.
  - refine (reads_before RequestGsub o _ rest 0 _ B _ _).
    + repeat apply conj; discriminate.
    + eexists. vm_compute. reflexivity.
  - refine (reads_before RequestGpos o _ rest 0 _ B _ _).
    + split; [repeat apply conj; discriminate|]. intros m (l & t & [<-|[]] & [<-|[]] & []).
    + eexists. vm_compute. reflexivity.
Qed.

Definition gsub_behind (delta : N) : file :=
  file_of (extension_bytes 7 x00 x01 x00 x00 x00 x08 ++ flat_map be16 [1; 6; delta;  1; 1; 5]).

Definition gpos_behind (glyph : N) : file :=
  file_of (extension_bytes 9 x00 x03 x00 x00 x00 x08 ++ flat_map be16 [1; 6; 0;  1; 1; glyph]).

Definition gsub_subtable (delta : Z) : GsubType :=
  GsubSingleSubstitution (SingleSubstitutionFormat1
    (mkSingleSubstitution1 1 6 delta (CoverageFormat1 (mkCoverage1 1 1 [5])))).

Definition gpos_subtable (glyph : N) : GposType :=
  GposCursiveAttachment (mkCursiveAttachment 1 6 0 [] (CoverageFormat1 (mkCoverage1 1 1 [glyph]))).

Lemma behind_bounded n : bounded (gsub_behind n) /\ bounded (gpos_behind n).
Proof. split; apply file_of_bounded; vm_compute; discriminate. Qed.

Lemma behind_reads o n :
  reads o read_glyph_substitution (gsub_behind n) 0 (gsub_extended 1 8) /\
  reads o read_glyph_positioning (gpos_behind n) 0 (gpos_extended 3 8).
Proof.
  split.
  - exact (proj1 (extensions_any o x00 x01 x00 x00 x00 x08 _) (proj1 (behind_bounded n))).
  - exact (proj2 (extensions_any o x00 x03 x00 x00 x00 x08 _) (proj2 (behind_bounded n))).
Qed.

Lemma gsub_behind_at n d :
  reads debug_build (piece_reader (PieceGsubType 1)) (gsub_behind n) 34 (gsub_subtable d) ->
  extended gsub_extension gsub_type_at 0 0 (gsub_behind n) 0 (gsub_extended 1 8) (gsub_subtable d).
Proof.
  intros H. do 6 eexists. do 5 (split; [reflexivity|]).
  exact (proj1 (piece_reads (PieceGsubType 1) debug_build _ 34 _ (proj1 (behind_bounded n)) eq_refl) H).
Qed.

Lemma gpos_behind_at o n g :
  reads o (piece_reader (PieceGposType 3)) (gpos_behind n) 34 (gpos_subtable g) ->
  extended gpos_extension (gpos_type_at o) 0 0 (gpos_behind n) 0 (gpos_extended 3 8) (gpos_subtable g).
Proof.
  intros H. do 6 eexists. do 5 (split; [reflexivity|]).
  exact (proj1 (piece_reads (PieceGposType 3) o _ 34 _ (proj2 (behind_bounded n)) eq_refl) H).
Qed.

Lemma extensions_lost o :
  ~ tells o read_glyph_substitution (extended gsub_extension gsub_type_at 0 0) /\
  ~ tells o read_glyph_positioning (extended gpos_extension (gpos_type_at o) 0 0).
Proof.
  split.
  - apply (untold _ _ _ (gsub_behind 1) (gsub_behind 2) 0 (gsub_extended 1 8) (gsub_subtable 1) (gsub_subtable 2));
      [apply (proj1 (behind_bounded 1))|apply (proj1 (behind_bounded 2))|apply (proj1 (behind_reads o 1))
      |apply (proj1 (behind_reads o 2))| | |discriminate].
    + apply gsub_behind_at. eexists. vm_compute. reflexivity.
    + apply gsub_behind_at. eexists. vm_compute. reflexivity.
  - apply (untold _ _ _ (gpos_behind 1) (gpos_behind 2) 0 (gpos_extended 3 8) (gpos_subtable 1) (gpos_subtable 2));
      [apply (proj2 (behind_bounded 1))|apply (proj2 (behind_bounded 2))|apply (proj2 (behind_reads o 1))
      |apply (proj2 (behind_reads o 2))| | |discriminate].
    + apply gpos_behind_at. eexists. vm_compute. reflexivity.
    + apply gpos_behind_at. eexists. vm_compute. reflexivity.
Qed.

(** ** Palettes *)

Section Palettes.
Context (f g : file) (a b : N) (S : same_but a b f g).

Lemma u8_but p n : p + 1 <= a \/ b <= p -> u8_at f p n -> u8_at g p n.
Proof. intros H (x & Hx & E). exists x. rewrite <- S by lia. auto. Qed.

Lemma u16_but p n : p + 2 <= a \/ b <= p -> u16_at f p n -> u16_at g p n.
Proof. intros H (x & y & Hx & Hy & E). exists x, y. rewrite <- !S by lia. auto. Qed.

Lemma u32_but p n : p + 4 <= a \/ b <= p -> u32_at f p n -> u32_at g p n.
Proof.
  intros H (x & y & Hx & Hy & E). exists x, y.
  split; [apply u16_but; [lia|exact Hx]|]. split; [apply u16_but; [lia|exact Hy]|exact E].
Qed.

Lemma vec_but {A} (elem : file -> N -> A -> Prop) s p n l :
  (forall q v, q + s <= a \/ b <= q -> elem f q v -> elem g q v) ->
  p + s * n <= a \/ b <= p -> vec_at (elem f) s p n l -> vec_at (elem g) s p n l.
Proof.
  intros E H [L V]. split; [exact L|]. intros i v Hv. apply E; [|exact (V i v Hv)].
  assert (i < length l)%nat as Hi by (apply nth_error_Some; congruence).
  assert (N.of_nat i + 1 <= n) as Hn by lia.
  apply (N.mul_le_mono_l _ _ s) in Hn. lia.
Qed.

Lemma color_but p v : p + 4 <= a \/ b <= p -> color_at f p v -> color_at g p v.
Proof.
  intros H. destruct v. intros (? & ? & ? & ?).
  repeat apply conj; (apply u8_but; [lia|assumption]).
Qed.

End Palettes.

Lemma palettes_any o f g p v h :
  bounded f -> bounded g -> reads o read_color_palettes f p v -> color_palettes_header v = CpalVersion1 h ->
  let a := p + 12 + 2 * cpal_header1_palette_count h in
  let colors := p + cpal_header1_color_offset h in
  colors + 4 * cpal_header1_color_count h <= a \/ a + 12 <= colors ->
  same_but a (a + 12) f g -> reads o read_color_palettes g p v.
Proof.
  intros Bf Bg R E a colors D S.
  apply (request_reads RequestCpal o f p v Bf) in R. apply (request_reads RequestCpal o g p v Bg).
  destruct v as [header cs]. cbn in E. subst header. destruct h as [version n k c offset indices].
  cbn [cpal_header1_palette_count cpal_header1_color_offset cpal_header1_color_count] in a, colors, D.
  cbn in R |- *. destruct R as ((V & E & H1 & H2 & H3 & H4 & H5) & C).
  subst a colors. set (a := p + 12 + 2 * k) in *. assert (A : a = p + 12 + 2 * k) by reflexivity. clearbody a.
  assert (U : forall q n, q + 2 <= a -> u16_at f q n -> u16_at g q n)
    by (intros; eapply u16_but; eauto).
  split; [split; [apply U; [lia|exact V]|]; split; [exact E|];
    split; [apply U; [lia|assumption]|]; split; [apply U; [lia|assumption]|];
    split; [apply U; [lia|assumption]|]; split|].
  - eapply u32_but; eauto; lia.
  - apply (vec_but f g a (a + 12) u16_at); [|lia|exact H5]. intros. eapply u16_but; eauto.
  - apply (vec_but f g a (a + 12) color_at); [|exact D|exact C]. intros. eapply color_but; eauto.
Qed.

Definition palettes_bytes (types labels entry_labels : N) : list byte :=
  flat_map be16 [1; 1; 1; 1; 0; 26; 0] ++ be32 types ++ be32 labels ++ be32 entry_labels ++ [x0a; x0b; x0c; x0d].

Definition palettes_value : ColorPalettes :=
  mkColorPalettes (CpalVersion1 (mkCpalHeader1 1 1 1 1 26 [0])) [mkColor 10 11 12 13].

Lemma palettes_bounded x y z : bounded (file_of (palettes_bytes x y z)).
Proof. apply file_of_bounded. vm_compute. discriminate. Qed.

Lemma palettes_read o x y z : reads o read_color_palettes (file_of (palettes_bytes x y z)) 0 palettes_value.
Proof. eexists. vm_compute. reflexivity. Qed.

Lemma palettes_part :
  palette_offsets (file_of (palettes_bytes 0 0 0)) 0 palettes_value (0, 0, 0) /\
  palette_offsets (file_of (palettes_bytes 30 34 36)) 0 palettes_value (30, 34, 36).
Proof.
  split; (eexists; split; [reflexivity|]; split; [here|]; split; here).
Qed.

Lemma palettes_lost o : ~ tells o read_color_palettes palette_offsets.
Proof.
  apply (untold _ _ _ (file_of (palettes_bytes 0 0 0)) (file_of (palettes_bytes 30 34 36)) 0 palettes_value
    (0, 0, 0) (30, 34, 36));
    [apply palettes_bounded|apply palettes_bounded|apply palettes_read|apply palettes_read| | |discriminate];
    apply palettes_part.
Qed.

Lemma palettes_same : same_but 14 26 (file_of (palettes_bytes 0 0 0)) (file_of (palettes_bytes 30 34 36)).
Proof.
  intros q H. unfold file_of.
  assert (E : (forall i, (i < 14)%nat ->
    nth_error (palettes_bytes 0 0 0) i = nth_error (palettes_bytes 30 34 36) i) /\
    forall i, nth_error (palettes_bytes 0 0 0) (26 + i) = nth_error (palettes_bytes 30 34 36) (26 + i)).
  { split.
    - intros i Hi. do 14 (destruct i as [|i]; [reflexivity|]). lia.
    - intros i. reflexivity. }
  destruct H as [H|H].
  - apply (proj1 E). lia.
  - replace (N.to_nat q) with (26 + (N.to_nat q - 26))%nat by lia. apply (proj2 E).
Qed.

(** The number of the records is told. *)
Lemma directory_number {T} o (table_at : N -> file -> N -> T -> Prop) f p v records :
  directory_at o table_at f p v -> variation_records f p v records ->
  exists x, directory_variations v = Some x /\ feature_variations_count x = N.of_nat (length records).
Proof.
  destruct v as [a b s t l x scripts features lookups variations]. cbn.
  intros (_ & _ & _ & _ & _ & _ & _ & _ & _ & _ & _ & _ & Hv) (Hx & Hn & _). cbn in Hx, Hn.
  destruct variations as [[m k n]|]; cbn in Hv.
  - destruct Hv as (_ & _ & _ & _ & _ & Hc). eexists. split; [reflexivity|]. exact (ProofOpen.u32_at_unique _ _ _ _ Hc Hn).
  - contradiction.
Qed.

Lemma variations_number o f p records :
  bounded f ->
  (forall v, reads o read_glyph_substitution f p v -> variation_records f p v records ->
    exists x, directory_variations v = Some x /\ feature_variations_count x = N.of_nat (length records)) /\
  (forall v, reads o read_glyph_positioning f p v -> variation_records f p v records ->
    exists x, directory_variations v = Some x /\ feature_variations_count x = N.of_nat (length records)).
Proof.
  intros B. split; intros v R H.
  - apply (request_reads RequestGsub o f p v B) in R. exact (directory_number _ _ _ _ _ _ R H).
  - apply (request_reads RequestGpos o f p v B) in R. exact (directory_number _ _ _ _ _ _ R H).
Qed.

(** ** Regions *)

Lemma store_record_but o f g a b p v :
  same_but a b f g ->
  apart a b p (6 + 2 * store_record_region_count v + N.of_nat (length (store_record_deltas v))) ->
  store_record_at o f p v -> store_record_at o g p v.
Proof.
  intros S. destruct v as [n s r indices deltas]. unfold apart. cbn. intros D (H1 & H2 & H3 & H4 & H5 & H6).
  assert (L := proj1 H6).
  assert (U : forall q n, q + 2 <= a \/ b <= q -> u16_at f q n -> u16_at g q n) by (intros; eapply u16_but; eauto).
  split; [apply U; [lia|exact H1]|]. split; [apply U; [lia|exact H2]|]. split; [apply U; [lia|exact H3]|].
  split; [apply (vec_but f g a b u16_at); [exact U|lia|exact H4]|]. split; [exact H5|].
  apply (vec_but f g a b u8_at); [intros; eapply u8_but; eauto|lia|exact H6].
Qed.

Lemma regions_any o f g p v b :
  bounded f -> bounded g -> reads o read_store f p v ->
  let a := p + store_region_offset v in
  store_apart a b p v -> same_but a b f g -> reads o read_store g p v.
Proof.
  intros Bf Bg R a [D E] S.
  apply (piece_reads PieceStore o f p v Bf eq_refl) in R. apply (piece_reads PieceStore o g p v Bg eq_refl).
  clearbody a. destruct v as [format offset n offsets records]. unfold apart in D. cbn in R, D, E |- *.
  destruct R as (H1 & H2 & H3 & H4 & H5 & H6).
  split; [eapply u16_but; eauto; lia|]. split; [exact H2|]. split; [eapply u32_but; eauto; lia|].
  split; [eapply u16_but; eauto; lia|].
  split; [apply (vec_but f g a b u32_at); [intros; eapply u32_but; eauto|lia|exact H5]|].
  unfold linked_at in *.
  assert (P : forall x r, paired offsets records x r ->
    apart a b (p + x) (6 + 2 * store_record_region_count r + N.of_nat (length (store_record_deltas r)))) by exact E.
  clear - S H6 P. induction H6 as [|x r offsets records H _ IH]; constructor.
  - apply (store_record_but o f g a b _ _ S); [|exact H]. apply P. exists 0%nat. split; reflexivity.
  - apply IH. intros y t (i & Hy & Ht). apply P. exists (Datatypes.S i). split; assumption.
Qed.

(** A store with one record, and a region of one axis that peaks where it is said. *)
Definition regions_words (x : N) : list N := [1; 0; 22; 1; 0; 12;  1; 1; 1; 0; 0x0506;  1; 1; 0; x; 16384].

Definition regions_store : Store := mkStore 1 22 1 [12] [mkStoreRecord 1 1 1 [0] [5; 6]].

Lemma regions_bounded x : bounded (words (regions_words x)).
Proof. apply file_of_bounded. vm_compute. discriminate. Qed.

Lemma regions_read o x : reads o read_store (words (regions_words x)) 0 regions_store.
Proof. destruct o as [[] ? ? ? ?]; eexists; vm_compute; reflexivity. Qed.

Ltac word := do 2 eexists; split; [reflexivity|]; split; reflexivity.

Lemma regions_part :
  store_regions (words (regions_words 8192)) 0 regions_store (1, [[(0, 8192, 16384)%Z]]) /\
  store_regions (words (regions_words 16384)) 0 regions_store (1, [[(0, 16384, 16384)%Z]]).
Proof.
  split; (split; [word|]; split; [word|]; split; [reflexivity|]; intros [|i] l Hl; [|destruct i; discriminate Hl];
    injection Hl as <-; split; [reflexivity|]; intros [|i] x Hx; [|destruct i; discriminate Hx];
    injection Hx as <-; split; [|split]; (eexists; split; [word|reflexivity])).
Qed.

Lemma regions_lost o : ~ tells o read_store store_regions.
Proof.
  apply (untold o _ _ _ _ 0 regions_store _ _ (regions_bounded 8192) (regions_bounded 16384)
    (regions_read o 8192) (regions_read o 16384) (proj1 regions_part) (proj2 regions_part)).
  discriminate.
Qed.

(** Two regions of two axes, before the record of the store. *)
Definition many_words : list N :=
  [1; 0; 12; 1; 0; 40;  2; 2;  0; 1; 2;  65535; 4; 5;  6; 7; 8;  9; 10; 11;  1; 0; 1; 0; 0x0500].

Definition many_store : Store := mkStore 1 12 1 [40] [mkStoreRecord 1 0 1 [0] [5]].

Lemma many_part :
  bounded (words many_words) /\ reads debug_build read_store (words many_words) 0 many_store /\
  store_regions (words many_words) 0 many_store
    (2, [[(0, 1, 2); (-1, 4, 5)]; [(6, 7, 8); (9, 10, 11)]]%Z) /\
  store_apart 12 40 0 many_store.
Proof.
  split; [apply file_of_bounded; vm_compute; discriminate|].
  split; [eexists; vm_compute; reflexivity|]. split.
  - split; [word|]. split; [word|]. split; [reflexivity|].
    intros [|[|i]] l Hl; [| |destruct i; discriminate Hl]; injection Hl as <-; split;
      [reflexivity| |reflexivity|];
      (intros [|[|i]] x Hx; [| |destruct i; discriminate Hx]; injection Hx as <-; split; [|split| |split];
        (eexists; split; [word|reflexivity])).
  - split; [left; discriminate|]. intros x r (i & Hx & Hr). destruct i as [|[|i]]; try discriminate Hx.
    injection Hx as <-. right. discriminate.
Qed.
