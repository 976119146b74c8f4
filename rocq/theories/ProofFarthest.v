(** Files whose last byte, at the end of the reach, is needed, for property C66. *)

From Coq Require Import Lia.
From Verif Require Import ProofReach ProofRequests ProofOwned ProofLayout.
From Verif Require Export SpecReach.

Definition blank (f : file) (lo hi : N) : Prop := forall i, lo <= i < hi -> f i = Some "000"%byte.

Lemma sparse_blank bytes lo hi n :
  forallb (fun x => (fst x <? lo) || (hi <=? fst x)) bytes = true -> hi <= n -> blank (sparse bytes n) lo hi.
Proof.
  intros H L i Hi. unfold sparse. destruct (N.ltb_spec i n) as [_|G]; [|lia].
  destruct (find _ bytes) as [[k b]|] eqn:E; [|reflexivity]. apply find_some in E. destruct E as [I E].
  cbn in E. apply N.eqb_eq in E. subst k. rewrite forallb_forall in H. apply H in I. cbn in I.
  apply orb_true_iff in I. rewrite N.ltb_lt, N.leb_le in I. lia.
Qed.

Section Blank.
Context (f : file) (lo hi : N) (B : blank f lo hi).

Lemma blank_u8 q : lo <= q -> q + 1 <= hi -> u8_at f q 0.
Proof. intros L M. exists "000"%byte. rewrite B by lia. split; reflexivity. Qed.

Lemma blank_u16 q : lo <= q -> q + 2 <= hi -> u16_at f q 0.
Proof. intros L M. exists "000"%byte, "000"%byte. rewrite !B by lia. repeat split; reflexivity. Qed.

Lemma blank_u32 q : lo <= q -> q + 4 <= hi -> u32_at f q 0.
Proof.
  intros L M. exists 0, 0. split; [apply blank_u16; lia|]. split; [apply blank_u16; lia|reflexivity].
Qed.

Lemma blank_i16 q : lo <= q -> q + 2 <= hi -> i16_at f q 0.
Proof. intros L M. exists 0. split; [apply blank_u16; assumption|reflexivity]. Qed.

Lemma blank_i32 q : lo <= q -> q + 4 <= hi -> i32_at f q 0.
Proof. intros L M. exists 0. split; [apply blank_u32; assumption|reflexivity]. Qed.

Lemma blank_tag q : lo <= q -> q + 4 <= hi -> tag_at f q (Tag "000" "000" "000" "000").
Proof. intros L M. unfold tag_at. rewrite !B by lia. repeat split. Qed.

End Blank.

(** The same value again and again. *)
Definition copies {A} (v : A) (n : N) : list A := repeat v (N.to_nat n).

Lemma copies_at {A} (elem : N -> A -> Prop) stride p n v :
  (forall i, i < n -> elem (p + stride * i) v) -> vec_at elem stride p n (copies v n).
Proof.
  intros H. split; [unfold copies; rewrite repeat_length; lia|]. intros i w E.
  assert (G : In w (copies v n)) by exact (nth_error_In _ _ E). apply repeat_spec in G. subst w.
  assert (i < N.to_nat n)%nat by (rewrite <- (repeat_length v (N.to_nat n)); apply nth_error_Some;
    unfold copies in E; congruence).
  apply H. lia.
Qed.

Lemma copies_place {A} (r : piece A) stride p n v i :
  i < n -> In (Place r v (p + stride * i)) (in_turn r stride p (copies v n)).
Proof.
  intros H. unfold in_turn. apply in_map_iff. exists (N.to_nat i, v). split; [rewrite N2Nat.id; reflexivity|].
  unfold copies. rewrite repeat_length.
  assert (G : forall m k j, (j < m)%nat -> In ((k + j)%nat, v) (combine (seq k m) (repeat v m))).
  { clear. induction m as [|m IH]; intros k j Hj; [lia|]. cbn. destruct j as [|j].
    - left. f_equal. lia.
    - right. rewrite Nat.add_succ_r. apply (IH (S k)). lia. }
  exact (G (N.to_nat n) 0%nat (N.to_nat i) ltac:(lia)).
Qed.

(** ** The files *)

Definition far_file {A} (r : request A) : list (N * byte) :=
  match r with
  | RequestFile _ | RequestFont _ => []
  | RequestGdef =>
      put_at 0 (flat_map be16 [1; 3; 0; 0; 0; 0; 65535; 0; 0]) ++
      put_at 65535 (flat_map be16 [1; 0; 0; 1; 65535; 65535]) ++
      put_at (65535 + 4294967295) (flat_map be16 [65535; 0; 65535])
  | RequestGpos =>
      put_at 0 (flat_map be16 [1; 0; 10; 10; 65535]) ++
      put_at 65535 (flat_map be16 [1; 65535]) ++
      put_at 131070 (flat_map be16 [2; 0; 1; 65535]) ++
      put_at 196605 (flat_map be16 [2; 0; 255; 255; 0; 0; 65535; 65535])
  | RequestGsub =>
      put_at 0 (flat_map be16 [1; 1; 14; 14; 14; 65535; 65535]) ++ put_at 4294967295 (flat_map be16 [1])
  | RequestCpal => put_at 0 (flat_map be16 [0; 0; 0; 65535; 65535; 65535])
  | RequestFvar => put_at 0 (flat_map be16 [1; 0; 65535; 2; 65535; 65535; 65535; 65535])
  end.

Definition word_of (f : file) (p : N) : option N :=
  match f p, f (p + 1) with Some b, Some c => Some (256 * Byte.to_N b + Byte.to_N c) | _, _ => None end.

Lemma word_at f p v : word_of f p = Some v -> u16_at f p v.
Proof.
  unfold word_of. intros H. destruct (f p) as [b|] eqn:E; [|discriminate].
  destruct (f (p + 1)) as [c|] eqn:F; [|discriminate].
  injection H as <-. exists b, c. repeat split; assumption.
Qed.

Lemma long_at f p h l v : word_of f p = Some h -> word_of f (p + 2) = Some l -> v = 65536 * h + l ->
  u32_at f p v.
Proof. intros H L E. exists h, l. split; [apply word_at, H|]. split; [apply word_at, L|exact E]. Qed.

Ltac word := apply word_at; vm_compute; reflexivity.
Ltac long :=
  first [apply (long_at _ _ 0 0); vm_compute; reflexivity | apply (long_at _ _ 65535 65535);
    vm_compute; reflexivity].

Lemma far_palettes o :
  let f := sparse (far_file RequestCpal) (reach RequestCpal) in
  exists v, conforms o RequestCpal f 0 v /\ made_of o RequestCpal v 0 (reach RequestCpal - 1).
Proof.
  intros f. exists (mkColorPalettes (CpalVersion0 (mkCpalHeader0 0 0 0 65535 4294967295 []))
    (copies (mkColor 0 0 0 0) 65535)).
  assert (B : blank f 4294967295 (reach RequestCpal)) by (apply sparse_blank; [vm_compute|]; reflexivity).
  split.
  - hnf. cbn [cpal_layout]. split.
    + hnf. repeat (split; [first [word|long|reflexivity]|]). intros [|i] v E; discriminate.
    + apply copies_at. intros i Hi. unfold reach in B.
      repeat (split; [apply (blank_u8 _ _ _ B); lia|]). apply (blank_u8 _ _ _ B); lia.
  - right. exists (Place PieceColor (mkColor 0 0 0 0) (0 + 4294967295 + 4 * 65534)).
    split; [|unfold owns; cbn; split; [discriminate|reflexivity]].
    apply inside_table. cbn [table_places cpal_layout]. apply in_or_app. right. apply copies_place. reflexivity.
Qed.

Lemma far_offsets f (t : tag) : f 0 = Some (let 'Tag a _ _ _ := t in a) ->
  f 1 = Some (let 'Tag _ b _ _ := t in b) ->
  f 2 = Some (let 'Tag _ _ c _ := t in c) -> f 3 = Some (let 'Tag _ _ _ d := t in d) -> u16_at f 4 65535 ->
  blank f 6 (12 + 16 * 65535) ->
  offsets_at f 0 (mkOffsets (mkOffsetsHeader t 65535 0 0 0)
    (copies (mkOffsetRecord (Tag "000" "000" "000" "000") 0 0 0) 65535)).
Proof.
  intros Ha Hb Hc Hd Hn B. destruct t as [a b c d]. split.
  - split; [repeat split; assumption|]. split; [exact Hn|].
    repeat (split; [apply (blank_u16 _ _ _ B); lia|]). apply (blank_u16 _ _ _ B); lia.
  - cbn [offsets_header_table_count]. apply copies_at. intros i Hi. split; [apply (blank_tag _ _ _ B); lia|].
    repeat (split; [apply (blank_u32 _ _ _ B); lia|]). apply (blank_u32 _ _ _ B); lia.
Qed.

Lemma far_substitutions o :
  let f := sparse (far_file RequestGsub) (reach RequestGsub) in
  exists v, conforms o RequestGsub f 0 v /\ made_of o RequestGsub v 0 (reach RequestGsub - 1).
Proof.
  intros f.
  exists (mkDirectory 1 1 14 14 14 4294967295 (mkScripts 0 [] []) (mkFeatures 0 [] []) (mkLookups 0 [] [])
    (Some (mkFeatureVariations 1 0 0))).
  assert (none : forall {A} (elem : N -> A -> Prop) s p, vec_at elem s p 0 []).
  { intros A elem s p. split; [reflexivity|]. intros [|i] v E; discriminate. }
  split.
  - hnf. repeat (split; [first [word|long|reflexivity|right; reflexivity|intros _; long|intros E;
    discriminate]|]).
    split; [right; split; [left; discriminate|]; hnf; split; [word|]; split; [apply none|constructor]|].
    split; [right; split; [left; discriminate|]; hnf; split; [word|]; split; [apply none|constructor]|].
    split; [right; split; [left; discriminate|]; hnf; split; [word|]; split; [apply none|constructor]|].
    split; [discriminate|]. hnf. repeat (split; [first [word|reflexivity]|]). long.
  - right. exists (Place PieceFeatureVariations (mkFeatureVariations 1 0 0) (0 + 4294967295)).
    split; [|unfold owns; cbn; split; [discriminate|reflexivity]].
    apply inside_table. cbn [table_places]. unfold directory_places. do 3 (apply in_or_app; right).
    left. reflexivity.
Qed.

Lemma far_variations o :
  let f := sparse (far_file RequestFvar) (reach RequestFvar) in
  exists v, conforms o RequestFvar f 0 v /\ made_of o RequestFvar v 0 (reach RequestFvar - 1).
Proof.
  intros f.
  set (instance := mkInstanceRecord 0 0 (copies 0%Z 65535) 0).
  exists (mkFontVariations (mkFvarHeader 1 0 65535 2 65535 65535 65535 65535)
    (copies (mkAxisRecord (Tag "000" "000" "000" "000") 0 0 0 0 0) 65535) (copies instance 65535)).
  assert (B : blank f 16 (reach RequestFvar)) by (apply sparse_blank; [vm_compute|]; reflexivity).
  unfold reach in B. split.
  - hnf. split; [|split].
    + hnf. repeat (split; [first [word|reflexivity]|]). word.
    + apply copies_at. intros i Hi. hnf. split; [apply (blank_tag _ _ _ B); lia|].
      repeat (split; [apply (blank_i32 _ _ _ B); lia|]). split; [|apply (blank_u16 _ _ _ B); lia].
      split; [apply (blank_u16 _ _ _ B); lia|reflexivity].
    + apply copies_at. intros i Hi. hnf. split; [apply (blank_u16 _ _ _ B); lia|].
      split; [split; [apply (blank_u16 _ _ _ B); lia|reflexivity]|]. split; [|apply (blank_u16 _ _ _ B); lia].
      apply copies_at. intros j Hj. apply (blank_i32 _ _ _ B); lia.
  - right. exists (Place (PieceInstanceRecord 65535) instance (0 + 65535 + 65535 * 65535 + 65535 * 65534)).
    split; [|unfold owns; cbn [place_position place_piece place_value body]; split; [discriminate|reflexivity]].
    apply inside_table. cbn [table_places]. do 2 (apply in_or_app; right). apply copies_place. reflexivity.
Qed.

Lemma far_definitions o :
  let f := sparse (far_file RequestGdef) (reach RequestGdef) in
  exists v, conforms o RequestGdef f 0 v /\ made_of o RequestGdef v 0 (reach RequestGdef - 1).
Proof.
  intros f.
  set (record := mkStoreRecord 65535 0 65535 (copies 0 65535) (copies 0 (65535 * 65535))).
  exists (mkGlyphDefinition (GdefVersion13 (mkGdefHeader13 1 3 0 0 0 0 65535 0)) None None None None
    (Some (mkMarks 1 0 [] [])) (Some (mkStore 1 0 1 [4294967295] [record]))).
  assert (B : blank f (65535 + 4294967295 + 6) (reach RequestGdef)) by (apply sparse_blank;
    [vm_compute|]; reflexivity).
  unfold reach in B. split.
  - hnf. cbn [gdef_offsets gdef_variation_offset]. split.
    { hnf. repeat (split; [first [word|reflexivity]|]). long. }
    do 4 (split; [reflexivity|]). split; [split; [discriminate|]|split; [discriminate|]].
    + hnf. do 3 (split; [first [word|reflexivity]|]).
      split; [split; [reflexivity|intros [|i] v E; discriminate]|constructor].
    + hnf. split; [word|]. split; [reflexivity|]. split; [long|]. split; [word|]. split.
      * split; [reflexivity|]. intros [|[|i]] v E; try discriminate. injection E as <-. long.
      * constructor; [|constructor]. hnf. do 3 (split; [word|]). split; [|split; [reflexivity|]].
        -- apply copies_at. intros i Hi. apply (blank_u16 _ _ _ B); lia.
        -- replace (65535 * ((0 + 65535) mod 2 ^ 16)) with (65535 * 65535) by reflexivity.
           apply copies_at. intros i Hi. apply (blank_u8 _ _ _ B); lia.
  - right. exists (Place PieceStoreRecord record (0 + 65535 + 4294967295)). split.
    + eapply inside_part; [apply inside_table|].
      * instantiate (1 := Place PieceStore (mkStore 1 0 1 [4294967295] [record]) (0 + 65535)).
        cbn [table_places gdef_offsets gdef_variation_offset]. do 6 (apply in_or_app; right). left. reflexivity.
      * left. reflexivity.
    + unfold owns. cbn [place_position place_piece place_value body record]. unfold record.
      replace (N.of_nat (length (copies 0 (65535 * 65535)))) with (65535 * 65535).
      * split; [discriminate|reflexivity].
      * unfold copies. rewrite repeat_length, N2Nat.id. reflexivity.
Qed.

Definition zero_value : Single :=
  mkSingle (Some 0%Z) (Some 0%Z) (Some 0%Z) (Some 0%Z) (Some 0) (Some 0) (Some 0) (Some 0) None None None None.

Lemma blank_value f lo hi : blank f lo hi -> forall base q, lo <= q -> q + 16 <= hi ->
  value_at f base 255 q (Some zero_value).
Proof.
  intros B base q L H. split; [discriminate|]. hnf.
  do 4 (split; [split; [reflexivity|]; apply (blank_i16 _ _ _ B); unfold bits_below; cbn; lia|]).
  do 4 (split; [split; [reflexivity|]; apply (blank_u16 _ _ _ B); unfold bits_below; cbn; lia|]).
  repeat split.
Qed.

Lemma far_positionings o :
  let f := sparse (far_file RequestGpos) (reach RequestGpos) in
  exists v, conforms o RequestGpos f 0 v /\ made_of o RequestGpos v 0 (reach RequestGpos - 1).
Proof.
  intros f.
  set (pair := mkPair2 (Some zero_value) (Some zero_value)).
  set (row := mkPair2s (copies pair 65535)).
  set (rows := mkPairAdjustment2 2 0 255 255 0 0 65535 65535 (copies row 65535)
    (CoverageFormat2 (mkCoverage2 2 0 [])) (ClassFormat2 (mkClass2 2 0 [])) (ClassFormat2 (mkClass2 2 0 []))).
  set (record := mkLookupRecord 2 0 1 [65535] None [GposPairAdjustment (PairAdjustmentFormat2 rows)]).
  exists (mkDirectory 1 0 10 10 65535 0 (mkScripts 0 [] []) (mkFeatures 0 [] [])
    (mkLookups 1 [65535] [record]) None).
  assert (none : forall {A} (elem : N -> A -> Prop) s p, vec_at elem s p 0 []).
  { intros A elem s p. split; [reflexivity|]. intros [|i] v E; discriminate. }
  assert (one : forall {A} (elem : N -> A -> Prop) s p v, elem p v -> vec_at elem s p 1 [v]).
  { intros A elem s p v E. split; [reflexivity|]. intros [|[|i]] w F; try discriminate. injection F as <-.
    replace (p + s * N.of_nat 0) with p by lia. exact E. }
  assert (B : blank f (196605 + 16) (reach RequestGpos)) by (apply sparse_blank; [vm_compute|]; reflexivity).
  unfold reach in B. split.
  - hnf. repeat (split; [first [word|reflexivity|left; reflexivity|intros _; reflexivity|intros E;
    discriminate]|]).
    split; [right; split; [left; discriminate|]; hnf; split; [word|]; split; [apply none|constructor]|].
    split; [right; split; [left; discriminate|]; hnf; split; [word|]; split; [apply none|constructor]|].
    split; [|reflexivity]. right. split; [left; discriminate|]. hnf. split; [word|].
    split; [apply one; word|]. constructor; [|constructor].
    hnf. split; [word|]. split; [split; [word|reflexivity]|]. split; [word|]. split; [apply one; word|].
    split; [reflexivity|]. constructor; [|constructor].
    split; [reflexivity|]. split; [reflexivity|]. hnf.
    do 2 (split; [word|]). do 2 (split; [split; [word|reflexivity]|]). do 4 (split; [word|]).
    split.
    + replace ((value_size 255 + value_size 255) * 65535) with (32 * 65535) by reflexivity.
      apply copies_at. intros i Hi. hnf.
      replace (value_size 255 + value_size 255) with 32 by reflexivity.
      apply copies_at. intros j Hj. split; apply (blank_value _ _ _ B); unfold value_size, bits_below; cbn; lia.
    + repeat split; first [word|discriminate|intros [|i] v E; discriminate].
  - right. exists (Place (PieceSingle (0 + 65535 + 65535 + 65535) 255) zero_value
      (0 + 65535 + 65535 + 65535 + 16 + 32 * 65535 * 65534 + 32 * 65534 + 16)).
    split; [|unfold owns; cbn [place_position place_piece place_value body]; split;
      [vm_compute; discriminate|reflexivity]].
    eapply inside_part with (x := Place (PiecePair2 (0 + 65535 + 65535 + 65535) 255 255) pair
      (0 + 65535 + 65535 + 65535 + 16 + 32 * 65535 * 65534 + 32 * 65534)).
    2:{ cbn [places place_piece place_value place_position pair]. apply in_or_app. right. left. reflexivity. }
    eapply inside_part with (x := Place (PiecePair2s (0 + 65535 + 65535 + 65535) 65535 255 255) row
      (0 + 65535 + 65535 + 65535 + 16 + 32 * 65535 * 65534)).
    2:{ cbn [places place_piece place_value place_position row]. unfold row. apply copies_place. reflexivity. }
    eapply inside_part with (x := Place PiecePairAdjustment2 rows (0 + 65535 + 65535 + 65535)).
    2:{ cbn [places place_piece place_value place_position]. unfold rows. do 2 (apply in_or_app; right).
        apply in_or_app. left. apply copies_place. reflexivity. }
    eapply inside_part with (x := Place PiecePairAdjustment (PairAdjustmentFormat2 rows)
      (0 + 65535 + 65535 + 65535)).
    2:{ left. reflexivity. }
    eapply inside_part with (x := Place (PieceGposType 2)
      (GposPairAdjustment (PairAdjustmentFormat2 rows)) (0 + 65535 + 65535 + 65535)).
    2:{ left. reflexivity. }
    eapply inside_part with (x := Place PieceGposLookupRecord record (0 + 65535 + 65535)).
    2:{ right. left. reflexivity. }
    eapply inside_part with (x := Place PieceGposLookups (mkLookups 1 [65535] [record]) (0 + 65535)).
    2:{ left. reflexivity. }
    apply inside_table. cbn [table_places]. unfold directory_places. do 2 (apply in_or_app; right).
    apply in_or_app. left. unfold list_place. cbn. left. reflexivity.
Qed.

Definition tag_bytes (t : tag) : list byte := let 'Tag a b c d := t in [a; b; c; d].

Definition far_font (t : tag) : Font :=
  mkFont (mkOffsets (mkOffsetsHeader t 65535 0 0 0) (copies (mkOffsetRecord (Tag "000" "000" "000" "000") 0 0 0) 65535)).

Lemma far_records t :
  let f := sparse (put_at 0 (tag_bytes t) ++ put_at 4 (flat_map be16 [65535])) (12 + 16 * 65535) in
  offsets_at f 0 (font_offsets (far_font t)).
Proof.
  intros f. destruct t as [a b c d]. apply far_offsets; try reflexivity; [word|].
  apply sparse_blank; [vm_compute|]; reflexivity.
Qed.

Lemma far_size t : font_size (far_font t) = 12 + 16 * 65535.
Proof.
  unfold font_size, far_font. cbn [font_offsets offsets_records]. unfold copies.
  rewrite repeat_length, N2Nat.id. reflexivity.
Qed.

Lemma far_needed o {A} (r : request A) f v :
  bounded f -> conforms o r f 0 v -> made_of o r v 0 (reach r - 1) ->
  exists f v, bounded f /\ reads o (reader r) f 0 v /\ needed o (reader r) f 0 v (reach r - 1).
Proof.
  intros Hb C M. apply (request_reads r o f 0 v Hb) in C. exists f, v. split; [exact Hb|]. split; [exact C|].
  apply (needed_made o f r v 0 _ Hb C). exact M.
Qed.

Lemma farthest {A} (r : request A) o :
  (exists f p v, bounded f /\ reads o (reader r) f p v) ->
  exists f v, bounded f /\ reads o (reader r) f 0 v /\ needed o (reader r) f 0 v (reach r - 1).
Proof.
  intros (g & p & w & Hb & H). apply (request_reads r o g p w Hb) in H.
  assert (B : forall bytes, bounded (sparse bytes (reach r)))
    by (intros bytes; apply sparse_bounded; destruct r; vm_compute; discriminate).
  destruct r.
  - destruct H as (h & -> & Hn & Ha & Hh). set (t := offsets_header_tag (offsets_header h)) in *.
    apply (far_needed o _ _ (mkFile [far_font t])
      (B (put_at 0 (tag_bytes t) ++ put_at 4 (flat_map be16 [65535])))).
    + exists (font_offsets (far_font t)). split; [reflexivity|]. split; [exact Hn|].
      split; [exact Ha|]. exact (far_records t).
    + left. cbn [table_body file_fonts]. rewrite far_size. split; [discriminate|reflexivity].
  - destruct H as (Ha & Hh). set (t := offsets_header_tag (offsets_header (font_offsets w))) in *.
    apply (far_needed o _ _ (far_font t) (B (put_at 0 (tag_bytes t) ++ put_at 4 (flat_map be16 [65535])))).
    + split; [exact Ha|]. exact (far_records t).
    + left. cbn [table_body]. rewrite far_size. split; [discriminate|reflexivity].
  - destruct (far_definitions o) as (v & C & M). exact (far_needed o _ _ v (B _) C M).
  - destruct (far_positionings o) as (v & C & M). exact (far_needed o _ _ v (B _) C M).
  - destruct (far_substitutions o) as (v & C & M). exact (far_needed o _ _ v (B _) C M).
  - destruct (far_palettes o) as (v & C & M). exact (far_needed o _ _ v (B _) C M).
  - destruct (far_variations o) as (v & C & M). exact (far_needed o _ _ v (B _) C M).
Qed.
