(** Opening a file and taking a table out of it. *)

From Verif Require Export ModelOpen SpecOpen ProofFontProperties ProofConform.
From Verif Require Import Reads ReadsTactics ProofFont ProofRequests.

Lemma tag_at_unique f p s t : tag_at f p s -> tag_at f p t -> s = t.
Proof.
  destruct s, t. intros (A1 & A2 & A3 & A4) (B1 & B2 & B3 & B4).
  rewrite A1 in B1. rewrite A2 in B2. rewrite A3 in B3. rewrite A4 in B4. congruence.
Qed.

(** ** The directory and the bytes *)

Lemma record_listed f p i r :
  offset_record_at f (p + 12 + 16 * i) r <-> listed f p i r.
Proof.
  destruct r as [t s x l]. unfold listed. cbn [offset_record_at offset_record_tag offset_record_checksum
    offset_record_offset offset_record_length].
  replace (p + 12 + 16 * i + 4) with (p + 16 + 16 * i) by lia.
  replace (p + 12 + 16 * i + 8) with (p + 20 + 16 * i) by lia.
  replace (p + 12 + 16 * i + 12) with (p + 24 + 16 * i) by lia. reflexivity.
Qed.

Lemma u16_there f p : f p <> None -> f (p + 1) <> None -> exists v, u16_at f p v.
Proof.
  destruct (f p) as [b0|] eqn:E0; [|congruence]. destruct (f (p + 1)) as [b1|] eqn:E1; [|congruence].
  intros _ _. do 3 eexists. eauto.
Qed.

Lemma u32_there f p : (forall q, p <= q < p + 4 -> f q <> None) -> exists v, u32_at f p v.
Proof.
  intros H. destruct (u16_there f p) as [h Hh]; [apply H; lia|apply H; lia|].
  destruct (u16_there f (p + 2)) as [l Hl]; [apply H; lia|apply H; lia|].
  do 3 eexists. eauto.
Qed.

Lemma tag_there f p : (forall q, p <= q < p + 4 -> f q <> None) -> exists t, tag_at f p t.
Proof.
  intros H.
  assert (B : forall q, p <= q < p + 4 -> exists b, f q = Some b).
  { intros q Hq. specialize (H q Hq). destruct (f q) as [b|]; [eauto|congruence]. }
  destruct (B p ltac:(lia)) as [b0 H0]. destruct (B (p + 1) ltac:(lia)) as [b1 H1].
  destruct (B (p + 2) ltac:(lia)) as [b2 H2]. destruct (B (p + 3) ltac:(lia)) as [b3 H3].
  exists (Tag b0 b1 b2 b3). repeat apply conj; assumption.
Qed.

Lemma record_there f p :
  (forall q, p <= q < p + 16 -> f q <> None) -> exists r, offset_record_at f p r.
Proof.
  intros H. destruct (tag_there f p) as [t Ht]; [intros; apply H; lia|].
  destruct (u32_there f (p + 4)) as [s Hs]; [intros; apply H; lia|].
  destruct (u32_there f (p + 8)) as [x Hx]; [intros; apply H; lia|].
  destruct (u32_there f (p + 12)) as [l Hl]; [intros; apply H; lia|].
  exists (mkOffsetRecord t s x l). repeat apply conj; assumption.
Qed.

Lemma records_there f n : forall p,
  (forall q, p <= q < p + 16 * N.of_nat n -> f q <> None) ->
  exists l, vec_at (offset_record_at f) 16 p (N.of_nat n) l.
Proof.
  induction n as [|n IH]; intros p H.
  - exists []. split; [reflexivity|]. intros [|i] v [=].
  - destruct (record_there f p) as [r Hr]; [intros; apply H; lia|].
    destruct (IH (p + 16)) as [l [Hn Hl]]; [intros; apply H; lia|].
    exists (r :: l). split; [cbn [length]; lia|]. intros [|i] v Hi.
    + injection Hi as <-. replace (p + 16 * N.of_nat 0) with p by lia. exact Hr.
    + replace (p + 16 * N.of_nat (S i)) with (p + 16 + 16 * N.of_nat i) by lia. apply Hl. exact Hi.
Qed.

Lemma u16_read f p v : u16_at f p v -> f p <> None /\ f (p + 1) <> None.
Proof. intros (b0 & b1 & H0 & H1 & _). split; congruence. Qed.

Lemma u32_read f p v q : u32_at f p v -> p <= q < p + 4 -> f q <> None.
Proof.
  intros (h & l & Hh & Hl & _) Hq. apply u16_read in Hh as [H0 H1], Hl as [H2 H3].
  assert (C : q = p \/ q = p + 1 \/ q = p + 2 \/ q = p + 2 + 1) by lia.
  destruct C as [->|[->|[->| ->]]]; assumption.
Qed.

Lemma tag_read f p t q : tag_at f p t -> p <= q < p + 4 -> f q <> None.
Proof.
  destruct t. intros (H0 & H1 & H2 & H3) Hq.
  assert (C : q = p \/ q = p + 1 \/ q = p + 2 \/ q = p + 3) by lia.
  destruct C as [->|[->|[->| ->]]]; congruence.
Qed.

Lemma record_read f p r q : offset_record_at f p r -> p <= q < p + 16 -> f q <> None.
Proof.
  destruct r as [t s x l]. intros (Ht & Hs & Hx & Hl) Hq.
  destruct (N.lt_ge_cases q (p + 4)); [eapply tag_read; [exact Ht|lia]|].
  destruct (N.lt_ge_cases q (p + 8)); [eapply u32_read; [exact Hs|lia]|].
  destruct (N.lt_ge_cases q (p + 12)); [eapply u32_read; [exact Hx|lia]|].
  eapply u32_read; [exact Hl|lia].
Qed.

Lemma records_read f p n l q :
  vec_at (offset_record_at f) 16 p n l -> p <= q < p + 16 * n -> f q <> None.
Proof.
  intros [Hn Hl] Hq.
  assert (Hi : exists i, 16 * i <= q - p < 16 * i + 16).
  { exists ((q - p) / 16). pose proof (N.div_mod (q - p) 16 ltac:(lia)) as H.
    pose proof (N.mod_lt (q - p) 16 ltac:(lia)) as H'.
    revert H H'. generalize ((q - p) / 16). generalize ((q - p) mod 16). intros. lia. }
  destruct Hi as [i Hi].
  destruct (nth_error l (N.to_nat i)) as [r|] eqn:E.
  - apply Hl in E. rewrite N2Nat.id in E. apply (record_read f _ r q E). lia.
  - apply nth_error_None in E. lia.
Qed.

(** What [File::read] accepts is a font in the file. *)
Lemma directory_font d f p :
  (exists offsets, offsets_header_tag (offsets_header offsets) <> Tag "t" "t" "c" "f" /\
     truetype_accept d (offsets_header_tag (offsets_header offsets)) = true /\
       offsets_at f p offsets) <-> exists n, font_in (truetype_accept d) f p n.
Proof.
  split.
  - intros ([[t n a b c] l] & Hn & Ha & [(Ht & Hc & H1 & H2 & H3) Hl]). cbn in Hn, Ha, Hl.
    exists n, t. repeat apply conj; try assumption. intros q Hq.
    apply u16_read in Hc as [C1 C2], H1 as [H11 H12], H2 as [H21 H22], H3 as [H31 H32].
    destruct (N.lt_ge_cases q (p + 4)); [eapply tag_read; [exact Ht|lia]|].
    destruct (N.lt_ge_cases q (p + 12)); [|eapply records_read; [exact Hl|lia]].
    assert (C : q = p + 4 \/ q = p + 4 + 1 \/ q = p + 6 \/ q = p + 6 + 1 \/
                q = p + 8 \/ q = p + 8 + 1 \/ q = p + 10 \/ q = p + 10 + 1) by lia.
    destruct C as [->|[->|[->|[->|[->|[->|[->| ->]]]]]]]; assumption.
  - intros (n & t & Ht & Hn & Ha & Hc & H).
    destruct (u16_there f (p + 6)) as [a H1]; [apply H; lia|apply H; lia|].
    destruct (u16_there f (p + 8)) as [b H2]; [apply H; lia|apply H; lia|].
    destruct (u16_there f (p + 10)) as [c H3]; [apply H; lia|apply H; lia|].
    destruct (records_there f (N.to_nat n) (p + 12)) as [l Hl]; [intros; apply H; lia|].
    rewrite N2Nat.id in Hl.
    exists (mkOffsets (mkOffsetsHeader t n a b c) l). cbn. repeat apply conj; auto; apply Hl.
Qed.

(** Its number of tables is that of the directory. *)
Lemma directory_count d f p n offsets :
  font_in (truetype_accept d) f p n -> offsets_at f p offsets ->
  n = N.of_nat (length (offsets_records offsets)).
Proof.
  destruct offsets as [[t m a b c] l]. intros (t' & _ & _ & _ & Hn & _) [(_ & Hm & _) [Hl _]]. cbn in *.
  destruct Hn as (x & y & Hx & Hy & ->), Hm as (x' & y' & Hx' & Hy' & Em). congruence.
Qed.

Lemma directory_record f p offsets i r :
  offsets_at f p offsets -> nth_error (offsets_records offsets) i = Some r ->
  listed f p (N.of_nat i) r.
Proof.
  destruct offsets as [h l]. intros [_ [_ Hl]] Hi. apply record_listed, Hl, Hi.
Qed.

Lemma directory_tag f p offsets i t :
  offsets_at f p offsets -> tag_at f (p + 12 + 16 * N.of_nat i) t ->
  forall r, nth_error (offsets_records offsets) i = Some r -> offset_record_tag r = t.
Proof.
  intros Ho Ht r Hi. destruct (directory_record f p offsets i r Ho Hi) as [H _].
  exact (tag_at_unique _ _ _ _ H Ht).
Qed.

Lemma u32_at_unique f p v w : u32_at f p v -> u32_at f p w -> v = w.
Proof.
  intros (h & l & (a & b & Ha & Hb & ->) & (c & d & Hc & Hd & ->) & ->)
    (h' & l' & (a' & b' & Ha' & Hb' & ->) & (c' & d' & Hc' & Hd' & ->) & ->). congruence.
Qed.

Lemma listed_unique f p i r s : listed f p i r -> listed f p i s -> r = s.
Proof.
  destruct r, s. unfold listed. cbn. intros (H1 & H2 & H3 & H4) (K1 & K2 & K3 & K4).
  f_equal; [eapply tag_at_unique|eapply u32_at_unique|eapply u32_at_unique|eapply u32_at_unique]; eassumption.
Qed.

Lemma directory_lists f p offsets t r :
  offsets_at f p offsets ->
  (lists f p (N.of_nat (length (offsets_records offsets))) t r <->
   first_record (offsets_records offsets) t r).
Proof.
  intros Ho. split.
  - intros (i & Hi & Hr & Ht & Hb).
    destruct (nth_error (offsets_records offsets) (N.to_nat i)) as [s|] eqn:E;
      [|apply nth_error_None in E; lia].
    pose proof (directory_record _ _ _ _ _ Ho E) as Hs. rewrite N2Nat.id in Hs.
    rewrite (listed_unique _ _ _ _ _ Hr Hs) in *.
    exists (N.to_nat i). repeat apply conj; [exact E|exact Ht|]. intros j s' Hj Es Et.
    apply (Hb (N.of_nat j)); [lia|]. rewrite <- Et. exact (proj1 (directory_record _ _ _ _ _ Ho Es)).
  - intros (i & Hi & Ht & Hb). exists (N.of_nat i).
    assert (i < length (offsets_records offsets))%nat by (apply nth_error_Some; congruence).
    split; [lia|]. split; [exact (directory_record _ _ _ _ _ Ho Hi)|]. split; [exact Ht|].
    intros j Hj Hjt.
    destruct (nth_error (offsets_records offsets) (N.to_nat j)) as [s|] eqn:E;
      [|apply nth_error_None in E; lia].
    apply (Hb (N.to_nat j) s); [lia|exact E|]. apply (directory_tag f p offsets (N.to_nat j) t Ho); [|exact E].
    rewrite N2Nat.id. exact Hjt.
Qed.

Lemma directory_lacks f p offsets t :
  offsets_at f p offsets ->
  (lacks f p (N.of_nat (length (offsets_records offsets))) t <->
   forall r, In r (offsets_records offsets) -> offset_record_tag r <> t).
Proof.
  intros Ho. split.
  - intros H r Hr Ht. apply In_nth_error in Hr as [i Hi].
    assert (i < length (offsets_records offsets))%nat by (apply nth_error_Some; congruence).
    apply (H (N.of_nat i)); [lia|]. rewrite <- Ht. exact (proj1 (directory_record _ _ _ _ _ Ho Hi)).
  - intros H j Hj Ht.
    destruct (nth_error (offsets_records offsets) (N.to_nat j)) as [s|] eqn:E;
      [|apply nth_error_None in E; lia].
    apply (H s); [eapply nth_error_In, E|]. apply (directory_tag f p offsets (N.to_nat j) t Ho); [|exact E].
    rewrite N2Nat.id. exact Ht.
Qed.

(** ** Opening *)

Lemma file_or_error d o f p :
  (exists offsets q, read_file d (mkEnv f o) p = Ok (mkFile [mkFont offsets], q) /\ offsets_at f p offsets /\
     font_in (truetype_accept d) f p (N.of_nat (length (offsets_records offsets)))) \/
  (exists x, read_file d (mkEnv f o) p = Err x) /\ forall n, ~ font_in (truetype_accept d) f p n.
Proof.
  pose proof (file_exactly d o f p) as (Hr & Hf & Hp).
  destruct (read_file d (mkEnv f o) p) as [[v q]|x|] eqn:E.
  - left. destruct (proj1 (Hr v)) as (offsets & -> & Hn & Ha & Ho); [exists q; exact E|].
    exists offsets, q. split; [reflexivity|]. split; [exact Ho|].
    destruct (proj1 (directory_font d f p)) as [n Hin]; [exists offsets; auto|].
    rewrite <- (directory_count d f p n offsets Hin Ho). exact Hin.
  - right. split; [eauto|]. intros n Hin.
    destruct (proj2 (directory_font d f p)) as (offsets & Hn & Ha & Ho); [eauto|].
    apply (proj1 Hf ltac:(exists x; exact E) (mkFile [mkFont offsets])). eauto 6.
  - destruct (Hp E).
Qed.

(** What opening gives, as a predicate on the bytes. *)
Definition opened {A} (d : deps) (o : options) (t : table) (P : N -> A -> Prop) (f : file) (p : N)
    (w : option A) : Prop :=
  exists n, font_in (truetype_accept d) f p n /\
  match w with
  | Some v => exists r, lists f p n (table_tag t) r /\
      (ignore_invalid_checksums o = true \/ record_checksum d f r = Ok (offset_record_checksum r)) /\
      P (offset_record_offset r) v
  | None => lacks f p n (table_tag t)
  end.

Lemma font_in_unique d f p n m :
  font_in (truetype_accept d) f p n -> font_in (truetype_accept d) f p m -> n = m.
Proof.
  intros (_ & _ & _ & _ & (a & b & Ha & Hb & ->) & _) (_ & _ & _ & _ & (a' & b' & Ha' & Hb' & ->) & _).
  congruence.
Qed.

Lemma checked d o f r :
  checksum_test d (mkEnv f o) r = Ok tt <->
  ignore_invalid_checksums o = true \/ record_checksum d f r = Ok (offset_record_checksum r).
Proof.
  split; [|apply (accepted_test d (mkEnv f o) r)].
  unfold checksum_test. cbn [opts content]. destruct (ignore_invalid_checksums o); [auto|].
  destruct (record_checksum d f r) as [c|x|]; [|discriminate|discriminate].
  destruct (N.eqb_spec (offset_record_checksum r) c) as [->|H]; [auto|discriminate].
Qed.

Lemma open_reads {A} d o t (m : M A) f p w :
  reads o (open_take d t m) f p w <-> opened d o t (reads o m f) f p w.
Proof.
  destruct (file_or_error d o f p) as [(offsets & q & E & Ho & Hin)|[[x E] Hin]].
  - assert (Eo : open_take d t m (mkEnv f o) p = font_take d (mkFont offsets) t m (mkEnv f o) q).
    { unfold open_take, bind. rewrite E. reflexivity. }
    unfold reads at 1. rewrite Eo.
    destruct (first_record_cases (offsets_records offsets) (table_tag t)) as [[r Hr]|Hn].
    + rewrite (take_present d (mkFont offsets) t r m (mkEnv f o) q Hr).
      apply (directory_lists f p offsets (table_tag t) r Ho) in Hr as Hl.
      pose proof (checked d o f r) as Hc. split.
      * intros [q' H]. exists (N.of_nat (length (offsets_records offsets))). split; [exact Hin|].
        destruct (checksum_test d (mkEnv f o) r) as [[]|y|]; [|discriminate|discriminate].
        destruct (m (mkEnv f o) (offset_record_offset r)) as [[v q'']|y|] eqn:Em; [|discriminate|discriminate].
        injection H as <- _. exists r. repeat apply conj; [exact Hl|apply Hc; reflexivity|].
        exists q''. exact Em.
      * intros (n & Hin' & H). rewrite (font_in_unique d f p n _ Hin' Hin) in H. destruct w as [v|].
        -- destruct H as (r' & Hl' & Hc' & [q' Em]).
           apply (directory_lists f p offsets (table_tag t) r' Ho) in Hl' as Hr'.
           rewrite (first_record_fun _ _ _ _ Hr' Hr) in *. rewrite (proj2 Hc Hc'), Em. eauto.
        -- exfalso. apply first_record_in in Hr as [Hr Ht].
           exact (proj1 (directory_lacks f p offsets (table_tag t) Ho) H r Hr Ht).
    + rewrite (take_absent d (mkFont offsets) t m (mkEnv f o) q Hn). split.
      * intros [q' [= <- _]]. exists (N.of_nat (length (offsets_records offsets))).
        split; [exact Hin|]. apply directory_lacks; assumption.
      * intros (n & Hin' & H). rewrite (font_in_unique d f p n _ Hin' Hin) in H. destruct w as [v|].
        -- exfalso. destruct H as (r' & Hl' & _). apply directory_lists in Hl' as Hr'; [|exact Ho].
           apply first_record_in in Hr' as [Hr Ht]. exact (Hn r' Hr Ht).
        -- eauto.
  - unfold reads at 1, open_take, bind. rewrite E. split.
    + intros [q [=]].
    + intros (n & H & _). destruct (Hin n H).
Qed.

Lemma open_no_panic {A} d o t (m : M A) f p :
  (forall r, record_checksum d f r <> Panic) -> (forall q, ~ panics o m f q) ->
  ~ panics o (open_take d t m) f p.
Proof.
  intros Hd Hm. destruct (file_or_error d o f p) as [(offsets & q & E & _)|[[x E] _]];
    unfold panics, open_take, bind; rewrite E; [|discriminate].
  cbn [file_font index file_fonts nth_error ret].
  exact (take_no_panic d (mkFont offsets) t m (mkEnv f o) q Hd Hm).
Qed.

Lemma open_exactly {A} d o t (r : request A) f p :
  bounded f -> (forall r, record_checksum d f r <> Panic) ->
  is_gdef r = false \/ overflow_checks o = false ->
  reads_exactly o (open_take d t (reader r)) f p (fun w =>
    exists n, font_in (truetype_accept d) f p n /\
    match w with
    | Some v => exists s, lists f p n (table_tag t) s /\
        (ignore_invalid_checksums o = true \/ record_checksum d f s = Ok (offset_record_checksum s)) /\
        conforms o r f (offset_record_offset s) v
    | None => lacks f p n (table_tag t)
    end).
Proof.
  intros Hb Hd Hs.
  assert (R : forall w, reads o (open_take d t (reader r)) f p w <->
    opened d o t (conforms o r f) f p w).
  { intros w. rewrite open_reads. unfold opened. split; intros (n & Hn & H); exists n; (split; [exact Hn|]);
      (destruct w as [v|]; [|exact H]); destruct H as (s & H1 & H2 & H3); exists s;
      (repeat apply conj; [exact H1|exact H2|]); apply (request_reads r); assumption. }
  assert (P : ~ panics o (open_take d t (reader r)) f p).
  { apply open_no_panic; [exact Hd|]. intros q. apply request_no_panic; assumption. }
  split; [exact R|]. split; [|exact P]. split.
  - intros [x Hx] w Hw. apply R in Hw as [q Hq]. congruence.
  - intros H. destruct (open_take d t (reader r) (mkEnv f o) p) as [[w q]|x|] eqn:E.
    + destruct (H w). apply R. exists q. exact E.
    + exists x. exact E.
    + destruct (P E).
Qed.

(** ** Tables laid out as the specification prescribes *)

Lemma open_standard {A} d o t (m : M A) f p n r v :
  font_in (truetype_accept d) f p n -> lists f p n (table_tag t) r ->
  ignore_invalid_checksums o = true \/ record_checksum d f r = Ok (offset_record_checksum r) ->
  reads o m f (offset_record_offset r) v -> reads o (open_take d t m) f p (Some v).
Proof. intros Hn Hl Hc Hv. apply open_reads. exists n. split; [exact Hn|]. exists r. auto. Qed.

Lemma file_index d o f p v e q :
  reads o (read_file d) f p v ->
  (exists font, v = mkFile [font] /\ file_font v 0 e q = Ok (font, q)) /\
  forall i, (0 < i)%nat -> file_font v i e q = Panic.
Proof.
  intros H. apply (proj1 (file_exactly d o f p)) in H as (offsets & -> & _). split; [eexists; eauto|].
  intros [|[|i]] Hi; [lia|reflexivity|reflexivity].
Qed.

Lemma lists_unique f p n t r s : lists f p n t r -> lists f p n t s -> r = s.
Proof.
  intros (i & _ & Hi & Hr & Hb) (j & _ & Hj & Hs & Hc).
  destruct (N.lt_trichotomy i j) as [H|[->|H]].
  - destruct (Hc i H). rewrite <- Hr. exact (proj1 Hi).
  - exact (listed_unique _ _ _ _ _ Hi Hj).
  - destruct (Hb j H). rewrite <- Hs. exact (proj1 Hj).
Qed.

Lemma open_iff {A} d o t (m : M A) f p n r v :
  font_in (truetype_accept d) f p n -> lists f p n (table_tag t) r ->
  ignore_invalid_checksums o = true \/ record_checksum d f r = Ok (offset_record_checksum r) ->
  (reads o (open_take d t m) f p (Some v) <-> reads o m f (offset_record_offset r) v).
Proof.
  intros Hn Hl Hc. split; [|apply (open_standard d o t m f p n r v); assumption].
  intros H. apply open_reads in H as (n' & Hn' & r' & Hl' & _ & H).
  rewrite (font_in_unique d f p n' n Hn' Hn) in Hl'. rewrite (lists_unique _ _ _ _ _ _ Hl' Hl) in H. exact H.
Qed.

Lemma open_gsub d o f p n s v :
  bounded f -> font_in (truetype_accept d) f p n -> lists f p n (Tag "G" "S" "U" "B") s ->
  ignore_invalid_checksums o = true \/ record_checksum d f s = Ok (offset_record_checksum s) ->
  std_glyph_substitution_at f (offset_record_offset s) v ->
  reads o (open_take d TableGlyphSubstitution read_glyph_substitution) f p (Some (blank_directory v)).
Proof.
  intros Hb Hn Hl Hc Hv. apply (open_iff d o TableGlyphSubstitution _ f p n s _ Hn Hl Hc).
  exact (gsub_standard_read o f _ v Hb Hv).
Qed.

Lemma open_gpos d o f p n s v :
  bounded f -> font_in (truetype_accept d) f p n -> lists f p n (Tag "G" "P" "O" "S") s ->
  ignore_invalid_checksums o = true \/ record_checksum d f s = Ok (offset_record_checksum s) ->
  std_glyph_positioning_at f (offset_record_offset s) v ->
  (reads o (open_take d TableGlyphPositioning read_glyph_positioning) f p (Some v) <->
   supported_directory supported_gpos_type v).
Proof.
  intros Hb Hn Hl Hc Hv. rewrite (open_iff d o TableGlyphPositioning _ f p n s _ Hn Hl Hc).
  exact (proj1 (gpos_standard o f _ v Hb) Hv).
Qed.

Lemma open_gdef d o f p n s v :
  bounded f -> font_in (truetype_accept d) f p n -> lists f p n (Tag "G" "D" "E" "F") s ->
  ignore_invalid_checksums o = true \/ record_checksum d f s = Ok (offset_record_checksum s) ->
  std_glyph_definition_at f (offset_record_offset s) v ->
  (reads o (open_take d TableGlyphDefinition read_glyph_definition) f p (Some v) <->
   supported_glyph_definition o f (offset_record_offset s) v).
Proof.
  intros Hb Hn Hl Hc Hv. rewrite (open_iff d o TableGlyphDefinition _ f p n s _ Hn Hl Hc).
  exact (proj1 (gdef_standard o f _ v Hb) Hv).
Qed.

Lemma open_fvar d o f p n s v :
  bounded f -> font_in (truetype_accept d) f p n -> lists f p n (Tag "f" "v" "a" "r") s ->
  ignore_invalid_checksums o = true \/ record_checksum d f s = Ok (offset_record_checksum s) ->
  std_font_variations_at f (offset_record_offset s) v ->
  reads o (open_take d TableFontVariations read_font_variations) f p (Some v).
Proof.
  intros Hb Hn Hl Hc Hv. apply (open_iff d o TableFontVariations _ f p n s _ Hn Hl Hc).
  exact (proj1 (fvar_standard o f _ v Hb) Hv).
Qed.

Lemma open_cpal d o f p n s v :
  bounded f -> font_in (truetype_accept d) f p n -> lists f p n (Tag "C" "P" "A" "L") s ->
  ignore_invalid_checksums o = true \/ record_checksum d f s = Ok (offset_record_checksum s) ->
  std_color_palettes_at f (offset_record_offset s) v ->
  reads o (open_take d TableColorPalettes read_color_palettes) f p (Some v).
Proof.
  intros Hb Hn Hl Hc Hv. apply (open_iff d o TableColorPalettes _ f p n s _ Hn Hl Hc).
  exact (proj1 (cpal_standard o f _ v Hb) Hv).
Qed.

(** ** The sample font *)

Lemma sample_bounded : bounded sample_file.
Proof. apply file_of_bounded. vm_compute. discriminate. Qed.

Lemma sample_opened :
  bounded sample_file /\ (forall s, record_checksum sample_deps sample_file s <> Panic) /\
  font_in (truetype_accept sample_deps) sample_file 0 3 /\
  lists sample_file 0 3 (Tag "C" "P" "A" "L") (mkOffsetRecord (Tag "C" "P" "A" "L") 352259106 60 26) /\
  record_checksum sample_deps sample_file (mkOffsetRecord (Tag "C" "P" "A" "L") 352259106 60 26)
    = Ok 352259106 /\
  std_color_palettes_at sample_file 60 sample_colors /\
  lacks sample_file 0 3 (Tag "f" "v" "a" "r") /\
  fails debug_build (open_take sample_deps TableGlyphSubstitution read_glyph_substitution) sample_file 0.
Proof.
  assert (R : reads debug_build (read_file sample_deps) sample_file 0 (mkFile [sample_font]))
    by (eexists; vm_compute; reflexivity).
  assert (Ho : offsets_at sample_file 0 (font_offsets sample_font)).
  { apply (proj1 (file_exactly sample_deps debug_build sample_file 0)) in R as (offsets & E & _ & _ & H).
    injection E as <-. exact H. }
  split; [exact sample_bounded|]. split; [discriminate|]. split.
  { destruct (file_or_error sample_deps debug_build sample_file 0) as [(offsets & q & E & _ & H)|[[x E] _]].
    - destruct R as [q' R]. rewrite R in E. injection E as <- _. exact H.
    - destruct R as [q' R]. congruence. }
  split; [exact (proj2 (directory_lists sample_file 0 _ _ _ Ho) sample_first)|].
  split; [vm_compute; reflexivity|]. split.
  { apply (proj2 (cpal_standard debug_build sample_file 60 sample_colors sample_bounded));
      [eexists; vm_compute; reflexivity|discriminate]. }
  split.
  - apply (directory_lacks sample_file 0 _ _ Ho). intros r [<-|[<-|[<-|[]]]]; discriminate.
  - eexists. vm_compute. reflexivity.
Qed.
