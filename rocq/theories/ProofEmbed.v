(** Fonts that do not begin where the tape does. *)

From Verif Require Export SpecEmbed ProofOpen.
From Verif Require Import Reads ProofRequests ProofShift.

Lemma embedded_u16 k f g p v : embedded k f g -> (u16_at g p v <-> u16_at f (k + p) v).
Proof.
  intros E. unfold u16_at. rewrite <- N.add_assoc, <- (E p), <- (E (p + 1)). reflexivity.
Qed.

Lemma embedded_u32 k f g p v : embedded k f g -> (u32_at g p v <-> u32_at f (k + p) v).
Proof.
  intros E. unfold u32_at. split; intros (h & l & H1 & H2 & ->); exists h, l;
    (split; [|split; [|reflexivity]]).
  - apply (embedded_u16 k f g); assumption.
  - rewrite <- N.add_assoc. apply (embedded_u16 k f g); assumption.
  - apply (embedded_u16 k f g) in H1; assumption.
  - rewrite <- N.add_assoc in H2. apply (embedded_u16 k f g) in H2; assumption.
Qed.

Lemma embedded_tag k f g p t : embedded k f g -> (tag_at g p t <-> tag_at f (k + p) t).
Proof.
  intros E. destruct t as [a b c e]. unfold tag_at. rewrite <- !N.add_assoc, <- !E. reflexivity.
Qed.

Lemma embedded_font k f g d p n :
  embedded k f g -> (font_in d g p n <-> font_in d f (k + p) n).
Proof.
  intros E. unfold font_in. split; intros (v & H1 & H2 & H3 & H4 & H5); exists v.
  - repeat apply conj; try assumption.
    + apply (embedded_tag k f g); assumption.
    + rewrite <- N.add_assoc. apply (embedded_u16 k f g); assumption.
    + intros q Hq. replace q with (k + (q - k)) by lia. rewrite <- E. apply H5. lia.
  - repeat apply conj; try assumption.
    + apply (embedded_tag k f g) in H1; assumption.
    + rewrite <- N.add_assoc in H4. apply (embedded_u16 k f g) in H4; assumption.
    + intros q Hq. rewrite E. apply H5. lia.
Qed.

Lemma embedded_listed k f g p i r : embedded k f g -> (listed g p i r <-> listed f (k + p) i r).
Proof.
  intros E. unfold listed. rewrite <- !(N.add_assoc k p), <- !(N.add_assoc k (_ + _)).
  rewrite <- (embedded_tag k f g), <- !(embedded_u32 k f g) by exact E. reflexivity.
Qed.

Lemma embedded_lists k f g p n t r : embedded k f g -> (lists g p n t r <-> lists f (k + p) n t r).
Proof.
  intros E. unfold lists. split; intros (i & H1 & H2 & H3 & H4); exists i;
    (split; [exact H1|split; [|split; [exact H3|]]]).
  - apply (embedded_listed k f g); assumption.
  - intros j Hj H. apply (H4 j Hj). apply (embedded_tag k f g); [exact E|]. rewrite !N.add_assoc in *. exact H.
  - apply (embedded_listed k f g) in H2; assumption.
  - intros j Hj H. apply (H4 j Hj). apply (embedded_tag k f g) in H; [|exact E]. rewrite !N.add_assoc in *. exact H.
Qed.

Lemma embedded_lacks k f g p n t : embedded k f g -> (lacks g p n t <-> lacks f (k + p) n t).
Proof.
  intros E. unfold lacks. split; intros H j Hj; specialize (H j Hj); intros G; apply H.
  - apply (embedded_tag k f g); [exact E|]. rewrite !N.add_assoc in *. exact G.
  - apply (embedded_tag k f g) in G; [|exact E]. rewrite !N.add_assoc in *. exact G.
Qed.

(** The directory is found where the font is, and the tables where the directory says. *)
Lemma embedded_opens {A} d o t (m : M A) k f g p w :
  embedded k f g ->
  (reads o (open_take d t m) f (k + p) w <->
   exists n, font_in (truetype_accept d) g p n /\
   match w with
   | Some v => exists s, lists g p n (table_tag t) s /\
       (ignore_invalid_checksums o = true \/ record_checksum d f s = Ok (offset_record_checksum s)) /\
       reads o m f (offset_record_offset s) v
   | None => lacks g p n (table_tag t)
   end).
Proof.
  intros E. rewrite open_reads. unfold opened.
  split; intros (n & Hn & H); exists n; (split; [apply (embedded_font k f g); assumption|]);
    (destruct w as [v|]; [|apply (embedded_lacks k f g); assumption]);
    destruct H as (s & Hs & H); exists s; (split; [apply (embedded_lists k f g); assumption|exact H]).
Qed.

Lemma embedded_table {A} (r : request A) o k f g x v :
  bounded f -> embedded k f g -> k <= x ->
  (reads o (reader r) f x v <-> reads o (reader r) g (x - k) v).
Proof.
  intros B E H. pose proof (request_shifted r o k f g (x - k) B E) as S.
  replace (k + (x - k)) with x in S by lia. unfold reads. rewrite S.
  destruct (reader r (mkEnv g o) (x - k)) as [[w q]|e|]; cbn [moved];
    (split; intros [y Y]; [|]); try discriminate Y; injection Y as -> _; eauto.
Qed.

(** ** A directory that was adjusted *)

Lemma sixteenth x : exists i, 16 * i <= x < 16 * i + 16.
Proof.
  exists (x / 16). pose proof (N.mul_div_le x 16). pose proof (N.mul_succ_div_gt x 16). lia.
Qed.

Lemma adjusted_font k f g d p n : adjusted k f g p n -> font_in d g p n -> font_in d f (k + p) n.
Proof.
  intros [E L] (v & H1 & H2 & H3 & H4 & H5). exists v.
  assert (X : forall q, p <= q < p + 12 -> f (k + q) = g q) by (intros q Hq; symmetry; apply E; lia).
  assert (T : tag_at f (k + p) v).
  { destruct v as [a b c e]. unfold tag_at in *. rewrite <- !N.add_assoc, !X by lia. exact H1. }
  repeat apply conj; try assumption.
  - unfold u16_at in *. rewrite <- !(N.add_assoc k), !X by lia. exact H4.
  - intros q Hq. destruct (N.lt_ge_cases q (k + p + 12)) as [A|A].
    + replace q with (k + (q - k)) by lia. rewrite X by lia. apply H5. lia.
    + destruct (sixteenth (q - (k + p + 12))) as (i & M).
      assert (Hi : i < n) by lia.
      destruct (record_there g (p + 12 + 16 * i)) as [r Hr].
      { intros s Hs. apply H5. lia. }
      apply record_listed in Hr. specialize (L i r Hi Hr). apply record_listed in L.
      apply (record_read _ _ _ q L). lia.
Qed.

Lemma listed_there g p n d i : font_in d g p n -> i < n -> exists r, listed g p i r.
Proof.
  intros (v & _ & _ & _ & _ & H) Hi. destruct (record_there g (p + 12 + 16 * i)) as [r Hr].
  - intros s Hs. apply H. lia.
  - exists r. apply record_listed. exact Hr.
Qed.

Lemma adjusted_tag k f g p n d i t :
  adjusted k f g p n -> font_in d g p n -> i < n ->
  tag_at f (k + p + 12 + 16 * i) t -> tag_at g (p + 12 + 16 * i) t.
Proof.
  intros [_ L] Hf Hi Ht. destruct (listed_there g p n d i Hf Hi) as [r Hr].
  specialize (L i r Hi Hr). destruct L as [L _]. rewrite <- (tag_at_unique _ _ _ _ L Ht). exact (proj1 Hr).
Qed.

Lemma adjusted_lists k f g p n d t s :
  adjusted k f g p n -> font_in d g p n -> lists g p n t s -> lists f (k + p) n t (moved_record k s).
Proof.
  intros A Hf (i & Hi & Hl & Ht & Hb). exists i. split; [exact Hi|]. split; [exact (proj2 A i s Hi Hl)|].
  split; [exact Ht|]. intros j Hj H. apply (Hb j Hj). apply (adjusted_tag k f g p n d); try assumption. lia.
Qed.

Lemma adjusted_lacks k f g p n d t :
  adjusted k f g p n -> font_in d g p n -> lacks g p n t -> lacks f (k + p) n t.
Proof. intros A Hf H j Hj T. apply (H j Hj). apply (adjusted_tag k f g p n d); assumption. Qed.

Lemma outside_embedded k f g p n :
  adjusted k f g p n -> embedded k (outside f (k + p) n) (outside g p n).
Proof.
  intros [E _] q. unfold outside.
  destruct (N.leb_spec p q), (N.leb_spec (k + p) (k + q)); try lia; cbn [andb];
    destruct (N.ltb_spec q (p + 12 + 16 * n)), (N.ltb_spec (k + q) (k + p + 12 + 16 * n)); try lia;
    try reflexivity; apply E; lia.
Qed.

Lemma outside_bounded f p n : bounded f -> bounded (outside f p n).
Proof. intros B q Hq. unfold outside. destruct (_ && _); [reflexivity|apply B, Hq]. Qed.

Lemma outside_extends f p n : extends (outside f p n) f.
Proof. intros q b. unfold outside. destruct (_ && _); [discriminate|auto]. Qed.

Lemma adjusted_table {A} (r : request A) o k f g p n x v :
  bounded f -> adjusted k f g p n -> conforms o r (outside g p n) x v ->
  reads o (reader r) f (k + x) v.
Proof.
  intros B J C. pose proof (outside_embedded _ _ _ _ _ J) as E.
  assert (Bo := outside_bounded f (k + p) n B).
  apply (request_reads r) in C; [|exact (drops_bounded _ _ _ E Bo)].
  destruct C as [q C]. pose proof (request_shifted r o k _ _ x Bo E) as S. rewrite C in S. cbn [moved] in S.
  destruct (request_holes r o _ f (k + x) (outside_extends f (k + p) n)) as [H|H]; [|congruence].
  exists (k + q). congruence.
Qed.

Lemma adjusted_opens {A} d o t (r : request A) k f g p n s v :
  bounded f -> font_in (truetype_accept d) g p n -> adjusted k f g p n -> lists g p n (table_tag t) s ->
  ignore_invalid_checksums o = true \/
    record_checksum d f (moved_record k s) = Ok (offset_record_checksum s) ->
  conforms o r (outside g p n) (offset_record_offset s) v ->
  reads o (open_take d t (reader r)) f (k + p) (Some v) /\
  (ignore_invalid_checksums o = true \/ record_checksum d g s = Ok (offset_record_checksum s) ->
   bounded g -> reads o (open_take d t (reader r)) g p (Some v)).
Proof.
  intros B Hf J Hl Hc C. split.
  - apply (open_standard d o t (reader r) f (k + p) n (moved_record k s)).
    + exact (adjusted_font k f g _ p n J Hf).
    + exact (adjusted_lists k f g p n _ _ s J Hf Hl).
    + exact Hc.
    + exact (adjusted_table r o k f g p n _ v B J C).
  - intros Hg Bg. apply (open_standard d o t (reader r) g p n s); try assumption.
    apply (request_reads r) in C; [|exact (outside_bounded _ _ _ Bg)]. destruct C as [q C].
    destruct (request_holes r o _ g (offset_record_offset s) (outside_extends g p n)) as [H|H]; [|congruence].
    exists q. congruence.
Qed.

Lemma adjusted_absent {A} d o t (r : request A) k f g p n :
  font_in (truetype_accept d) g p n -> adjusted k f g p n -> lacks g p n (table_tag t) ->
  reads o (open_take d t (reader r)) f (k + p) None.
Proof.
  intros Hf J H. apply open_reads. exists n. split; [exact (adjusted_font k f g _ p n J Hf)|].
  exact (adjusted_lacks k f g p n _ _ J Hf H).
Qed.

(** ** Several fonts *)

Lemma opens_shared {A} d o t u (m : M A) f p q n l r s v w :
  font_in (truetype_accept d) f p n -> font_in (truetype_accept d) f q l ->
  lists f p n (table_tag t) r -> lists f q l (table_tag u) s ->
  offset_record_offset r = offset_record_offset s ->
  reads o (open_take d t m) f p (Some v) -> reads o (open_take d u m) f q (Some w) -> v = w.
Proof.
  intros Hp Hq Hr Hs E H G.
  apply open_reads in H as (n' & Hn' & r' & Hr' & _ & x & H).
  apply open_reads in G as (l' & Hl' & s' & Hs' & _ & y & G).
  rewrite (font_in_unique d f p n' n Hn' Hp) in Hr'. rewrite (font_in_unique d f q l' l Hl' Hq) in Hs'.
  rewrite (lists_unique _ _ _ _ _ _ Hr' Hr) in H. rewrite (lists_unique _ _ _ _ _ _ Hs' Hs) in G.
  rewrite E in H. congruence.
Qed.

(** A table that is listed at [x] is looked for [k] bytes too early. *)
Lemma embedded_early {A} d o t (r : request A) k f g p n s v :
  bounded f -> embedded k f g -> font_in (truetype_accept d) g p n -> lists g p n (table_tag t) s ->
  ignore_invalid_checksums o = true \/ record_checksum d f s = Ok (offset_record_checksum s) ->
  k <= offset_record_offset s ->
  (reads o (open_take d t (reader r)) f (k + p) (Some v) <->
   reads o (reader r) g (offset_record_offset s - k) v).
Proof.
  intros B E Hf Hl Hc Hk. rewrite <- (embedded_table r o k f g _ v B E Hk).
  apply (open_iff d o t (reader r) f (k + p) n s v); [|apply (embedded_lists k f g)|]; try assumption.
  apply (embedded_font k f g); assumption.
Qed.

Lemma collection_opens {A} d o t (r : request A) f positions p n s v :
  bounded f -> collection_at f positions -> In p positions ->
  font_in (truetype_accept d) f p n -> lists f p n (table_tag t) s ->
  ignore_invalid_checksums o = true \/ record_checksum d f s = Ok (offset_record_checksum s) ->
  conforms o r f (offset_record_offset s) v ->
  fails o (open_take d t (reader r)) f 0 /\ reads o (open_take d t (reader r)) f p (Some v).
Proof.
  intros B (Ht & _) _ Hf Hl Hc C. split.
  - destruct (proj1 (collection_never_read d o f 0 Ht)) as [x X]. exists x. unfold open_take, bind.
    rewrite X. reflexivity.
  - apply (open_standard d o t (reader r) f p n s v Hf Hl Hc). apply request_reads; assumption.
Qed.

Lemma collection_member {A} o f positions i p (m : M A) q :
  collection_at f positions -> nth_error positions i = Some p ->
  member i m (mkEnv f o) q = m (mkEnv f o) p.
Proof.
  intros (_ & _ & _ & _ & _ & H) Hi. apply H in Hi.
  assert (T : take_u32 (mkEnv f o) (12 + 4 * N.of_nat i) = Ok (p, 12 + 4 * N.of_nat i + 4))
    by (apply (take_u32_takes True (mkEnv f o) _); auto).
  unfold member, bind, jump. rewrite T. reflexivity.
Qed.

(** The checksum of OpenType does not change either. *)
Lemma word_sum_moved k f g : forall n p,
  (forall q, p <= q < p + N.of_nat n -> g q = f (k + q)) -> word_sum f (k + p) n = word_sum g p n.
Proof.
  intros n. induction n as [n IH] using (well_founded_induction lt_wf). intros p H.
  assert (V : forall q, p <= q < p + N.of_nat n -> byte_value f (k + q) = byte_value g q)
    by (intros q Hq; unfold byte_value; rewrite (H q Hq); reflexivity).
  destruct n as [|[|[|[|n]]]]; cbn [word_sum]; rewrite <- ?N.add_assoc, ?V by lia; try reflexivity.
  rewrite IH; [reflexivity|lia|]. intros q Hq. apply H. lia.
Qed.

Lemma adjusted_checksum k f g p n s :
  adjusted k f g p n -> apart p n s -> word_checksum f (moved_record k s) = word_checksum g s.
Proof.
  intros [E _] H. unfold word_checksum, moved_record, apart in *.
  cbn [offset_record_offset offset_record_length] in *. do 2 f_equal. apply word_sum_moved.
  intros q Hq. apply E. lia.
Qed.

(** ** Samples *)

(** Two lots of color palettes with the same checksum: two of their words are exchanged. *)
Definition exchanged_cpal : list byte :=
  be16 0 ++ be16 2 ++ be16 1 ++ be16 3 ++ be32 14 ++ be16 1 ++
  bytes [1; 2; 6; 255; 7; 8; 3; 255; 4; 5; 9; 255].

Definition exchanged_colors : ColorPalettes :=
  mkColorPalettes (CpalVersion0 (mkCpalHeader0 0 2 1 3 14 [1]))
    [mkColor 1 2 6 255; mkColor 7 8 3 255; mkColor 4 5 9 255].

(** A font of one table, at [x] from the beginning of the tape. *)
Definition lone_directory (x : N) : list byte :=
  bytes [0; 1; 0; 0] ++ be16 1 ++ be16 16 ++ be16 0 ++ be16 0 ++
  record_bytes (mkOffsetRecord (Tag "C" "P" "A" "L") 352259106 x 26).

(** One that has the other palettes; with as many bytes in front as the first have; and with the directory
    adjusted. *)
Definition lone_font : list byte := lone_directory 54 ++ sample_cpal ++ exchanged_cpal.
Definition behind_font : list byte := repeat x00 26 ++ lone_font.
Definition behind_adjusted : list byte := repeat x00 26 ++ lone_directory 80 ++ sample_cpal ++ exchanged_cpal.

(** A collection of two fonts that share a table. *)
Definition pair_collection : list byte :=
  bytes [116; 116; 99; 102] ++ be16 1 ++ be16 0 ++ be32 2 ++ be32 20 ++ be32 48 ++
  lone_directory 76 ++ lone_directory 76 ++ sample_cpal.

Lemma behind_differs :
  bounded (file_of behind_font) /\ embedded 26 (file_of behind_font) (file_of lone_font) /\
  reads debug_build (open_take sample_deps TableColorPalettes (reader RequestCpal)) (file_of lone_font) 0
    (Some exchanged_colors) /\
  reads debug_build (open_take sample_deps TableColorPalettes (reader RequestCpal)) (file_of behind_font) 26
    (Some sample_colors).
Proof.
  split; [apply file_of_bounded; vm_compute; discriminate|]. split; [exact (drops_prefix (repeat x00 26) lone_font)|].
  split; eexists; vm_compute; reflexivity.
Qed.

Lemma behind_refuted :
  ~ forall A d o t (r : request A) k f g p v,
    bounded f -> embedded k f g -> reads o (open_take d t (reader r)) g p (Some v) ->
    reads o (open_take d t (reader r)) f (k + p) (Some v).
Proof.
  intros H. destruct behind_differs as (B & E & G & F).
  specialize (H _ _ _ _ _ _ _ _ _ _ B E G). destruct F as [q F], H as [s H].
  change (26 + 0) with 26 in H. rewrite H in F. discriminate F.
Qed.

(** A font of one table that was read. *)
Definition lone_record (x : N) : OffsetRecord := mkOffsetRecord (Tag "C" "P" "A" "L") 352259106 x 26.

Lemma lone_in f p x q :
  read_file sample_deps (mkEnv f debug_build) p = Ok (mkFile [mkFont
    (mkOffsets (mkOffsetsHeader (Tag x00 x01 x00 x00) 1 16 0 0) [lone_record x])], q) ->
  font_in (truetype_accept sample_deps) f p 1 /\ lists f p 1 (Tag "C" "P" "A" "L") (lone_record x).
Proof.
  intros E.
  assert (R : reads debug_build (read_file sample_deps) f p (mkFile [mkFont
    (mkOffsets (mkOffsetsHeader (Tag x00 x01 x00 x00) 1 16 0 0) [lone_record x])])) by (exists q; exact E).
  assert (Ho := R). apply (proj1 (file_exactly sample_deps debug_build f p)) in Ho as (offsets & X & _ & _ & Ho).
  injection X as <-. split.
  - destruct (file_or_error sample_deps debug_build f p) as [(offsets & s & X & _ & H)|[[y X] _]].
    + rewrite X in E. injection E as -> _. exact H.
    + congruence.
  - apply (proj2 (directory_lists f p _ _ _ Ho)). exists 0%nat. repeat split. intros [|j] r Hj; lia.
Qed.

Lemma lone_listed f p x : lists f p 1 (Tag "C" "P" "A" "L") (lone_record x) -> listed f p 0 (lone_record x).
Proof. intros (i & Hi & H & _). replace i with 0 in H by lia. exact H. Qed.

Lemma lone_adjusted :
  bounded (file_of behind_adjusted) /\
  adjusted 26 (file_of behind_adjusted) (file_of lone_font) 0 1 /\
  font_in (truetype_accept sample_deps) (file_of lone_font) 0 1 /\
  lists (file_of lone_font) 0 1 (Tag "C" "P" "A" "L") (lone_record 54) /\
  record_checksum sample_deps (file_of behind_adjusted) (moved_record 26 (lone_record 54)) = Ok 352259106 /\
  conforms debug_build RequestCpal (outside (file_of lone_font) 0 1) 54 exchanged_colors.
Proof.
  assert (B : bounded (file_of lone_font)) by (apply file_of_bounded; vm_compute; discriminate).
  destruct (lone_in (file_of lone_font) 0 54 28) as [F L]; [vm_compute; reflexivity|].
  destruct (lone_in (file_of behind_adjusted) 26 80 54) as [_ L']; [vm_compute; reflexivity|].
  split; [apply file_of_bounded; vm_compute; discriminate|]. split; [split|].
  - intros q [H|H].
    + assert (q = 0 \/ q = 1 \/ q = 2 \/ q = 3 \/ q = 4 \/ q = 5 \/ q = 6 \/ q = 7 \/ q = 8 \/ q = 9 \/
        q = 10 \/ q = 11) as X by lia.
      repeat destruct X as [->|X]; [reflexivity..|subst; reflexivity].
    + pose proof (drops_prefix (lone_directory 54) (sample_cpal ++ exchanged_cpal) (q - 28)) as X.
      pose proof (drops_prefix (repeat x00 26 ++ lone_directory 80) (sample_cpal ++ exchanged_cpal) (q - 28)) as Y.
      rewrite <- app_assoc in Y.
      change (N.of_nat (length (lone_directory 54))) with 28 in X.
      change (N.of_nat (length (repeat x00 26 ++ lone_directory 80))) with 54 in Y.
      replace (28 + (q - 28)) with q in X by lia. replace (54 + (q - 28)) with (26 + q) in Y by lia.
      unfold lone_font, behind_adjusted. rewrite <- X, <- Y. reflexivity.
  - intros i r Hi H. replace i with 0 in * by lia.
    rewrite (listed_unique _ _ _ _ _ H (lone_listed _ _ _ L)). exact (lone_listed _ _ _ L').
  - split; [exact F|]. split; [exact L|]. split; [vm_compute; reflexivity|].
    apply (request_reads RequestCpal); [exact (outside_bounded _ _ _ B)|].
    eexists. vm_compute. reflexivity.
Qed.

Lemma pair_shared :
  bounded (file_of pair_collection) /\ collection_at (file_of pair_collection) [20; 48] /\
  (forall p, In p [20; 48] ->
    font_in (truetype_accept sample_deps) (file_of pair_collection) p 1 /\
    lists (file_of pair_collection) p 1 (Tag "C" "P" "A" "L") (lone_record 76)) /\
  record_checksum sample_deps (file_of pair_collection) (lone_record 76) = Ok 352259106 /\
  conforms debug_build RequestCpal (file_of pair_collection) 76 sample_colors.
Proof.
  assert (B : bounded (file_of pair_collection)) by (apply file_of_bounded; vm_compute; discriminate).
  split; [exact B|]. split; [|split; [|split]].
  - split; [repeat split|]. split; [left; exists x00, x01; repeat split|].
    split; [exists x00, x00; repeat split|].
    split; [exists 0, 2; split; [exists x00, x00|split; [exists x00, x02|]]; repeat split|].
    split; [reflexivity|]. intros [|[|[|i]]] v H; try discriminate H; injection H as <-.
    + exists 0, 20. split; [exists x00, x00|split; [exists x00, x14|]]; repeat split.
    + exists 0, 48. split; [exists x00, x00|split; [exists x00, x30|]]; repeat split.
  - intros p [<-|[<-|[]]]; [apply (lone_in _ 20 76 48)|apply (lone_in _ 48 76 76)]; vm_compute; reflexivity.
  - vm_compute. reflexivity.
  - apply (request_reads RequestCpal); [exact B|]. eexists. vm_compute. reflexivity.
Qed.
