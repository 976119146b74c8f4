(** Lemmas about looking tables up in a font. *)

From Verif Require Export SpecHistory Api ModelFont SpecFont SpecAccess.
From Verif Require Import Reads ReadsTactics ProofFont.

(** ** The first record with a tag *)

Lemma first_record_here r records t : offset_record_tag r = t -> first_record (r :: records) t r.
Proof. intros H. exists O. repeat split; [assumption|]. intros j r' Hj. lia. Qed.

Lemma first_record_there r s records t :
  offset_record_tag s <> t -> first_record records t r -> first_record (s :: records) t r.
Proof.
  intros Hs (i & Hi & Ht & Hb). exists (S i). repeat split; [assumption|assumption|].
  intros [|j] r' Hj Hr'; [injection Hr' as <-; assumption|].
  apply (Hb j); [lia|assumption].
Qed.

Lemma first_record_cases records t :
  (exists r, first_record records t r) \/ (forall r, In r records -> offset_record_tag r <> t).
Proof.
  induction records as [|s records IH]; [right; intros r []|].
  destruct (tag_eqb (offset_record_tag s) t) eqn:E.
  - left. exists s. apply first_record_here, tag_eqb_eq, E.
  - assert (Hs : offset_record_tag s <> t) by (intros H; apply tag_eqb_eq in H; congruence).
    destruct IH as [[r Hr]|Hn].
    + left. exists r. apply first_record_there; assumption.
    + right. intros r [<-|Hr]; [assumption|auto].
Qed.

Lemma first_record_in records t r :
  first_record records t r -> In r records /\ offset_record_tag r = t.
Proof. intros (i & Hi & Ht & _). split; [eapply nth_error_In; exact Hi|assumption]. Qed.

Lemma first_record_fun records t r s :
  first_record records t r -> first_record records t s -> r = s.
Proof.
  intros (i & Hi & Hr & Hi') (j & Hj & Hs & Hj').
  destruct (Nat.lt_trichotomy i j) as [H|[->|H]].
  - destruct (Hj' i r H Hi Hr).
  - congruence.
  - destruct (Hi' j s H Hj Hs).
Qed.

(** ** The loop *)

Lemma loop_absent d records t e p :
  (forall r, In r records -> offset_record_tag r <> t) ->
  font_position_loop d records t e p = Ok (None, p).
Proof.
  induction records as [|r records IH]; intros H; cbn; [reflexivity|].
  destruct (tag_eqb (offset_record_tag r) t) eqn:E.
  - apply tag_eqb_eq in E. destruct (H r (or_introl eq_refl) E).
  - apply IH. intros s Hs. apply H. right; assumption.
Qed.

(** The test of the checksum. *)
Definition checksum_test (d : deps) (e : env) (r : OffsetRecord) : res unit :=
  if ignore_invalid_checksums (opts e) then Ok tt else
  match record_checksum d (content e) r with
  | Ok c => if offset_record_checksum r =? c then Ok tt else Err Malformed
  | Err x => Err x
  | Panic => Panic
  end.

Lemma loop_present d records t r e p :
  first_record records t r ->
  font_position_loop d records t e p =
  match checksum_test d e r with
  | Ok _ => Ok (Some tt, offset_record_offset r)
  | Err x => Err x
  | Panic => Panic
  end.
Proof.
  intros (i & Hi & Ht & Hb). revert i Hi Hb.
  induction records as [|s records IH]; intros [|i] Hi Hb; cbn in Hi; try discriminate.
  - injection Hi as ->. cbn. apply tag_eqb_eq in Ht. rewrite Ht.
    unfold checksum_test, bind, ask, jump, ret, raise, take_checksum.
    destruct (ignore_invalid_checksums (opts e)); [reflexivity|].
    destruct (record_checksum d (content e) r); try reflexivity.
    destruct (_ =? _); reflexivity.
  - cbn. destruct (tag_eqb (offset_record_tag s) t) eqn:E.
    + apply tag_eqb_eq in E. destruct (Hb O s ltac:(lia) eq_refl E).
    + apply (IH i); [assumption|]. intros j r' Hj Hr'. apply (Hb (S j)); [lia|assumption].
Qed.

Lemma take_present {A} d this t r (m : M A) e p :
  first_record (offsets_records (font_offsets this)) (table_tag t) r ->
  font_take d this t m e p =
  match checksum_test d e r with
  | Ok _ =>
      match m e (offset_record_offset r) with
      | Ok (v, q) => Ok (Some v, q)
      | Err x => Err x
      | Panic => Panic
      end
  | Err x => Err x
  | Panic => Panic
  end.
Proof.
  intros Hr. unfold font_take, font_position, bind. rewrite (loop_present _ _ _ _ _ _ Hr).
  destruct (checksum_test d e r); reflexivity.
Qed.

Lemma take_absent {A} d this t (m : M A) e p :
  (forall r, In r (offsets_records (font_offsets this)) -> offset_record_tag r <> table_tag t) ->
  font_take d this t m e p = Ok (None, p).
Proof.
  intros H. unfold font_take, font_position, bind. rewrite loop_absent by assumption. reflexivity.
Qed.

(** ** Presence *)

Lemma exists_iff this t :
  font_exists this t = true <->
  exists r, In r (offsets_records (font_offsets this)) /\ offset_record_tag r = table_tag t.
Proof.
  unfold font_exists. rewrite existsb_exists. split; intros (r & Hr & H); exists r;
    (split; [assumption|]); apply tag_eqb_eq; assumption.
Qed.

Lemma exists_first this t :
  font_exists this t = true ->
  exists r, first_record (offsets_records (font_offsets this)) (table_tag t) r.
Proof.
  intros H. apply exists_iff in H. destruct H as (r & Hr & Ht).
  destruct (first_record_cases (offsets_records (font_offsets this)) (table_tag t)) as [Hf|Hn].
  - exact Hf.
  - destruct (Hn r Hr Ht).
Qed.

Lemma first_exists this t r :
  first_record (offsets_records (font_offsets this)) (table_tag t) r -> font_exists this t = true.
Proof. intros Hr. apply exists_iff. exists r. apply first_record_in, Hr. Qed.

Lemma not_exists_none this t :
  font_exists this t = false ->
  forall r, In r (offsets_records (font_offsets this)) -> offset_record_tag r <> table_tag t.
Proof.
  intros H r Hr Ht. rewrite (proj2 (exists_iff this t)) in H; [discriminate|eauto].
Qed.

Lemma absent_position d this t e p :
  font_exists this t = false -> font_position d this t e p = Ok (None, p).
Proof. intros H. apply loop_absent, not_exists_none, H. Qed.

Lemma absent_take {A} d this t (m : M A) e p :
  font_exists this t = false -> font_take d this t m e p = Ok (None, p).
Proof. intros H. apply take_absent, not_exists_none, H. Qed.

Lemma present_position d this t e p q :
  font_exists this t = true -> font_position d this t e p <> Ok (None, q).
Proof.
  intros H. destruct (exists_first this t H) as [r Hr]. unfold font_position.
  rewrite (loop_present _ _ _ _ _ _ Hr). destruct (checksum_test d e r); discriminate.
Qed.

Lemma present_take {A} d this t (m : M A) e p q :
  font_exists this t = true -> font_take d this t m e p <> Ok (None, q).
Proof.
  intros H. destruct (exists_first this t H) as [r Hr]. rewrite (take_present _ _ _ _ _ _ _ Hr).
  destruct (checksum_test d e r); try discriminate.
  destruct (m e (offset_record_offset r)) as [[v q']| |]; discriminate.
Qed.

(** ** Checksums *)

Lemma accepted_test d e r :
  ignore_invalid_checksums (opts e) = true \/
  record_checksum d (content e) r = Ok (offset_record_checksum r) ->
  checksum_test d e r = Ok tt.
Proof.
  unfold checksum_test. destruct (ignore_invalid_checksums (opts e)); [reflexivity|].
  intros [H|H]; [discriminate|]. rewrite H, N.eqb_refl. reflexivity.
Qed.

Lemma accepted_take {A} d this t r (m : M A) e p :
  first_record (offsets_records (font_offsets this)) (table_tag t) r ->
  (ignore_invalid_checksums (opts e) = true \/
   record_checksum d (content e) r = Ok (offset_record_checksum r)) ->
  font_take d this t m e p =
  match m e (offset_record_offset r) with
  | Ok (v, q) => Ok (Some v, q)
  | Err x => Err x
  | Panic => Panic
  end.
Proof.
  intros Hr Hc. rewrite (take_present _ _ _ _ _ _ _ Hr), accepted_test by assumption. reflexivity.
Qed.

Lemma accepted_position d this t r e p :
  first_record (offsets_records (font_offsets this)) (table_tag t) r ->
  (ignore_invalid_checksums (opts e) = true \/
   record_checksum d (content e) r = Ok (offset_record_checksum r)) ->
  font_position d this t e p = Ok (Some tt, offset_record_offset r).
Proof.
  intros Hr Hc. unfold font_position.
  rewrite (loop_present _ _ _ _ _ _ Hr), accepted_test by assumption. reflexivity.
Qed.

(** In the default build a table whose checksum is not the computed one is refused. *)
Lemma rejected_test d e r c :
  ignore_invalid_checksums (opts e) = false ->
  record_checksum d (content e) r = Ok c -> c <> offset_record_checksum r ->
  checksum_test d e r = Err Malformed.
Proof.
  unfold checksum_test. intros -> -> H. destruct (N.eqb_spec (offset_record_checksum r) c); congruence.
Qed.

Lemma gate_position d this t r e p :
  ignore_invalid_checksums (opts e) = false ->
  (forall r, record_checksum d (content e) r <> Panic) ->
  first_record (offsets_records (font_offsets this)) (table_tag t) r ->
  (record_checksum d (content e) r = Ok (offset_record_checksum r) /\
   font_position d this t e p = Ok (Some tt, offset_record_offset r)) \/
  (record_checksum d (content e) r <> Ok (offset_record_checksum r) /\
   exists x, font_position d this t e p = Err x).
Proof.
  intros Ho Hd Hr. destruct (record_checksum d (content e) r) as [c|x|] eqn:E.
  - destruct (N.eq_dec c (offset_record_checksum r)) as [->|Hc].
    + left. split; [reflexivity|]. apply accepted_position; auto.
    + right. split; [congruence|]. exists Malformed. unfold font_position.
      rewrite (loop_present _ _ _ _ _ _ Hr), (rejected_test _ _ _ c) by assumption. reflexivity.
  - right. split; [discriminate|]. exists x. unfold font_position.
    rewrite (loop_present _ _ _ _ _ _ Hr). unfold checksum_test. rewrite Ho, E. reflexivity.
  - destruct (Hd _ E).
Qed.

Lemma gate_take {A} d this t r (m : M A) e p :
  ignore_invalid_checksums (opts e) = false ->
  (forall r, record_checksum d (content e) r <> Panic) ->
  first_record (offsets_records (font_offsets this)) (table_tag t) r ->
  record_checksum d (content e) r <> Ok (offset_record_checksum r) ->
  exists x, font_take d this t m e p = Err x.
Proof.
  intros Ho Hd Hr Hc. destruct (gate_position d this t r e p Ho Hd Hr) as [[H _]|[_ [x H]]].
  - contradiction.
  - exists x. unfold font_take, bind. rewrite H. reflexivity.
Qed.

Lemma ignored_loop d d' xs ys t e p :
  ignore_invalid_checksums (opts e) = true -> Forall2 same_but_checksum xs ys ->
  font_position_loop d xs t e p = font_position_loop d' ys t e p.
Proof.
  intros Ho H. induction H as [|x y xs ys (Ht & Hf & _) _ IH]; [reflexivity|].
  cbn. rewrite Ht. destruct (tag_eqb _ t); [|exact IH].
  unfold bind, ask, jump, ret. rewrite Ho, Hf. reflexivity.
Qed.

Lemma ignored_position d d' x y t e p :
  ignore_invalid_checksums (opts e) = true -> same_but_checksums x y ->
  font_position d x t e p = font_position d' y t e p.
Proof. intros Ho H. apply ignored_loop; assumption. Qed.

Lemma ignored_take {A} d d' x y t (m : M A) e p :
  ignore_invalid_checksums (opts e) = true -> same_but_checksums x y ->
  font_take d x t m e p = font_take d' y t m e p.
Proof.
  intros Ho H. unfold font_take, bind. rewrite (ignored_position d d' x y) by assumption. reflexivity.
Qed.

(** ** Histories *)

Lemma take_any_cursor {A} d this t (m : M A) e p q :
  outcome (font_take d this t m e p) = outcome (font_take d this t m e q).
Proof.
  destruct (font_exists this t) eqn:E.
  - destruct (exists_first this t E) as [r Hr].
    rewrite !(take_present _ _ _ _ _ _ _ Hr). reflexivity.
  - rewrite !absent_take by assumption. reflexivity.
Qed.

Lemma position_any_cursor d this t e p q :
  outcome (font_position d this t e p) = outcome (font_position d this t e q).
Proof.
  destruct (font_exists this t) eqn:E.
  - destruct (exists_first this t E) as [r Hr]. unfold font_position.
    rewrite !(loop_present _ _ _ _ _ _ Hr). reflexivity.
  - rewrite !absent_position by assumption. reflexivity.
Qed.

Lemma session_fresh d e p l : session d e p l -> Forall (as_fresh d e) l.
Proof.
  induction 1; constructor; cbn; auto using take_any_cursor, position_any_cursor.
Qed.

(** ** Panics *)

Lemma take_no_panic {A} d this t (m : M A) e p :
  (forall r, record_checksum d (content e) r <> Panic) ->
  (forall q, m e q <> Panic) ->
  font_take d this t m e p <> Panic.
Proof.
  intros Hd Hm. destruct (font_exists this t) eqn:E.
  - destruct (exists_first this t E) as [r Hr]. rewrite (take_present _ _ _ _ _ _ _ Hr).
    unfold checksum_test. destruct (ignore_invalid_checksums (opts e)).
    + specialize (Hm (offset_record_offset r)). destruct (m e _) as [[]| |]; congruence.
    + specialize (Hd r). destruct (record_checksum d (content e) r); try congruence.
      destruct (_ =? _); [|discriminate].
      specialize (Hm (offset_record_offset r)). destruct (m e _) as [[]| |]; congruence.
  - rewrite absent_take by assumption. discriminate.
Qed.

(** ** Tags of tables and files *)

Lemma table_tag_injective s t : table_tag s = table_tag t -> s = t.
Proof. destruct s, t; cbn; intros H; first [reflexivity | discriminate H]. Qed.

Lemma accept_iff d t : accept d t = true <-> t = ttcf \/ truetype_accept d t = true.
Proof. unfold accept. rewrite orb_true_iff, tag_eqb_eq. reflexivity. Qed.

Lemma file_iff d o f p v :
  bounded f ->
  (reads o (read_file d) f p v <->
   exists offsets, v = mkFile [mkFont offsets] /\
     offsets_header_tag (offsets_header offsets) <> Tag "t" "t" "c" "f" /\
     truetype_accept d (offsets_header_tag (offsets_header offsets)) = true /\
     offsets_at f p offsets).
Proof. intros Hb. exact (proj2 (read_file_finds True d (mkEnv f o) p) v). Qed.

Lemma collection_refused d o f p :
  tag_at f p (Tag "t" "t" "c" "f") -> fails o (read_file d) f p.
Proof.
  intros (H0 & H1 & H2 & H3). exists Unsupported.
  unfold read_file, bind, peek, stay, take_tag, bind, take_byte. cbn [content].
  rewrite H0, H1, <- N.add_assoc. cbn [N.add Pos.add Pos.succ].
  rewrite H2, <- N.add_assoc. cbn [N.add Pos.add Pos.succ]. rewrite H3. reflexivity.
Qed.

Lemma file_accepted d o f p v :
  bounded f -> reads o (read_file d) f p v ->
  forall font, In font (file_fonts v) ->
  accept d (offsets_header_tag (offsets_header (font_offsets font))) = true.
Proof.
  intros Hb H font Hf. apply file_iff in H; [|assumption].
  destruct H as (offsets & -> & _ & Ha & _). destruct Hf as [<-|[]].
  apply accept_iff. right. exact Ha.
Qed.

(** ** Getters *)

Lemma find_record_spec {H R} (tag_of : H -> tag) all_headers headers (records : list R) i t :
  length records = length all_headers ->
  (forall j h, nth_error headers j = Some h -> nth_error all_headers (i + j) = Some h) ->
  (forall j h, nth_error all_headers (i + j) = Some h -> nth_error headers j = Some h) ->
  (forall j h, (j < i)%nat -> nth_error all_headers j = Some h -> tag_of h <> t) ->
  exists found, find_record tag_of headers records i t = Ok found /\
    first_match tag_of all_headers records t found.
Proof.
  intros Hlen. revert i. induction headers as [|h headers IH]; intros i Hto Hof Hb; cbn.
  - exists None. split; [reflexivity|]. intros h Hh. apply In_nth_error in Hh.
    destruct Hh as [j Hj]. destruct (Nat.lt_ge_cases j i) as [Hji|Hji]; [exact (Hb j h Hji Hj)|].
    specialize (Hof (j - i)%nat h). replace (i + (j - i))%nat with j in Hof by lia.
    specialize (Hof Hj). destruct (j - i)%nat; discriminate Hof.
  - pose proof (Hto O h eq_refl) as Hh. rewrite Nat.add_0_r in Hh.
    destruct (tag_eqb (tag_of h) t) eqn:E.
    + assert (Hi : (i < length records)%nat)
        by (rewrite Hlen; apply nth_error_Some; congruence).
      destruct (nth_error records i) as [r|] eqn:Hr;
        [|apply nth_error_None in Hr; lia].
      exists (Some r). split; [reflexivity|].
      exists i, h. repeat split; try assumption. apply tag_eqb_eq, E.
    + apply IH.
      * intros j h' Hj. rewrite <- (Hto (S j) h' Hj). f_equal. lia.
      * intros j h' Hj. replace (S i + j)%nat with (i + S j)%nat in Hj by lia.
        exact (Hof (S j) h' Hj).
      * intros j h' Hj Hj'. destruct (Nat.eq_dec j i) as [->|Hne].
        -- rewrite Hh in Hj'. injection Hj' as <-. intros Ht. apply tag_eqb_eq in Ht. congruence.
        -- apply (Hb j); [lia|assumption].
Qed.

Lemma find_record_first {H R} (tag_of : H -> tag) headers (records : list R) t :
  length records = length headers ->
  exists found, find_record tag_of headers records 0 t = Ok found /\
    first_match tag_of headers records t found.
Proof.
  intros Hlen. apply find_record_spec; auto. intros j h Hj. lia.
Qed.
