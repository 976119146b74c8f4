(** Lemmas about the names of tables and of numbered features. *)

From Verif Require Export ModelTags SpecNames.
From Verif Require Import ProofAccess ProofTags ProofOrder.
From Coq Require Import Ascii String.
Local Open Scope string_scope.

Lemma spelled_injective t u : spelled t = spelled u -> t = u.
Proof.
  destruct t as [a b c d], u as [a' b' c' d']. cbn [spelled]. intros [= A B C D].
  apply (f_equal byte_of_ascii) in A, B, C, D. rewrite !byte_of_ascii_of_byte in A, B, C, D. congruence.
Qed.

Lemma table_spelled t : spelled (table_tag t) = table_name t.
Proof. destruct t; reflexivity. Qed.

Lemma exists_spelled this t :
  font_exists this t = true <->
  exists r, In r (offsets_records (font_offsets this)) /\ spelled (offset_record_tag r) = table_name t.
Proof.
  rewrite exists_iff, <- table_spelled. split; intros (r & Hr & H); exists r; (split; [exact Hr|]).
  - rewrite H. reflexivity.
  - apply spelled_injective, H.
Qed.

(** All numbers below a hundred. *)
Definition numbers : list N := map N.of_nat (seq 0 100).

Lemma below_hundred (P : N -> bool) : forallb P numbers = true -> forall n, (n < 100)%N -> P n = true.
Proof.
  intros H n L. rewrite forallb_forall in H. apply H. unfold numbers. apply in_map_iff. exists (N.to_nat n).
  split; [lia|]. apply in_seq. lia.
Qed.

Definition byte_digit (n : N) : byte := byte_of_ascii (ascii_of_N (48 + n)%N).

Definition numbered (a b : byte) (n : N) : tag := Tag a b (byte_digit (n / 10)) (byte_digit (n mod 10)).

Lemma numbered_spelled a b n :
  spelled (numbered a b n) = String (ascii_of_byte a) (String (ascii_of_byte b) (two_digits n)).
Proof.
  unfold numbered, byte_digit. cbn [spelled]. rewrite !ascii_of_byte_of_ascii. reflexivity.
Qed.

(** Whether the number [n] of a series up to [last] is named as it should be. *)
Definition in_series (a b : byte) (series : string) (last n : N) : bool :=
  match feature_from_tag (numbered a b n) with
  | FeatureOther _ => (n =? 0)%N || (last <? n)%N
  | v => (1 <=? n)%N && (n <=? last)%N &&
      match feature_name v with Some name => String.eqb name (series ++ decimal n) | None => false end
  end.

Lemma in_series_named a b series last n : in_series a b series last n = true ->
  (feature_named (feature_from_tag (numbered a b n)) <-> 1 <= n <= last)%N /\
  (1 <= n <= last -> feature_name (feature_from_tag (numbered a b n)) = Some (series ++ decimal n))%N.
Proof.
  unfold in_series. destruct (feature_either (feature_from_tag (numbered a b n))) as [H|[t H]].
  - assert (X : match feature_from_tag (numbered a b n) with
      | FeatureOther _ => (n =? 0)%N || (last <? n)%N
      | v => (1 <=? n)%N && (n <=? last)%N &&
          match feature_name v with Some name => String.eqb name (series ++ decimal n) | None => false end
      end = (1 <=? n)%N && (n <=? last)%N && match feature_name (feature_from_tag (numbered a b n)) with
        Some name => String.eqb name (series ++ decimal n) | None => false end).
    { destruct (feature_from_tag (numbered a b n)); try reflexivity. destruct (H _ eq_refl). }
    rewrite X. clear X. intros X. apply andb_prop in X. destruct X as [X Y]. apply andb_prop in X.
    destruct X as [X Z].
    apply N.leb_le in X, Z. split; [split; [intros _; lia|intros _; exact H]|]. intros _.
    destruct (feature_name _) as [s|]; [|discriminate]. apply String.eqb_eq in Y. congruence.
  - rewrite H. intros X. apply orb_prop in X. rewrite N.eqb_eq, N.ltb_lt in X.
    split; [|lia]. split; [|lia]. intros Y. destruct (Y t eq_refl).
Qed.

Lemma variants_numbered t n : (n < 100)%N -> spelled t = "cv" ++ two_digits n ->
  (feature_named (feature_from_tag t) <-> 1 <= n)%N /\
  (1 <= n -> feature_name (feature_from_tag t) = Some ("Character Variants " ++ decimal n))%N.
Proof.
  intros L H. rewrite (spelled_injective t (numbered "c" "v" n)) by (rewrite numbered_spelled; exact H).
  destruct (in_series_named "c" "v" "Character Variants " 99 n) as [X Y].
  - apply (below_hundred (in_series "c" "v" "Character Variants " 99)); [vm_compute; reflexivity|exact L].
  - split; [rewrite X; lia|]. intros P. apply Y. lia.
Qed.

Lemma sets_numbered t n : (n < 100)%N -> spelled t = "ss" ++ two_digits n ->
  (feature_named (feature_from_tag t) <-> 1 <= n <= 20)%N /\
  (1 <= n <= 20 -> feature_name (feature_from_tag t) = Some ("Stylistic Set " ++ decimal n))%N.
Proof.
  intros L H. rewrite (spelled_injective t (numbered "s" "s" n)) by (rewrite numbered_spelled; exact H).
  apply in_series_named. apply (below_hundred (in_series "s" "s" "Stylistic Set " 20)); [vm_compute; reflexivity|exact L].
Qed.

(** Whether all pairs of a list satisfy a symmetric condition. *)
Fixpoint all_pairs {A} (P : A -> A -> bool) (l : list A) : bool :=
  match l with
  | [] => true
  | x :: l => forallb (P x) l && all_pairs P l
  end.

Lemma all_pairs_sound {A} (P : A -> A -> bool) l : (forall x y, P x y = P y x) -> all_pairs P l = true ->
  forall x y, In x l -> In y l -> x = y \/ P x y = true.
Proof.
  intros S. induction l as [|z l IH]; [intros _ x y []|]. cbn [all_pairs]. intros H. apply andb_prop in H.
  destruct H as [H K]. rewrite forallb_forall in H.
  intros x y [<-|X] [<-|Y]; [left; reflexivity|right; apply H, Y|right; rewrite S;
    apply H, X|apply IH; assumption].
Qed.

Definition same_name (s t : option string) : bool :=
  match s, t with Some s, Some t => String.eqb s t | _, _ => false end.

Lemma same_name_symmetric s t : same_name s t = same_name t s.
Proof. destruct s, t; try reflexivity. apply String.eqb_sym. Qed.

Lemma feature_names_apart v w :
  feature_named v -> feature_named w -> feature_name v = feature_name w -> v = w.
Proof.
  intros Hv Hw E.
  assert (S : all_pairs (fun v w => negb (same_name (feature_name v) (feature_name w)))
    (map snd feature_rows) = true)
    by (vm_compute; reflexivity).
  destruct (all_pairs_sound _ _ (fun x y => f_equal negb (same_name_symmetric _ _)) S v w) as [X|X];
    [eapply nth_error_In, feature_ranked, Hv|eapply nth_error_In, feature_ranked, Hw|exact X|].
  rewrite <- E in X. destruct (feature_name v) eqn:N;
    [|apply names_present in N; destruct N as [t N]; destruct (Hv t N)].
  cbn [same_name] in X. rewrite String.eqb_refl in X. discriminate X.
Qed.

Definition revisedb (t : tag) : bool := let '(Tag _ _ _ d) := t in Byte.eqb d "2"%byte.

Lemma revisedb_spec t : revisedb t = true <-> revised t.
Proof.
  destruct t as [a b c d]. cbn [revisedb revised]. split.
  - apply Byte.byte_dec_bl.
  - apply Byte.byte_dec_lb.
Qed.

Lemma script_names_apart v w :
  script_named v -> script_named w -> v <> w -> script_name v = script_name w ->
  (revised (script_tag v) /\ ~ revised (script_tag w)) \/ (~ revised (script_tag v) /\ revised (script_tag w)).
Proof.
  intros Hv Hw D E.
  assert (S : all_pairs (fun v w => negb (same_name (script_name v) (script_name w)) ||
    xorb (revisedb (script_tag v)) (revisedb (script_tag w))) (map snd script_rows) = true)
    by (vm_compute; reflexivity).
  assert (Y : forall v w, (negb (same_name (script_name v) (script_name w)) ||
    xorb (revisedb (script_tag v)) (revisedb (script_tag w)) = negb
      (same_name (script_name w) (script_name v)) ||
    xorb (revisedb (script_tag w)) (revisedb (script_tag v)))%bool)
    by (intros x y; rewrite same_name_symmetric, xorb_comm; reflexivity).
  destruct (all_pairs_sound _ _ Y S v w) as [X|X];
    [eapply nth_error_In, script_ranked, Hv|eapply nth_error_In, script_ranked, Hw|contradiction|].
  rewrite <- E in X. destruct (script_name v) eqn:N;
    [|apply script_names_present in N; destruct N as [t N]; destruct (Hv t N)].
  cbn [same_name] in X. rewrite String.eqb_refl in X. cbn [negb orb] in X.
  pose proof (revisedb_spec (script_tag v)) as A. pose proof (revisedb_spec (script_tag w)) as B.
  destruct (revisedb (script_tag v)), (revisedb (script_tag w)); try discriminate X; [left|right];
    split; try tauto; intros K; [apply B in K|apply A in K]; discriminate K.
Qed.
