(** The bytes a value is made of, for property C86. *)

From Coq Require Import Lia.
From Verif Require Import ProofRequests ProofPieces ProofPlaces ProofCommon.
From Verif Require ProofGpos.
From Verif Require Export SpecOwned.

(** ** The fields are there *)

Definition covers (f : file) (p n : N) : Prop := forall i, p <= i < p + n -> f i <> None.

Section Covers.
Context (f : file).

Lemma covers_u8 p v : u8_at f p v -> covers f p 1.
Proof. intros (b & E & _) i Hi. assert (i = p) by lia. subst i. congruence. Qed.

Lemma covers_u16 p v : u16_at f p v -> covers f p 2.
Proof.
  intros (b & c & E & F & _) i Hi. assert (i = p \/ i = p + 1) as [->| ->] by lia; congruence.
Qed.

Lemma covers_app p n m : covers f p n -> covers f (p + n) m -> covers f p (n + m).
Proof. intros H K i Hi. destruct (N.lt_ge_cases i (p + n)); [apply H|apply K]; lia. Qed.

Lemma covers_u32 p v : u32_at f p v -> covers f p 4.
Proof. intros (h & l & H & L & _). exact (covers_app p 2 2 (covers_u16 _ _ H) (covers_u16 _ _ L)). Qed.

Lemma covers_i16 p v : i16_at f p v -> covers f p 2.
Proof. intros (u & H & _). exact (covers_u16 _ _ H). Qed.

Lemma covers_i32 p v : i32_at f p v -> covers f p 4.
Proof. intros (u & H & _). exact (covers_u32 _ _ H). Qed.

Lemma covers_tag p v : tag_at f p v -> covers f p 4.
Proof.
  destruct v. intros (A & B & C & D) i Hi.
  assert (i = p \/ i = p + 1 \/ i = p + 2 \/ i = p + 3) as [->|[->|[->| ->]]] by lia; congruence.
Qed.

Lemma covers_flags c r p v : flags_at c r f p v -> covers f p 2.
Proof. intros [H _]. exact (covers_u16 _ _ H). Qed.

Lemma covers_vec {A} (elem : N -> A -> Prop) stride p n vs :
  (forall q v, elem q v -> covers f q stride) -> vec_at elem stride p n vs -> covers f p (stride * n).
Proof.
  intros K [L H] i Hi. assert (Hs : stride <> 0) by (intros ->; lia).
  assert (G : exists j m, i = p + stride * j + m /\ m < stride /\ j < n).
  { exists ((i - p) / stride), ((i - p) mod stride). split; [|split].
    - rewrite <- N.add_assoc, <- N.div_mod by exact Hs. lia.
    - apply N.mod_lt, Hs.
    - apply N.div_lt_upper_bound; [exact Hs|lia]. }
  destruct G as (j & m & -> & Hm & Hj).
  destruct (nth_error vs (N.to_nat j)) as [v|] eqn:E; [|apply nth_error_None in E; lia].
  apply H in E. rewrite N2Nat.id in E. apply (K _ _ E). lia.
Qed.

Lemma covers_u8s p n vs : u8s_at f p n vs -> covers f p n.
Proof. intros H. apply (covers_vec _ _ _ _ _ covers_u8) in H. rewrite N.mul_1_l in H. exact H. Qed.

Lemma covers_u16s p n vs : u16s_at f p n vs -> covers f p (2 * n).
Proof. apply covers_vec, covers_u16. Qed.

Lemma covers_u32s p n vs : u32s_at f p n vs -> covers f p (4 * n).
Proof. apply covers_vec, covers_u32. Qed.

Lemma covers_i32s p n vs : i32s_at f p n vs -> covers f p (4 * n).
Proof. apply covers_vec, covers_i32. Qed.

Lemma covers_field {A} (elem : N -> A -> Prop) flags k p v :
  (forall q v, elem q v -> covers f q 2) -> covers f p (2 * bits_below flags k) ->
  field_at elem flags k p v -> covers f p (2 * bits_below flags (S k)).
Proof.
  intros K C H. rewrite ProofGpos.bits_below_next. destruct v as [v|]; cbn in H.
  - destruct H as [-> H]. replace (2 * _) with (2 * bits_below flags k + 2) by lia.
    apply covers_app; [exact C|]. exact (K _ _ H).
  - rewrite H. rewrite N.add_0_r. exact C.
Qed.

End Covers.

Ltac noted :=
  repeat match goal with
  | H : u8_at _ _ _ |- _ => apply covers_u8 in H
  | H : u16_at _ _ _ |- _ => apply covers_u16 in H
  | H : u32_at _ _ _ |- _ => apply covers_u32 in H
  | H : i16_at _ _ _ |- _ => apply covers_i16 in H
  | H : i32_at _ _ _ |- _ => apply covers_i32 in H
  | H : tag_at _ _ _ |- _ => apply covers_tag in H
  | H : flags_at _ _ _ _ _ |- _ => apply covers_flags in H
  | H : value_flags_at _ _ _ _ |- _ => apply covers_flags in H
  | H : u8s_at _ _ _ _ |- _ => apply covers_u8s in H
  | H : u16s_at _ _ _ _ |- _ => apply covers_u16s in H
  | H : u32s_at _ _ _ _ |- _ => apply covers_u32s in H
  | H : i32s_at _ _ _ _ |- _ => apply covers_i32s in H
  end.

Ltac covered :=
  let i := fresh "i" in let Hi := fresh "Hi" in
  intros i Hi E;
  repeat match goal with
  | H : covers ?f ?q ?n |- _ =>
      let G := fresh "G" in assert (G : ~ (q <= i < q + n)) by (intros G; exact (H i G E)); clear H
  end; cbn [coverage1_glyph_count class1_glyph_count] in *; lia.

Lemma fields_there o f {A} (r : piece A) v p : piece_conforms o r f p v -> covers f p (body r v).
Proof.
  intros H. destruct r; cbn [piece_conforms body] in *;
    try solve [intros i Hi; lia | destruct v; hnf in H; apart H; noted; covered].
  - destruct v. hnf in H. apart H. rewrite <- (proj1 H) in H. noted. covered.
  - destruct v as [type_ flags count offsets [set|] tables]; hnf in H; apart H; [destruct H4|]; noted; covered.
  - destruct v as [type_ flags count offsets [set|] tables]; hnf in H; apart H; [destruct H4|]; noted; covered.
  - destruct v. hnf in H. apart H. rewrite <- (proj1 H) in H. noted. covered.
  - destruct v. hnf in H. apart H. unfold value_size.
    repeat (eapply covers_field; [| |eassumption]; [first [exact (covers_i16 f)|exact (covers_u16 f)]|]).
    intros i Hi. cbn in Hi. lia.
Qed.

(** ** The fields are enough *)

Lemma bits_below_mono flags k j : bits_below flags k <= bits_below flags (k + j).
Proof.
  induction j as [|j IH]; [rewrite Nat.add_0_r; lia|]. rewrite Nat.add_succ_r, ProofGpos.bits_below_next.
  destruct (N.testbit _ _); lia.
Qed.

Section Same.
Context (f g : file) (p n : N) (S : forall i, p <= i < p + n -> g i = f i).

Lemma same_u8 q v : u8_at f q v -> p <= q -> q + 1 <= p + n -> u8_at g q v.
Proof. intros (b & E & F) L M. exists b. rewrite S by lia. auto. Qed.

Lemma same_u16 q v : u16_at f q v -> p <= q -> q + 2 <= p + n -> u16_at g q v.
Proof. intros (b & c & E & F & G) L M. exists b, c. rewrite !S by lia. auto. Qed.

Lemma same_u32 q v : u32_at f q v -> p <= q -> q + 4 <= p + n -> u32_at g q v.
Proof.
  intros (h & l & E & F & G) L M. exists h, l. split; [apply same_u16; [exact E|lia..]|].
  split; [apply same_u16; [exact F|lia..]|exact G].
Qed.

Lemma same_i16 q v : i16_at f q v -> p <= q -> q + 2 <= p + n -> i16_at g q v.
Proof. intros (u & E & F) L M. exists u. split; [apply same_u16; assumption|exact F]. Qed.

Lemma same_i32 q v : i32_at f q v -> p <= q -> q + 4 <= p + n -> i32_at g q v.
Proof. intros (u & E & F) L M. exists u. split; [apply same_u32; assumption|exact F]. Qed.

Lemma same_tag q v : tag_at f q v -> p <= q -> q + 4 <= p + n -> tag_at g q v.
Proof. destruct v. intros H L M. unfold tag_at in *. rewrite !S by lia. exact H. Qed.

Lemma same_flags c r q v : flags_at c r f q v -> p <= q -> q + 2 <= p + n -> flags_at c r g q v.
Proof. intros [H K] L M. split; [apply same_u16; assumption|exact K]. Qed.

Lemma same_vec {A} (P Q : N -> A -> Prop) stride q m vs :
  (forall q v, P q v -> p <= q -> q + stride <= p + n -> Q q v) ->
  vec_at P stride q m vs -> p <= q -> q + stride * m <= p + n -> vec_at Q stride q m vs.
Proof.
  intros K [E H] L M. split; [exact E|]. intros i v Hv. apply K; [apply H, Hv|lia|].
  assert (i < length vs)%nat by (apply nth_error_Some; congruence).
  assert (stride * (N.of_nat i + 1) <= stride * m) by (apply N.mul_le_mono_l; lia). lia.
Qed.

Lemma same_u8s q m vs : u8s_at f q m vs -> p <= q -> q + m <= p + n -> u8s_at g q m vs.
Proof. intros H L M. apply (same_vec (u8_at f) _ 1); [exact same_u8|exact H|exact L|lia]. Qed.

Lemma same_u16s q m vs : u16s_at f q m vs -> p <= q -> q + 2 * m <= p + n -> u16s_at g q m vs.
Proof. apply same_vec, same_u16. Qed.

Lemma same_u32s q m vs : u32s_at f q m vs -> p <= q -> q + 4 * m <= p + n -> u32s_at g q m vs.
Proof. apply same_vec, same_u32. Qed.

Lemma same_i32s q m vs : i32s_at f q m vs -> p <= q -> q + 4 * m <= p + n -> i32s_at g q m vs.
Proof. apply same_vec, same_i32. Qed.

Lemma same_field {A} (P Q : N -> A -> Prop) flags k v :
  (forall q v, P q v -> p <= q -> q + 2 <= p + n -> Q q v) ->
  field_at P flags k p v -> (k < 8)%nat -> n = value_size flags -> field_at Q flags k p v.
Proof.
  intros K H L ->. destruct v as [v|]; [|exact H]. destruct H as [T H]. split; [exact T|].
  apply K; [exact H|lia|].
  pose proof (bits_below_mono flags (Datatypes.S k) (7 - k)) as G.
  rewrite ProofGpos.bits_below_next, T in G.
  replace (Datatypes.S k + (7 - k))%nat with 8%nat in G by lia. unfold value_size. lia.
Qed.

End Same.

Section Parts.
Context (o : options) (f g : file).

Lemma back_here {A} (r : piece A) v p : Forall (present o g) (here r v p) -> piece_conforms o r g p v.
Proof. intros H. inversion H as [|x l [_ C] _]. exact C. Qed.

Lemma back_in_turn {A} (P : N -> A -> Prop) (r : piece A) stride p n vs :
  vec_at P stride p n vs -> Forall (present o g) (in_turn r stride p vs) ->
  vec_at (piece_conforms o r g) stride p n vs.
Proof.
  intros [L _] H. split; [exact L|]. intros i v Hi. rewrite Forall_forall in H.
  assert (G : forall (l : list A) k j, nth_error l j = Some v ->
    In ((k + j)%nat, v) (combine (seq k (length l)) l)).
  { clear. induction l as [|w l IH]; intros k [|j] E; cbn in E; try discriminate; cbn.
    - injection E as ->. left. f_equal. lia.
    - right. replace (k + Datatypes.S j)%nat with (Datatypes.S k + j)%nat by lia. apply IH, E. }
  destruct (H (Place r v (p + stride * N.of_nat i))) as [_ C]; [|exact C].
  apply in_map_iff. exists (i, v). split; [reflexivity|]. exact (G vs 0%nat i Hi).
Qed.

Lemma back_by_offsets {A} (P : N -> A -> Prop) (r : piece A) base offsets vs :
  linked_at P base offsets vs -> Forall (present o g) (by_offsets r base offsets vs) ->
  linked_at (piece_conforms o r g) base offsets vs.
Proof.
  intros H. unfold by_offsets. induction H as [|offset v offsets vs _ _ IH]; cbn; intros K; [constructor|].
  inversion K as [|x l [_ C] K']. constructor; [exact C|]. apply IH, K'.
Qed.

Lemma back_by_offset {A} (P : N -> A -> Prop) (r : piece A) base offset v :
  maybe_at P base offset v -> Forall (present o g) (by_offset r base offset v) ->
  maybe_at (piece_conforms o r g) base offset v.
Proof.
  destruct v as [v|]; cbn; [|auto]. intros [N _] K. inversion K as [|x l [_ C] _]. split; [exact N|exact C].
Qed.

Lemma back_by_some_offsets {A} (P : N -> A -> Prop) (r : piece A) base offsets vs :
  maybes_at P base offsets vs -> Forall (present o g) (by_some_offsets r base offsets vs) ->
  maybes_at (piece_conforms o r g) base offsets vs.
Proof.
  intros H. unfold by_some_offsets. induction H as [|offset v offsets vs M _ IH];
    cbn [combine flat_map]; intros K; [constructor|].
  apply Forall_app in K. destruct K as [K1 K2]. constructor; [|apply IH, K2].
  exact (back_by_offset P r base offset v M K1).
Qed.

Lemma back_by_maybe_offset base offset v :
  corrected_at f base offset v -> Forall (present o g) (by_maybe_offset PieceCorrection base offset v) ->
  corrected_at g base offset v.
Proof.
  destruct offset as [offset|]; cbn; [|auto]. exact (back_by_offset _ PieceCorrection base offset v).
Qed.

Lemma back_value base flags p v :
  value_at f base flags p v -> Forall (present o g) (value_place base flags p v) -> value_at g base flags p v.
Proof.
  destruct v as [v|]; cbn; [|auto]. intros [N _] K. split; [exact N|]. exact (back_here _ _ _ K).
Qed.

Lemma back_list {A} (P : N -> A -> Prop) (r : piece A) base offset default v :
  list_at o P base offset default v -> Forall (present o g) (list_place o r base offset v) ->
  list_at o (piece_conforms o r g) base offset default v.
Proof.
  intros H K. destruct H as [H|[N H]]; [left; exact H|right]. split; [exact N|]. unfold list_place in K.
  destruct (N.eqb_spec offset 0) as [E|E]; cbn [andb] in K; [|exact (back_here _ _ _ K)].
  destruct N as [N|N]; [contradiction|]. rewrite N in K. exact (back_here _ _ _ K).
Qed.

End Parts.

Ltac sorted := repeat match goal with F : Forall _ (_ ++ _) |- _ => apply Forall_app in F; destruct F end.

Ltac within := cbn [coverage1_glyph_count class1_glyph_count]; lia.

Ltac stays S :=
  match goal with
  | |- _ /\ _ => split; stays S
  | H : u8_at _ ?q ?v |- u8_at _ ?q ?v => apply (same_u8 _ _ _ _ S q v H); within
  | H : u16_at _ ?q ?v |- u16_at _ ?q ?v => apply (same_u16 _ _ _ _ S q v H); within
  | H : u32_at _ ?q ?v |- u32_at _ ?q ?v => apply (same_u32 _ _ _ _ S q v H); within
  | H : i16_at _ ?q ?v |- i16_at _ ?q ?v => apply (same_i16 _ _ _ _ S q v H); within
  | H : i32_at _ ?q ?v |- i32_at _ ?q ?v => apply (same_i32 _ _ _ _ S q v H); within
  | H : tag_at _ ?q ?v |- tag_at _ ?q ?v => apply (same_tag _ _ _ _ S q v H); within
  | H : flags_at _ _ _ ?q ?v |- flags_at _ _ _ ?q ?v => apply (same_flags _ _ _ _ S _ _ q v H); within
  | H : value_flags_at _ _ ?q ?v |- value_flags_at _ _ ?q ?v => apply (same_flags _ _ _ _ S _ _ q v H); within
  | H : u8s_at _ ?q ?n ?v |- u8s_at _ ?q ?n ?v => apply (same_u8s _ _ _ _ S q n v H); within
  | H : u16s_at _ ?q ?n ?v |- u16s_at _ ?q ?n ?v => apply (same_u16s _ _ _ _ S q n v H); within
  | H : u32s_at _ ?q ?n ?v |- u32s_at _ ?q ?n ?v => apply (same_u32s _ _ _ _ S q n v H); within
  | H : i32s_at _ ?q ?n ?v |- i32s_at _ ?q ?n ?v => apply (same_i32s _ _ _ _ S q n v H); within
  | H : vec_at _ _ _ _ ?v, F : Forall _ (in_turn _ _ _ ?v) |- vec_at _ _ _ _ ?v =>
      exact (back_in_turn _ _ _ _ _ _ _ _ H F)
  | H : linked_at _ ?b ?n ?v, F : Forall _ (by_offsets _ ?b ?n ?v) |- linked_at _ _ _ ?v =>
      exact (back_by_offsets _ _ _ _ _ _ _ H F)
  | H : maybe_at _ ?b ?n ?v, F : Forall _ (by_offset _ ?b ?n ?v) |- maybe_at _ ?b ?n ?v =>
      exact (back_by_offset _ _ _ _ _ _ _ H F)
  | H : maybes_at _ ?b ?n ?v, F : Forall _ (by_some_offsets _ ?b ?n ?v) |- maybes_at _ ?b ?n ?v =>
      exact (back_by_some_offsets _ _ _ _ _ _ _ H F)
  | H : corrected_at _ ?b ?n ?v, F : Forall _ (by_maybe_offset _ ?b ?n ?v) |- corrected_at _ ?b ?n ?v =>
      exact (back_by_maybe_offset _ _ _ _ _ _ H F)
  | H : value_at _ _ _ ?q ?v, F : Forall _ (value_place _ _ ?q ?v) |- value_at _ _ _ ?q ?v =>
      exact (back_value _ _ _ _ _ _ _ H F)
  | H : list_at _ _ _ _ _ ?v, F : Forall _ (list_place _ _ _ _ ?v) |- list_at _ _ _ _ _ ?v =>
      exact (back_list _ _ _ _ _ _ _ _ H F)
  | F : Forall _ (here _ ?v ?q) |- _ => exact (back_here _ _ _ _ _ F)
  | |- _ = _ => assumption
  | |- _ <= _ => lia
  | |- _ -> _ => assumption
  | _ => idtac
  end.

Lemma fields_enough o f g {A} (r : piece A) v p :
  piece_conforms o r f p v -> (forall i, p <= i < p + body r v -> g i = f i) ->
  Forall (present o g) (places o r v p) -> piece_conforms o r g p v.
Proof.
  intros H S F. destruct r; cbn [piece_conforms body places] in *;
    try solve [destruct v; hnf in H; apart H; sorted; hnf; stays S].
  - destruct v. hnf in H. apart H. pose proof (proj1 H) as L. hnf. stays S.
  - destruct v as [offset count indices parameters]. hnf in H. apart H. hnf. stays S. exact H.
  - destruct v as [type_ flags count offsets set tables]. hnf in H. apart H. sorted. hnf. stays S.
    destruct set; [destruct H4|exact H4]. stays S.
  - destruct v as [type_ flags count offsets set tables]. hnf in H. apart H. sorted. hnf. stays S.
    destruct set; [destruct H4|exact H4]. stays S.
  - destruct v. hnf in H. apart H. pose proof (proj1 H) as L. hnf. stays S.
  - destruct v as [class_id offset anchor]. hnf in H. apart H. hnf. stays S.
    destruct H as [H|[N _]]; [left; exact H|right]. split; [exact N|].
    destruct (N.eqb_spec offset 0) as [E|E]; cbn [andb] in F; [|exact (back_here _ _ _ _ _ F)].
    destruct N as [N|N]; [contradiction|]. rewrite N in F. exact (back_here _ _ _ _ _ F).
  - destruct v. hnf in H. apart H. sorted. hnf.
    repeat (split; [first [
      eapply (same_field f g p _ S); [|eassumption|lia|reflexivity];
        [first [exact (same_i16 f g p _ S)|exact (same_u16 f g p _ S)]]
      | stays S]|]). stays S.
  - destruct v. exact (back_in_turn _ _ _ _ _ _ _ _ H F).
Qed.

Lemma table_there o f {A} (r : request A) v p : conforms o r f p v -> covers f p (table_body r v).
Proof.
  assert (O : forall q w, offsets_header_at f q w -> covers f q 12).
  { intros q w H. destruct w. hnf in H. apart H. noted. covered. }
  assert (R : forall q w, offset_record_at f q w -> covers f q 16).
  { intros q w H. destruct w. hnf in H. apart H. noted. covered. }
  assert (W : forall w, offsets_at f p w -> covers f p (12 + 16 * N.of_nat (length (offsets_records w)))).
  { intros [header records] [H K]. apply covers_app; [exact (O _ _ H)|]. cbn. rewrite (proj1 K).
    exact (covers_vec f _ _ _ _ _ R K). }
  assert (D : forall T (t : N -> file -> N -> T -> Prop) w, directory_at o t f p w ->
    covers f p (directory_body w)).
  { intros T t w H. destruct w as [? minor ? ? ? ? ? ? ? ?]. hnf in H. apart H. unfold directory_body. cbn.
    destruct H3 as [->| ->]; cbn; [noted; covered|]. specialize (H8 eq_refl). noted. covered. }
  intros H. destruct r; cbn [conforms table_body] in *; try solve [intros i Hi; lia].
  - destruct H as (offsets & -> & _ & _ & H). exact (W _ H).
  - exact (W _ (proj2 H)).
  - exact (D _ _ _ H).
  - exact (D _ _ _ H).
Qed.

Lemma table_enough o f g {A} (r : request A) v p :
  conforms o r f p v -> (forall i, p <= i < p + table_body r v -> g i = f i) ->
  Forall (present o g) (table_places o r v p) -> conforms o r g p v.
Proof.
  assert (W : forall w, offsets_at f p w ->
    (forall i, p <= i < p + (12 + 16 * N.of_nat (length (offsets_records w))) -> g i = f i) ->
      offsets_at g p w).
  { intros [[] records] H S. destruct H as [H K]. cbn [offsets_records] in S. cbn in K.
  pose proof (proj1 K) as L.
    split; [hnf in H; apart H; hnf; stays S|].
    eapply (same_vec p (12 + 16 * N.of_nat (length records))); [|exact K|lia|cbn; lia].
    intros q [] J ? ?. hnf in J. apart J. hnf. stays S. }
  intros H S F. destruct r; cbn [conforms table_body table_places] in *.
  - destruct H as (offsets & -> & N & T & H). exists offsets.
    repeat (split; [assumption||reflexivity|]). exact (W _ H S).
  - split; [exact (proj1 H)|]. exact (W _ (proj2 H) S).
  - destruct v as [header glyph_class attachments ligatures mark_class marks variations]. hnf in H |- *.
    destruct (gdef_offsets header) as [[[[[a b] c] d] e] i]. apart H. sorted. stays S.
  - destruct v as [? minor ? ? ? ? ? ? ? ?]. hnf in H |- *. unfold directory_places, directory_body in *.
    cbn -[list_place by_offset] in *. apart H. sorted.
    destruct H3 as [->| ->]; cbn in S; stays S;
      try solve [left; reflexivity | right; reflexivity | intros; discriminate].
    intros _. specialize (H8 eq_refl). stays S.
  - destruct v as [? minor ? ? ? ? ? ? ? ?]. hnf in H |- *. unfold directory_places, directory_body in *.
    cbn -[list_place by_offset] in *. apart H. sorted.
    destruct H3 as [->| ->]; cbn in S; stays S;
      try solve [left; reflexivity | right; reflexivity | intros; discriminate].
    intros _. specialize (H8 eq_refl). stays S.
  - destruct v as [header colors]. hnf in H |- *. destruct (cpal_layout header) as [[[a b] c] d].
    apart H. sorted. stays S.
  - destruct v as [[] axes instances]. hnf in H |- *. apart H. sorted. stays S.
Qed.

(** ** The parts come to an end *)

(** How deep the parts of a part are nested, at most. *)
Definition rank {A} (r : piece A) : nat :=
  match r with
  | PieceCoverage2 | PieceClass2 | PieceCorrection | PieceContextRecord | PieceContextClassRecord
  | PieceChainedRecord | PieceChainedClassRecord | PieceScriptRecord | PieceFeatures | PieceStore
  | PieceLigatures | PieceGdefHeader | PieceCpalHeader | PieceAxisRecord | PieceInstanceRecord _ => 1
  | PieceCoverage | PieceClass | PieceContextRecords | PieceContextClassRecords | PieceChainedRecords
  | PieceChainedClassRecords | PieceScripts | PieceAnchor3 | PieceSingle _ _ | PieceCaret3 => 2
  | PieceContext1 | PieceContext2 | PieceContext3 | PieceChainedContext1 | PieceChainedContext2
  | PieceChainedContext3 | PieceSingleSubstitution1 | PieceSingleSubstitution2 | PieceMultipleSubstitution
  | PieceAlternateSubstitution | PieceLigatureSubstitution | PieceReverseChainedContextualSubstibution
  | PieceAnchor | PiecePair1 _ _ _ | PiecePair2 _ _ _ | PieceSingleAdjustment1 | PieceSingleAdjustment2
  | PieceAttachments | PieceMarks | PieceCaret => 3
  | PieceContext | PieceChainedContext | PieceSingleSubstitution | PieceBase _ _ | PieceComponent _ _
  | PieceMark1 _ | PieceMark2 _ _ | PieceConnection _ | PiecePair1s _ _ | PiecePair2s _ _ _ _
  | PieceSingleAdjustment | PieceGdefLigature => 4
  | PieceGsubType _ | PieceBases _ | PieceGposLigature _ | PieceMark1s | PieceMark2s _
  | PiecePairAdjustment1 | PiecePairAdjustment2 | PieceCursiveAttachment | PieceGdefLigatures => 5
  | PieceGposLigatures _ | PiecePairAdjustment => 6
  | PieceMarkToBaseAttachment | PieceMarkToLigatureAttachment | PieceMarkToMarkAttachment => 7
  | PieceGposType _ => 8
  | PieceGsubLookupRecord | PieceGposLookupRecord => 9
  | PieceGsubLookups | PieceGposLookups => 10
  | _ => 0
  end.

Section Lower.
Context (n : nat).
Notation lower := (Forall (fun x => rank (place_piece x) < n)%nat).

Lemma lower_here {A} (r : piece A) v p : (rank r < n)%nat -> lower (here r v p).
Proof. repeat constructor; assumption. Qed.

Lemma lower_in_turn {A} (r : piece A) stride p vs : (rank r < n)%nat -> lower (in_turn r stride p vs).
Proof. intros H. apply Forall_forall. intros x Hx. apply in_map_iff in Hx.
  destruct Hx as [[i v] [<- _]]. exact H. Qed.

Lemma lower_by_offsets {A} (r : piece A) base offsets vs :
  (rank r < n)%nat -> lower (by_offsets r base offsets vs).
Proof. intros H. apply Forall_forall. intros x Hx. apply in_map_iff in Hx.
  destruct Hx as [[i v] [<- _]]. exact H. Qed.

Lemma lower_by_offset {A} (r : piece A) base offset v : (rank r < n)%nat -> lower (by_offset r base offset v).
Proof. intros H. destruct v; repeat constructor; assumption. Qed.

Lemma lower_by_some_offsets {A} (r : piece A) base offsets vs :
  (rank r < n)%nat -> lower (by_some_offsets r base offsets vs).
Proof.
  intros H. apply Forall_forall. intros x Hx. apply in_flat_map in Hx. destruct Hx as [[offset v] [_ Hx]].
  pose proof (lower_by_offset r base offset v H) as L. rewrite Forall_forall in L. exact (L x Hx).
Qed.

Lemma lower_by_maybe_offset {A} (r : piece A) base offset v :
  (rank r < n)%nat -> lower (by_maybe_offset r base offset v).
Proof. intros H. destruct offset; [apply lower_by_offset, H|constructor]. Qed.

Lemma lower_value base flags p v : (2 < n)%nat -> lower (value_place base flags p v).
Proof. intros H. destruct v; repeat constructor; exact H. Qed.

End Lower.

Ltac lowers :=
  lazymatch goal with
  | |- Forall _ [] => constructor
  | |- Forall _ (_ ++ _) => apply Forall_app; split; lowers
  | |- Forall _ (here _ _ _) => apply lower_here; cbn; lia
  | |- Forall _ (in_turn _ _ _ _) => apply lower_in_turn; cbn; lia
  | |- Forall _ (by_offsets _ _ _ _) => apply lower_by_offsets; cbn; lia
  | |- Forall _ (by_offset _ _ _ _) => apply lower_by_offset; cbn; lia
  | |- Forall _ (by_some_offsets _ _ _ _) => apply lower_by_some_offsets; cbn; lia
  | |- Forall _ (by_maybe_offset _ _ _ _) => apply lower_by_maybe_offset; cbn; lia
  | |- Forall _ (value_place _ _ _ _) => apply lower_value; cbn; lia
  | |- Forall _ (if ?b then _ else _) => destruct b; lowers
  end.

Lemma places_lower o {A} (r : piece A) v p :
  Forall (fun x => rank (place_piece x) < rank r)%nat (places o r v p).
Proof. destruct r; cbn [places]; try solve [constructor]; destruct v; lowers. Qed.

(** ** All fields *)

Lemma part_present o f g n : bounded f -> forall x, (rank (place_piece x) < n)%nat -> present o f x ->
  (forall y i, part o x y -> owns y i -> g i = f i) -> present o g x.
Proof.
  intros Hb. induction n as [|n IH]; intros x Hn [Hp Hx] S; [lia|]. split; [exact Hp|].
  apply (fields_enough o f g _ _ _ Hx).
  - intros i Hi. apply (S x); [apply part_self|exact Hi].
  - pose proof (places_present o f _ _ _ Hb Hp Hx) as F. rewrite Forall_forall in F.
    pose proof (places_lower o (place_piece x) (place_value x) (place_position x)) as L.
    rewrite Forall_forall in L.
    apply Forall_forall. intros y Hy. apply IH; [specialize (L y Hy); cbn in L; lia|exact (F y Hy)|].
    intros z i Hz. apply S. exact (part_next o x y z Hy Hz).
Qed.

Lemma inside_parts o {A} (r : request A) v p x y : inside o r v p x -> part o x y -> inside o r v p y.
Proof.
  intros I H. induction H as [|x y z Hy _ IH]; [exact I|]. apply IH. exact (inside_part o r v p x y I Hy).
Qed.

Lemma conforms_enough o f g {A} (r : request A) v p :
  bounded f -> conforms o r f p v -> (forall i, made_of o r v p i -> g i = f i) -> conforms o r g p v.
Proof.
  intros Hb H S. apply (table_enough o f g r v p H); [intros i Hi; apply S; left; exact Hi|].
  apply Forall_forall. intros x Hx. apply inside_table in Hx.
  eapply part_present; [exact Hb|apply Nat.lt_succ_diag_r|exact (inside_present o f r v p x Hb H Hx)|].
  intros y i Hy Hi. apply S. right. exists y. split; [|exact Hi]. exact (inside_parts o r v p x y Hx Hy).
Qed.

Lemma made_there o f {A} (r : request A) v p i :
  bounded f -> conforms o r f p v -> made_of o r v p i -> f i <> None.
Proof.
  intros Hb H [Hi|(x & I & Hi)]; [exact (table_there o f r v p H i Hi)|].
  destruct (inside_present o f r v p x Hb H I) as [_ Hx]. exact (fields_there o f _ _ _ Hx i Hi).
Qed.

(** ** Whether a byte is in a field can be decided *)

Fixpoint touched (o : options) (i : N) (n : nat) (x : place) : bool :=
  (place_position x <=? i) && (i <? place_position x + body (place_piece x) (place_value x)) ||
  match n with
  | O => false
  | S n => existsb (touched o i n) (places o (place_piece x) (place_value x) (place_position x))
  end.

Lemma touched_part o i n : forall x, (rank (place_piece x) <= n)%nat ->
  touched o i n x = true <-> exists y, part o x y /\ owns y i.
Proof.
  assert (O : forall x, (place_position x <=? i) &&
    (i <? place_position x + body (place_piece x) (place_value x)) = true
    <-> owns x i).
  { intros x. unfold owns. rewrite andb_true_iff, N.leb_le, N.ltb_lt. reflexivity. }
  induction n as [|n IH]; intros x Hn;
    pose proof (places_lower o (place_piece x) (place_value x) (place_position x)) as L;
    rewrite Forall_forall in L; cbn [touched]; rewrite orb_true_iff, O.
  - split; [intros [H|H]; [|discriminate]; exists x; split; [apply part_self|exact H]|].
    intros (y & P & Hy). left. destruct P as [|y z Hz _]; [exact Hy|]. specialize (L y Hz). cbn in L. lia.
  - rewrite existsb_exists. split.
    + intros [H|(y & Hy & T)]; [exists x; split; [apply part_self|exact H]|].
      apply IH in T; [|specialize (L y Hy); cbn in L; lia]. destruct T as (z & P & Hz).
      exists z. split; [exact (part_next o x y z Hy P)|exact Hz].
    + intros (y & P & Hy). destruct P as [|y z Hz P]; [left; exact Hy|right]. exists y. split; [exact Hz|].
      apply IH; [specialize (L y Hz); cbn in L; lia|]. exists z. split; [exact P|exact Hy].
Qed.

Lemma made_or_not o {A} (r : request A) v p i : made_of o r v p i \/ ~ made_of o r v p i.
Proof.
  assert (T : forall x, inside o r v p x -> exists y, In y (table_places o r v p) /\ part o y x).
  { intros x I. induction I as [x Hx|x y _ IH Hy].
    - exists x. split; [exact Hx|apply part_self].
    - destruct IH as (z & Hz & P). exists z. split; [exact Hz|]. clear Hz.
      induction P as [|a b c Hb _ IH]; [exact (part_next o _ y y Hy (part_self o y))|].
      exact (part_next o a b y Hb (IH Hy)). }
  destruct (existsb (fun x => touched o i (rank (place_piece x)) x) (table_places o r v p)) eqn:E.
  - left. right. apply existsb_exists in E. destruct E as (x & Hx & E).
    apply touched_part in E; [|apply le_n]. destruct E as (y & P & Hy). exists y.
    split; [exact (inside_parts o r v p x y (inside_table o r v p x Hx) P)|exact Hy].
  - destruct (N.le_gt_cases p i), (N.lt_ge_cases i (p + table_body r v));
    [left; left; split; assumption|right..];
      (intros [Hi|(x & I & Hi)]; [lia|]); destruct (T x I) as (y & Hy & P);
        rewrite <- not_true_iff_false in E; apply E;
      apply existsb_exists; exists y; (split; [exact Hy|]); (apply touched_part; [apply le_n|]);
        exists x; split; assumption.
Qed.

(** ** The bytes that are needed *)

Lemma without_bounded i f : bounded f -> bounded (without i f).
Proof. intros Hb p Hp. unfold without. destruct (p =? i); [reflexivity|exact (Hb p Hp)]. Qed.

Lemma needed_made o f {A} (r : request A) v p i :
  bounded f -> reads o (reader r) f p v -> needed o (reader r) f p v i <-> made_of o r v p i.
Proof.
  intros Hb H. apply (request_reads r o f p v Hb) in H. unfold needed.
  rewrite (request_reads r o (without i f) p v (without_bounded i f Hb)). split.
  - intros N. destruct (made_or_not o r v p i) as [M|M]; [exact M|]. exfalso. apply N.
    apply (conforms_enough o f _ r v p Hb H). intros j Hj. unfold without.
    destruct (N.eqb_spec j i) as [->|_]; [contradiction|reflexivity].
  - intros M C. apply (made_there o (without i f) r v p i (without_bounded i f Hb) C M).
    unfold without. rewrite N.eqb_refl. reflexivity.
Qed.

Lemma made_exactly o f g {A} (r : request A) v p :
  bounded f -> bounded g -> reads o (reader r) f p v ->
  reads o (reader r) g p v <-> forall i, made_of o r v p i -> g i = f i.
Proof.
  intros Hb Hg H. rewrite (needed_exactly r o f g p v Hb Hg H).
  split; intros S i Hi; apply S; apply (needed_made o f r v p i Hb H); exact Hi.
Qed.

Lemma needed_same o f g {A} (r : request A) v p i :
  bounded f -> bounded g -> reads o (reader r) f p v -> reads o (reader r) g p v ->
  needed o (reader r) f p v i <-> needed o (reader r) g p v i.
Proof.
  intros Hf Hg Rf Rg. rewrite (needed_made o f r v p i Hf Rf), (needed_made o g r v p i Hg Rg). reflexivity.
Qed.

Lemma part_there o f x y i : bounded f -> present o f x -> part o x y -> owns y i -> f i <> None.
Proof.
  intros Hb H P. induction P as [|x y z Hy _ IH]; [exact (fields_there o f _ _ _ (proj2 H) i)|]. apply IH.
  pose proof (places_present o f _ _ _ Hb (proj1 H) (proj2 H)) as F. rewrite Forall_forall in F. exact (F y Hy).
Qed.

Lemma part_needed o f {A} (r : piece A) v p i :
  bounded f -> piece_base r < 2 ^ 63 -> reads o (piece_reader r) f p v ->
  needed o (piece_reader r) f p v i <-> exists x, part o (Place r v p) x /\ owns x i.
Proof.
  intros Hb Hp H. apply (piece_reads r o f p v Hb Hp) in H. unfold needed.
  rewrite (piece_reads r o (without i f) p v (without_bounded i f Hb) Hp).
  split.
  - intros N. rewrite <- (touched_part o i (rank r) (Place r v p) (le_n _)).
    destruct (touched o i (rank r) (Place r v p)) eqn:T; [reflexivity|]. exfalso. apply N.
    refine (proj2 (part_present o f (without i f) _ Hb (Place r v p) (Nat.lt_succ_diag_r _) (conj Hp H) _)).
    intros y j P Hj. unfold without. destruct (N.eqb_spec j i) as [->|_]; [|reflexivity].
    rewrite <- not_true_iff_false in T. exfalso. apply T. apply touched_part; [exact (le_n _)|].
    exists y. split; assumption.
  - intros (x & P & Hx) C.
    apply (part_there o (without i f) (Place r v p) x i (without_bounded i f Hb) (conj Hp C) P Hx).
    unfold without. rewrite N.eqb_refl. reflexivity.
Qed.
