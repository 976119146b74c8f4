(** Writing bytes: used to build the files of examples and counterexamples.  No part of
    the code is modelled here; src has no writer. *)

From Verif Require Export Bytes.

Definition byte_of (n : N) : byte :=
  match Byte.of_N n with
  | Some b => b
  | None => x00
  end.

(** A list of numbers below 256. *)
Definition bytes (l : list N) : list byte := map byte_of l.

Definition be16 (n : N) : list byte := [byte_of (n / 256); byte_of (n mod 256)].
Definition be32 (n : N) : list byte := be16 (n / 65536) ++ be16 (n mod 65536).

Lemma byte_of_to n : n < 256 -> Byte.to_N (byte_of n) = n.
Proof.
  intros H. unfold byte_of. destruct (Byte.of_N n) as [b|] eqn:E.
  - apply Byte.to_of_N, E.
  - apply Byte.of_N_None_iff in E. lia.
Qed.

(** The bytes [l] are in [f] at [p]. *)
Definition bytes_at (f : file) (p : N) (l : list byte) : Prop :=
  forall i b, nth_error l i = Some b -> f (p + N.of_nat i) = Some b.

Lemma bytes_at_file l : bytes_at (file_of l) 0 l.
Proof. intros i b H. unfold file_of. rewrite N.add_0_l, Nat2N.id. exact H. Qed.

Lemma bytes_at_app f p k l :
  bytes_at f p (k ++ l) <-> bytes_at f p k /\ bytes_at f (p + N.of_nat (length k)) l.
Proof.
  split.
  - intros H. split; intros i b E.
    + apply H. rewrite nth_error_app1; [exact E|]. apply nth_error_Some. congruence.
    + rewrite <- N.add_assoc, <- Nat2N.inj_add. apply H.
      rewrite nth_error_app2 by lia. replace (length k + i - length k)%nat with i by lia. exact E.
  - intros [Hk Hl] i b E. destruct (Nat.lt_ge_cases i (length k)) as [L|L].
    + apply Hk. rewrite nth_error_app1 in E; assumption.
    + rewrite nth_error_app2 in E by exact L.
      specialize (Hl _ _ E). rewrite <- Hl. f_equal. lia.
Qed.

Lemma bytes_at_be16 f p n : n < 65536 -> bytes_at f p (be16 n) -> u16_at f p n.
Proof.
  intros Hn H. exists (byte_of (n / 256)), (byte_of (n mod 256)). split; [|split].
  - specialize (H 0%nat _ eq_refl). rewrite N.add_0_r in H. exact H.
  - apply (H 1%nat _ eq_refl).
  - rewrite !byte_of_to; [apply N.div_mod; lia| |].
    + apply N.mod_lt. lia.
    + apply N.div_lt_upper_bound; lia.
Qed.

Lemma bytes_at_be32 f p n : n < 4294967296 -> bytes_at f p (be32 n) -> u32_at f p n.
Proof.
  intros Hn H. apply bytes_at_app in H. destruct H as [Hh Hl].
  exists (n / 65536), (n mod 65536). split; [|split].
  - apply bytes_at_be16; [|exact Hh]. apply N.div_lt_upper_bound; lia.
  - apply bytes_at_be16; [|exact Hl]. apply N.mod_lt. lia.
  - apply N.div_mod. lia.
Qed.

Lemma bytes_at_each {A} (elem : N -> A -> Prop) (enc : A -> list byte) s f p l :
  (forall q v, In v l -> bytes_at f q (enc v) -> elem q v) ->
  (forall v, In v l -> N.of_nat (length (enc v)) = s) ->
  bytes_at f p (flat_map enc l) -> vec_at elem s p (N.of_nat (length l)) l.
Proof.
  intros He Hs H. split; [reflexivity|]. revert p H.
  induction l as [|x l IH]; intros p H [|i] v; cbn; try discriminate.
  - intros [= <-]. cbn in H. apply bytes_at_app in H. rewrite N.mul_0_r, N.add_0_r.
    apply He; [left; reflexivity|apply H].
  - intros E. cbn in H. apply bytes_at_app in H. destruct H as [_ H].
    rewrite (Hs x) in H by (left; reflexivity).
    specialize (IH (fun q v Hv => He q v (or_intror Hv)) (fun v Hv => Hs v (or_intror Hv)) _ H i v E).
    replace (p + s * N.pos (Pos.of_succ_nat i)) with (p + s + s * N.of_nat i) by lia. exact IH.
Qed.

Lemma bytes_at_u16s f p l :
  (forall v, In v l -> v < 65536) -> bytes_at f p (flat_map be16 l) ->
  u16s_at f p (N.of_nat (length l)) l.
Proof.
  intros Hl. apply bytes_at_each.
  - intros q v Hv. apply bytes_at_be16, Hl, Hv.
  - reflexivity.
Qed.

Lemma bytes_at_u32s f p l :
  (forall v, In v l -> v < 4294967296) -> bytes_at f p (flat_map be32 l) ->
  u32s_at f p (N.of_nat (length l)) l.
Proof.
  intros Hl. apply bytes_at_each.
  - intros q v Hv. apply bytes_at_be32, Hl, Hv.
  - reflexivity.
Qed.

Lemma flat_map_size {A} (enc : A -> list byte) s l :
  (forall v, In v l -> length (enc v) = s) -> length (flat_map enc l) = (s * length l)%nat.
Proof.
  intros Hs. induction l as [|x l IH]; [cbn; lia|].
  cbn [flat_map]. rewrite app_length, Hs, IH.
  - cbn. lia.
  - intros v Hv. apply Hs. right. exact Hv.
  - left. reflexivity.
Qed.
