(** A file held in a tree, to evaluate readers on large files. *)

From Verif Require Export Bytes.

Inductive tree := Leaf | Node (l : tree) (b : option byte) (r : tree).

(** The byte at the position [p - 1]. *)
Fixpoint lookup (t : tree) (p : positive) : option byte :=
  match t, p with
  | Leaf, _ => None
  | Node _ b _, xH => b
  | Node l _ _, xO p => lookup l p
  | Node _ _ r, xI p => lookup r p
  end.

Fixpoint insert (t : tree) (p : positive) (x : byte) : tree :=
  match t, p with
  | Leaf, xH => Node Leaf (Some x) Leaf
  | Leaf, xO p => Node (insert Leaf p x) None Leaf
  | Leaf, xI p => Node Leaf None (insert Leaf p x)
  | Node l _ r, xH => Node l (Some x) r
  | Node l b r, xO p => Node (insert l p x) b r
  | Node l b r, xI p => Node l b (insert r p x)
  end.

Fixpoint insert_all (t : tree) (p : positive) (l : list byte) : tree :=
  match l with
  | [] => t
  | x :: l => insert_all (insert t p x) (Pos.succ p) l
  end.

Definition tree_of (l : list byte) : tree := insert_all Leaf 1 l.
Definition file_of_tree (t : tree) : file := fun p => lookup t (N.succ_pos p).

Lemma lookup_insert p x : forall t q, lookup (insert t p x) q = if Pos.eqb p q then Some x else lookup t q.
Proof.
  induction p as [p IH|p IH|]; intros [|l b r] [q|q|]; cbn; try reflexivity; try apply IH;
    rewrite IH; destruct (Pos.eqb p q); reflexivity.
Qed.

Lemma lookup_insert_all l : forall t p q,
  lookup (insert_all t p l) q =
  match nth_error l (Pos.to_nat q - Pos.to_nat p) with
  | Some x => if (p <=? q)%positive then Some x else lookup t q
  | None => lookup t q
  end.
Proof.
  induction l as [|x l IH]; intros t p q; cbn [insert_all].
  - destruct (_ - _)%nat; reflexivity.
  - rewrite IH, lookup_insert. destruct (Pos.eqb_spec p q) as [<-|Hn].
    + replace (Pos.to_nat p - Pos.to_nat (Pos.succ p))%nat with O by lia. rewrite Nat.sub_diag. cbn.
      rewrite Pos.leb_refl. destruct l; [reflexivity|].
      destruct (Pos.leb_spec (Pos.succ p) p); [lia|reflexivity].
    + destruct (Pos.leb_spec p q) as [L|L].
      * replace (Pos.to_nat q - Pos.to_nat p)%nat with (S (Pos.to_nat q - Pos.to_nat (Pos.succ p))) by lia.
        cbn. destruct (nth_error l _); [|reflexivity].
        destruct (Pos.leb_spec (Pos.succ p) q); [reflexivity|lia].
      * replace (Pos.to_nat q - Pos.to_nat (Pos.succ p))%nat with O by lia.
        replace (Pos.to_nat q - Pos.to_nat p)%nat with O by lia. cbn.
        destruct l; [reflexivity|]. cbn. destruct (Pos.leb_spec (Pos.succ p) q); [lia|reflexivity].
Qed.

Lemma file_of_tree_of l p : file_of_tree (tree_of l) p = file_of l p.
Proof.
  unfold file_of_tree, tree_of, file_of. rewrite lookup_insert_all.
  replace (Pos.to_nat (N.succ_pos p) - Pos.to_nat 1)%nat with (N.to_nat p).
  - destruct (nth_error l (N.to_nat p)); [|reflexivity].
    destruct (Pos.leb_spec 1 (N.succ_pos p)); [reflexivity|lia].
  - destruct p as [|p]; cbn; lia.
Qed.
