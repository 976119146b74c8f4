(** Reading a file that changes (C80). *)

From Verif Require Export SpecChange ProofTapes ProofLoose.
From Verif Require Import ProofRequests Samples Steps StepsReaders.

(** ** A patchwork *)

(** The first thing found at a position. *)
Fixpoint found (seen : list (N * option byte)) (g : file) (q : N) : option byte :=
  match seen with
  | [] => g q
  | (p, x) :: seen => if p =? q then x else found seen g q
  end.

Lemma found_in seen g q x : steady seen -> In (q, x) seen -> found seen g q = x.
Proof.
  intros S. induction seen as [|[p y] seen IH]; [contradiction|]. intros I. cbn.
  destruct (N.eqb_spec p q) as [->|N].
  - apply (S q); [left; reflexivity|exact I].
  - destruct I as [[= -> ->]|I]; [contradiction|]. apply IH; [|exact I].
    intros r u v U V. apply (S r); right; assumption.
Qed.

Lemma looks_from {A} (m : steps A) versions o : forall p i q x,
  In (q, x) (looks m versions o p i) -> exists j, x = versions j q.
Proof.
  induction m as [a|x| |m IH|m IH|m IH|q m IH|m IH]; intros p i r y; cbn [looks]; try contradiction; eauto.
  intros [[= <- <-]|I]; [eauto|]. destruct (versions i p); [eauto|contradiction].
Qed.

Lemma found_from {A} (m : steps A) versions o p i :
  patchwork versions (found (looks m versions o p i) (versions i)).
Proof.
  intros q. pose proof (looks_from m versions o p i) as H.
  induction (looks m versions o p i) as [|[r x] seen IH].
  - exists i. reflexivity.
  - cbn. destruct (N.eqb_spec r q) as [->|N].
    + apply (H q x). left. reflexivity.
    + apply IH. intros s y I. apply (H s y). right. exact I.
Qed.

Lemma exec_patched {A} (m : steps A) versions o g : forall p i,
  (forall q x, In (q, x) (looks m versions o p i) -> g q = x) ->
  match exec (changing versions) m o (p, i) with
  | Gives v s => SpecSteps.run m (mkEnv g o) p = Ok (v, fst s)
  | Refuses x => SpecSteps.run m (mkEnv g o) p = Err x
  | Crashes => SpecSteps.run m (mkEnv g o) p = Panic
  | Breaks => False
  end.
Proof.
  induction m as [a|x| |m IH|m IH|m IH|q m IH|m IH]; intros p i H;
    cbn [exec SpecSteps.run looks] in *; try reflexivity.
  - exact (IH o p i H).
  - exact (IH p i H).
  - exact (IH p p (S i) H).
  - exact (IH q (S i) H).
  - cbn [take changing content]. rewrite (H p (versions i p)) by (left; reflexivity).
    destruct (versions i p) as [b|]; [|reflexivity]. apply IH. intros q x I. apply H. right. exact I.
Qed.

Lemma changing_patched {A} (m : steps A) m' versions o p i : same m m' ->
  steady (looks m versions o p i) -> exists g, patchwork versions g /\
  match exec (changing versions) m o (p, i) with
  | Gives v s => m' (mkEnv g o) p = Ok (v, fst s)
  | Refuses x => m' (mkEnv g o) p = Err x
  | Crashes => m' (mkEnv g o) p = Panic
  | Breaks => False
  end.
Proof.
  intros E S. exists (found (looks m versions o p i) (versions i)). split; [apply found_from|].
  pose proof (exec_patched m versions o (found (looks m versions o p i) (versions i)) p i
    (fun q x I => found_in _ (versions i) q x S I)) as R.
  rewrite <- (E (mkEnv _ o) p). exact R.
Qed.

(** ** What does not change *)

Lemma exec_kept {A} (m : steps A) versions f o : (forall i q b, f q = Some b -> versions i q = Some b) ->
  forall p i v q, SpecSteps.run m (mkEnv f o) p = Ok (v, q) ->
  exists j, exec (changing versions) m o (p, i) = Gives v (q, j).
Proof.
  intros K. induction m as [a|x| |m IH|m IH|m IH|q m IH|m IH]; intros p i v r H;
    cbn [exec SpecSteps.run] in *; try discriminate.
  - injection H as <- <-. eauto.
  - exact (IH o p i v r H).
  - exact (IH p i v r H).
  - exact (IH p p (S i) v r H).
  - exact (IH q (S i) v r H).
  - cbn [content] in H. destruct (f p) as [b|] eqn:E; [|discriminate].
    cbn [take changing]. rewrite (K i p b E). exact (IH b (p + 1) (S i) v r H).
Qed.

Lemma request_patched {A} (r : request A) versions o p i : steady (looks (steps_of r) versions o p i) ->
  exists g, patchwork versions g /\
  match exec (changing versions) (steps_of r) o (p, i) with
  | Gives v s => reader r (mkEnv g o) p = Ok (v, fst s)
  | Refuses x => reader r (mkEnv g o) p = Err x
  | Crashes => reader r (mkEnv g o) p = Panic
  | Breaks => False
  end.
Proof. apply changing_patched, steps_of_same. Qed.

Lemma request_kept {A} (r : request A) versions f o p i v :
  (forall i q b, f q = Some b -> versions i q = Some b) -> reads o (reader r) f p v ->
  exists s, exec (changing versions) (steps_of r) o (p, i) = Gives v s.
Proof.
  intros K [q R]. rewrite <- (steps_of_same r (mkEnv f o) p) in R.
  destruct (exec_kept _ versions f o K p i v q R) as [j E]. eauto.
Qed.

Lemma take_kept {A} checksum_of d this t (r : request A) versions f o p i v : computes checksum_of d ->
  (forall i q b, f q = Some b -> versions i q = Some b) ->
    reads o (ModelFont.font_take d this t (reader r)) f p v ->
  exists s, exec (changing versions) (font_take checksum_of this t (steps_of r)) o (p, i) = Gives v s.
Proof.
  intros C K [q R].
  rewrite <- (font_take_same checksum_of d this t _ _ C (steps_of_same r) (mkEnv f o) p) in R.
  destruct (exec_kept _ versions f o K p i v q R) as [j E]. eauto.
Qed.

(** ** A table that is torn *)

(** A [GDEF] table with a class definition of either format, without glyphs. *)
Definition classy (format : N) : file := words [1; 0; 12; 0; 0; 0; format; 0; 0].

(** The format changes from 1 to 2 at operation [k]. *)
Definition edited (k : nat) (i : nat) : file := classy (if (i <? k)%nat then 1 else 2).

Lemma edited_bounded k i : bounded (edited k i).
Proof. apply file_of_bounded. destruct (i <? k)%nat; discriminate. Qed.

Lemma torn : exists versions v s, (forall i, bounded (versions i)) /\
  exec (changing versions) (steps_of RequestGdef) debug_build (0, 0%nat) = Gives v s /\
  forall o f p, bounded f -> ~ reads o (reader RequestGdef) f p v.
Proof.
  exists (edited 24). eexists. eexists. split; [apply edited_bounded|]. split; [vm_compute; reflexivity|].
  intros o f p B R. apply request_shape in R; [|exact B]. cbn in R.
  destruct R as (_ & _ & [R _] & _). discriminate R.
Qed.

(** ** For examples *)

Definition steady_check (seen : list (N * option byte)) : bool :=
  forallb (fun x => forallb (fun y =>
    negb (fst x =? fst y) || match snd x, snd y with
    | Some a, Some b => Byte.eqb a b
    | None, None => true
    | _, _ => false
    end) seen) seen.

Lemma steady_checked seen : steady_check seen = true -> steady seen.
Proof.
  intros H q x y X Y. unfold steady_check in H. rewrite forallb_forall in H.
  specialize (H _ X). rewrite forallb_forall in H. specialize (H _ Y). cbn in H. rewrite N.eqb_refl in H.
  destruct x as [a|], y as [b|]; try discriminate H; [|reflexivity].
  apply Byte.byte_dec_bl in H. congruence.
Qed.

(** A tape that gives the bytes of a list, whatever is sought, and tells a position of its own. *)
Definition liar (position : N) : tape := {|
  state := list byte;
  tell s := (Answer position, s);
  seek _ s := (Answer tt, s);
  take s := match s with b :: s => (Answer b, s) | [] => (Over, []) end |}.

(** A file that is overwritten with zeros at operation [k]. *)
Definition erased (l : list byte) (k : nat) (i : nat) : file :=
  if (i <? k)%nat then file_of l else file_of (map (fun _ => x00) l).
