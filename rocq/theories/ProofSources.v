(** Lemmas behind PropertiesSources.v. *)

From Verif Require Import ReadsTactics ProofFindings ProofRequests ProofPieces ProofReads.
From Verif Require Export ProofClear SpecSources.

(** ** Texts *)

Lemma begins_in s xs kept rest text y : begins s xs kept rest text -> In y (kept ++ rest) -> In y text.
Proof.
  intros H. induction H as [rest|x xs kept rest text N H IH|z x xs kept rest text N H IH]; intros I; [exact I|right; exact (IH I)|].
  destruct I as [<-|I]; [left; reflexivity|right; exact (IH I)].
Qed.

Lemma acted_from s (w : N -> list N -> list N -> list N -> list N -> Prop) (P : N -> Prop) left actions n text m out :
  acted s w left actions n text m out ->
  (forall a l t ys rest y, In a actions -> w (action_lookup_index a) l t ys rest -> In y (ys ++ rest) -> In y t \/ P y) ->
  forall y, In y out -> In y text \/ P y.
Proof.
  intros H. induction H as [n text|a actions n text before here ys rest m out L D A IH|a actions n text m out F A IH];
    intros W y I; [left; exact I| |].
  - destruct (IH (fun a' l t z q y' J => W a' l t z q y' (or_intror J)) y I) as [J|J]; [|right; exact J].
    destruct L as (-> & _). apply in_app_or in J. destruct J as [J|J]; [left; apply in_or_app; left; exact J|].
    destruct (W a _ _ _ _ y (or_introl eq_refl) D J) as [K|K]; [left; apply in_or_app; right; exact K|right; exact K].
  - exact (IH (fun a' l t z q y' J => W a' l t z q y' (or_intror J)) y I).
Qed.

Section From.
  Context (s : N -> N -> Prop) (r : N -> N -> N -> list N -> list N -> Prop)
    (u : N -> N -> N -> list N -> list N -> list N -> list Action -> Prop) (t : N -> N -> list N -> N -> list N -> N -> Prop)
    (C P : N -> Prop).

  Definition puts_in : Prop := forall k j rk xs ys y, C k -> r k j rk xs ys -> In y ys -> P y.
  Definition asks_for : Prop := forall k j rk b xs a l x, C k -> u k j rk b xs a l -> In x l -> C (action_lookup_index x).
  Definition turns_to : Prop := forall k j b x a y, C k -> t k j b x a y -> P y.

  Lemma does_from depth k left text ys rest : puts_in -> asks_for -> C k -> does depth s r u k left text ys rest ->
    forall y, In y (ys ++ rest) -> In y text \/ P y.
  Proof.
    intros R U. revert k left text ys rest. induction depth as [|depth IH]; intros k left text ys rest K; [intros []|].
    intros (j & rk & _ & [(kept & behind & H & ->)|(l & behind & n & text' & H & A & -> & ->)]) y I.
    - destruct H as (x & xs & tail & _ & _ & B & H). apply in_app_or in I.
      destruct I as [I|I]; [right; exact (R _ _ _ _ _ _ K H I)|left; exact (begins_in _ _ _ _ _ _ B I)].
    - destruct H as (x & xs & tail & b & a & k1 & k2 & r1 & k3 & r2 & _ & _ & _ & _ & _ & H).
      rewrite firstn_skipn in I. refine (acted_from _ _ P _ _ _ _ _ _ A _ y I).
      intros act l' t' ys rest y' J D. exact (IH _ _ _ _ _ (U _ _ _ _ _ _ _ _ K H J) D y').
  Qed.

  Lemma goes_from depth k left text out : puts_in -> asks_for -> C k -> goes_through (does depth s r u k) left text out ->
    forall y, In y out -> In y left \/ In y text \/ P y.
  Proof.
    intros R U K H. induction H as [left|left text ys rest out D G IH|left x text out F G IH]; intros y I.
    - left. apply in_rev. exact I.
    - destruct (IH y I) as [J|[J|J]]; [|destruct (does_from _ _ _ _ _ _ R U K D y (in_or_app _ _ _ (or_intror J))); auto|auto].
      apply in_app_or in J. destruct J as [J|J]; [|auto]. apply in_rev in J.
      destruct (does_from _ _ _ _ _ _ R U K D y (in_or_app _ _ _ (or_introl J))); auto.
    - destruct (IH y I) as [[<-|J]|[J|J]]; cbn; auto.
  Qed.

  Lemma back_from k left right out : turns_to -> C k -> goes_back (s k) (t k) left right out ->
    forall y, In y out -> In y left \/ In y right \/ P y.
  Proof.
    intros T K H. induction H as [right|j x left right z out D F G IH|x left right out F G IH]; intros y I; [auto| |].
    - destruct (IH y I) as [J|[[<-|J]|J]]; cbn; auto. right; right.
      destruct D as (b & a & k1 & r1 & k2 & r2 & _ & _ & _ & D). exact (T _ _ _ _ _ _ K D).
    - destruct (IH y I) as [J|[[<-|J]|J]]; cbn; auto.
  Qed.

  Lemma shaped_from depth (on : N -> Prop) n text out : puts_in -> asks_for -> turns_to -> (forall k, on k -> k < n -> C k) ->
    shaped depth on s r u t n text out -> forall y, In y out -> In y text \/ P y.
  Proof.
    intros R U T O H. induction H as [text|n text mid mid' out H IH K G B|n text out H IH K]; intros y I; [auto| |].
    - assert (Cn : C n) by (apply O; [exact K|lia]). specialize (IH (fun k o L => O k o ltac:(lia))).
      destruct (back_from _ _ _ _ T Cn B y I) as [J|[[]|J]]; [|auto]. apply in_rev in J.
      destruct (goes_from _ _ _ _ _ R U Cn G y J) as [[]|[J'|J']]; auto.
    - exact (IH (fun k o L => O k o ltac:(lia)) y I).
  Qed.

  (** Texts that are left alone. *)
  Lemma goes_same depth k left text out :
    (forall j rk x xs ys, In x text -> ~ r k j rk (x :: xs) ys) ->
    (forall j rk b x xs a l, In x text -> ~ u k j rk b (x :: xs) a l) ->
    goes_through (does depth s r u k) left text out -> out = rev left ++ text.
  Proof.
    intros R U H. induction H as [left|left text ys rest out D G IH|left x text out F G IH].
    - rewrite app_nil_r. reflexivity.
    - exfalso. destruct depth as [|depth]; [exact D|]. destruct D as (j & rk & _ & [(kept & behind & H & _)|(l & behind & n & text' & H & _)]).
      + destruct H as (x & xs & tail & -> & _ & _ & H). exact (R _ _ _ _ _ (or_introl eq_refl) H).
      + destruct H as (x & xs & tail & b & a & k1 & k2 & r1 & k3 & r2 & -> & _ & _ & _ & _ & H).
        exact (U _ _ _ _ _ _ _ (or_introl eq_refl) H).
    - rewrite IH; [cbn; rewrite <- app_assoc; reflexivity|intros; apply R; right; assumption|intros; apply U; right; assumption].
  Qed.

  Lemma back_same k left right out : (forall j b x a y, In x left -> ~ t k j b x a y) ->
    goes_back (s k) (t k) left right out -> out = rev left ++ right.
  Proof.
    intros T H. induction H as [right|j x left right z out D F G IH|x left right out F G IH]; [reflexivity| |].
    - exfalso. destruct D as (b & a & k1 & r1 & k2 & r2 & _ & _ & _ & D). exact (T _ _ _ _ _ (or_introl eq_refl) D).
    - rewrite IH; [cbn; rewrite <- app_assoc; reflexivity|]. intros; apply T; right; assumption.
  Qed.

  Lemma shaped_same depth (on : N -> Prop) n text out :
    (forall k j rk x xs ys, on k -> k < n -> In x text -> ~ r k j rk (x :: xs) ys) ->
    (forall k j rk b x xs a l, on k -> k < n -> In x text -> ~ u k j rk b (x :: xs) a l) ->
    (forall k j b x a y, on k -> k < n -> In x text -> ~ t k j b x a y) ->
    shaped depth on s r u t n text out -> out = text.
  Proof.
    intros R U T H. induction H as [text|n text mid mid' out H IH K G B|n text out H IH K]; [reflexivity| |].
    - assert (mid = text) as ->.
      { apply IH; [intros; apply R|intros; apply U|intros; apply T]; try assumption; lia. }
      apply goes_same in G; [|intros; apply R; try assumption; lia|intros; apply U; try assumption; lia].
      cbn [rev app] in G. rewrite G in B. apply back_same in B.
      + rewrite rev_involutive, app_nil_r in B. exact B.
      + intros j b x a y I. apply T; [exact K|lia|]. apply in_rev. exact I.
    - apply IH; [intros; apply R|intros; apply U|intros; apply T]; try assumption; lia.
  Qed.
End From.

(** ** Subtables *)

Lemma as_replaces v rank xs ys : replaces_as v rank xs ys -> replaces v xs ys.
Proof. intros H. apply replaces_ranked. eauto. Qed.

Lemma as_rule v rank b xs a l : gsub_rule_as v rank b xs a l -> gsub_rule v b xs a l.
Proof. intros H. apply gsub_rule_ranked. eauto. Qed.

Lemma as_gpos_rule v rank b xs a l : gpos_rule_as v rank b xs a l -> gpos_rule v b xs a l.
Proof. intros H. apply gpos_rule_ranked. eauto. Qed.

Lemma shaped_origin depth on s (sub : N -> N -> GsubType -> Prop) n text out y :
  shaped depth on s (fun k j r xs ys => exists t, sub k j t /\ replaces_as t r xs ys)
    (fun k j r before xs after actions => exists t, sub k j t /\ gsub_rule_as t r before xs after actions)
    (fun k j before x after y => exists t, sub k j t /\ gsub_reverse t before x after y) n text out ->
  In y out -> In y text \/ exists k j t, asked sub on n k /\ sub k j t /\ puts t y.
Proof.
  intros H. revert y.
  refine (shaped_from _ _ _ _ (asked sub on n) (fun y => exists k j t, asked sub on n k /\ sub k j t /\ puts t y) _ _ _ _ _ _ _ _ _ H).
  - intros k j rk xs ys y K (t & I & R) J. exists k, j, t. split; [exact K|]. split; [exact I|]. left. exists xs, ys.
    split; [exact (as_replaces _ _ _ _ R)|exact J].
  - intros k j rk b xs a l x K (t & I & R) J. exact (asked_by _ _ _ _ _ _ _ _ _ _ _ K I (as_rule _ _ _ _ _ _ R) J).
  - intros k j b x a y K (t & I & R). exists k, j, t. split; [exact K|]. split; [exact I|]. right. eauto.
  - intros k. apply asked_on.
Qed.

Lemma shaped_alone depth (on : N -> Prop) s (sub : N -> N -> GsubType -> Prop) n text out :
  (forall k j t x, on k -> k < n -> sub k j t -> In x text -> ~ takes_up t x) ->
  shaped depth on s (fun k j r xs ys => exists t, sub k j t /\ replaces_as t r xs ys)
    (fun k j r before xs after actions => exists t, sub k j t /\ gsub_rule_as t r before xs after actions)
    (fun k j before x after y => exists t, sub k j t /\ gsub_reverse t before x after y) n text out -> out = text.
Proof.
  intros T. apply shaped_same.
  - intros k j rk x xs ys O L I (t & J & R). apply (T _ _ _ _ O L J I). left. exists xs, ys. exact (as_replaces _ _ _ _ R).
  - intros k j rk b x xs a l O L I (t & J & R). apply (T _ _ _ _ O L J I). right; left. exists b, xs, a, l.
    exact (as_rule _ _ _ _ _ _ R).
  - intros k j b x a y O L I (t & J & R). apply (T _ _ _ _ O L J I). right; right. eauto.
Qed.

Lemma texts_origin v d script language wanted depth n text out y :
  shaped_by v d script language wanted depth n text out -> In y out ->
  In y text \/ exists k j t, asked (in_lookup v) (turned_on v script language wanted) n k /\ in_lookup v k j t /\ puts t y.
Proof. exact (shaped_origin depth _ _ (in_lookup v) n text out y). Qed.

Lemma texts_origin_beyond o f p v d script language wanted depth n text out y :
  shaped_beyond o f p v d script language wanted depth n text out -> In y out ->
  In y text \/ exists k j t, asked (subtable_for o Substitution f p v) (turned_on v script language wanted) n k /\
    subtable_for o Substitution f p v k j t /\ puts t y.
Proof. exact (shaped_origin depth _ _ (subtable_for o Substitution f p v) n text out y). Qed.

Lemma texts_alone v d script language wanted depth n text out :
  (forall k j t x, turned_on v script language wanted k -> k < n -> in_lookup v k j t -> In x text -> ~ takes_up t x) ->
  shaped_by v d script language wanted depth n text out -> out = text.
Proof. exact (shaped_alone depth _ _ (in_lookup v) n text out). Qed.

Lemma texts_alone_beyond o f p v d script language wanted depth n text out :
  (forall k j t x, turned_on v script language wanted k -> k < n -> subtable_for o Substitution f p v k j t -> In x text ->
    ~ takes_up t x) ->
  shaped_beyond o f p v d script language wanted depth n text out -> out = text.
Proof. exact (shaped_alone depth _ _ (subtable_for o Substitution f p v) n text out). Qed.

(** ** Movements *)

Section Still.
  Context (s : N -> N -> Prop) (r : N -> N -> list N -> bool -> Prop) (a : N -> N -> list N -> bool -> nat -> Z -> Prop)
    (u : N -> N -> N -> list N -> list N -> list N -> list Action -> Prop).

  (** Glyphs before and behind the rest of a text stay where they are. *)
  Lemma adds_else (b : nat -> Z -> Prop) i m m' h c : adds b i m m' -> h <> i -> m' h c = m h c.
  Proof. intros A N. destruct (A h c) as [(E & _)|(_ & E)]; [contradiction|exact E]. Qed.

  Lemma nudges_outside depth k left text m m' n : nudges depth s r a u k left text m m' n ->
    forall h c, (h < length left \/ length left + length text <= h)%nat -> m' h c = m h c.
  Proof.
    revert k left text m m' n. induction depth as [|depth IH]; intros k left text m m' n; [intros []|].
    intros (j & rk & _ & [(_ & H)|(l & rest & _ & _ & H)]) h c O.
    - destruct H as (xs & rest & past & mid & (x & ys & tail & kept & -> & _ & -> & B & _) & A & A' & _).
      apply begins_length in B. rewrite app_length in B. cbn [length] in *.
      rewrite (adds_else _ _ _ _ h c A' ltac:(lia)). apply (adds_else _ _ _ _ h c A). lia.
    - induction H as [m|act l before here m mid q m' (-> & _) D E IHE|act l m m' F E IHE]; [reflexivity| |exact IHE].
      rewrite IHE. refine (IH _ _ _ _ _ _ D h c _). rewrite app_length in *. rewrite rev_length. lia.
  Qed.

  Lemma runs_outside depth k left text m m' : runs_through (nudges depth s r a u k) left text m m' ->
    forall h c, (length left + length text <= h)%nat -> m' h c = m h c.
  Proof.
    intros H. induction H as [left m|left text m mid n m' D G IH|left x text m m' F G IH]; intros h c L; [reflexivity| |].
    - rewrite IH; [exact (nudges_outside _ _ _ _ _ _ _ D h c (or_intror L))|].
      rewrite app_length, rev_length. pose proof (f_equal (@length N) (firstn_skipn n text)) as E. rewrite app_length in E. lia.
    - apply IH. cbn [length] in *. lia.
  Qed.

  Lemma kerned_outside depth on text n m i c : kerned depth on s r a u text n m -> (length text <= i)%nat -> m i c = 0%Z.
  Proof.
    intros H L. induction H as [|n m m' H IH O G|n m H IH O]; [reflexivity| |exact IH].
    rewrite (runs_outside _ _ _ _ _ _ G i c); [exact IH|exact L].
  Qed.

  (** Texts that are left alone. *)
  Lemma runs_same depth k left text m m' :
    (forall j x xs past, In x text -> ~ r k j (x :: xs) past) ->
    (forall j rk b x xs l acts, In x text -> ~ u k j rk b (x :: xs) l acts) ->
    runs_through (nudges depth s r a u k) left text m m' -> m' = m.
  Proof.
    intros R U H. induction H as [left m|left text m mid n m' D G IH|left x text m m' F G IH]; [reflexivity| |].
    - exfalso. destruct depth as [|depth]; [exact D|]. destruct D as (j & rk & _ & [(_ & H)|(l & rest & H & _)]).
      + destruct H as (xs & rest & past & mid' & (x & ys & tail & kept & -> & _ & -> & _ & H) & _).
        exact (R _ _ _ _ (or_introl eq_refl) H).
      + destruct H as (x & xs & tail & b & a' & k1 & k2 & r1 & k3 & r2 & -> & _ & _ & _ & _ & H).
        exact (U _ _ _ _ _ _ _ (or_introl eq_refl) H).
    - apply IH; [intros; apply R; right; assumption|intros; apply U; right; assumption].
  Qed.

  Lemma kerned_same depth (on : N -> Prop) text n m i c :
    (forall k j x xs past, on k -> k < n -> In x text -> ~ r k j (x :: xs) past) ->
    (forall k j rk b x xs l acts, on k -> k < n -> In x text -> ~ u k j rk b (x :: xs) l acts) ->
    kerned depth on s r a u text n m -> m i c = 0%Z.
  Proof.
    intros R U H. induction H as [|n m m' H IH O G|n m H IH O]; [reflexivity| |].
    - apply runs_same in G; [|intros; apply R; try assumption; lia|intros; apply U; try assumption; lia].
      rewrite G. apply IH; [intros; apply R|intros; apply U]; try assumption; lia.
    - apply IH; [intros; apply R|intros; apply U]; try assumption; lia.
  Qed.
End Still.

Lemma kerned_alone depth (on : N -> Prop) s a (sub : N -> N -> GposType -> Prop) text n m i c :
  (forall k j t x, on k -> k < n -> sub k j t -> In x text -> ~ takes_up_to_move t x) ->
  kerned depth on s (fun k j xs past => exists t, sub k j t /\ minds t xs past) a
    (fun k j r before xs after actions => exists t, sub k j t /\ gpos_rule_as t r before xs after actions) text n m ->
  m i c = 0%Z.
Proof.
  intros T. apply kerned_same.
  - intros k j x xs past O L I (t & J & R). apply (T _ _ _ _ O L J I). left. eauto.
  - intros k j rk b x xs l acts O L I (t & J & R). apply (T _ _ _ _ O L J I). right. exists b, xs, l, acts.
    exact (as_gpos_rule _ _ _ _ _ _ R).
Qed.

Lemma kerning_alone v d script language wanted depth text n m i c :
  (forall k j t x, turned_on v script language wanted k -> k < n -> in_lookup v k j t -> In x text -> ~ takes_up_to_move t x) ->
  kerned_by v d script language wanted depth text n m -> m i c = 0%Z.
Proof. exact (kerned_alone depth _ _ _ (in_lookup v) text n m i c). Qed.

Lemma kerning_alone_beyond o f p v d script language wanted depth text n m i c :
  (forall k j t x, turned_on v script language wanted k -> k < n -> subtable_for o Positioning f p v k j t -> In x text ->
    ~ takes_up_to_move t x) ->
  kerned_beyond o f p v d script language wanted depth text n m -> m i c = 0%Z.
Proof. exact (kerned_alone depth _ _ _ (subtable_for o Positioning f p v) text n m i c). Qed.

Lemma kerning_outside v d script language wanted depth text n m i c :
  kerned_by v d script language wanted depth text n m -> (length text <= i)%nat -> m i c = 0%Z.
Proof. apply kerned_outside. Qed.

Lemma kerning_outside_beyond o f p v d script language wanted depth text n m i c :
  kerned_beyond o f p v d script language wanted depth text n m -> (length text <= i)%nat -> m i c = 0%Z.
Proof. apply kerned_outside. Qed.

(** ** Ranges *)

Lemma shifted_small g delta : shifted g delta < 65536.
Proof. unfold shifted. pose proof (Z.mod_pos_bound (Z.of_N g + delta) 65536 eq_refl). lia. Qed.

Lemma words_small f p n l y : u16s_at f p n l -> In y l -> y < 65536.
Proof.
  intros H I. apply in_entry in I. destruct I as (i & E).
  destruct (vec_entry _ _ _ _ _ _ _ H E) as (_ & W). exact (u16_below _ _ _ W).
Qed.

Lemma puts_small f p ty t y : gsub_type_at ty f p t -> puts t y -> y < 65536.
Proof.
  intros T [(xs & ys & H & I)|(b & x & a & H)].
  - apply (replaces_iff _ _ _ _ _ _ T) in H. destruct H as (g & rest & c & i & _ & _ & _ & H).
    destruct H as [(_ & _ & _ & d & _ & ->)|[(_ & _ & _ & n & z & _ & _ & W & ->)|(_ & n & offset & m & _ & _ & _ & _ & H)]].
    + destruct I as [<-|[]]. apply shifted_small.
    + destruct I as [<-|[]]. exact (u16_below _ _ _ W).
    + destruct H as [(_ & _ & W)|[(_ & _ & j & z & _ & W & ->)|(_ & j & link & z & k & _ & _ & W & _ & _ & ->)]].
      * exact (words_small _ _ _ _ _ W I).
      * destruct I as [<-|[]]. exact (u16_below _ _ _ W).
      * destruct I as [<-|[]]. exact (u16_below _ _ _ W).
  - apply (gsub_reverse_iff _ _ _ _ _ _ _ _ T) in H. destruct H as (_ & c & i & k & l & n & H).
    exact (u16_below _ _ _ (proj2 (proj2 (proj2 (proj2 (proj2 (proj2 (proj2 (proj2 H))))))))).
Qed.

Lemma texts_small o f p v d script language wanted depth n text out :
  bounded f -> reads o read_glyph_substitution f p v -> Forall (fun x => x < 65536) text ->
  shaped_by v d script language wanted depth n text out -> Forall (fun y => y < 65536) out.
Proof.
  intros B H T S. apply (request_reads RequestGsub o f p v B) in H. apply Forall_forall. intros y I.
  destruct (texts_origin _ _ _ _ _ _ _ _ _ _ S I) as [J|(k & j & t & _ & J & P)]; [exact (proj1 (Forall_forall _ _) T y J)|].
  destruct (lookup_down _ _ _ _ _ _ _ _ H J) as (q & ty & _ & G). exact (puts_small _ _ _ _ _ G P).
Qed.

Lemma texts_small_beyond o f p v d script language wanted depth n text out :
  bounded f -> reads o read_glyph_substitution f p v -> Forall (fun x => x < 65536) text ->
  shaped_beyond o f p v d script language wanted depth n text out -> Forall (fun y => y < 65536) out.
Proof.
  intros B H T S. apply (request_reads RequestGsub o f p v B) in H. apply Forall_forall. intros y I.
  destruct (texts_origin_beyond _ _ _ _ _ _ _ _ _ _ _ _ _ S I) as [J|(k & j & t & _ & J & P)]; [exact (proj1 (Forall_forall _ _) T y J)|].
  destruct (beyond_down o Substitution _ _ _ _ _ _ B H J) as (q & ty & _ & G). exact (puts_small _ _ _ _ _ G P).
Qed.
