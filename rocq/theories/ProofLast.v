(** Lemmas behind PropertiesLast.v. *)

From Verif Require ProofFont.
From Verif Require Import ReadsTactics ProofFindings ProofRequests ProofPieces ProofReads.
From Verif Require Export ProofEnds.

(** ** Lookups without subtables *)

Lemma goes_idle w left text out : (forall l t y r, ~ w l t y r) -> goes_through w left text out -> out = rev left ++ text.
Proof.
  intros H G. induction G as [left|left text ys rest out D G IH|left x text out N G IH].
  - symmetry. apply app_nil_r.
  - elim (H _ _ _ _ D).
  - rewrite IH. cbn [rev]. rewrite <- app_assoc. reflexivity.
Qed.

Lemma back_idle s t left right out : (forall j b x a y, ~ t j b x a y) -> goes_back s t left right out -> out = rev left ++ right.
Proof.
  intros H G. induction G as [right|j x left right y out T M G IH|x left right out M G IH].
  - reflexivity.
  - destruct T as (b & a & k & r & k' & r' & _ & _ & _ & T). elim (H _ _ _ _ _ T).
  - rewrite IH. cbn [rev]. rewrite <- app_assoc. reflexivity.
Qed.

Lemma runs_idle w left text m m' : (forall l t m mid n, ~ w l t m mid n) -> runs_through w left text m m' -> m' = m.
Proof. intros H G. induction G as [| left text m mid n m' D|]; [reflexivity|elim (H _ _ _ _ _ D)|assumption]. Qed.

Lemma runs_none w left text m : (forall l t m mid n, ~ w l t m mid n) -> runs_through w left text m m.
Proof. intros H. revert left. induction text as [|x text IH]; intros left; [apply runs_end|]. apply runs_on; auto. Qed.

Lemma does_idle depth s r u k left text ys rest :
  (forall j q xs ys, ~ r k j q xs ys) -> (forall j q b xs a l, ~ u k j q b xs a l) -> ~ does depth s r u k left text ys rest.
Proof.
  intros R U. destruct depth as [|depth]; [intros []|].
  intros (j & q & _ & [(kept & behind & (x & xs & tail & _ & _ & _ & H) & _)|
    (actions & behind & n & text' & (x & xs & tail & b & a & k1 & k2 & r1 & k3 & r2 & _ & _ & _ & _ & _ & H) & _)]).
  - exact (R _ _ _ _ H).
  - exact (U _ _ _ _ _ _ H).
Qed.

Lemma nudges_idle depth s r a u k left text m m' n :
  (forall j xs past, ~ r k j xs past) -> (forall j q b xs a l, ~ u k j q b xs a l) -> ~ nudges depth s r a u k left text m m' n.
Proof.
  intros R U. destruct depth as [|depth]; [intros []|].
  intros (j & q & _ & [(_ & xs & rest & past & mid & (x & ys & tail & kept & _ & _ & _ & _ & H) & _)|
    (actions & rest & (x & xs & tail & b & a' & k1 & k2 & r1 & k3 & r2 & _ & _ & _ & _ & _ & H) & _)]).
  - exact (R _ _ _ H).
  - exact (U _ _ _ _ _ _ H).
Qed.

(** ** After the last lookup *)

Section Last.
  Context (depth : nat) (on : N -> Prop) (s : N -> N -> Prop) (top : N).

  Section Texts.
    Context (r : N -> N -> N -> list N -> list N -> Prop)
      (u : N -> N -> N -> list N -> list N -> list N -> list Action -> Prop)
      (t : N -> N -> list N -> N -> list N -> N -> Prop).
    Hypothesis R : forall k j q xs ys, r k j q xs ys -> k < top.
    Hypothesis U : forall k j q b xs a l, u k j q b xs a l -> k < top.
    Hypothesis Z : forall k j b x a y, t k j b x a y -> k < top.

    Lemma shaped_back n : top <= n -> forall text out,
      shaped depth on s r u t (n + 1) text out -> shaped depth on s r u t n text out.
    Proof.
      intros L text out H. inversion H as [?|n' text' mid mid' out' G O T B E|n' text' out' G O E]; subst; [lia| |].
      - apply N.add_cancel_r in E. subst n'. apply goes_idle in T; [|intros; apply does_idle; intros * K; [apply R in K|apply U in K]; lia].
        apply back_idle in B; [|intros * K; apply Z in K; lia]. cbn in T. rewrite app_nil_r, rev_involutive in B. congruence.
      - apply N.add_cancel_r in E. subst n'. exact G.
    Qed.

    Lemma shaped_last n more : top <= n -> forall text out,
      shaped depth on s r u t (n + more) text out -> shaped depth on s r u t n text out.
    Proof.
      intros L. induction more as [|more IH] using N.peano_ind; intros text out H; [rewrite N.add_0_r in H; exact H|].
      apply IH, shaped_back; [lia|]. rewrite <- N.add_assoc, N.add_1_r. exact H.
    Qed.

    Lemma shaped_further n more text out : top <= n -> shaped depth on s r u t n text out ->
      ~ ~ shaped depth on s r u t (n + more) text out.
    Proof.
      intros L G. induction more as [|more IH] using N.peano_ind; intros H; [rewrite N.add_0_r in H; exact (H G)|].
      rewrite <- N.add_1_r, N.add_assoc in H. apply IH. intros K. assert (O : ~ on (n + more)).
      { intros O. apply H. eapply shaped_on; [exact K|exact O| |].
        - apply (goes_none _ []). intros. apply does_idle; intros * X; [apply R in X|apply U in X]; lia.
        - pose proof (back_none (s (n + more)) (t (n + more)) (rev out) []) as B. rewrite rev_involutive, app_nil_r in B.
          apply B. intros * X. apply Z in X. lia. }
      exact (H (shaped_off depth on s r u t (n + more) text out K O)).
    Qed.
  End Texts.

  Section Movements.
    Context (r : N -> N -> list N -> bool -> Prop) (a : N -> N -> list N -> bool -> nat -> Z -> Prop)
      (u : N -> N -> N -> list N -> list N -> list N -> list Action -> Prop) (text : list N).
    Hypothesis R : forall k j xs past, r k j xs past -> k < top.
    Hypothesis U : forall k j q b xs a l, u k j q b xs a l -> k < top.

    Lemma kerned_back n : top <= n -> forall m, kerned depth on s r a u text (n + 1) m -> kerned depth on s r a u text n m.
    Proof.
      intros L m H. inversion H as [E|n' m1 m2 G O T E|n' m1 G O E]; subst; [lia| |].
      - apply N.add_cancel_r in E. subst n'.
        apply runs_idle in T; [|intros; apply nudges_idle; intros * K; [apply R in K|apply U in K]; lia]. subst. exact G.
      - apply N.add_cancel_r in E. subst n'. exact G.
    Qed.

    Lemma kerned_last n more : top <= n -> forall m,
      kerned depth on s r a u text (n + more) m -> kerned depth on s r a u text n m.
    Proof.
      intros L. induction more as [|more IH] using N.peano_ind; intros m H; [rewrite N.add_0_r in H; exact H|].
      apply IH, kerned_back; [lia|]. rewrite <- N.add_assoc, N.add_1_r. exact H.
    Qed.

    Lemma kerned_further n more m : top <= n -> kerned depth on s r a u text n m ->
      ~ ~ kerned depth on s r a u text (n + more) m.
    Proof.
      intros L G. induction more as [|more IH] using N.peano_ind; intros H; [rewrite N.add_0_r in H; exact (H G)|].
      rewrite <- N.add_1_r, N.add_assoc in H. apply IH. intros K. assert (O : ~ on (n + more)).
      { intros O. apply H. eapply kerned_on; [exact K|exact O|].
        apply runs_none. intros. apply nudges_idle; intros * X; [apply R in X|apply U in X]; lia. }
      exact (H (kerned_off depth on s r a u text (n + more) m K O)).
    Qed.
  End Movements.
End Last.

(** ** Tables *)

Lemma lookup_below {T} (v : Directory T) k j t : in_lookup v k j t -> k < N.of_nat (length (lookups_records (directory_lookups v))).
Proof. intros (l & E & _). exact (entry_short _ _ _ E). Qed.

Lemma subtable_below {T} o (kind : family T) f p v k j t : subtable_for o kind f p v k j t ->
  k < N.of_nat (length (lookups_records (directory_lookups v))).
Proof. intros (u & L & _). exact (lookup_below _ _ _ _ L). Qed.

Lemma texts_last v d script language wanted depth n more text out :
  N.of_nat (length (lookups_records (directory_lookups v))) <= n ->
  (shaped_by v d script language wanted depth (n + more) text out -> shaped_by v d script language wanted depth n text out) /\
  (shaped_by v d script language wanted depth n text out -> ~ ~ shaped_by v d script language wanted depth (n + more) text out).
Proof.
  intros L. split; [intros H; refine (shaped_last _ _ _ _ _ _ _ _ _ _ n more L _ _ H)|
    intros H; refine (shaped_further _ _ _ _ _ _ _ _ _ _ n more _ _ L H)]; intros * (t & X & _); exact (lookup_below _ _ _ _ X).
Qed.

Lemma texts_last_at o f p v pd d script language wanted depth n more text out :
  bounded f -> reads o read_glyph_substitution f p v -> reads o read_glyph_definition f pd d ->
  N.of_nat (length (lookups_records (directory_lookups v))) <= n ->
  (shaped_at o f p pd script language wanted depth (n + more) text out -> shaped_at o f p pd script language wanted depth n text out) /\
  (shaped_at o f p pd script language wanted depth n text out ->
    ~ ~ shaped_at o f p pd script language wanted depth (n + more) text out).
Proof.
  intros B H G. rewrite <- !(texts_mean o f p v pd d _ _ _ _ _ _ _ B H G). apply texts_last.
Qed.

Lemma texts_last_beyond o f p v d script language wanted depth n more text out :
  N.of_nat (length (lookups_records (directory_lookups v))) <= n ->
  (shaped_beyond o f p v d script language wanted depth (n + more) text out ->
    shaped_beyond o f p v d script language wanted depth n text out) /\
  (shaped_beyond o f p v d script language wanted depth n text out ->
    ~ ~ shaped_beyond o f p v d script language wanted depth (n + more) text out).
Proof.
  intros L. split; [intros H; refine (shaped_last _ _ _ _ _ _ _ _ _ _ n more L _ _ H)|
    intros H; refine (shaped_further _ _ _ _ _ _ _ _ _ _ n more _ _ L H)]; intros * (t & X & _); exact (subtable_below _ _ _ _ _ _ _ _ X).
Qed.

Lemma kerning_last v d script language wanted depth text n more m :
  N.of_nat (length (lookups_records (directory_lookups v))) <= n ->
  (kerned_by v d script language wanted depth text (n + more) m -> kerned_by v d script language wanted depth text n m) /\
  (kerned_by v d script language wanted depth text n m -> ~ ~ kerned_by v d script language wanted depth text (n + more) m).
Proof.
  intros L. split; [intros H; refine (kerned_last _ _ _ _ _ _ _ _ _ _ n more L _ H)|
    intros H; refine (kerned_further _ _ _ _ _ _ _ _ _ _ n more _ L H)]; intros * (t & X & _); exact (lookup_below _ _ _ _ X).
Qed.

Lemma kerning_last_at o f p v pd d script language wanted depth text n more m :
  bounded f -> reads o read_glyph_positioning f p v -> reads o read_glyph_definition f pd d ->
  N.of_nat (length (lookups_records (directory_lookups v))) <= n ->
  (kerned_at o f p pd script language wanted depth text (n + more) m -> kerned_at o f p pd script language wanted depth text n m) /\
  (kerned_at o f p pd script language wanted depth text n m ->
    ~ ~ kerned_at o f p pd script language wanted depth text (n + more) m).
Proof.
  intros B H G. rewrite <- !(kerning_means o f p v pd d _ _ _ _ _ _ _ B H G). apply kerning_last.
Qed.

Lemma kerning_last_beyond o f p v d script language wanted depth text n more m :
  N.of_nat (length (lookups_records (directory_lookups v))) <= n ->
  (kerned_beyond o f p v d script language wanted depth text (n + more) m ->
    kerned_beyond o f p v d script language wanted depth text n m) /\
  (kerned_beyond o f p v d script language wanted depth text n m ->
    ~ ~ kerned_beyond o f p v d script language wanted depth text (n + more) m).
Proof.
  intros L. split; [intros H; refine (kerned_last _ _ _ _ _ _ _ _ _ _ n more L _ H)|
    intros H; refine (kerned_further _ _ _ _ _ _ _ _ _ _ n more _ L H)]; intros * (t & X & _); exact (subtable_below _ _ _ _ _ _ _ _ X).
Qed.

(** ** Which lookups are on can be decided *)

Definition decided (P : Prop) : Prop := P \/ ~ P.

Lemma decided_and (P Q : Prop) : decided P -> decided Q -> decided (P /\ Q).
Proof. unfold decided. tauto. Qed.

Lemma decided_or (P Q : Prop) : decided P -> decided Q -> decided (P \/ Q).
Proof. unfold decided. tauto. Qed.

Lemma decided_iff (P Q : Prop) : (P <-> Q) -> decided Q -> decided P.
Proof. unfold decided. tauto. Qed.

Lemma decided_some {A} (o : option A) (P : A -> Prop) : (forall a, decided (P a)) -> decided (exists a, o = Some a /\ P a).
Proof.
  intros D. destruct o as [a|]; [|right; intros (a & E & _); discriminate E].
  destruct (D a) as [H|H]; [left; eauto|right]. intros (b & E & K). injection E as <-. exact (H K).
Qed.

Lemma decided_entry {A} (l : list A) : forall P : N -> A -> Prop, (forall i a, decided (P i a)) ->
  decided (exists i a, entry l i = Some a /\ P i a).
Proof.
  induction l as [|a l IH]; intros P D; [right; intros (i & b & E & _); unfold entry in E; destruct (N.to_nat i); discriminate E|].
  destruct (D 0 a) as [H|H]; [left; exists 0, a; split; [reflexivity|exact H]|].
  destruct (IH (fun i => P (i + 1)) (fun i b => D (i + 1) b)) as [(i & b & E & K)|N].
  - left. exists (i + 1), b. split; [|exact K]. unfold entry in *. replace (N.to_nat (i + 1)) with (S (N.to_nat i)) by lia. exact E.
  - right. intros (i & b & E & K). unfold entry in E. destruct (N.to_nat i) as [|j] eqn:J.
    + injection E as <-. replace i with 0 in K by lia. exact (H K).
    + apply N. exists (N.of_nat j), b. unfold entry. rewrite Nat2N.id. split; [exact E|]. replace (N.of_nat j + 1) with i by lia. exact K.
Qed.

Lemma decided_in {A} (l : list A) (P : A -> Prop) : (forall a, decided (P a)) -> decided (exists a, In a l /\ P a).
Proof.
  intros D. induction l as [|a l IH]; [right; intros (a & [] & _)|].
  destruct (D a) as [H|H]; [left; exists a; split; [left; reflexivity|exact H]|].
  destruct IH as [(b & I & K)|N]; [left; exists b; split; [right; exact I|exact K]|].
  right. intros (b & [<-|I] & K); [exact (H K)|apply N; eauto].
Qed.

Lemma decided_tag (s t : tag) : decided (s = t).
Proof.
  destruct (tag_eqb s t) eqn:E; [left; apply ProofFont.tag_eqb_eq; exact E|right]. intros H. apply ProofFont.tag_eqb_eq in H. congruence.
Qed.

Lemma turned_decided {T} (v : Directory T) script language (wanted : tag -> Prop) k :
  (forall t, decided (wanted t)) -> decided (turned_on v script language wanted k).
Proof.
  intros D.
  set (named (x : N) (P : tag -> Prop) := exists g, entry (features_headers (directory_features v)) x = Some g /\
    (P (feature_header_tag g) /\ exists r, entry (features_records (directory_features v)) x = Some r /\
      In k (feature_record_lookup_indices r))).
  set (spoken (s : ScriptRecord) (P : LanguageRecord -> Prop) := match language with
    | None => exists l, script_record_default_language s = Some l /\ P l
    | Some t => exists i h, entry (script_record_language_headers s) i = Some h /\ (language_header_tag h = t /\
        exists l, entry (script_record_language_records s) i = Some l /\ P l)
    end).
  assert (N : forall x P, (forall t, decided (P t)) -> decided (named x P)).
  { intros x P E. apply decided_some. intros g. apply decided_and; [apply E|]. apply decided_some. intros r.
    destruct (in_dec N.eq_dec k (feature_record_lookup_indices r)); [left|right]; assumption. }
  assert (L : forall s P, (forall l, decided (P l)) -> decided (spoken s P)).
  { intros s P E. unfold spoken. destruct language as [t|]; [|apply decided_some; exact E].
    apply decided_entry. intros i h. apply decided_and; [apply decided_tag|]. apply decided_some. exact E. }
  apply (decided_iff _ (exists i h, entry (scripts_headers (directory_scripts v)) i = Some h /\ (script_header_tag h = script /\
    exists s, entry (scripts_records (directory_scripts v)) i = Some s /\ spoken s (fun l =>
      named (language_record_required_feature_index l) (fun _ => True) \/
      exists x, In x (language_record_feature_indices l) /\ named x wanted)))).
  - split.
    + intros (feature & [(i & h & s & l & x & g & r & A1 & A2 & A3 & A4 & A5 & A6 & A7 & A8 & A9)|
        (W & i & h & s & l & x & g & r & A1 & A2 & A3 & A4 & A5 & A6 & A7 & A8 & A9)]); exists i, h;
        (split; [exact A1|]); (split; [exact A2|]); exists s; (split; [exact A3|]).
      * assert (X : named (language_record_required_feature_index l) (fun _ => True)).
        { rewrite A5. exists g. split; [exact A6|]. split; [exact Logic.I|]. eauto. }
        unfold spoken. destruct language as [t|]; [|exists l; auto]. destruct A4 as (i' & h' & B1 & B2 & B3).
        exists i', h'. split; [exact B1|]. split; [exact B2|]. exists l. auto.
      * assert (X : exists x, In x (language_record_feature_indices l) /\ named x wanted).
        { exists x. split; [exact A5|]. exists g. split; [exact A6|]. split; [rewrite A7; exact W|]. eauto. }
        unfold spoken. destruct language as [t|]; [|exists l; auto]. destruct A4 as (i' & h' & B1 & B2 & B3).
        exists i', h'. split; [exact B1|]. split; [exact B2|]. exists l. auto.
    + intros (i & h & A1 & A2 & s & A3 & A4).
      assert (X : exists l, match language with
        | None => script_record_default_language s = Some l
        | Some t => exists i h, entry (script_record_language_headers s) i = Some h /\ language_header_tag h = t /\
            entry (script_record_language_records s) i = Some l
        end /\ (named (language_record_required_feature_index l) (fun _ => True) \/
          exists x, In x (language_record_feature_indices l) /\ named x wanted)).
      { unfold spoken in A4. destruct language as [t|].
        - destruct A4 as (i' & h' & B1 & B2 & l & B3 & B4). exists l. split; [|exact B4]. eauto.
        - destruct A4 as (l & B3 & B4). exists l. auto. }
      destruct X as (l & A5 & [(g & B1 & _ & r & B2 & B3)|(x & I & g & B1 & W & r & B2 & B3)]); exists (feature_header_tag g).
      * left. exists i, h, s, l, (language_record_required_feature_index l), g, r. auto 10.
      * right. split; [exact W|]. exists i, h, s, l, x, g, r. auto 10.
  - apply decided_entry. intros i h. apply decided_and; [apply decided_tag|]. apply decided_some. intros s. apply L. intros l.
    apply decided_or; [apply N; intros t; left; exact Logic.I|]. apply decided_in. intros x. apply N. exact D.
Qed.

Lemma texts_last_decided v d script language wanted depth n more text out : (forall t, wanted t \/ ~ wanted t) ->
  N.of_nat (length (lookups_records (directory_lookups v))) <= n ->
  (shaped_by v d script language wanted depth (n + more) text out <-> shaped_by v d script language wanted depth n text out).
Proof.
  intros D L. split; [apply texts_last; exact L|]. intros G.
  induction more as [|more IH] using N.peano_ind; [rewrite N.add_0_r; exact G|].
  rewrite <- N.add_1_r, N.add_assoc. destruct (turned_decided v script language wanted (n + more) D) as [O|O].
  - eapply shaped_on; [exact IH|exact O| |].
    + apply (goes_none _ []). intros. apply does_idle; intros * (t0 & X & _); apply lookup_below in X; lia.
    + match goal with |- goes_back ?s ?t _ _ _ => pose proof (back_none s t (rev out) []) as B end.
      rewrite rev_involutive, app_nil_r in B. apply B. intros * (t0 & X & _). apply lookup_below in X. lia.
  - exact (shaped_off _ _ _ _ _ _ (n + more) text out IH O).
Qed.

Lemma kerning_last_decided v d script language wanted depth text n more m : (forall t, wanted t \/ ~ wanted t) ->
  N.of_nat (length (lookups_records (directory_lookups v))) <= n ->
  (kerned_by v d script language wanted depth text (n + more) m <-> kerned_by v d script language wanted depth text n m).
Proof.
  intros D L. split; [apply kerning_last; exact L|]. intros G.
  induction more as [|more IH] using N.peano_ind; [rewrite N.add_0_r; exact G|].
  rewrite <- N.add_1_r, N.add_assoc. destruct (turned_decided v script language wanted (n + more) D) as [O|O].
  - eapply kerned_on; [exact IH|exact O|].
    apply runs_none. intros. apply nudges_idle; intros * (t0 & X & _); apply lookup_below in X; lia.
  - exact (kerned_off _ _ _ _ _ _ _ (n + more) m IH O).
Qed.

Lemma texts_last_decided_at o f p v pd d script language wanted depth n more text out : (forall t, wanted t \/ ~ wanted t) ->
  bounded f -> reads o read_glyph_substitution f p v -> reads o read_glyph_definition f pd d ->
  N.of_nat (length (lookups_records (directory_lookups v))) <= n ->
  (shaped_at o f p pd script language wanted depth (n + more) text out <-> shaped_at o f p pd script language wanted depth n text out).
Proof. intros D B H G. rewrite <- !(texts_mean o f p v pd d _ _ _ _ _ _ _ B H G). apply texts_last_decided. exact D. Qed.

Lemma kerning_last_decided_at o f p v pd d script language wanted depth text n more m : (forall t, wanted t \/ ~ wanted t) ->
  bounded f -> reads o read_glyph_positioning f p v -> reads o read_glyph_definition f pd d ->
  N.of_nat (length (lookups_records (directory_lookups v))) <= n ->
  (kerned_at o f p pd script language wanted depth text (n + more) m <-> kerned_at o f p pd script language wanted depth text n m).
Proof. intros D B H G. rewrite <- !(kerning_means o f p v pd d _ _ _ _ _ _ _ B H G). apply kerning_last_decided. exact D. Qed.
