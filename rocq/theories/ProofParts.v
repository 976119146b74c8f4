(** A reader reports what the first of its parts that cannot be read does. *)

From Verif Require Export SpecParts.
From Verif Require Import Reads ReadsTactics ProofLayout ProofGsub ProofGpos ProofGdef ProofCpal
  ProofFvar ProofFont
  ProofErrors ProofShape.

(** ** Reports *)

Definition report {A} (r : res (A * N)) : res unit :=
  match r with
  | Ok _ => Ok tt
  | Err x => Err x
  | Panic => Panic
  end.

Definition part_report (o : options) (f : file) (x : part) : res unit :=
  let '(Part m p) := x in report (m (mkEnv f o) p).

Fixpoint list_report (o : options) (f : file) (l : list part) : res unit :=
  match l with
  | [] => Ok tt
  | x :: l => match part_report o f x with Ok _ => list_report o f l | r => r end
  end.

Lemma list_report_app o f l l' :
  list_report o f (l ++ l') = match list_report o f l with Ok _ => list_report o f l' | r => r end.
Proof.
  induction l as [|x l IH]; cbn [app list_report]; [reflexivity|].
  destruct (part_report o f x); [exact IH|reflexivity|reflexivity].
Qed.

Lemma readable_report o f x : readable o f x <-> part_report o f x = Ok tt.
Proof.
  destruct x as [A m p]. cbn. unfold reads. destruct (m (mkEnv f o) p) as [[v q]|y|]; cbn; split; intros H;
    try discriminate; try reflexivity; eauto; destruct H as (? & ? & H); discriminate.
Qed.

Lemma refused_report o f e x : refused o f e x <-> part_report o f x = Err e.
Proof.
  destruct x as [A m p]. cbn. unfold refuses. destruct (m (mkEnv f o) p) as [[v q]|y|]; cbn; split; congruence.
Qed.

Lemma panicking_report o f x : panicking o f x <-> part_report o f x = Panic.
Proof.
  destruct x as [A m p]. cbn. unfold panics. destruct (m (mkEnv f o) p) as [[v q]|y|]; cbn; split; congruence.
Qed.

Lemma list_report_ok o f l : list_report o f l = Ok tt <-> Forall (readable o f) l.
Proof.
  induction l as [|x l IH]; cbn [list_report]; [split; [constructor|reflexivity]|].
  rewrite Forall_cons_iff, readable_report, <- IH.
  destruct (part_report o f x) as [[]|y|]; split; try discriminate; try tauto; intros [H _]; discriminate.
Qed.

Lemma list_report_bad o f l r (P : part -> Prop) : (forall x, P x <-> part_report o f x = r) ->
  r <> Ok tt -> list_report o f l = r <-> first_bad o f P l.
Proof.
  intros HP Hr. unfold first_bad. split.
  - induction l as [|x l IH]; cbn [list_report]; [congruence|]. intros H.
    destruct (part_report o f x) as [[]|y|] eqn:E.
    + destruct (IH H) as (b & z & a & -> & Hb & Hz). exists (x :: b), z, a. repeat split; [|exact Hz].
      constructor; [apply readable_report, E|exact Hb].
    + exists [], x, l. repeat split; [constructor|]. apply HP. congruence.
    + exists [], x, l. repeat split; [constructor|]. apply HP. congruence.
  - intros (b & x & a & -> & Hb & Hx). apply HP in Hx. apply list_report_ok in Hb.
    rewrite list_report_app, Hb. cbn [list_report]. rewrite Hx. destruct r as [[]| |]; congruence.
Qed.

(** ** The calculus *)

Section Calculus.
Context (e : env).
Notation f := (content e).
Notation o := (opts e).

Definition follows {A} (m : M A) (p : N) (l : list part) : Prop := report (m e p) = list_report o f l.

Lemma follows_conv {A} (m : M A) p l l' : follows m p l -> l = l' -> follows m p l'.
Proof. intros H <-. exact H. Qed.

Lemma follows_ret {A} (a : A) p : follows (ret a) p [].
Proof. reflexivity. Qed.

Lemma follows_bind {A B} (m : M A) (k : A -> M B) p l l' :
  follows m p l -> (forall v q, m e p = Ok (v, q) -> follows (k v) q l') -> follows (bind m k) p (l ++ l').
Proof.
  unfold follows, bind. intros H K. rewrite list_report_app, <- H.
  destruct (m e p) as [[v q]|x|]; cbn [report]; [|reflexivity|reflexivity]. apply K. reflexivity.
Qed.

Lemma follows_run {A B} (m : M A) (k : A -> M B) p v q l :
  m e p = Ok (v, q) -> follows (k v) q l -> follows (bind m k) p l.
Proof. unfold follows, bind. intros ->. exact (fun H => H). Qed.

Lemma follows_takes {A B} S (m : M A) (k : A -> M B) p P n v l :
  takes S m e p P n -> P v -> follows (k v) (p + n) l -> follows (bind m k) p l.
Proof. intros [_ H] Hv. apply follows_run. apply H. auto. Qed.

Lemma follows_peek {A B} S (m : M A) (k : A -> M B) p P n v l :
  takes S m e p P n -> P v -> follows (k v) p l -> follows (bind (peek m) k) p l.
Proof.
  intros [_ H] Hv. apply follows_run. unfold peek, stay. rewrite (proj2 (H v (p + n)) (conj Hv eq_refl)).
  reflexivity.
Qed.

Lemma follows_finds {A B} S (m : M A) (k : A -> M B) p P v l :
  finds S m e p P -> P v -> (forall q, follows (k v) q l) -> follows (bind m k) p l.
Proof. intros [_ H] Hv Hk. apply H in Hv as [q Hq]. exact (follows_run _ _ _ _ _ _ Hq (Hk q)). Qed.

Lemma follows_map {A B} (m : M A) (g : A -> B) p l :
  follows m p l -> follows (v <- m;; ret (g v)) p l.
Proof. intros H. rewrite <- (app_nil_r l). apply follows_bind; [exact H|]. intros. apply follows_ret. Qed.

Lemma follows_self {A} (m : M A) p : follows m p [Part m p].
Proof. unfold follows. cbn. destruct e. destruct (m _ p) as [[]| |]; reflexivity. Qed.

Lemma follows_stay {A} (m : M A) p l : follows m p l -> follows (stay m) p l.
Proof. unfold follows, stay. intros <-. destruct (m e p) as [[]| |]; reflexivity. Qed.

Lemma add_u64_run base offset p : near base offset -> add_u64 base offset e p = Ok (base + offset, p).
Proof. intros H. unfold near in H. unfold add_u64, add_wrapping, bind, ask. apply N.ltb_lt in H.
  rewrite H. reflexivity. Qed.

Lemma jump_take_run {A} (m : M A) base offset p :
  near base offset -> jump_take base offset m e p = m e (base + offset).
Proof. intros H. unfold jump_take. rewrite (run_bind _ _ _ _ _ _ (add_u64_run _ _ _ H)). reflexivity. Qed.

Lemma follows_jump_take {A} (m : M A) base offset p :
  near base offset -> follows (jump_take base offset m) p [Part m (base + offset)].
Proof. intros H. unfold follows. rewrite (jump_take_run _ _ _ _ H). apply follows_self. Qed.

Lemma follows_maybe {A} (m : M A) base offset p :
  near base offset -> follows (jump_take_maybe base offset m) p (nonzero base m [offset]).
Proof.
  intros H. unfold jump_take_maybe, nonzero. cbn [filter].
  destruct (0 <? offset) eqn:E.
  - assert (offset =? 0 = false) as -> by (apply N.ltb_lt in E; apply N.eqb_neq; lia).
    cbn. apply follows_map, follows_jump_take, H.
  - assert (offset =? 0 = true) as -> by (apply N.ltb_ge in E; apply N.eqb_eq; lia). apply follows_ret.
Qed.

Lemma follows_range {A} (m : nat -> M A) (g : nat -> list part) n : forall i p,
  (forall j q, (i <= j < i + n)%nat -> follows (m j) q (g j)) ->
  follows (for_range i n m) p (flat_map g (seq i n)).
Proof.
  induction n as [|n IH]; intros i p H; cbn [for_range seq flat_map]; [apply follows_ret|].
  apply follows_bind; [apply H; lia|]. intros v q _. apply follows_map, IH. intros j r Hj. apply H. lia.
Qed.

Lemma flat_map_nth {A B} (g : A -> list B) (h : nat -> list B) l : forall i,
  (forall j x, nth_error l j = Some x -> h (i + j)%nat = g x) ->
  flat_map h (seq i (length l)) = flat_map g l.
Proof.
  induction l as [|x l IH]; intros i H; cbn; [reflexivity|]. f_equal.
  - rewrite <- (H 0%nat x eq_refl). f_equal. lia.
  - apply IH. intros j y Hy. rewrite <- (H (S j) y Hy). f_equal. lia.
Qed.

Lemma follows_each {A} (m : nat -> M A) (g : N -> list part) offsets count p :
  N.of_nat (length offsets) = count ->
  (forall i offset q, nth_error offsets i = Some offset -> follows (m i) q (g offset)) ->
  follows (for_n count m) p (flat_map g offsets).
Proof.
  intros <- H. unfold for_n. rewrite Nnat.Nat2N.id.
  rewrite <- (flat_map_nth g (fun i => match nth_error offsets i with Some x => g x | None =>
    [] end) offsets 0).
  - apply follows_range. intros j q Hj. destruct (nth_error offsets j) as [x|] eqn:E; [apply H, E|].
    apply nth_error_None in E. lia.
  - intros j x Hj. cbn. rewrite Hj. reflexivity.
Qed.

Lemma each_flat_map {A} (m : M A) base offsets :
  each base m offsets = flat_map (fun offset => [Part m (base + offset)]) offsets.
Proof. unfold each. induction offsets as [|x l IH]; cbn; [reflexivity|]. rewrite <- IH. reflexivity. Qed.

Lemma nonzero_flat_map {A} (m : M A) base offsets :
  nonzero base m offsets = flat_map (fun offset => nonzero base m [offset]) offsets.
Proof.
  induction offsets as [|x l IH]; [reflexivity|]. cbn [flat_map]. rewrite <- IH. unfold nonzero.
  cbn [filter]. destruct (x =? 0); reflexivity.
Qed.

Lemma follows_n {A} (m : M A) base offsets count p :
  N.of_nat (length offsets) = count -> nears base offsets ->
  follows (jump_take_n base count offsets m) p (each base m offsets).
Proof.
  intros Hl Hn. rewrite each_flat_map. apply follows_each; [exact Hl|]. intros i x q Hi.
  eapply follows_run; [unfold index; rewrite Hi; reflexivity|].
  apply follows_jump_take. exact (nears_nth _ _ _ _ Hn Hi).
Qed.

Lemma follows_headers {A H} (g : H -> N) (m : M A) base headers count p :
  N.of_nat (length headers) = count -> nears base (map g headers) ->
  follows (jump_take_each base count (fun i => h <- index headers i;; ret (g h)) m) p
    (each base m (map g headers)).
Proof.
  intros Hl Hn. rewrite each_flat_map. apply follows_each; [rewrite map_length; exact Hl|]. intros i x q Hi.
  pose proof (nears_nth _ _ _ _ Hn Hi) as N. rewrite nth_error_map in Hi.
  destruct (nth_error headers i) as [h|] eqn:E; [|discriminate Hi]. injection Hi as <-.
  eapply follows_run; [unfold bind, index; rewrite E; reflexivity|]. apply follows_jump_take, N.
Qed.

Lemma follows_maybe_n {A} (m : M A) base offsets count p :
  N.of_nat (length offsets) = count -> nears base offsets ->
  follows (jump_take_maybe_n base count offsets m) p (nonzero base m offsets).
Proof.
  intros Hl Hn. rewrite nonzero_flat_map. apply follows_each; [exact Hl|]. intros i x q Hi.
  eapply follows_run; [unfold index; rewrite Hi; reflexivity|].
  apply follows_maybe. exact (nears_nth _ _ _ _ Hn Hi).
Qed.

(** Elements one after another, each of the same size. *)
Lemma follows_row_range {A} S (m : nat -> M A) (w : M A) (P : N -> A -> Prop) size n : forall i p q,
  (forall j, m j = w) -> (forall p, takes S w e p (P p) size) -> p = q + size * N.of_nat i ->
  follows (for_range i n m) p (map (fun j => Part w (q + size * N.of_nat j)) (seq i n)).
Proof.
  induction n as [|n IH]; intros i p q Hm H ->; cbn [for_range seq map]; [apply follows_ret|].
  rewrite Hm. apply (follows_bind w _ _ [_]); [apply follows_self|]. intros v r Hr.
  apply (H (q + size * N.of_nat i)) in Hr. destruct Hr as [_ ->].
  apply follows_map, IH; [exact Hm|exact H|lia].
Qed.

Lemma follows_row {A} S (w : M A) (P : N -> A -> Prop) size n p :
  (forall p, takes S w e p (P p) size) -> follows (for_n n (fun _ => w)) p (row p size n w).
Proof. intros H. eapply follows_row_range; [reflexivity|exact H|cbn; lia]. Qed.

(** Elements at a distance that is given. *)
Lemma follows_strides {A} (w : M A) base size n p :
  (forall i, (i < N.to_nat n)%nat -> near base (N.of_nat i * size)) ->
  follows (for_n n (fun i => jump_take base (N.of_nat i * size) w)) p (row base size n w).
Proof.
  intros H. unfold row, for_n.
  replace (map _ _) with (flat_map (fun i => [Part w (base + size * N.of_nat i)]) (seq 0 (N.to_nat n))).
  - apply follows_range. intros j q Hj. rewrite (N.mul_comm size). apply follows_jump_take, H. lia.
  - induction (seq 0 (N.to_nat n)) as [|x l IH]; cbn; [reflexivity|]. rewrite IH. reflexivity.
Qed.

Lemma follows_position {A} (k : N -> M A) p l : follows (k p) p l -> follows (bind get_position k) p l.
Proof. exact (fun H => H). Qed.

Lemma follows_ask {A} (k : options -> M A) p l : follows (k o) p l -> follows (bind ask k) p l.
Proof. exact (fun H => H). Qed.

Lemma follows_list {A} (m : M A) base offset default p : near base offset ->
  follows (jump_take_list base offset m default) p (unless (ignore_incomplete_directories o) base m offset).
Proof.
  intros H. unfold jump_take_list, unless. apply follows_ask. destruct (ignore_incomplete_directories o).
  - apply follows_map, follows_maybe, H.
  - apply follows_jump_take, H.
Qed.

End Calculus.

(** ** The readers *)

Ltac placed :=
  cbv beta;
  lazymatch goal with
  | |- _ /\ _ => split; [placed | first [reflexivity | lia]]
  | |- _ =>
      match goal with
      | H : u16_at _ ?a _ |- u16_at _ ?b _ => replace b with a by lia; exact H
      | H : i16_at _ ?a _ |- i16_at _ ?b _ => replace b with a by lia; exact H
      | H : u32_at _ ?a _ |- u32_at _ ?b _ => replace b with a by lia; exact H
      | H : tag_at _ ?a _ |- tag_at _ ?b _ => replace b with a by lia; exact H
      | H : flags_at _ _ _ ?a _ |- value_flags_at _ _ ?b _ => replace b with a by lia; exact H
      | H : flags_at _ _ _ ?a _ |- flags_at _ _ _ ?b _ => replace b with a by lia; exact H
      | H : u16s_at _ ?a _ _ |- u16s_at _ ?b _ _ => replace b with a by lia; exact H
      | H : u32s_at _ ?a _ _ |- u32s_at _ ?b _ _ => replace b with a by lia; exact H
      | H : vec_at _ _ ?a _ _ |- vec_at _ _ ?b _ _ => replace b with a by lia; exact H
      end
  end.

Ltac followed :=
  lazymatch goal with
  | |- follows _ (jump_take _ _ _) _ _ => eapply follows_jump_take; nearby
  | |- follows _ (jump_take_maybe _ _ _) _ _ => eapply follows_maybe; nearby
  | |- follows _ (jump_take_list _ _ _ _) _ _ => eapply follows_list; nearby
  | |- follows _ (jump_take_n _ _ _ _) _ _ => eapply follows_n; [lengths | nearby]
  | |- follows _ (jump_take_each _ _ _ _) _ _ => eapply follows_headers; [lengths | nearby]
  | |- follows _ (jump_take_maybe_n _ _ _ _) _ _ => eapply follows_maybe_n; [lengths | nearby]
  | |- follows _ (stay _) _ _ => apply follows_stay; followed
  | |- follows _ (for_n _ (fun _ => _)) _ _ =>
      eapply (follows_row _ True); intros ?; solve [eauto 6 with reads]
  end.

Ltac follow :=
  lazymatch goal with
  | |- follows _ (bind get_position _) _ _ => apply follows_position; cbv beta
  | |- follows _ (bind ask _) _ _ => apply follows_ask; cbv beta
  | |- follows _ (bind (peek _) _) _ _ => eapply (follows_peek _ True); [taken | placed | cbv beta iota]
  | |- follows _ (bind _ _) _ _ =>
      first
      [ eapply (follows_takes _ True); [taken | placed | cbv beta]
      | eapply follows_bind; [followed | intros ? ? _; cbv beta] ]
  | |- follows _ (ret _) _ _ => apply follows_ret
  end.

Ltac opened :=
  lazymatch goal with
  | |- follows _ ?m _ _ => let h := head m in unfold h
  end.

Ltac agreed := first [reflexivity | lia | progress f_equal; agreed].

Ltac listed := unfold each, unless, value_part; cbn [app map]; rewrite ?map_app, ?app_nil_r,
  <- ?app_assoc; cbn [app map]; agreed.

Ltac parted := opened; eapply follows_conv; [repeat follow | listed].

Ltac typed := opened; cbv beta iota; apply follows_map, follows_self.

Ltac formatted :=
  opened; eapply (follows_peek _ True); [taken | placed | cbv beta iota; apply follows_map; parted].


Section Readers.
Context (o : options) (f : file) (Hb : bounded f).
Notation e := (mkEnv f o).

Lemma reverse_follows p format c n1 l1 n2 l2 m glyphs : u16_at f p format -> u16_at f (p + 2) c ->
  u16_at f (p + 4) n1 -> u16s_at f (p + 6) n1 l1 ->
  u16_at f (p + 6 + 2 * n1) n2 -> u16s_at f (p + 8 + 2 * n1) n2 l2 ->
  u16_at f (p + 8 + 2 * n1 + 2 * n2) m -> u16s_at f (p + 10 + 2 * n1 + 2 * n2) m glyphs ->
  follows e read_reverse_chained_contextual_substibution p (each p read_coverage (c :: l1 ++ l2)).
Proof. intros. opened. eapply follows_conv; [repeat follow|]. listed. Qed.

Lemma anchor_follows p x y a b : u16_at f p 3 -> i16_at f (p + 2) x -> i16_at f (p + 4) y ->
  u16_at f (p + 6) a -> u16_at f (p + 8) b ->
  follows e read_anchor p (nonzero p read_correction [a; b]).
Proof.
  intros. opened. follow. apply follows_map. opened. eapply follows_conv; [repeat follow|].
  rewrite (nonzero_flat_map _ _ [a; b]). cbn [flat_map]. listed.
Qed.

Lemma anchor3_follows p format x y a b : u16_at f p format -> i16_at f (p + 2) x -> i16_at f (p + 4) y ->
  u16_at f (p + 6) a -> u16_at f (p + 8) b ->
  follows e read_anchor3 p (nonzero p read_correction [a; b]).
Proof.
  intros. opened. eapply follows_conv; [repeat follow|].
  rewrite (nonzero_flat_map _ _ [a; b]). cbn [flat_map]. listed.
Qed.

Lemma file_follows p d t : tag_at f p t -> t <> Tag "t" "t" "c" "f" -> follows e (read_file d) p [Part (read_font d) p].
Proof.
  intros Ht N. opened. eapply (follows_peek _ True); [taken|exact Ht|]. cbv beta.
  destruct (tag_eqb t ttcf) eqn:E; [apply tag_eqb_eq in E; destruct (N E)|]. apply follows_map, follows_self.
Qed.

Lemma font_follows p d h : offsets_header_at f p h -> truetype_accept d (offsets_header_tag h) = true ->
  follows e (read_font d) p (row (p + 12) 16 (offsets_header_table_count h) read_offset_record).
Proof.
  intros Hh Ha. opened. apply follows_map. opened. assert (Ht : tag_at f p (offsets_header_tag h)).
  { destruct h. exact (proj1 Hh). }
  eapply (follows_peek _ True); [taken|exact Ht|]. cbv beta. rewrite Ha.
  eapply (follows_takes _ True); [apply read_offsets_header_takes|exact Hh|]. cbv beta. apply follows_map.
  eapply (follows_row _ True). apply read_offset_record_takes.
Qed.

Lemma lookup_record_follows p T (read_table : N -> M T) t flags n l :
  u16_at f p t -> flags_at (checked_flags o) 0x00E0 f (p + 2) flags -> u16_at f (p + 4) n ->
  u16s_at f (p + 6) n l ->
  (N.testbit flags 4 = true -> exists set, u16_at f (p + 6 + 2 * n) set) ->
  follows e (read_lookup_record read_table) p (each p (read_table t) l).
Proof.
  intros Ht Hf Hn Hl Hs. opened. follow. follow. unfold take_lookup_flags. follow. follow. follow.
  rewrite has_mark_filtering_bit. destruct (N.testbit flags 4).
  - destruct (Hs eq_refl) as [s H]. eapply follows_run.
    + unfold take_if. erewrite run_bind; [reflexivity|]. apply (take_u16_takes True).
      replace (p + 2 + 2 + 2 + 2 * n) with (p + 6 + 2 * n) by lia. exact (conj H eq_refl).
    + cbv beta. apply follows_map. followed.
  - eapply follows_run; [reflexivity|]. apply follows_map. followed.
Qed.

Lemma directory_follows p T (read_table : N -> M T) minor s t l v :
  u16_at f p 1 -> u16_at f (p + 2) minor -> u16_at f (p + 4) s -> u16_at f (p + 6) t -> u16_at f (p + 8) l ->
  (minor = 0 /\ v = 0 \/ minor = 1 /\ u32_at f (p + 10) v) ->
  follows e (read_directory read_table) p
      (unless (ignore_incomplete_directories o) p read_scripts s ++
       unless (ignore_incomplete_directories o) p read_features t ++
       unless (ignore_incomplete_directories o) p (read_lookups read_table) l ++
       nonzero p read_feature_variations [v]).
Proof.
  intros Hp Hm Hs Ht Hl [[-> ->]|[-> Hv]]; opened; follow; follow; follow;
    (eapply follows_run; [reflexivity|]); cbv beta; follow; follow; follow; cbn [N.eqb Pos.eqb andb].
  - eapply follows_run; [reflexivity|]. cbv beta.
    eapply follows_conv; [repeat follow|]. do 3 apply (f_equal (app _)). apply app_nil_r.
  - eapply (follows_takes _ True); [taken|placed|]. cbv beta.
    eapply follows_conv; [repeat follow|]. do 3 apply (f_equal (app _)). apply app_nil_r.
Qed.

Lemma mark1_follows p base c a : base < 2 ^ 63 -> u16_at f p c -> u16_at f (p + 2) a ->
  follows e (read_mark1 base) p (unless (ignore_incomplete_marks o) base read_anchor a).
Proof.
  intros. opened. do 3 follow. unfold unless. cbn [opts]. apply follows_map.
  destruct (ignore_incomplete_marks o); [apply follows_map|]; followed.
Qed.

Lemma connection_follows p base a b : base < 2 ^ 63 -> u16_at f p a -> u16_at f (p + 2) b ->
  follows e (read_connection base) p (nonzero base read_anchor [a; b]).
Proof.
  intros. opened. follow. follow. eapply follows_conv; [eapply follows_bind|].
  - apply follows_stay. repeat follow.
  - intros [] q _. apply follows_ret.
  - rewrite (nonzero_flat_map _ _ [a; b]). cbn [flat_map]. listed.
Qed.

Lemma field_follows {A B} (m : M A) (k : option A -> M B) elem flags i p x l :
  (forall q, takes True m e q (elem q) 2) -> field_at elem flags i p x ->
  follows e (k x) (p + 2 * bits_below flags (Datatypes.S i)) l ->
  follows e (bind (take_if (has_flag flags (2 ^ N.of_nat i)) m) k) (p + 2 * bits_below flags i) l.
Proof.
  intros Hm Hx Hk. eapply (follows_takes _ True); [apply take_field_takes, Hm|exact Hx|].
  rewrite field_next. exact Hk.
Qed.

Lemma linked_follows base flags k p x q : base < 2 ^ 63 -> field_at (u16_at f) flags k p x ->
  follows e (take_linked base x) q (nonzero base read_correction (given [x])).
Proof.
  intros Hbase Hx. destruct x as [x|]; cbn [take_linked given flat_map app].
  - destruct Hx as [_ Hx]. followed.
  - apply follows_ret.
Qed.

Lemma single_follows p base flags x y xa ya a b c d : base < 2 ^ 63 ->
  field_at (i16_at f) flags 0 p x -> field_at (i16_at f) flags 1 p y ->
  field_at (i16_at f) flags 2 p xa -> field_at (i16_at f) flags 3 p ya ->
  field_at (u16_at f) flags 4 p a -> field_at (u16_at f) flags 5 p b ->
  field_at (u16_at f) flags 6 p c -> field_at (u16_at f) flags 7 p d ->
  follows e (read_single base flags) p (nonzero base read_correction (given [a; b; c; d])).
Proof.
  intros Hbase H0 H1 H2 H3 H4 H5 H6 H7. rewrite <- (N.add_0_r p) at 1.
  change (p + 0) with (p + 2 * bits_below flags 0). opened.
  eapply (field_follows _ _ _ flags 0); [apply take_i16_takes|exact H0|].
  eapply (field_follows _ _ _ flags 1); [apply take_i16_takes|exact H1|].
  eapply (field_follows _ _ _ flags 2); [apply take_i16_takes|exact H2|].
  eapply (field_follows _ _ _ flags 3); [apply take_i16_takes|exact H3|].
  eapply (field_follows _ _ _ flags 4); [apply take_u16_takes|exact H4|].
  eapply (field_follows _ _ _ flags 5); [apply take_u16_takes|exact H5|].
  eapply (field_follows _ _ _ flags 6); [apply take_u16_takes|exact H6|].
  eapply (field_follows _ _ _ flags 7); [apply take_u16_takes|exact H7|].
  eapply follows_conv; [eapply follows_bind|].
  - apply follows_stay.
    eapply follows_bind; [eapply linked_follows; [exact Hbase|exact H4]|]. intros ? ? _.
    eapply follows_bind; [eapply linked_follows; [exact Hbase|exact H5]|]. intros ? ? _.
    eapply follows_bind; [eapply linked_follows; [exact Hbase|exact H6]|]. intros ? ? _.
    eapply follows_bind; [eapply linked_follows; [exact Hbase|exact H7]|]. intros ? ? _. apply follows_ret.
  - intros [[[]]] q _. apply follows_ret.
  - unfold given. change [a; b; c; d] with ([a] ++ [b] ++ [c] ++ [d]). rewrite !flat_map_app.
    unfold nonzero, each. rewrite !filter_app, !map_app, !app_nil_r, <- ?app_assoc. reflexivity.
Qed.

Lemma value_follows base flags p : base < 2 ^ 63 ->
  follows e (if 0 <? flags then v <- read_single base flags;; ret (Some v) else ret None) p
    (value_part base flags p).
Proof.
  intros Hbase. unfold value_part. destruct (N.eqb_spec flags 0) as [->|N]; [apply follows_ret|].
  rewrite (proj2 (N.ltb_lt 0 flags)) by lia. apply follows_map, follows_self.
Qed.

Lemma values_follow {B} base flags1 flags2 p (g : option Single -> option Single -> B) : base < 2 ^ 63 ->
  follows e
    (value1 <- (if 0 <? flags1 then v <- read_single base flags1;; ret (Some v) else ret None);;
     value2 <- (if 0 <? flags2 then v <- read_single base flags2;; ret (Some v) else ret None);;
     ret (g value1 value2)) p
    (value_part base flags1 p ++ value_part base flags2 (p + value_size flags1)).
Proof.
  intros Hbase. apply follows_bind; [apply value_follows, Hbase|]. intros v q Hq.
  apply (take_value_takes True e base flags1 p Hbase) in Hq as [_ ->].
  apply follows_map, value_follows, Hbase.
Qed.

Lemma single_adjustment1_follows p c flags :
  u16_at f p 1 -> u16_at f (p + 2) c -> flags_at (checked_flags o) 0xFF00 f (p + 4) flags ->
  follows e read_single_adjustment p [Part (read_single p flags) (p + 6); Part read_coverage (p + c)].
Proof.
  intros Hp Hc Hf. opened. follow. apply follows_map. opened. do 4 follow.
  eapply follows_conv; [eapply follows_bind; [apply follows_self|intros ? ? _; repeat follow]|]. listed.
Qed.

Lemma only_single_adjustment1_follows p format c flags :
  u16_at f p format -> u16_at f (p + 2) c -> flags_at (checked_flags o) 0xFF00 f (p + 4) flags ->
  follows e read_single_adjustment1 p [Part (read_single p flags) (p + 6); Part read_coverage (p + c)].
Proof.
  intros Hp Hc Hf. opened. do 4 follow.
  eapply follows_conv; [eapply follows_bind; [apply follows_self|intros ? ? _; repeat follow]|]. listed.
Qed.

Lemma caret1_follows p : u32_at f p 1 -> follows e read_caret p [].
Proof.
  intros Hp. opened. follow. apply follows_map. opened. destruct (small_words f p 1 eq_refl Hp) as [H1 H2].
  assert (i16_at f (p + 2) 1) by (exists 1; split; [exact H2|reflexivity]). repeat follow.
Qed.

Lemma caret2_follows p : u32_at f p 2 -> follows e read_caret p [].
Proof.
  intros Hp. opened. follow. apply follows_map. opened. destruct (small_words f p 2 eq_refl Hp) as [H1 H2].
  repeat follow.
Qed.

Lemma caret_follows p a : u32_at f p 3 -> u16_at f (p + 4) a ->
  follows e read_caret p [Part read_correction (p + a)].
Proof.
  intros Hp Ha. opened. follow. apply follows_map. opened. destruct (small_words f p 3 eq_refl Hp) as [H1 H2].
  assert (i16_at f (p + 2) 3) by (exists 3; split; [exact H2|reflexivity]).
  eapply follows_conv; [repeat follow|]. listed.
Qed.

Lemma gdef_follows p h a b c d m i : gdef_header_at f p h -> gdef_offsets h = (a, b, c, d, m, i) ->
  follows e read_glyph_definition p
      (nonzero p read_class [a] ++ nonzero p read_attachments [b] ++ nonzero p read_gdef_ligatures [c] ++
       nonzero p read_class [d] ++ nonzero p read_marks [m] ++ nonzero p read_store [gdef_variation_offset h]).
Proof.
  intros Hh E. opened. follow. eapply (follows_finds _ True);
    [apply read_gdef_header_finds|exact Hh|]. intros q.
  cbv beta. destruct h as [[]|[]|[]]; cbn in E; injection E as <- <- <- <- <- <-; cbn in Hh; break; subst;
    cbv beta iota delta [gdef_glyph_class_offset gdef_attachment_offset gdef_ligature_offset
      gdef_mark_class_offset
      gdef_mark_offset gdef_mark_offset_of_version13 gdef_variation_offset].
  all: assert (near p 0) by (apply near_intro; [base_small|reflexivity]).
  all: eapply follows_conv;
    [repeat first [follow | eapply follows_bind; [apply follows_maybe; assumption|intros ? ? _; cbv beta]]|].
  all: do 5 apply (f_equal (app _)); apply app_nil_r.
Qed.

Lemma cpal0_follows p h : cpal_header_at f p (CpalVersion0 h) ->
    follows e read_color_palettes p
      (row (p + cpal_header0_color_offset h) 4 (cpal_header0_color_count h) read_color).
Proof.
  intros Hh. opened. follow. eapply (follows_finds _ True); [apply read_cpal_header_finds|exact Hh|]. intros q.
  cbv beta iota. apply follows_map. destruct h. cbn in *. break. unfold follows.
  rewrite jump_take_run by nearby. eapply (follows_row _ True). apply read_color_takes.
Qed.

Lemma cpal1_follows p h : cpal_header_at f p (CpalVersion1 h) ->
    follows e read_color_palettes p
      (row (p + cpal_header1_color_offset h) 4 (cpal_header1_color_count h) read_color).
Proof.
  intros Hh. opened. follow. eapply (follows_finds _ True); [apply read_cpal_header_finds|exact Hh|]. intros q.
  cbv beta iota. apply follows_map. destruct h. cbn in *. break. unfold follows.
  rewrite jump_take_run by nearby. eapply (follows_row _ True). apply read_color_takes.
Qed.

Lemma fvar_follows p h : fvar_header_at f p h ->
  follows e read_font_variations p
      (row (p + fvar_header_axis_offset h) (fvar_header_axis_size h) (fvar_header_axis_count h)
         read_axis_record ++
       row (p + fvar_header_axis_offset h + fvar_header_axis_count h * fvar_header_axis_size h)
         (fvar_header_instance_size h) (fvar_header_instance_count h)
         (read_instance_record (fvar_header_axis_count h))).
Proof.
  intros Hh. opened. follow. eapply (follows_finds _ True); [apply read_fvar_header_finds|exact Hh|]. intros q.
  cbv beta. destruct h as [ma mi a r n s n' s']. cbn in Hh |- *. break.
  assert (p < 9223372036854775808) by base_small.
  repeat match goal with H : u16_at _ _ _ |- _ => apply (u16_bound e) in H end.
  assert (N : forall i s, i < 65536 -> s < 65536 -> i * s < 4294967296) by (intros; nia).
  assert (near_small : forall base offset, base < 9223372041149808640 -> offset < 4294967296 ->
    near base offset).
  { intros. unfold near. change (2 ^ 64) with 18446744073709551616. lia. }
  eapply follows_run; [apply add_u64_run; apply near_small; lia|]. cbv beta.
  apply follows_bind; [apply follows_strides; intros i Hi; apply near_small; [lia|apply N; lia]|]. intros ? ? _.
  assert (n * s < 4294967296) by (apply N; assumption).
  eapply follows_run; [apply add_u64_run; apply near_small; [lia|assumption]|]. cbv beta.
  apply follows_map, follows_strides. intros i Hi. apply near_small; [lia|apply N; lia].
Qed.

End Readers.

Ltac theirs := first
  [ eapply file_follows | eapply font_follows | eapply lookup_record_follows | eapply directory_follows
  | eapply reverse_follows | eapply anchor_follows | eapply mark1_follows | eapply connection_follows
  | eapply single_follows | eapply single_adjustment1_follows | eapply caret1_follows;
    eassumption | eapply caret2_follows; eassumption
  | eapply caret_follows | eapply gdef_follows
  | eapply cpal0_follows | eapply cpal1_follows | eapply fvar_follows
  | eapply anchor3_follows | eapply only_single_adjustment1_follows ]; eassumption.

Lemma parts_follow o f p A (m : M A) l : bounded f -> parts o f p m l -> follows (mkEnv f o) m p l.
Proof.
  intros Hb H. destruct H; try solve [typed | formatted | parted | theirs];
    try (assert (p < 2 ^ 63) by base_small; solve [parted | formatted]).
  - opened. follow. apply values_follow. assumption.
  - apply values_follow. assumption.
Qed.

(** ** What is reported *)

Section Reported.
Context (o : options) (f : file) (p : N) (A : Type) (m : M A) (l : list part).
Context (Hb : bounded f) (H : parts o f p m l).

Lemma parts_readable : readable o f (Part m p) <-> Forall (readable o f) l.
Proof. rewrite readable_report, <- list_report_ok. cbn. rewrite (parts_follow _ _ _ _ _ _ Hb H).
  reflexivity. Qed.

Lemma parts_refused x : refused o f x (Part m p) <-> first_bad o f (refused o f x) l.
Proof.
  rewrite refused_report, <- list_report_bad with (r := Err x); [|intros y; apply refused_report|discriminate].
  cbn. rewrite (parts_follow _ _ _ _ _ _ Hb H). reflexivity.
Qed.

Lemma parts_panicking : panicking o f (Part m p) <-> first_bad o f (panicking o f) l.
Proof.
  rewrite panicking_report, <- list_report_bad with (r := Panic);
    [|intros y; apply panicking_report|discriminate].
  cbn. rewrite (parts_follow _ _ _ _ _ _ Hb H). reflexivity.
Qed.

End Reported.

Lemma blamed_refused o f x y e : bounded f -> blamed o f x y -> refused o f e y -> refused o f e x.
Proof.
  intros Hb H He. induction H as [|A m p before x after y Hp Hr _ IH]; [exact He|].
  apply (parts_refused _ _ _ _ _ _ Hb Hp). exists before, x, after. auto.
Qed.

Lemma blamed_panicking o f x y : bounded f -> blamed o f x y -> panicking o f y -> panicking o f x.
Proof.
  intros Hb H He. induction H as [|A m p before x after y Hp Hr _ IH]; [exact He|].
  apply (parts_panicking _ _ _ _ _ _ Hb Hp). exists before, x, after. auto.
Qed.
