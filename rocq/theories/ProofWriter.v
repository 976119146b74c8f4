(** What is written is in the file: blocks, and the structures shared by the tables. *)

From Verif Require Export Writer SpecFits SpecErase SpecShape SpecLayout.

(** ** Blocks *)

Fixpoint span (ps : list piece) : N :=
  match ps with
  | [] => 0
  | Raw _ :: ps => span ps
  | Link c :: ps | Long c :: ps => size c + span ps
  end.

(** The file [f] has at [p] the fixed part of [ps], whose offsets count from [b], the
    first of them being [k]. *)
Fixpoint laid (f : file) (b p k : N) (ps : list piece) : Prop :=
  match ps with
  | [] => True
  | Raw l :: ps => bytes_at f p l /\ laid f b (p + size l) k ps
  | Link c :: ps =>
      (0 < k /\ u16_at f p k /\ size c < 65536 /\ bytes_at f (b + k) c) /\
      laid f b (p + 2) (k + size c) ps
  | Long c :: ps =>
      (0 < k /\ u32_at f p k /\ size c < 65536 /\ bytes_at f (b + k) c) /\
      laid f b (p + 4) (k + size c) ps
  end.

Lemma size_app k l : size (k ++ l) = size k + size l.
Proof. unfold size. rewrite app_length. lia. Qed.

Lemma width_app ps qs : width (ps ++ qs) = width ps + width qs.
Proof. induction ps as [|[l|c|c] ps IH]; cbn [app width span]; [reflexivity|..]; rewrite IH; lia. Qed.

Lemma span_app ps qs : span (ps ++ qs) = span ps + span qs.
Proof. induction ps as [|[l|c|c] ps IH]; cbn [app width span]; [reflexivity|..]; rewrite IH; lia. Qed.

Lemma laid_app f b p k ps qs :
  laid f b p k (ps ++ qs) ->
  laid f b p k ps /\ laid f b (p + width ps) (k + span ps) qs.
Proof.
  revert p k. induction ps as [|[l|c|c] ps IH]; cbn [laid app width span]; intros p k.
  - rewrite !N.add_0_r. auto.
  - intros [H R]. apply IH in R. rewrite N.add_assoc. tauto.
  - intros [H R]. apply IH in R. rewrite !N.add_assoc. tauto.
  - intros [H R]. apply IH in R. rewrite !N.add_assoc. tauto.
Qed.

Lemma size_be16 n : size (be16 n) = 2.
Proof. reflexivity. Qed.

Lemma size_be32 n : size (be32 n) = 4.
Proof. reflexivity. Qed.

Lemma size_front k ps : size (front k ps) = width ps.
Proof.
  revert k. induction ps as [|[l|c|c] ps IH]; intros k; cbn [front width]; [reflexivity|..];
    rewrite size_app, IH, ?size_be16, ?size_be32; reflexivity.
Qed.

Lemma size_back ps : size (back ps) = span ps.
Proof.
  induction ps as [|[l|c|c] ps IH]; cbn [back span]; [reflexivity|exact IH|..];
    rewrite size_app, IH; reflexivity.
Qed.

Lemma bytes_at_split f p k l :
  bytes_at f p (k ++ l) -> bytes_at f p k /\ bytes_at f (p + size k) l.
Proof. apply bytes_at_app. Qed.

Lemma front_laid f b p k ps :
  width ps <= k \/ 0 < k -> k + span ps < 65536 ->
  bytes_at f p (front k ps) -> bytes_at f (b + k) (back ps) -> laid f b p k ps.
Proof.
  revert p k. induction ps as [|[l|c|c] ps IH]; cbn [front back laid width span]; intros p k P K F B.
  - exact I.
  - apply bytes_at_split in F. destruct F as [F R]. split; [exact F|]. apply IH; try assumption.
    lia.
  - apply bytes_at_split in F. destruct F as [F R]. apply bytes_at_split in B.
    destruct B as [B C]. rewrite size_be16 in R. split; [|apply IH; try assumption; try lia].
    + split; [lia|]. split; [apply bytes_at_be16; [lia|exact F]|]. split; [lia|exact B].
    + rewrite N.add_assoc. exact C.
  - apply bytes_at_split in F. destruct F as [F R]. apply bytes_at_split in B.
    destruct B as [B C]. rewrite size_be32 in R. split; [|apply IH; try assumption; try lia].
    + split; [lia|]. split; [apply bytes_at_be32; [lia|exact F]|]. split; [lia|exact B].
    + rewrite N.add_assoc. exact C.
Qed.

Lemma block_laid f p ps :
  size (block ps) < 65536 -> bytes_at f p (block ps) -> laid f p p (width ps) ps.
Proof.
  unfold block. rewrite size_app, size_front, size_back. intros K H.
  apply bytes_at_split in H. destruct H as [F B]. rewrite size_front in B.
  apply front_laid; [left; lia|exact K|exact F|exact B].
Qed.

(** ** What is written *)

(** The bytes [l] are those of a structure that has the data of [v]. *)
Definition whole {A} (S : file -> N -> A -> Prop) (erase : A -> A) (v : A) (l : list byte) : Prop :=
  size l < 65536 -> forall f p, bytes_at f p l -> exists w, erase w = erase v /\ S f p w.

(** The same without any offset. *)
Definition plain {A} (S : file -> N -> A -> Prop) (v : A) (l : list byte) : Prop :=
  forall f p, bytes_at f p l -> S f p v.

Definition same {A} (v : A) : A := v.

Lemma plain_whole {A} (S : file -> N -> A -> Prop) v l : plain S v l -> whole S same v l.
Proof. intros H _ f p B. exists v. split; [reflexivity|apply H, B]. Qed.

Lemma map_same {A} (l : list A) : map same l = l.
Proof. apply map_id. Qed.

Lemma maybe_same {A} (l : list (option A)) : map (option_map same) l = l.
Proof. rewrite <- (map_id l) at 2. apply map_ext. intros [x|]; reflexivity. Qed.

Lemma width_links {A} (enc : A -> list byte) l : width (links enc l) = 2 * N.of_nat (length l).
Proof. induction l as [|x l IH]; [reflexivity|]. cbn [links map width] in *. unfold links in IH.
  rewrite IH. cbn [length]. lia. Qed.

Lemma width_longs {A} (enc : A -> list byte) l : width (longs enc l) = 4 * N.of_nat (length l).
Proof. induction l as [|x l IH]; [reflexivity|]. cbn [longs map width] in *. unfold longs in IH.
  rewrite IH. cbn [length]. lia. Qed.

Lemma width_maybes {A} (enc : A -> list byte) l :
  width (map (maybe_link enc) l) = 2 * N.of_nat (length l).
Proof.
  induction l as [|[x|] l IH]; [reflexivity|..]; cbn [map maybe_link width w16]; rewrite IH;
    cbn [length]; [|rewrite size_be16]; lia.
Qed.

Lemma vec_at_nil {A} (elem : N -> A -> Prop) s p : vec_at elem s p 0 [].
Proof. split; [reflexivity|]. intros [|i] v; discriminate. Qed.

Lemma vec_at_cons {A} (elem : N -> A -> Prop) s p n v vs :
  elem p v -> vec_at elem s (p + s) n vs -> vec_at elem s p (n + 1) (v :: vs).
Proof.
  intros H [L T]. split; [cbn [length]; lia|]. intros [|i] u; cbn [nth_error].
  - intros [= <-]. rewrite N.mul_0_r, N.add_0_r. exact H.
  - intros E. apply T in E. replace (p + s * N.of_nat (S i)) with (p + s + s * N.of_nat i) by lia.
    exact E.
Qed.

Lemma length_cons {A} (x : A) l : N.of_nat (length (x :: l)) = N.of_nat (length l) + 1.
Proof. cbn [length]. lia. Qed.

(** Records one after the other. *)
Lemma each_laid {A} (elem : N -> A -> Prop) (erase : A -> A) (enc : A -> list piece) s f b p k l :
  (forall v, In v l -> forall p k, laid f b p k (enc v) -> exists w, erase w = erase v /\ elem p w) ->
  (forall v, In v l -> width (enc v) = s) ->
  laid f b p k (flat_map enc l) ->
  exists ws, map erase ws = map erase l /\ vec_at elem s p (N.of_nat (length l)) ws.
Proof.
  revert p k. induction l as [|x l IH]; cbn [flat_map]; intros p k E W H.
  - exists []. split; [reflexivity|apply vec_at_nil].
  - apply laid_app in H. destruct H as [H R]. rewrite (W x (or_introl eq_refl)) in R.
    destruct (IH _ _ (fun v I => E v (or_intror I)) (fun v I => W v (or_intror I)) R) as [ws [Q V]].
    destruct (E x (or_introl eq_refl) _ _ H) as [w [Qw Ew]].
    exists (w :: ws). split; [cbn; congruence|]. rewrite length_cons.
    apply vec_at_cons; assumption.
Qed.

Lemma width_each {A} (enc : A -> list piece) s l :
  (forall v, In v l -> width (enc v) = s) -> width (flat_map enc l) = s * N.of_nat (length l).
Proof.
  induction l as [|x l IH]; intros W; cbn [flat_map]; [cbn; lia|].
  rewrite width_app, IH by (intros v I; apply W; right; exact I).
  rewrite (W x (or_introl eq_refl)), length_cons. lia.
Qed.

Lemma links_laid {A} (S : file -> N -> A -> Prop) (erase : A -> A) (enc : A -> list byte) f b p k l :
  Forall (fun v => whole S erase v (enc v)) l -> laid f b p k (links enc l) ->
  exists offsets ws, u16s_at f p (N.of_nat (length l)) offsets /\
    linked_at (S f) b offsets ws /\ map erase ws = map erase l.
Proof.
  intros E. revert p k. induction E as [|x l E _ IH]; intros p k H.
  - exists [], []. split; [apply vec_at_nil|]. split; [constructor|reflexivity].
  - cbn [links map laid] in H. destruct H as [(_ & U & L & B) R].
    destruct (IH _ _ R) as (offsets & ws & V & K & Q).
    destruct (E L _ _ B) as [w [Qw Ew]].
    exists (k :: offsets), (w :: ws). split; [|split; [constructor; assumption|cbn; congruence]].
    rewrite length_cons. apply vec_at_cons; assumption.
Qed.

Lemma longs_laid {A} (S : file -> N -> A -> Prop) (erase : A -> A) (enc : A -> list byte) f b p k l :
  Forall (fun v => whole S erase v (enc v)) l -> laid f b p k (longs enc l) ->
  exists offsets ws, u32s_at f p (N.of_nat (length l)) offsets /\
    linked_at (S f) b offsets ws /\ map erase ws = map erase l.
Proof.
  intros E. revert p k. induction E as [|x l E _ IH]; intros p k H.
  - exists [], []. split; [apply vec_at_nil|]. split; [constructor|reflexivity].
  - cbn [longs map laid] in H. destruct H as [(_ & U & L & B) R].
    destruct (IH _ _ R) as (offsets & ws & V & K & Q).
    destruct (E L _ _ B) as [w [Qw Ew]].
    exists (k :: offsets), (w :: ws). split; [|split; [constructor; assumption|cbn; congruence]].
    rewrite length_cons. apply vec_at_cons; assumption.
Qed.

(** A nullable link. *)
Lemma maybe_laid {A} (S : file -> N -> A -> Prop) (erase : A -> A) (enc : A -> list byte)
    f b p k (v : option A) ps :
  match v with Some x => whole S erase x (enc x) | None => True end ->
  laid f b p k (maybe_link enc v :: ps) ->
  (exists offset w, u16_at f p offset /\ maybe_at (S f) b offset w /\
     option_map erase w = option_map erase v) /\
  exists k, laid f b (p + 2) k ps.
Proof.
  destruct v as [x|]; cbn [maybe_link w16 laid]; intros E H.
  - destruct H as [(K & U & L & B) R]. split; [|eexists; exact R].
    destruct (E L _ _ B) as [w [Qw Ew]]. exists k, (Some w). split; [exact U|].
    split; [split; [lia|exact Ew]|cbn; congruence].
  - destruct H as [H R]. rewrite size_be16 in R. split; [|eexists; exact R].
    exists 0, None. split; [apply bytes_at_be16; [lia|exact H]|]. split; reflexivity.
Qed.

Lemma maybes_laid {A} (S : file -> N -> A -> Prop) (erase : A -> A) (enc : A -> list byte)
    f b p k (l : list (option A)) :
  Forall (fun v => match v with Some x => whole S erase x (enc x) | None => True end) l ->
  laid f b p k (map (maybe_link enc) l) ->
  exists offsets ws, u16s_at f p (N.of_nat (length l)) offsets /\
    maybes_at (S f) b offsets ws /\ map (option_map erase) ws = map (option_map erase) l.
Proof.
  intros E. revert p k. induction E as [|x l E _ IH]; intros p k H.
  - exists [], []. split; [apply vec_at_nil|]. split; [constructor|reflexivity].
  - cbn [map] in H. apply (maybe_laid S erase) in H; [|exact E].
    destruct H as [(offset & w & U & M & Qw) [k' R]].
    destruct (IH _ _ R) as (offsets & ws & V & K & Q).
    exists (offset :: offsets), (w :: ws).
    split; [|split; [constructor; assumption|cbn; congruence]].
    rewrite length_cons. apply vec_at_cons; assumption.
Qed.

Lemma option_same {A} (v : option A) : option_map same v = v.
Proof. destruct v; reflexivity. Qed.

(** Tags with links: the headers and what they link to. *)
Lemma tagged_laid {A H} (mk : tag -> N -> H) (tag_of : H -> tag) (offset_of : H -> N)
    (header_at : file -> N -> H -> Prop) (header_erase : H -> H)
    (S : file -> N -> A -> Prop) (erase : A -> A) (enc : A -> list byte) f b p k headers records :
  (forall t o, offset_of (mk t o) = o) ->
  (forall p t o, tag_at f p t -> u16_at f (p + 4) o -> header_at f p (mk t o)) ->
  (forall h o, header_erase (mk (tag_of h) o) = header_erase h) ->
  length headers = length records -> Forall (fun v => whole S erase v (enc v)) records ->
  laid f b p k (tagged enc (combine (map tag_of headers) records)) ->
  exists hs ws, vec_at (header_at f) 6 p (N.of_nat (length records)) hs /\
    linked_at (S f) b (map offset_of hs) ws /\
    map header_erase hs = map header_erase headers /\ map erase ws = map erase records.
Proof.
  intros HO HA HE N E. revert p k headers N.
  induction E as [|x l E _ IH]; intros p k [|h headers] N L; try discriminate N.
  - exists [], []. split; [apply vec_at_nil|]. split; [constructor|split; reflexivity].
  - unfold tagged in L. cbn [map combine flat_map app laid] in L.
    destruct L as [T [(_ & U & Z & B) R]].
    replace (size (tag_bytes (tag_of h))) with 4 in * by (destruct (tag_of h); reflexivity).
    replace (p + 4 + 2) with (p + 6) in R by lia.
    assert (tag_at f p (tag_of h)) as T'.
    { destruct (tag_of h) as [c0 c1 c2 c3]. cbn. repeat split.
      - rewrite <- (N.add_0_r p). apply (T 0%nat _ eq_refl).
      - apply (T 1%nat _ eq_refl).
      - apply (T 2%nat _ eq_refl).
      - apply (T 3%nat _ eq_refl). }
    destruct (IH _ _ headers (eq_add_S _ _ N) R) as (hs & ws & V & K & Q & Qw).
    destruct (E Z _ _ B) as [w [Q' Ew]].
    exists (mk (tag_of h) k :: hs), (w :: ws). split; [|split; [|split]].
    + rewrite length_cons. apply vec_at_cons; [apply HA; assumption|exact V].
    + cbn [map]. rewrite HO. constructor; assumption.
    + cbn [map]. rewrite HE, Q. reflexivity.
    + cbn [map]. congruence.
Qed.

Lemma Forall_and2 {A} (P Q R : A -> Prop) l :
  (forall x, P x -> Q x -> R x) -> Forall P l -> Forall Q l -> Forall R l.
Proof.
  intros H HP HQ. rewrite Forall_forall in *. auto.
Qed.

Lemma Forall_maybe {A} (P Q : A -> Prop) (R : A -> Prop) l :
  (forall x, P x -> Q x -> R x) -> Forall (maybe_fits P) l -> Forall (maybe_wf Q) l ->
  Forall (fun v => match v with Some x => R x | None => True end) l.
Proof.
  intros H. apply Forall_and2. intros [x|]; cbn; auto.
Qed.

(** ** Scalars *)

Lemma bytes_at_i16 f p z : i16 z -> bytes_at f p (be_i16 z) -> i16_at f p z.
Proof.
  unfold i16, be_i16, i16_at. intros Z H. exists (Z.to_N (z mod 65536)).
  pose proof (Z.mod_pos_bound z 65536 eq_refl) as M.
  split; [apply bytes_at_be16; [lia|exact H]|].
  destruct (N.ltb_spec (Z.to_N (z mod 65536)) 32768) as [L|L]; rewrite Z2N.id by lia;
    Z.div_mod_to_equations; lia.
Qed.

Lemma bytes_at_i32 f p z : i32 z -> bytes_at f p (be_i32 z) -> i32_at f p z.
Proof.
  unfold i32, be_i32, i32_at. intros Z H. exists (Z.to_N (z mod 4294967296)).
  pose proof (Z.mod_pos_bound z 4294967296 eq_refl) as M.
  split; [apply bytes_at_be32; [lia|exact H]|].
  destruct (N.ltb_spec (Z.to_N (z mod 4294967296)) 2147483648) as [L|L]; rewrite Z2N.id by lia;
    Z.div_mod_to_equations; lia.
Qed.

Lemma bytes_at_tag f p t : bytes_at f p (tag_bytes t) -> tag_at f p t.
Proof.
  destruct t as [a b c d]. intros H. cbn. repeat split.
  - rewrite <- (N.add_0_r p). apply (H 0%nat _ eq_refl).
  - apply (H 1%nat _ eq_refl).
  - apply (H 2%nat _ eq_refl).
  - apply (H 3%nat _ eq_refl).
Qed.

Lemma bytes_at_words f p l : Forall u16 l -> bytes_at f p (flat_map be16 l) ->
  u16s_at f p (N.of_nat (length l)) l.
Proof. intros H. apply bytes_at_u16s. apply Forall_forall, H. Qed.

Lemma size_words l : size (flat_map be16 l) = 2 * N.of_nat (length l).
Proof. unfold size. rewrite (flat_map_size be16 2%nat) by reflexivity. lia. Qed.

(** Records without offsets. *)
Lemma bytes_at_records {A} (S : file -> N -> A -> Prop) (enc : A -> list byte) (P : A -> Prop) s f p l :
  (forall v, P v -> plain S v (enc v)) -> (forall v, size (enc v) = s) -> Forall P l ->
  bytes_at f p (flat_map enc l) -> vec_at (S f) s p (N.of_nat (length l)) l.
Proof.
  intros E Z F. rewrite Forall_forall in F. apply bytes_at_each.
  - intros q v I. apply E, F, I.
  - intros v _. apply Z.
Qed.

Lemma size_records {A} (enc : A -> list byte) s l :
  (forall v, size (enc v) = s) -> size (flat_map enc l) = s * N.of_nat (length l).
Proof.
  intros Z. induction l as [|x l IH]; cbn [flat_map]; [cbn; lia|].
  rewrite size_app, IH, Z, length_cons. lia.
Qed.

(** ** Walking through what is written *)

#[export] Hint Rewrite size_app size_be16 size_be32 size_words @width_app @width_links @width_longs
  @width_maybes : sizes.

Lemma size_be_i16 z : size (be_i16 z) = 2.
Proof. reflexivity. Qed.

Lemma size_be_i32 z : size (be_i32 z) = 4.
Proof. reflexivity. Qed.

Lemma size_tag t : size (tag_bytes t) = 4.
Proof. destruct t. reflexivity. Qed.

#[export] Hint Rewrite size_be_i16 size_be_i32 size_tag : sizes.

#[global] Arguments be16 : simpl never.
#[global] Arguments be32 : simpl never.
#[global] Arguments be_i16 : simpl never.
#[global] Arguments be_i32 : simpl never.
#[global] Arguments laid : simpl never.
#[global] Arguments block : simpl never.
#[global] Arguments bytes : simpl never.
#[global] Arguments links : simpl never.
#[global] Arguments longs : simpl never.
#[global] Arguments tagged : simpl never.
#[global] Arguments maybe_link : simpl never.
#[global] Arguments w16 : simpl never.
#[global] Arguments w32 : simpl never.
#[global] Arguments ws16 : simpl never.
#[global] Arguments size : simpl never.
#[global] Arguments u8_at : simpl never.
#[global] Arguments u16_at : simpl never.
#[global] Arguments u32_at : simpl never.
#[global] Arguments i16_at : simpl never.
#[global] Arguments i32_at : simpl never.
#[global] Arguments tag_at : simpl never.
#[global] Arguments u8s_at : simpl never.
#[global] Arguments u16s_at : simpl never.
#[global] Arguments u32s_at : simpl never.
#[global] Arguments i32s_at : simpl never.
#[global] Arguments vec_at : simpl never.
#[global] Arguments linked_at : simpl never.
#[global] Arguments maybe_at : simpl never.
#[global] Arguments maybes_at : simpl never.
#[global] Arguments u8 : simpl never.
#[global] Arguments u16 : simpl never.
#[global] Arguments u32 : simpl never.
#[global] Arguments i16 : simpl never.
#[global] Arguments i32 : simpl never.
#[global] Arguments N.mul : simpl never.
#[global] Arguments N.add : simpl never.
#[global] Arguments N.sub : simpl never.

Ltac range := unfold u8, u16, u32, i16, i32 in *; lia.

(** What else to take apart; extended below. *)
Ltac more := fail.

Ltac scan :=
  repeat first [more | match goal with
  | H : _ /\ _ |- _ => destruct H
  | H : bytes_at _ _ (_ ++ _) |- _ => apply bytes_at_split in H
  | H : bytes_at _ _ (be16 _) |- _ => apply bytes_at_be16 in H; [|range]
  | H : bytes_at _ _ (be32 _) |- _ => apply bytes_at_be32 in H; [|range]
  | H : bytes_at _ _ (be_i16 _) |- _ => apply bytes_at_i16 in H; [|range]
  | H : bytes_at _ _ (be_i32 _) |- _ => apply bytes_at_i32 in H; [|range]
  | H : bytes_at _ _ (tag_bytes _) |- _ => apply bytes_at_tag in H
  | H : bytes_at _ _ (flat_map be16 _) |- _ => apply bytes_at_words in H; [|assumption]
  | H : laid _ _ _ _ [] |- _ => clear H
  | H : laid _ _ _ _ (_ ++ _) |- _ => apply laid_app in H
  | H : laid ?f ?b ?p ?k (w16 ?n :: ?ps) |- _ =>
      change (bytes_at f p (be16 n) /\ laid f b (p + size (be16 n)) k ps) in H
  | H : laid ?f ?b ?p ?k (w32 ?n :: ?ps) |- _ =>
      change (bytes_at f p (be32 n) /\ laid f b (p + size (be32 n)) k ps) in H
  | H : laid ?f ?b ?p ?k (ws16 ?l :: ?ps) |- _ =>
      change (bytes_at f p (flat_map be16 l) /\ laid f b (p + size (flat_map be16 l)) k ps) in H
  | H : laid ?f ?b ?p ?k (Raw ?l :: ?ps) |- _ =>
      change (bytes_at f p l /\ laid f b (p + size l) k ps) in H
  | H : laid ?f ?b ?p ?k (Link ?c :: ?ps) |- _ =>
      change ((0 < k /\ u16_at f p k /\ size c < 65536 /\ bytes_at f (b + k) c) /\
        laid f b (p + 2) (k + size c) ps) in H
  | H : laid ?f ?b ?p ?k (Long ?c :: ?ps) |- _ =>
      change ((0 < k /\ u32_at f p k /\ size c < 65536 /\ bytes_at f (b + k) c) /\
        laid f b (p + 4) (k + size c) ps) in H
  end].

Ltac counted :=
  unfold counts, counts_rest in *;
  repeat match goal with
  | H : ?n = N.of_nat (length _) |- _ => is_var n; subst n
  | H : ?n = N.of_nat (length _) + 1 |- _ => is_var n; subst n
  | H : ?n = ?m |- _ => is_var n; subst n
  end.

Ltac here :=
  match goal with
  | H : ?S ?f ?q ?v |- ?S ?f ?r ?w =>
      is_evar w; unify w v; replace r with q by lia; exact H
  | H : ?S ?f ?q ?n ?v |- ?S ?f ?r ?m ?w =>
      is_evar w; unify w v; replace r with q by lia; replace m with n by lia; exact H
  | H : vec_at ?e ?s ?q ?n ?v |- vec_at ?e ?s ?r ?m ?w =>
      is_evar w; unify w v; replace r with q by lia; replace m with n by lia; exact H
  | H : ?S ?f ?q ?v |- ?S ?f ?r ?v => replace r with q by lia; exact H
  | H : u16s_at ?f ?q ?n ?v |- u16s_at ?f ?r ?m ?v =>
      replace r with q by lia; replace m with n by lia; exact H
  | H : i32s_at ?f ?q ?n ?v |- i32s_at ?f ?r ?m ?v =>
      replace r with q by lia; replace m with n by lia; exact H
  | H : u32s_at ?f ?q ?n ?v |- u32s_at ?f ?r ?m ?v =>
      replace r with q by lia; replace m with n by lia; exact H
  | H : vec_at ?e ?s ?q ?n ?v |- vec_at ?e ?s ?r ?m ?v =>
      replace r with q by lia; replace m with n by lia; exact H
  | |- _ <= _ => range
  | |- _ <> _ => lia
  | |- _ = _ => reflexivity
  | |- maybe_at _ _ _ None => reflexivity
  | _ => eassumption
  end.

Ltac conj := repeat match goal with |- _ /\ _ => split end.

Ltac finish := cbn; autorewrite with sizes in *; conj; here.

(** ** Common structures *)

Lemma coverage_record_plain v :
  coverage_record_fits v -> plain coverage_record_at v (coverage_record_bytes v).
Proof.
  destruct v as [a b c]. cbn. intros F f p H. scan. finish.
Qed.

Lemma coverage_records_plain f p l : Forall coverage_record_fits l ->
  bytes_at f p (flat_map coverage_record_bytes l) ->
  vec_at (coverage_record_at f) 6 p (N.of_nat (length l)) l.
Proof.
  apply bytes_at_records; [apply coverage_record_plain|intros []; reflexivity].
Qed.

Lemma class_record_plain v : class_record_fits v -> plain class_record_at v (class_record_bytes v).
Proof.
  destruct v as [a b c]. cbn. intros F f p H. scan. finish.
Qed.

Lemma class_records_plain f p l : Forall class_record_fits l ->
  bytes_at f p (flat_map class_record_bytes l) ->
  vec_at (class_record_at f) 6 p (N.of_nat (length l)) l.
Proof.
  apply bytes_at_records; [apply class_record_plain|intros []; reflexivity].
Qed.

Lemma action_plain v : action_fits v -> plain action_at v (action_bytes v).
Proof.
  destruct v as [a b]. cbn. intros F f p H. scan. finish.
Qed.

Lemma actions_plain f p l : Forall action_fits l -> bytes_at f p (flat_map action_bytes l) ->
  vec_at (action_at f) 4 p (N.of_nat (length l)) l.
Proof.
  apply bytes_at_records; [apply action_plain|intros []; reflexivity].
Qed.

Lemma size_actions l : size (flat_map action_bytes l) = 4 * N.of_nat (length l).
Proof. apply size_records. intros []. reflexivity. Qed.

#[export] Hint Rewrite size_actions : sizes.

Ltac more ::=
  match goal with
  | H : bytes_at _ _ (flat_map coverage_record_bytes _) |- _ =>
      apply coverage_records_plain in H; [|assumption]
  | H : bytes_at _ _ (flat_map class_record_bytes _) |- _ =>
      apply class_records_plain in H; [|assumption]
  | H : bytes_at _ _ (flat_map action_bytes _) |- _ =>
      apply actions_plain in H; [|assumption]
  end.

Lemma coverage_plain v : coverage_fits v -> coverage_wf v -> plain coverage_at v (coverage_bytes v).
Proof.
  destruct v as [[format n ids]|[format n records]]; cbn; intros F W f p H;
    scan; counted; finish.
Qed.

Lemma class_plain v : class_fits v -> class_wf v -> plain class_at v (class_bytes v).
Proof.
  destruct v as [[format start n indices]|[format n records]]; cbn; intros F W f p H;
    scan; counted; finish.
Qed.

Lemma correction_plain v :
  correction_fits v -> correction_wf v -> plain correction_at v (correction_bytes v).
Proof.
  destruct v as [[a b format deltas]|[a b format]]; cbn -[N.pow N.div]; intros F W f p H.
  - scan. unfold counts, device_bits in *. finish.
  - scan. counted. finish.
Qed.

Lemma context_record_plain v :
  context_record_fits v -> context_record_wf v -> plain context_record_at v (context_record_bytes v).
Proof.
  destruct v as [n m ids actions]. cbn. intros F W f p H. scan. counted. finish.
Qed.

Lemma context_class_record_plain v :
  context_class_record_fits v -> context_class_record_wf v ->
  plain context_class_record_at v (context_class_record_bytes v).
Proof.
  destruct v as [n m ids actions]. cbn. intros F W f p H. scan. counted. finish.
Qed.

Lemma chained_record_plain v :
  chained_record_fits v -> chained_record_wf v -> plain chained_record_at v (chained_record_bytes v).
Proof.
  destruct v as [a back b ids c fore d actions]. cbn. intros F W f p H. scan. counted. finish.
Qed.

Lemma chained_class_record_plain v :
  chained_class_record_fits v -> chained_class_record_wf v ->
  plain chained_class_record_at v (chained_class_record_bytes v).
Proof.
  destruct v as [a back b ids c fore d actions]. cbn. intros F W f p H. scan. counted. finish.
Qed.

(** ** Following the links *)

Create HintDb written.

#[export] Hint Extern 1 (whole _ _ _ (coverage_bytes _)) =>
  apply plain_whole, coverage_plain; assumption : written.
#[export] Hint Extern 1 (whole _ _ _ (class_bytes _)) =>
  apply plain_whole, class_plain; assumption : written.
#[export] Hint Extern 1 (whole _ _ _ (correction_bytes _)) =>
  apply plain_whole, correction_plain; assumption : written.
#[export] Hint Extern 1 (whole _ _ _ (context_record_bytes _)) =>
  apply plain_whole, context_record_plain; assumption : written.
#[export] Hint Extern 1 (whole _ _ _ (context_class_record_bytes _)) =>
  apply plain_whole, context_class_record_plain; assumption : written.
#[export] Hint Extern 1 (whole _ _ _ (chained_record_bytes _)) =>
  apply plain_whole, chained_record_plain; assumption : written.
#[export] Hint Extern 1 (whole _ _ _ (chained_class_record_bytes _)) =>
  apply plain_whole, chained_class_record_plain; assumption : written.

(** What holds of every element holds of this one. *)
Ltac every :=
  apply Forall_forall; let x := fresh "x" in let I := fresh "I" in intros x I;
  repeat match goal with
  | H : Forall _ _ |- _ => rewrite Forall_forall in H; specialize (H x I)
  end;
  try (destruct x as [x|]; [cbn [maybe_fits maybe_wf] in *|exact Logic.I]);
  eauto with written.

Ltac unsame :=
  repeat match goal with
  | H : same _ = same _ |- _ => unfold same in H; subst
  | H : option_map same _ = option_map same _ |- _ => rewrite !option_same in H; subst
  | H : map same _ = map same _ |- _ => rewrite !map_same in H; subst
  | H : map (option_map same) _ = map (option_map same) _ |- _ => rewrite !maybe_same in H; subst
  end.

(** The same for what may be absent. *)
Ltac possibly :=
  match goal with
  | |- match ?v with Some _ => _ | None => _ end =>
      destruct v; [cbn [maybe_fits maybe_wf] in *; eauto with written|exact Logic.I]
  end.

Ltac follow :=
  repeat match goal with
  | L : size ?c < 65536, H : bytes_at ?f ?q ?c |- _ =>
      let X := fresh "X" in
      eassert (X : whole _ _ _ c) by (eauto with written);
      destruct (X L _ _ H) as (? & ? & ?); clear X H L
  | H : laid _ _ _ _ (links _ _) |- _ =>
      eapply links_laid in H; [|every]; destruct H as (? & ? & ? & ? & ?)
  | H : laid _ _ _ _ (longs _ _) |- _ =>
      eapply longs_laid in H; [|every]; destruct H as (? & ? & ? & ? & ?)
  | H : laid _ _ _ _ (maybe_link _ _ :: _) |- _ =>
      eapply maybe_laid in H; [|possibly]; destruct H as [(? & ? & ? & ? & ?) [? ?]]; scan
  | H : laid _ _ _ _ (map (maybe_link _) _) |- _ =>
      eapply maybes_laid in H; [|every]; destruct H as (? & ? & ? & ? & ?)
  end; unsame.

Ltac unblock H L :=
  apply block_laid in H; [|exact L]; clear L; revert H;
  match goal with |- laid _ _ _ ?k _ -> _ => generalize k end; intros ? H.

Ltac rebuilt := split; cycle 1; [finish|cbn; congruence].

Ltac written := scan; counted; follow.

Lemma context_records_whole v : context_records_fits v -> context_records_wf v ->
  whole context_records_at context_records_erase v (context_records_bytes v).
Proof.
  destruct v as [n offsets records]. cbn. intros F W L f p H. unblock H L.
  written. eexists (mkContextRecords _ _ _). rebuilt.
Qed.

Lemma context_class_records_whole v : context_class_records_fits v -> context_class_records_wf v ->
  whole context_class_records_at context_class_records_erase v (context_class_records_bytes v).
Proof.
  destruct v as [n offsets records]. cbn. intros F W L f p H. unblock H L.
  written. eexists (mkContextClassRecords _ _ _). rebuilt.
Qed.

Lemma chained_records_whole v : chained_records_fits v -> chained_records_wf v ->
  whole chained_records_at chained_records_erase v (chained_records_bytes v).
Proof.
  destruct v as [n offsets records]. cbn. intros F W L f p H. unblock H L.
  written. eexists (mkChainedRecords _ _ _). rebuilt.
Qed.

Lemma chained_class_records_whole v : chained_class_records_fits v -> chained_class_records_wf v ->
  whole chained_class_records_at chained_class_records_erase v (chained_class_records_bytes v).
Proof.
  destruct v as [n offsets records]. cbn. intros F W L f p H. unblock H L.
  written. eexists (mkChainedClassRecords _ _ _). rebuilt.
Qed.

#[export] Hint Resolve context_records_whole context_class_records_whole chained_records_whole
  chained_class_records_whole : written.

Lemma context_whole v : context_fits v -> context_wf v ->
  whole context_at context_erase v (context_bytes v).
Proof.
  destruct v as [[format o1 n offsets coverage records]|[format o1 o2 n offsets coverage class records]
    |[format n m offsets actions coverages]]; cbn; intros F W L f p H; unblock H L; written.
  - eexists (ContextFormat1 (mkContext1 _ _ _ _ _ _)). rebuilt.
  - eexists (ContextFormat2 (mkContext2 _ _ _ _ _ _ _ _)). rebuilt.
  - eexists (ContextFormat3 (mkContext3 _ _ _ _ _ _)). rebuilt.
Qed.

Lemma chained_context_whole v : chained_context_fits v -> chained_context_wf v ->
  whole chained_context_at chained_context_erase v (chained_context_bytes v).
Proof.
  destruct v as [[format o1 n offsets coverage records]
    |[format o1 o2 o3 o4 n offsets coverage back class fore records]
    |[format a o1 b o2 c o3 d actions back coverages fore]]; cbn; intros F W L f p H;
    unblock H L; written.
  - eexists (ChainedContextFormat1 (mkChainedContext1 _ _ _ _ _ _)). rebuilt.
  - eexists (ChainedContextFormat2 (mkChainedContext2 _ _ _ _ _ _ _ _ _ _ _ _)). rebuilt.
  - eexists (ChainedContextFormat3 (mkChainedContext3 _ _ _ _ _ _ _ _ _ _ _ _)). rebuilt.
Qed.

#[export] Hint Resolve context_whole chained_context_whole : written.

(** ** The directory *)

Lemma language_record_plain v :
  language_record_fits v -> language_record_wf v -> plain language_record_at v (language_record_bytes v).
Proof.
  destruct v as [order required n indices]. cbn. intros F W f p H. scan; counted; scan; finish.
Qed.

#[export] Hint Extern 1 (whole _ _ _ (language_record_bytes _)) =>
  apply plain_whole, language_record_plain; assumption : written.

Lemma script_record_whole v : script_record_fits v -> script_record_wf v ->
  whole script_record_at script_record_erase v (script_record_bytes v).
Proof.
  destruct v as [offset n headers default records]. cbn. intros F W L f p H.
  unblock H L. written.
  match goal with K : laid _ _ _ _ (tagged _ _) |- _ =>
    eapply (tagged_laid mkLanguageHeader language_header_tag language_header_offset
      language_header_at language_header_erase) in K;
      [|reflexivity|cbn; auto|intros [t o] o'; reflexivity|lia|every];
    destruct K as (hs & ws & ? & ? & ? & ?)
  end. unsame. eexists (mkScriptRecord _ _ _ _ _). rebuilt.
Qed.

#[export] Hint Resolve script_record_whole : written.

Lemma scripts_whole v : scripts_fits v -> scripts_wf v ->
  whole scripts_at scripts_erase v (scripts_bytes v).
Proof.
  destruct v as [n headers records]. cbn. intros F W L f p H.
  unblock H L. written.
  match goal with K : laid _ _ _ _ (tagged _ _) |- _ =>
    eapply (tagged_laid mkScriptHeader script_header_tag script_header_offset
      script_header_at script_header_erase) in K;
      [|reflexivity|cbn; auto|intros [t o] o'; reflexivity|lia|every];
    destruct K as (hs & ws & ? & ? & ? & ?)
  end. unsame. eexists (mkScripts _ _ _). rebuilt.
Qed.

Lemma feature_record_whole v : feature_record_fits v -> feature_record_wf v ->
  whole feature_record_at feature_record_erase v (feature_record_bytes v).
Proof.
  destruct v as [offset n indices parameters]. cbn. intros F W L f p H.
  unblock H L. destruct F as (N & I & P).
  destruct parameters as [l|]; cbn [maybe_fits] in P.
  - subst l. unfold maybe_link in H. written. eexists (mkFeatureRecord _ _ _ (Some [])).
    split; cycle 1; [finish|reflexivity].
  - unfold maybe_link in H. written. eexists (mkFeatureRecord _ _ _ None).
    split; cycle 1; [finish|reflexivity].
Qed.

#[export] Hint Resolve feature_record_whole : written.

Lemma features_whole v : features_fits v -> features_wf v ->
  whole features_at features_erase v (features_bytes v).
Proof.
  destruct v as [n headers records]. cbn. intros F W L f p H.
  unblock H L. written.
  match goal with K : laid _ _ _ _ (tagged _ _) |- _ =>
    eapply (tagged_laid mkFeatureHeader feature_header_tag feature_header_offset
      feature_header_at feature_header_erase) in K;
      [|reflexivity|cbn; auto|intros [t o] o'; reflexivity|lia|every];
    destruct K as (hs & ws & ? & ? & ? & ?)
  end. unsame. eexists (mkFeatures _ _ _). rebuilt.
Qed.

Section Lookups.
  Context {T : Type} (o : options) (table_at : N -> file -> N -> T -> Prop) (erase : T -> T)
    (enc : T -> list byte) (fits : T -> Prop) (wf : N -> T -> Prop).
  Hypothesis enc_whole : forall type_ v, fits v -> wf type_ v -> whole (table_at type_) erase v (enc v).

  Lemma lookup_record_whole v : lookup_record_fits o fits v -> lookup_record_wf wf v ->
    whole (lookup_record_at o table_at) (lookup_record_erase erase) v (lookup_record_bytes enc v).
  Proof.
    destruct v as [type_ flags n offsets set tables]. cbn. intros F W L f p H.
    unblock H L.
    destruct F as (F1 & [F2 F3] & F4 & F5 & F6). destruct W as (W1 & W2 & W3 & W4).
    scan. counted.
    match goal with K : laid _ _ _ _ (links _ _) |- _ =>
      apply (links_laid (table_at type_) erase) in K; [|every];
      destruct K as (os & ws & ? & ? & ?)
    end.
    exists (mkLookupRecord type_ flags (N.of_nat (length offsets)) os set ws). split; cycle 1.
    - destruct set as [k|]; cbn [maybe_fits] in *; scan; unfold lookup_record_at, flags_at.
      + assert (N.testbit flags 4 = true) as B.
        { destruct (N.testbit flags 4); [reflexivity|]. destruct W3 as [_ W3].
          discriminate (W3 eq_refl). }
        rewrite B. finish.
      + rewrite (proj1 W3 eq_refl). finish.
    - cbn. congruence.
  Qed.

  Lemma lookups_whole v : lookups_fits o fits v -> lookups_wf wf v ->
    whole (lookups_at o table_at) (lookups_erase erase) v (lookups_bytes enc v).
  Proof.
    destruct v as [n offsets records]. cbn. intros F W L f p H.
    unblock H L. scan. counted.
    match goal with K : laid _ _ _ _ (links _ _) |- _ =>
      apply (links_laid (lookup_record_at o table_at) (lookup_record_erase erase)) in K;
      [|eapply Forall_and2; [apply lookup_record_whole|eassumption|assumption]];
      destruct K as (os & ws & ? & ? & ?)
    end.
    eexists (mkLookups _ _ _). rebuilt.
  Qed.

  Lemma feature_variations_plain v : feature_variations_fits v -> feature_variations_wf v ->
    plain feature_variations_at v (feature_variations_bytes v).
  Proof.
    destruct v as [major minor n]. cbn. intros F [-> ->] f p H. scan. finish.
  Qed.

  Lemma directory_whole v : directory_fits o fits v -> directory_wf wf v ->
    whole (directory_at o table_at) (directory_erase erase) v (directory_bytes enc v).
  Proof.
    destruct v as [major minor o1 o2 o3 o4 scripts features lookups variations].
    cbn -[N.eqb]. intros F W L f p H.
    unblock H L.
    destruct F as (F1 & F2 & F3 & F4). destruct W as (-> & M & W1 & W2 & W3 & W4 & W5 & W6).
    assert (minor < 65536) by lia. scan.
    repeat match goal with
    | Z : size (scripts_bytes _) < _, B : bytes_at _ _ (scripts_bytes _) |- _ =>
        destruct (scripts_whole _ F1 W1 Z _ _ B) as (s & ? & ?); clear B
    | Z : size (features_bytes _) < _, B : bytes_at _ _ (features_bytes _) |- _ =>
        destruct (features_whole _ F2 W2 Z _ _ B) as (g & ? & ?); clear B
    | Z : size (lookups_bytes _ _) < _, B : bytes_at _ _ (lookups_bytes _ _) |- _ =>
        destruct (lookups_whole _ F3 W3 Z _ _ B) as (l & ? & ?); clear B
    end.
    assert (forall A (elem : N -> A -> Prop) offset d v, 0 < offset -> elem (p + offset) v ->
      list_at o elem p offset d v) as X.
    { intros A elem offset d v K E. right. split; [left; lia|exact E]. }
    clear W4.
    destruct M as [-> | ->].
    - rewrite (W6 eq_refl) in *. clear W5 W6. cbn [N.eqb] in *. scan.
      eexists (mkDirectory 1 0 _ _ _ 0 s g l None). split; cycle 1; [|cbn; congruence].
      cbn. autorewrite with sizes in *. conj; try discriminate; try reflexivity; try (left; reflexivity).
      all: try (here; fail). all: apply X; assumption.
    - clear W6. cbn [N.eqb Pos.eqb] in *. destruct variations as [v|]; cbn [maybe_fits maybe_wf] in *.
      + scan. eexists (mkDirectory 1 1 _ _ _ _ s g l (Some v)). split; cycle 1; [|cbn; congruence].
        match goal with B : bytes_at _ _ (feature_variations_bytes v) |- _ =>
          apply (feature_variations_plain _ F4 W5) in B end.
        cbn. autorewrite with sizes in *.
        conj; try discriminate; try reflexivity; try (right; reflexivity); try intros _.
        all: try (here; fail). all: try (apply X; assumption). split; [lia|assumption].
      + scan. eexists (mkDirectory 1 1 _ _ _ _ s g l None). split; cycle 1; [|cbn; congruence].
        cbn. autorewrite with sizes in *.
        conj; try discriminate; try reflexivity; try (right; reflexivity); try intros _.
        all: try (here; fail). all: apply X; assumption.
  Qed.
End Lookups.
