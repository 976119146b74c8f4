(** A part of which something is missing reports that. *)

From Verif Require Export SpecFaults.
From Verif Require Import Reads ReadsTactics ProofLayout ProofGsub ProofGpos ProofGdef ProofCpal
  ProofFvar ProofFont ProofErrors ProofShape ProofParts.

(** ** Bytes that are there or not *)

Lemma misses_zero f p : ~ misses f p 0.
Proof. intros (i & H & _). lia. Qed.

Lemma misses_intact f p n : misses f p n -> intact f p n -> False.
Proof. intros (i & H & E) I. exact (I i H E). Qed.

Lemma misses_left f p a n : a <= n -> misses f p a -> misses f p n.
Proof. intros H (i & Hi & E). exists i. split; [lia|exact E]. Qed.

Lemma misses_right f p a n : a <= n -> misses f (p + a) (n - a) -> misses f p n.
Proof. intros H (i & Hi & E). exists (a + i). split; [lia|]. rewrite N.add_assoc. exact E. Qed.

Lemma misses_rest f p a n : intact f p a -> misses f p n -> misses f (p + a) (n - a).
Proof.
  intros I (i & Hi & E). destruct (N.lt_ge_cases i a) as [L|G]; [destruct (I i L E)|].
  exists (i - a). split; [lia|]. replace (p + a + (i - a)) with (p + i) by lia. exact E.
Qed.

Lemma intact_app f p a b : intact f p a -> intact f (p + a) b -> intact f p (a + b).
Proof.
  intros I J i Hi. destruct (N.lt_ge_cases i a) as [L|G]; [exact (I i L)|].
  replace (p + i) with (p + a + (i - a)) by lia. apply J. lia.
Qed.

Lemma intact_one f p b : f p = Some b -> intact f p 1.
Proof. intros E i Hi. replace (p + i) with p by lia. congruence. Qed.

Lemma intact_zero f p : intact f p 0.
Proof. intros i Hi. lia. Qed.

Lemma u16_intact f p n : u16_at f p n -> intact f p 2.
Proof. intros (b & c & Hb & Hc & _). apply (intact_app _ _ 1 1); eapply intact_one; eassumption. Qed.

Lemma u32_intact f p n : u32_at f p n -> intact f p 4.
Proof. intros (h & l & Hh & Hl & _). apply (intact_app _ _ 2 2); eapply u16_intact; eassumption. Qed.

Lemma tag_intact f p t : tag_at f p t -> intact f p 4.
Proof.
  destruct t as [a b c d]. intros (Ha & Hb & Hc & Hd). apply (intact_app _ _ 1 3); [eapply intact_one, Ha|].
  apply (intact_app _ _ 1 2); [eapply intact_one, Hb|]. replace (p + 1 + 1) with (p + 2) by lia.
  apply (intact_app _ _ 1 1); [eapply intact_one, Hc|]. replace (p + 2 + 1) with (p + 3) by lia.
  eapply intact_one, Hd.
Qed.

(** ** Readers of a certain number of bytes *)

Section Solid.
Context (e : env).
Notation f := (content e).

Definition solid {A} (m : M A) (q a : N) : Prop :=
  (exists v, m e q = Ok (v, q + a) /\ intact f q a) \/ (misses f q a /\ m e q = Err UnexpectedEnd).

Lemma solid_conv {A} (m : M A) q a b : solid m q a -> a = b -> solid m q b.
Proof. intros H <-. exact H. Qed.

Lemma solid_ret {A} (v : A) q : solid (ret v) q 0.
Proof. left. exists v. rewrite N.add_0_r. split; [reflexivity|apply intact_zero]. Qed.

Lemma solid_bind {A B} (m : M A) (k : A -> M B) q a b :
  solid m q a -> (forall v, solid (k v) (q + a) b) -> solid (bind m k) q (a + b).
Proof.
  intros [(v & E & I)|[Hm E]] K; unfold solid, bind; rewrite E.
  - destruct (K v) as [(w & E' & I')|[Hm' E']]; rewrite E'.
    + left. exists w. rewrite N.add_assoc. split; [reflexivity|apply intact_app; assumption].
    + right. split; [|reflexivity]. apply (misses_right _ _ a); [lia|].
      replace (a + b - a) with b by lia. exact Hm'.
  - right. split; [|reflexivity]. apply (misses_left _ _ a); [lia|exact Hm].
Qed.

Lemma solid_map {A B} (m : M A) (g : A -> B) q a : solid m q a -> solid (v <- m;; ret (g v)) q a.
Proof. intros H. rewrite <- (N.add_0_r a). apply solid_bind; [exact H|]. intros v. apply solid_ret. Qed.

Lemma solid_byte q : solid take_byte q 1.
Proof.
  unfold solid, take_byte. destruct (f q) as [b|] eqn:E.
  - left. exists b. split; [reflexivity|exact (intact_one _ _ _ E)].
  - right. split; [|reflexivity]. exists 0. split; [reflexivity|]. rewrite N.add_0_r. exact E.
Qed.

Lemma solid_range {A} (m : M A) a n : (forall q, solid m q a) -> forall i q,
  solid (for_range i n (fun _ => m)) q (a * N.of_nat n).
Proof.
  intros H. induction n as [|n IH]; intros i q; cbn [for_range].
  - rewrite N.mul_0_r. apply solid_ret.
  - eapply solid_conv; [apply solid_bind; [apply H|intros v; apply solid_map, IH]|lia].
Qed.

Lemma solid_vec {A} (m : M A) a n q : (forall q, solid m q a) -> solid (take_vec n m) q (a * n).
Proof.
  intros H. eapply solid_conv; [exact (solid_range m a (N.to_nat n) H 0 q)|rewrite Nnat.N2Nat.id; reflexivity].
Qed.

End Solid.

Ltac solid_step :=
  lazymatch goal with
  | |- solid _ (bind _ (fun v => ret _)) _ _ => apply solid_map
  | |- solid _ (bind _ _) _ _ => eapply solid_bind; [|intros ?]
  | |- solid _ (ret _) _ _ => apply solid_ret
  | |- solid _ take_byte _ _ => apply solid_byte
  | |- solid _ (take_vec _ _) _ _ => apply solid_vec; intros ?
  end.

Create HintDb solid.

Ltac made_of :=
  lazymatch goal with
  | |- solid _ ?m _ _ =>
      let h := reader_head m in unfold h; eapply solid_conv;
      [repeat first [solve [eauto 2 with solid] | solid_step] | lia]
  end.

Lemma u8_solid e q : solid e take_u8 q 1. Proof. made_of. Qed.
Lemma u16_solid e q : solid e take_u16 q 2. Proof. made_of. Qed.
Lemma u32_solid e q : solid e take_u32 q 4. Proof. made_of. Qed.
Lemma tag_solid e q : solid e take_tag q 4. Proof. made_of. Qed.
#[export] Hint Resolve u8_solid u16_solid u32_solid tag_solid : solid.
Lemma i16_solid e q : solid e take_i16 q 2. Proof. made_of. Qed.
Lemma q32_solid e q : solid e take_q32 q 4. Proof. made_of. Qed.
#[export] Hint Resolve i16_solid q32_solid : solid.
Lemma coverage_record_solid e q : solid e read_coverage_record q 6. Proof. made_of. Qed.
Lemma class_record_solid e q : solid e read_class_record q 6. Proof. made_of. Qed.
Lemma action_solid e q : solid e read_action q 4. Proof. made_of. Qed.
Lemma language_header_solid e q : solid e read_language_header q 6. Proof. made_of. Qed.
Lemma script_header_solid e q : solid e read_script_header q 6. Proof. made_of. Qed.
Lemma feature_header_solid e q : solid e read_feature_header q 6. Proof. made_of. Qed.
Lemma offset_record_solid e q : solid e read_offset_record q 16. Proof. made_of. Qed.
Lemma offsets_header_solid e q : solid e read_offsets_header q 12. Proof. made_of. Qed.
Lemma color_solid e q : solid e read_color q 4. Proof. made_of. Qed.
#[export] Hint Resolve coverage_record_solid class_record_solid action_solid language_header_solid
  script_header_solid feature_header_solid offset_record_solid offsets_header_solid color_solid : solid.

(** ** Running out of bytes *)

Section Stops.
Context (e : env).
Notation f := (content e).

Definition stops {A} (m : M A) (q k : N) (sizes : list N) : Prop :=
  misses f q k \/ cut f (q + k) sizes -> m e q = Err UnexpectedEnd.

Lemma stops_nothing {A} (m : M A) q k : k = 0 -> stops m q k [].
Proof. intros -> [H|H]; [destruct (misses_zero _ _ H)|inversion H]. Qed.

Lemma stops_run {A B} (m : M A) (k : A -> M B) q v a n sizes :
  m e q = Ok (v, q + a) -> intact f q a -> a <= n -> stops (k v) (q + a) (n - a) sizes ->
  stops (bind m k) q n sizes.
Proof.
  intros E I L H C. rewrite (run_bind _ _ _ _ _ _ E). apply H. destruct C as [C|C].
  - left. apply misses_rest; assumption.
  - right. replace (q + a + (n - a)) with (q + n) by lia. exact C.
Qed.

(** What is certain to read a number of bytes. *)
Lemma stops_solid {A B} (m : M A) (k : A -> M B) q a n sizes :
  solid e m q a -> a <= n -> (forall v, stops (k v) (q + a) (n - a) sizes) -> stops (bind m k) q n sizes.
Proof.
  intros [(v & E & I)|[Hm E]] L H.
  - eapply stops_run; [exact E|exact I|exact L|apply H].
  - intros _. apply run_stop, E.
Qed.

(** What comes last. *)
Lemma stops_last {A B} (m : M A) (k : A -> M B) q n :
  (misses f q n -> m e q = Err UnexpectedEnd) -> stops (bind m k) q n [].
Proof. intros H [C|C]; [apply run_stop, H, C|inversion C]. Qed.

Lemma stops_here {A} (m : M A) q n sizes : stops m q n sizes -> misses f q n -> m e q = Err UnexpectedEnd.
Proof. intros H C. apply H. left. exact C. Qed.

Lemma solid_stops {A} (m : M A) q n : solid e m q n -> misses f q n -> m e q = Err UnexpectedEnd.
Proof. intros [(v & _ & I)|[_ E]] C; [destruct (misses_intact _ _ _ C I)|exact E]. Qed.

Lemma stops_first {A B} (m : M A) (k : A -> M B) q n sizes : stops m q n sizes -> stops (bind m k) q n sizes.
Proof. intros H C. apply run_stop, H, C. Qed.

Lemma stops_position {A} (k : N -> M A) q n sizes :
  stops (k q) q n sizes -> stops (bind get_position k) q n sizes.
Proof. exact (fun H => H). Qed.

(** The number of elements of an array. *)
Lemma stops_number {B} (k : N -> M B) q a n size sizes :
  n = 0 -> a = 2 ->
  (forall v, u16_at f q v -> stops (k v) (q + 2) (size * v) sizes) ->
  stops (bind take_u16 k) q n (size :: sizes).
Proof.
  intros -> -> H C. destruct C as [C|C]; [destruct (misses_zero _ _ C)|]. rewrite N.add_0_r in C.
  destruct (u16_now e q) as [(v & Hv & E)|(E & _)]; [|apply run_stop, E].
  rewrite (run_bind _ _ _ _ _ _ E). apply (H v Hv).
  inversion C as [p' s' ss' L|p' s' ss' w Hw L|p' s' ss' w Hw L]; subst.
  - destruct (misses_intact _ _ _ L (u16_intact _ _ _ Hv)).
  - rewrite <- (u16_fun _ _ _ _ Hw Hv). left. exact L.
  - rewrite <- (u16_fun _ _ _ _ Hw Hv). right. exact L.
Qed.

Lemma stops_peek {A B} (m : M A) (k : A -> M B) q v r n sizes :
  m e q = Ok (v, r) -> stops (k v) q n sizes -> stops (bind (peek m) k) q n sizes.
Proof. intros E H C. rewrite (run_peek _ _ _ _ _ _ E). apply H, C. Qed.

Lemma peek_stops {A B} (m : M A) (k : A -> M B) q n :
  (misses f q n -> m e q = Err UnexpectedEnd) -> stops (bind (peek m) k) q n [].
Proof.
  intros H [C|C]; [|inversion C]. apply run_stop. unfold peek, stay. rewrite (H C). reflexivity.
Qed.

Lemma const_run c q : u16_at f q c -> take_const take_u16 c e q = Ok (c, q + 2).
Proof.
  intros H. unfold take_const. rewrite (run_bind _ _ _ _ _ _ (u16_run _ _ _ H)), N.eqb_refl. reflexivity.
Qed.

Lemma const_stops c q : misses f q 2 -> take_const take_u16 c e q = Err UnexpectedEnd.
Proof. intros H. apply run_stop, (solid_stops _ _ 2); [apply u16_solid|exact H]. Qed.

Lemma flags_run mask v q : flags_at (checked_flags (opts e)) mask f q v -> take_flags mask e q = Ok (v, q + 2).
Proof. intros H. apply (take_flags_takes True). auto. Qed.

Lemma flags_stops mask q : misses f q 2 -> take_flags mask e q = Err UnexpectedEnd.
Proof. intros H. apply run_stop, (solid_stops _ _ 2); [apply u16_solid|exact H]. Qed.

Lemma flags_intact mask q v : flags_at (checked_flags (opts e)) mask f q v -> intact f q 2.
Proof. intros [H _]. exact (u16_intact _ _ _ H). Qed.

End Stops.

Ltac there a b := replace b with a by lia.

Ltac stop_step :=
  cbv beta;
  lazymatch goal with
  | |- stops _ (bind get_position _) _ _ _ => apply stops_position
  | |- _ => first
    [ apply stops_nothing; lia
    | lazymatch goal with
      | |- stops ?e (bind (peek take_u16) _) ?q _ _ => first
          [ match goal with H : u16_at _ ?a _ |- _ => there a q; eapply stops_peek; [apply u16_run, H|] end
          | apply peek_stops; intros ?; eapply solid_stops; [|eassumption]; solve [eauto 2 with solid] ]
      | |- stops ?e (bind (peek take_u32) _) ?q _ _ => first
          [ match goal with H : u32_at _ ?a _ |- _ => there a q; eapply stops_peek; [apply u32_run, H|] end
          | apply peek_stops; intros ?; eapply solid_stops; [|eassumption]; solve [eauto 2 with solid] ]
      | |- stops ?e (bind (peek take_tag) _) ?q _ _ => first
          [ match goal with H : tag_at _ ?a _ |- _ => there a q; eapply stops_peek; [apply tag_run, H|] end
          | apply peek_stops; intros ?; eapply solid_stops; [|eassumption]; solve [eauto 2 with solid] ]
      | |- stops ?e (bind (take_const take_u16 ?c) _) ?q _ _ => first
          [ match goal with H : u16_at _ ?a c |- _ => there a q;
              eapply stops_run; [apply const_run, H|apply (u16_intact _ _ _ H)|lia|] end
          | apply stops_last; match goal with |- misses _ _ ?n -> _ => there 2 n end; apply const_stops ]
      | |- stops ?e (bind (take_flags ?m) _) ?q _ _ => first
          [ match goal with H : flags_at _ m _ ?a _ |- _ => there a q;
              eapply stops_run; [apply flags_run, H|apply (u16_intact _ _ _ (proj1 H))|lia|] end
          | apply stops_last; match goal with |- misses _ _ ?n -> _ => there 2 n end; apply flags_stops ]
      | |- stops ?e (bind take_u16 _) ?q _ _ => first
          [ match goal with H : u16_at _ ?a _ |- _ => there a q;
              eapply stops_run; [apply u16_run, H|apply (u16_intact _ _ _ H)|lia|] end
          | eapply stops_number; [lia|reflexivity|intros ? ?]
          | eapply stops_solid; [apply u16_solid|lia|intros ?] ]
      | |- stops ?e (bind (take_vec _ _) _) ?q _ _ =>
          eapply stops_solid; [apply solid_vec; intros ?; solve [eauto 2 with solid]|lia|intros ?]
      | |- stops ?e (bind _ _) ?q _ _ =>
          eapply stops_solid; [solve [eauto 2 with solid]|lia|intros ?]
      end ]
  end.

Ltac stop :=
  cbv beta iota; first [apply stops_nothing; lia | lazymatch goal with
  | |- stops _ (bind ?m ?k) _ _ _ =>
      lazymatch m with
      | take_lookup_flags => unfold take_lookup_flags at 1; stop
      | take_value_flags => unfold take_value_flags at 1; stop
      | take_axis_flags => unfold take_axis_flags at 1; stop
      | take_instance_flags => unfold take_instance_flags at 1; stop
      | _ => first [stop_step | apply stops_first; stop]
      end
  | |- stops _ ?m _ _ _ => let h := reader_head m in unfold h; stop
  end].

Ltac stopped := repeat stop.


Section Begins.
Context (o : options) (f : file) (p : N).
Notation e := (mkEnv f o).

Lemma font_stops d t : tag_at f p t -> truetype_accept d t = true -> stops e (read_font d) p 12 [].
Proof. intros Ht Ha. stop. cbv beta. rewrite Ha. stopped. Qed.

Lemma peek_correction q : solid e (_ <- take_u32;; take_u16) q 6.
Proof. eapply solid_conv; [eapply solid_bind; [apply u32_solid|intros ?; apply u16_solid]|reflexivity]. Qed.

Lemma correction_stops : stops e read_correction p 6 [].
Proof. apply peek_stops, solid_stops, peek_correction. Qed.

Lemma only_device_stops s t format : u16_at f p s -> u16_at f (p + 2) t -> s <= t ->
  u16_at f (p + 4) format -> 1 <= format <= 3 ->
  stops e read_device p (6 + 2 * device_words s t format) [].
Proof.
  intros Hs Ht L Hf B. unfold read_device. stop. stop.
  assert (t <? s = false) as -> by (apply N.ltb_ge, L). stop.
  assert ((format =? 0) || (3 <? format) = false) as ->
    by (apply orb_false_iff; rewrite N.eqb_neq, N.ltb_ge; lia).
  cbv zeta. set (bits := N.shiftl 1 format * (t - s + 1)).
  assert (E : N.shiftr (bits + 16 - bits mod 16) 4 = device_words s t format).
  { unfold device_words. replace (2 ^ format * (t - s + 1)) with bits
      by (unfold bits; rewrite N.shiftl_mul_pow2, N.mul_1_l; reflexivity).
    rewrite N.shiftr_div_pow2. change (2 ^ 4) with 16.
    pose proof (N.div_mod bits 16 ltac:(discriminate)) as D. pose proof (N.mod_lt bits 16 ltac:(discriminate)).
    replace (bits + 16 - bits mod 16) with ((bits / 16 + 1) * 16) by lia. apply N.div_mul. discriminate. }
  rewrite E. stopped.
Qed.

Lemma device_stops s t format : u16_at f p s -> u16_at f (p + 2) t -> s <= t ->
  u16_at f (p + 4) format -> 1 <= format <= 3 ->
  stops e read_correction p (6 + 2 * device_words s t format) [].
Proof.
  intros Hs Ht L Hf B. unfold read_correction.
  eapply stops_peek.
  { rewrite (run_bind _ _ _ _ _ _ (u32_run e p (65536 * s + t) ltac:(exists s, t; auto))). apply u16_run, Hf. }
  assert ((1 <=? format) && (format <=? 3) = true) as ->
    by (apply andb_true_iff; rewrite !N.leb_le; exact B).
  apply stops_first, only_device_stops; assumption.
Qed.

Lemma device_format_stops s t : u16_at f p s -> u16_at f (p + 2) t -> s <= t -> stops e read_device p 6 [].
Proof.
  intros Hs Ht L. unfold read_device. stop. stop.
  assert (t <? s = false) as -> by (apply N.ltb_ge, L). stopped.
Qed.

Lemma nonzero_number n : n <> 0 -> (n =? 0) = false.
Proof. apply N.eqb_neq. Qed.

Ltac numbered H := match goal with H0 : _ <> 0 |- _ => rewrite (nonzero_number _ H0) end; stopped.

Lemma directory_stops T (read_table : N -> M T) minor k : u16_at f p 1 -> u16_at f (p + 2) minor ->
  minor = 0 /\ k = 10 \/ minor = 1 /\ k = 14 -> stops e (read_directory read_table) p k [].
Proof.
  intros H1 H2 [[-> ->]|[-> ->]]; do 3 stop.
  - eapply (stops_run e _ _ _ tt 0); [rewrite N.add_0_r; reflexivity|apply intact_zero|lia|].
    stopped.
  - eapply (stops_run e _ _ _ tt 0); [rewrite N.add_0_r; reflexivity|apply intact_zero|lia|].
    do 3 stop. cbn [N.eqb Pos.eqb andb]. stopped.
Qed.

Lemma lookup_record_stops T (read_table : N -> M T) flags n :
  flags_at (checked_flags o) 0x00E0 f (p + 2) flags -> N.testbit flags 4 = true -> u16_at f (p + 4) n ->
  stops e (read_lookup_record read_table) p (8 + 2 * n) [].
Proof.
  intros Hf Ht Hn. do 5 stop. cbv beta. rewrite has_mark_filtering_bit, Ht. stopped.
Qed.

Lemma words_of h l : l < 65536 -> u32_at f p (65536 * h + l) -> u16_at f p h /\ u16_at f (p + 2) l.
Proof.
  intros L (h' & l' & Hh & Hl & E). assert (l' < 65536) by exact (u16_bound e _ _ Hl).
  assert (h' = h) by lia. assert (l' = l) by lia. subst. auto.
Qed.

Lemma gdef_stops minor k : u32_at f p (65536 * 1 + minor) ->
  minor = 0 /\ k = 12 \/ minor = 2 /\ k = 14 \/ minor = 3 /\ k = 18 ->
  stops e read_glyph_definition p k [].
Proof.
  intros H C. assert (L : minor < 65536) by lia. destruct (words_of _ _ L H) as [H1 H2].
  destruct C as [[-> ->]|[[-> ->]|[-> ->]]]; cbn in H; stopped.
Qed.

Lemma gdef_header_stops minor k : u32_at f p (65536 * 1 + minor) ->
  minor = 0 /\ k = 12 \/ minor = 2 /\ k = 14 \/ minor = 3 /\ k = 18 ->
  stops e read_gdef_header p k [].
Proof.
  intros H C. assert (L : minor < 65536) by lia. destruct (words_of _ _ L H) as [H1 H2].
  destruct C as [[-> ->]|[[-> ->]|[-> ->]]]; cbn in H; stopped.
Qed.

Lemma single_field {A} (m : M A) flags k q :
  (forall q, solid e m q 2) -> solid e (take_if (has_flag flags (2 ^ N.of_nat k)) m) q (bit_size flags k).
Proof.
  intros Hm. rewrite has_flag_bit. unfold take_if, bit_size. destruct (N.testbit flags (N.of_nat k)).
  - apply solid_map, Hm.
  - apply solid_ret.
Qed.

Lemma value_size_bits flags : value_size flags =
  bit_size flags 0 + bit_size flags 1 + bit_size flags 2 + bit_size flags 3 +
  bit_size flags 4 + bit_size flags 5 + bit_size flags 6 + bit_size flags 7.
Proof.
  unfold value_size. rewrite !bits_below_next. unfold bits_below, bit_size. cbn [filter seq length].
  repeat match goal with |- context [N.testbit ?a ?b] => destruct (N.testbit a b) end; reflexivity.
Qed.

Lemma single_stops base flags : stops e (read_single base flags) p (value_size flags) [].
Proof.
  rewrite value_size_bits. unfold read_single.
  eapply stops_solid; [apply (single_field _ flags 0); eauto 2 with solid|lia|intros ?].
  eapply stops_solid; [apply (single_field _ flags 1); eauto 2 with solid|lia|intros ?].
  eapply stops_solid; [apply (single_field _ flags 2); eauto 2 with solid|lia|intros ?].
  eapply stops_solid; [apply (single_field _ flags 3); eauto 2 with solid|lia|intros ?].
  eapply stops_solid; [apply (single_field _ flags 4); eauto 2 with solid|lia|intros ?].
  eapply stops_solid; [apply (single_field _ flags 5); eauto 2 with solid|lia|intros ?].
  eapply stops_solid; [apply (single_field _ flags 6); eauto 2 with solid|lia|intros ?].
  eapply stops_solid; [apply (single_field _ flags 7); eauto 2 with solid|lia|intros ?].
  apply stops_nothing. lia.
Qed.

Lemma sum_run a b q : (overflow_checks o = true -> a + b < 65536) ->
  add_u16 a b e q = Ok ((a + b) mod 65536, q + 0).
Proof.
  intros H. unfold add_u16, add_wrapping, bind, ask. change (2 ^ 16) with 65536. rewrite N.add_0_r. cbn [opts].
  destruct (N.ltb_spec (a + b) 65536) as [L|G].
  - rewrite (N.mod_small _ _ L). reflexivity.
  - destruct (overflow_checks o); [specialize (H eq_refl); lia|reflexivity].
Qed.

Lemma deltas_stops items short regions :
  u16_at f p items -> u16_at f (p + 2) short -> u16_at f (p + 4) regions ->
  (overflow_checks o = true -> short + regions < 65536) ->
  stops e read_store_record p (6 + 2 * regions + items * ((short + regions) mod 65536)) [].
Proof.
  intros H0 H1 H2 C. remember (items * ((short + regions) mod 65536)) as total eqn:E.
  unfold read_store_record. do 4 stop. apply stops_first.
  eapply (stops_run e _ _ _ _ 0); [apply sum_run, C|apply intact_zero|lia|].
  intros [M|M]; [|inversion M]. eapply solid_stops; [apply solid_vec; intros ?; apply u8_solid|].
  match goal with M : misses _ _ ?a |- misses _ _ ?b => replace b with a by (rewrite <- E; lia); exact M end.
Qed.

Lemma pair_stops format k : u16_at f p format -> In format [1; 2] ->
  k = 6 \/ k = 8 /\ (exists flags, flags_at (checked_flags o) 0xFF00 f (p + 4) flags) ->
  stops e read_pair_adjustment p k [].
Proof.
  intros H [<-|[<-|[]]] [->|[-> [flags Hf]]]; stopped.
Qed.

Lemma cpal_stops version k : u16_at f p version -> In version [0; 1] ->
  k = 12 \/ (exists n, k = 12 + 2 * n /\ u16_at f (p + 4) n) -> stops e read_color_palettes p k [].
Proof. intros H [<-|[<-|[]]] [->|(n & -> & Hn)]; stopped. Qed.

Lemma cpal_header_stops version k : u16_at f p version -> In version [0; 1] ->
  k = 12 \/ (exists n, k = 12 + 2 * n /\ u16_at f (p + 4) n) -> stops e read_cpal_header p k [].
Proof. intros H [<-|[<-|[]]] [->|(n & -> & Hn)]; stopped. Qed.
End Begins.

Ltac numbered := unfold read_context_record, read_context_class_record, read_chained_record,
    read_chained_class_record, read_ligature; repeat stop_step; cbv beta;
  match goal with H : _ <> 0 |- _ => rewrite (nonzero_number _ H) end; stopped.

Lemma begins_stops o f p A (m : M A) k sizes : begins o f p m k sizes -> stops (mkEnv f o) m p k sizes.
Proof.
  intros H. destruct H; try solve [stopped].
  - eapply font_stops; eassumption.
  - apply correction_stops.
  - apply device_stops; assumption.
  - numbered.
  - numbered.
  - numbered.
  - numbered.
  - eapply directory_stops; eauto.
  - eapply directory_stops; eauto.
  - eapply lookup_record_stops; eassumption.
  - numbered.
  - eapply pair_stops; eauto.
  - eapply pair_stops; eauto.
  - apply single_stops.
  - apply (gdef_stops _ _ _ 0); auto.
  - apply (gdef_stops _ _ _ 2); auto.
  - apply (gdef_stops _ _ _ 3); auto.
  - apply deltas_stops; assumption.
  - eapply cpal_stops; eauto.
  - eapply cpal_stops; eauto.
  - apply (gdef_header_stops _ _ _ 0); auto.
  - apply (gdef_header_stops _ _ _ 2); auto.
  - apply (gdef_header_stops _ _ _ 3); auto.
  - eapply cpal_header_stops; eauto.
  - eapply cpal_header_stops; eauto.
  - eapply device_format_stops; eassumption.
  - apply only_device_stops; assumption.
Qed.
