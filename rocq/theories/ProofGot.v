(** What the getters give. *)

From Verif Require Import ReadsTactics ProofFindings ProofRequests ProofReads ProofAccess.
From Verif Require Import ProofShape.
From Verif Require ProofOpen.
From Verif Require Export SpecGot SpecThrough SpecOpen ModelOpen ProofMeaning ProofThrough.

Section get.
Context {H R : Type} (f : file) (header_at : N -> H -> Prop) (tag_of : H -> tag) (offset_of : H -> N)
  (record_at : N -> R -> Prop) (headers_look : forall q h, header_at q h <-> tag_at f q (tag_of h) /\ u16_at f (q + 4) (offset_of h)).
Variables (p n q : N) (headers : list H) (records : list R).
Hypothesis V : vec_at header_at 6 q n headers.
Hypothesis L : linked_at record_at p (map offset_of headers) records.

Lemma get_found t : exists found, find_record tag_of headers records 0 t = Ok found /\ first_match tag_of headers records t found.
Proof.
  apply find_record_first. apply Forall2_length in L. rewrite map_length in L. auto.
Qed.

Lemma header_tagged i h t : entry headers i = Some h -> (tag_of h = t <-> tag_at f (q + 6 * i) t).
Proof.
  intros E. destruct (vec_entry _ _ _ _ _ _ _ V E) as (_ & Hh). apply headers_look in Hh. destruct Hh as (Ht & _). split.
  - intros <-. exact Ht.
  - intros Ht'. exact (ProofOpen.tag_at_unique _ _ _ _ Ht Ht').
Qed.

Lemma get_down t r : find_record tag_of headers records 0 t = Ok (Some r) -> exists s, first_at f p n q t s /\ record_at s r.
Proof.
  intros E. destruct (get_found t) as (found & E' & F). rewrite E in E'. injection E' as <-. destruct F as (i & h & Eh & Th & Er & F).
  assert (Eh' : entry headers (N.of_nat i) = Some h) by (unfold entry; rewrite Nat2N.id; exact Eh).
  assert (Er' : entry records (N.of_nat i) = Some r) by (unfold entry; rewrite Nat2N.id; exact Er).
  destruct (tagged_down _ _ _ _ _ headers_look _ _ _ _ _ _ _ _ _ V L Eh' Th Er') as (s & Hs & Hr).
  exists s. split; [|exact Hr]. exists (N.of_nat i). split; [exact Hs|]. intros j Hj Ht.
  destruct Hs as (_ & Hi & _). destruct (vec_nth _ _ _ _ _ j V ltac:(lia)) as (h' & Eh'' & _).
  apply (F (N.to_nat j) h'); [lia|exact Eh''|]. apply (header_tagged _ _ _ Eh''), Ht.
Qed.

Lemma get_up t s : first_at f p n q t s -> exists r, find_record tag_of headers records 0 t = Ok (Some r) /\ record_at s r.
Proof.
  intros (i & Hs & F). destruct (tagged_up _ _ _ _ _ headers_look _ _ _ _ _ _ _ _ _ V L Hs eq_refl) as (h & r & Eh & Th & Er & Hr).
  exists r. split; [|exact Hr]. destruct (get_found t) as ([r'|] & E & G).
  - rewrite E. do 2 f_equal. destruct G as (j & h' & Eh' & Th' & Er' & G).
    assert (j = N.to_nat i) as ->; [|unfold entry in Er; congruence].
    destruct (Nat.lt_trichotomy j (N.to_nat i)) as [Lt|[Eq|Lt]]; [|exact Eq|]; exfalso.
    + apply (F (N.of_nat j)); [lia|]. apply (header_tagged _ h'); [unfold entry; rewrite Nat2N.id; exact Eh'|exact Th'].
    + exact (G _ _ Lt Eh Th).
  - destruct (G h); [exact (nth_error_In _ _ Eh)|exact Th].
Qed.

Lemma get_not t : find_record tag_of headers records 0 t = Ok None <-> forall s, ~ first_at f p n q t s.
Proof.
  split.
  - intros E s Hs. destruct (get_up _ _ Hs) as (r & E' & _). congruence.
  - intros N. destruct (get_found t) as ([r|] & E & _); [|exact E]. destruct (get_down _ _ E) as (s & Hs & _). destruct (N s Hs).
Qed.
End get.

Section directory.
Context {T : Type} (o : options) (table_at : N -> file -> N -> T -> Prop) (f : file) (p : N) (v : Directory T).
Hypothesis D : directory_at o table_at f p v.

Lemma script_down t s : scripts_get (directory_scripts v) t = Ok (Some s) -> exists q, got_at o f p (p + 4) t q /\ script_record_at f q s.
Proof.
  destruct v as [major minor so fo lo vo scripts features lookups variations]. cbn [directory_at directory_scripts] in *.
  destruct D as (_ & _ & _ & _ & Hso & _ & _ & _ & _ & S & _). intros E.
  destruct (list_down _ _ _ _ _ _ _ _ Hso S) as (ss & Hss & S').
  { intros ->. discriminate E. }
  destruct scripts as [n sh sr]. cbn in S'. destruct S' as (Hn & Vh & Lr).
  destruct (get_down _ _ _ _ _ (script_look f) _ _ _ _ _ Vh Lr _ _ E) as (q & Hq & Hs).
  exists q. split; [|exact Hs]. exists ss, n. auto.
Qed.

Lemma script_up t q : got_at o f p (p + 4) t q -> exists s, scripts_get (directory_scripts v) t = Ok (Some s) /\ script_record_at f q s.
Proof.
  destruct v as [major minor so fo lo vo scripts features lookups variations]. cbn [directory_at directory_scripts] in *.
  destruct D as (_ & _ & _ & _ & Hso & _ & _ & _ & _ & S & _). intros (ss & n' & Hss & Hn' & Hq).
  assert (S' := list_up _ _ _ _ _ _ _ _ _ Hso S Hss).
  destruct scripts as [n sh sr]. cbn in S'. destruct S' as (Hn & Vh & Lr). rewrite (u16_fun _ _ _ _ Hn' Hn) in Hq.
  exact (get_up _ _ _ _ _ (script_look f) _ _ _ _ _ Vh Lr _ _ Hq).
Qed.

Lemma feature_down t s : features_get (directory_features v) t = Ok (Some s) -> exists q, got_at o f p (p + 6) t q /\ feature_record_at f q s.
Proof.
  destruct v as [major minor so fo lo vo scripts features lookups variations]. cbn [directory_at directory_features] in *.
  destruct D as (_ & _ & _ & _ & _ & Hfo & _ & _ & _ & _ & F & _). intros E.
  destruct (list_down _ _ _ _ _ _ _ _ Hfo F) as (fs & Hfs & F').
  { intros ->. discriminate E. }
  destruct features as [n fh fr]. cbn in F'. destruct F' as (Hn & Vh & Lr).
  destruct (get_down _ _ _ _ _ (feature_look f) _ _ _ _ _ Vh Lr _ _ E) as (q & Hq & Hs).
  exists q. split; [|exact Hs]. exists fs, n. auto.
Qed.

Lemma feature_up t q : got_at o f p (p + 6) t q -> exists s, features_get (directory_features v) t = Ok (Some s) /\ feature_record_at f q s.
Proof.
  destruct v as [major minor so fo lo vo scripts features lookups variations]. cbn [directory_at directory_features] in *.
  destruct D as (_ & _ & _ & _ & _ & Hfo & _ & _ & _ & _ & F & _). intros (fs & n' & Hfs & Hn' & Hq).
  assert (F' := list_up _ _ _ _ _ _ _ _ _ Hfo F Hfs).
  destruct features as [n fh fr]. cbn in F'. destruct F' as (Hn & Vh & Lr). rewrite (u16_fun _ _ _ _ Hn' Hn) in Hq.
  exact (get_up _ _ _ _ _ (feature_look f) _ _ _ _ _ Vh Lr _ _ Hq).
Qed.

Lemma language_down script language l : got_language (directory_scripts v) script language l ->
  exists q, language_got_at o f p script language q /\ language_record_at f q l.
Proof.
  intros (s & E & Hl). destruct (script_down _ _ E) as (q & Hq & Hs).
  destruct s as [dl ln lh d lr]. cbn in Hs, Hl. destruct Hs as (Hdl & Hln & Vl & Hd & Ll). destruct language as [t|].
  - destruct (get_down _ _ _ _ _ (language_look f) _ _ _ _ _ Vl Ll _ _ Hl) as (r & Hr & H). exists r. split; [|exact H].
    exists q. eauto.
  - subst d. destruct Hd as (Hz & H). exists (q + dl). split; [|exact H]. exists q. eauto.
Qed.

Lemma language_up script language q : language_got_at o f p script language q ->
  exists l, got_language (directory_scripts v) script language l /\ language_record_at f q l.
Proof.
  intros (r & Hr & Hq). destruct (script_up _ _ Hr) as (s & E & Hs). unfold got_language.
  destruct s as [dl ln lh d lr] eqn:Es. cbn in Hs. destruct Hs as (Hdl & Hln & Vl & Hd & Ll). destruct language as [t|].
  - destruct Hq as (n & Hn & Hq). rewrite (u16_fun _ _ _ _ Hn Hln) in Hq.
    destruct (get_up _ _ _ _ _ (language_look f) _ _ _ _ _ Vl Ll _ _ Hq) as (l & El & H). exists l. split; [|exact H].
    eexists. split; [exact E|exact El].
  - destruct Hq as (link & Hlink & Hz & ->). rewrite (u16_fun _ _ _ _ Hlink Hdl) in *. destruct d as [l|]; [|contradiction].
    exists l. split; [|exact (proj2 Hd)]. eexists. split; [exact E|reflexivity].
Qed.

Lemma vec_same (ks ks' : list N) n n' q : u16_at f q n -> u16_at f q n' -> forall r, u16s_at f r n ks -> u16s_at f r n' ks' -> ks = ks'.
Proof.
  intros Hn Hn' r Hk Hk'. rewrite (u16_fun _ _ _ _ Hn' Hn) in Hk'. exact (vec_fun _ _ _ _ _ Hk Hk').
Qed.

Lemma languages_iff script language x xs :
  (exists l, got_language (directory_scripts v) script language l /\
    language_record_required_feature_index l = x /\ language_record_feature_indices l = xs) <->
  (exists l, language_got_at o f p script language l /\ features_called_at f l x xs).
Proof.
  split.
  - intros (l & Hl & <- & <-). destruct (language_down _ _ _ Hl) as (q & Hq & H). exists q. split; [exact Hq|].
    destruct l as [lo rq cnt is]. cbn in *. destruct H as (_ & _ & Hrq & Hcnt & Vi). split; [exact Hrq|eauto].
  - intros (q & Hq & Hx & n & Hn & Hxs). destruct (language_up _ _ _ Hq) as (l & Hl & H). exists l. split; [exact Hl|].
    destruct l as [lo rq cnt is]. cbn in *. destruct H as (_ & _ & Hrq & Hcnt & Vi).
    split; [exact (u16_fun _ _ _ _ Hrq Hx)|exact (vec_same _ _ _ _ _ Hcnt Hn _ Vi Hxs)].
Qed.

Lemma features_iff t ks :
  (exists r, features_get (directory_features v) t = Ok (Some r) /\ feature_record_lookup_indices r = ks) <->
  (exists r, got_at o f p (p + 6) t r /\ lookups_called_at f r ks).
Proof.
  split.
  - intros (r & E & <-). destruct (feature_down _ _ E) as (q & Hq & H). exists q. split; [exact Hq|].
    destruct r as [po c ks ps]. cbn in *. destruct H as (_ & Hc & Vk & _). exists c. auto.
  - intros (q & Hq & n & Hn & Hk). destruct (feature_up _ _ Hq) as (r & E & H). exists r. split; [exact E|].
    destruct r as [po c ks' ps]. cbn in *. destruct H as (_ & Hc & Vk & _). exact (vec_same _ _ _ _ _ Hc Hn _ Vk Hk).
Qed.

Lemma scripts_total t : exists found, scripts_get (directory_scripts v) t = Ok found.
Proof.
  destruct v as [major minor so fo lo vo scripts features lookups variations]. cbn [directory_at directory_scripts] in *.
  destruct D as (_ & _ & _ & _ & _ & _ & _ & _ & _ & S & _). destruct S as [(_ & _ & ->)|(_ & S)]; [exists None; reflexivity|].
  destruct scripts as [n sh sr]. cbn in S. destruct S as (_ & _ & L). destruct (get_found script_header_tag _ _ _ _ _ L t) as (x & E & _). eauto.
Qed.

Lemma features_total t : exists found, features_get (directory_features v) t = Ok found.
Proof.
  destruct v as [major minor so fo lo vo scripts features lookups variations]. cbn [directory_at directory_features] in *.
  destruct D as (_ & _ & _ & _ & _ & _ & _ & _ & _ & _ & F & _). destruct F as [(_ & _ & ->)|(_ & F)]; [exists None; reflexivity|].
  destruct features as [n sh sr]. cbn in F. destruct F as (_ & _ & L). destruct (get_found feature_header_tag _ _ _ _ _ L t) as (x & E & _). eauto.
Qed.

Lemma scripts_not t : scripts_get (directory_scripts v) t = Ok None <-> forall r, ~ got_at o f p (p + 4) t r.
Proof.
  split.
  - intros E r Hr. destruct (script_up _ _ Hr) as (s & E' & _). congruence.
  - intros N. destruct (scripts_total t) as ([s|] & E); [|exact E]. destruct (script_down _ _ E) as (r & Hr & _). destruct (N r Hr).
Qed.

Lemma features_not t : features_get (directory_features v) t = Ok None <-> forall r, ~ got_at o f p (p + 6) t r.
Proof.
  split.
  - intros E r Hr. destruct (feature_up _ _ Hr) as (s & E' & _). congruence.
  - intros N. destruct (features_total t) as ([s|] & E); [|exact E]. destruct (feature_down _ _ E) as (r & Hr & _). destruct (N r Hr).
Qed.
End directory.

(** The two tables that have scripts and features, and the same of a font. *)

Lemma gsub_languages o f p v script language x xs :
  bounded f -> reads o read_glyph_substitution f p v ->
  ((exists l, got_language (directory_scripts v) script language l /\
     language_record_required_feature_index l = x /\ language_record_feature_indices l = xs) <->
   (exists l, language_got_at o f p script language l /\ features_called_at f l x xs)).
Proof. intros B H. apply (request_reads RequestGsub o f p v B) in H. exact (languages_iff _ _ _ _ _ H _ _ _ _). Qed.

Lemma gpos_languages o f p v script language x xs :
  bounded f -> reads o read_glyph_positioning f p v ->
  ((exists l, got_language (directory_scripts v) script language l /\
     language_record_required_feature_index l = x /\ language_record_feature_indices l = xs) <->
   (exists l, language_got_at o f p script language l /\ features_called_at f l x xs)).
Proof. intros B H. apply (request_reads RequestGpos o f p v B) in H. exact (languages_iff _ _ _ _ _ H _ _ _ _). Qed.

Lemma gsub_features o f p v t ks :
  bounded f -> reads o read_glyph_substitution f p v ->
  ((exists r, features_get (directory_features v) t = Ok (Some r) /\ feature_record_lookup_indices r = ks) <->
   (exists r, got_at o f p (p + 6) t r /\ lookups_called_at f r ks)).
Proof. intros B H. apply (request_reads RequestGsub o f p v B) in H. exact (features_iff _ _ _ _ _ H _ _). Qed.

Lemma gpos_features o f p v t ks :
  bounded f -> reads o read_glyph_positioning f p v ->
  ((exists r, features_get (directory_features v) t = Ok (Some r) /\ feature_record_lookup_indices r = ks) <->
   (exists r, got_at o f p (p + 6) t r /\ lookups_called_at f r ks)).
Proof. intros B H. apply (request_reads RequestGpos o f p v B) in H. exact (features_iff _ _ _ _ _ H _ _). Qed.

Lemma gsub_not_got o f p v t :
  bounded f -> reads o read_glyph_substitution f p v ->
  (scripts_get (directory_scripts v) t = Ok None <-> forall r, ~ got_at o f p (p + 4) t r) /\
  (features_get (directory_features v) t = Ok None <-> forall r, ~ got_at o f p (p + 6) t r).
Proof.
  intros B H. apply (request_reads RequestGsub o f p v B) in H. split; [exact (scripts_not _ _ _ _ _ H t)|exact (features_not _ _ _ _ _ H t)].
Qed.

Lemma gpos_not_got o f p v t :
  bounded f -> reads o read_glyph_positioning f p v ->
  (scripts_get (directory_scripts v) t = Ok None <-> forall r, ~ got_at o f p (p + 4) t r) /\
  (features_get (directory_features v) t = Ok None <-> forall r, ~ got_at o f p (p + 6) t r).
Proof.
  intros B H. apply (request_reads RequestGpos o f p v B) in H. split; [exact (scripts_not _ _ _ _ _ H t)|exact (features_not _ _ _ _ _ H t)].
Qed.

Lemma font_gsub_languages d o f p w script language x xs :
  bounded f -> reads o (open_take d TableGlyphSubstitution read_glyph_substitution) f p w ->
  (taken_says w (fun v => exists l, got_language (directory_scripts v) script language l /\
     language_record_required_feature_index l = x /\ language_record_feature_indices l = xs) <->
   font_says f p (Tag "G" "S" "U" "B") (fun q => exists l, language_got_at o f q script language l /\ features_called_at f l x xs)).
Proof. intros B. apply through. intros q v R. exact (gsub_languages o f q v script language x xs B R). Qed.

Lemma font_gsub_features d o f p w t ks :
  bounded f -> reads o (open_take d TableGlyphSubstitution read_glyph_substitution) f p w ->
  (taken_says w (fun v => exists r, features_get (directory_features v) t = Ok (Some r) /\ feature_record_lookup_indices r = ks) <->
   font_says f p (Tag "G" "S" "U" "B") (fun q => exists r, got_at o f q (q + 6) t r /\ lookups_called_at f r ks)).
Proof. intros B. apply through. intros q v R. exact (gsub_features o f q v t ks B R). Qed.

Lemma font_gpos_languages d o f p w script language x xs :
  bounded f -> reads o (open_take d TableGlyphPositioning read_glyph_positioning) f p w ->
  (taken_says w (fun v => exists l, got_language (directory_scripts v) script language l /\
     language_record_required_feature_index l = x /\ language_record_feature_indices l = xs) <->
   font_says f p (Tag "G" "P" "O" "S") (fun q => exists l, language_got_at o f q script language l /\ features_called_at f l x xs)).
Proof. intros B. apply through. intros q v R. exact (gpos_languages o f q v script language x xs B R). Qed.

Lemma font_gpos_features d o f p w t ks :
  bounded f -> reads o (open_take d TableGlyphPositioning read_glyph_positioning) f p w ->
  (taken_says w (fun v => exists r, features_get (directory_features v) t = Ok (Some r) /\ feature_record_lookup_indices r = ks) <->
   font_says f p (Tag "G" "P" "O" "S") (fun q => exists r, got_at o f q (q + 6) t r /\ lookups_called_at f r ks)).
Proof. intros B. apply through. intros q v R. exact (gpos_features o f q v t ks B R). Qed.
