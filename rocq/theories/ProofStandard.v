(** Tables laid out as the specification prescribes (C77). *)

From Verif Require Export SpecSupport Requests Samples Fixtures.
From Verif Require Import ProofConform ProofLayout ProofRequests ProofFindings.

Ltac settle := vm_compute; repeat first [exact I | reflexivity | discriminate | constructor].

Lemma standard_gsub l :
  holds (read_default RequestGsub l) (fun v =>
    supported_features (directory_features v) /\ strict_directory strict_gsub_type v) ->
  N.of_nat (length l) <= 2 ^ 63 ->
  exists v, std_glyph_substitution_at (file_of l) 0 v /\
    forall o, reads o read_glyph_substitution (file_of l) 0 v.
Proof.
  intros (v & Hr & Hs & Ht)%table_of_holds Hb%file_of_bounded. exists v.
  assert (std_glyph_substitution_at (file_of l) 0 v) as H.
  { apply (proj2 (gsub_standard debug_build _ 0 v Hb) Hr Hs), Ht. }
  split; [exact H|]. intros o. apply (proj1 (gsub_standard o _ 0 v Hb) H), Hs.
Qed.

Lemma standard_gdef l :
  holds (read_default RequestGdef l) (fun v =>
    (given supported_gdef_ligatures (glyph_definition_ligatures v) /\
     glyph_definition_variations v = None /\
     gdef_variation_offset (glyph_definition_header v) =
     standard_variation_offset (glyph_definition_header v)) /\
    strict_glyph_definition v) ->
  N.of_nat (length l) <= 2 ^ 63 ->
  exists v, std_glyph_definition_at (file_of l) 0 v /\
    forall o, reads o read_glyph_definition (file_of l) 0 v.
Proof.
  intros (v & Hr & (Hs & Hv & He) & Ht)%table_of_holds Hb%file_of_bounded. exists v.
  assert (forall o, supported_glyph_definition o (file_of l) 0 v) as S.
  { intros o. destruct v as [header gc at_ li mc ma va]. cbn in Hs, Hv, He. subst va.
    split; [exact Hs|]. split; [exact I|]. rewrite He. reflexivity. }
  assert (std_glyph_definition_at (file_of l) 0 v) as H.
  { apply (proj2 (gdef_standard debug_build _ 0 v Hb) Hr (S _)), Ht. }
  split; [exact H|]. intros o. apply (proj1 (gdef_standard o _ 0 v Hb) H), S.
Qed.

Lemma standard_fvar l :
  holds (read_default RequestFvar l) strict_font_variations ->
  N.of_nat (length l) <= 2 ^ 63 ->
  exists v, std_font_variations_at (file_of l) 0 v /\
    forall o, reads o read_font_variations (file_of l) 0 v.
Proof.
  intros (v & Hr & Ht)%table_of_holds Hb%file_of_bounded. exists v.
  assert (std_font_variations_at (file_of l) 0 v) as H.
  { apply (proj2 (fvar_standard debug_build _ 0 v Hb) Hr), Ht. }
  split; [exact H|]. intros o. apply (proj1 (fvar_standard o _ 0 v Hb) H).
Qed.

Lemma standard_cpal l :
  holds (read_default RequestCpal l) strict_color_palettes ->
  N.of_nat (length l) <= 2 ^ 63 ->
  exists v, std_color_palettes_at (file_of l) 0 v /\
    forall o, reads o read_color_palettes (file_of l) 0 v.
Proof.
  intros (v & Hr & Ht)%table_of_holds Hb%file_of_bounded. exists v.
  assert (std_color_palettes_at (file_of l) 0 v) as H.
  { apply (proj2 (cpal_standard debug_build _ 0 v Hb) Hr), Ht. }
  split; [exact H|]. intros o. apply (proj1 (cpal_standard o _ 0 v Hb) H).
Qed.

Lemma fonts_standard :
  (exists v, std_glyph_substitution_at (file_of adobe_vf_gsub) 0 v /\
    forall o, reads o read_glyph_substitution (file_of adobe_vf_gsub) 0 v) /\
  (exists v, std_glyph_definition_at (file_of open_sans_gdef) 0 v /\
    forall o, reads o read_glyph_definition (file_of open_sans_gdef) 0 v) /\
  (exists v, std_font_variations_at (file_of adobe_vf_fvar) 0 v /\
    forall o, reads o read_font_variations (file_of adobe_vf_fvar) 0 v) /\
  (exists v, std_color_palettes_at (file_of kalnia_glaze_cpal) 0 v /\
    forall o, reads o read_color_palettes (file_of kalnia_glaze_cpal) 0 v).
Proof.
  split; [|split; [|split]].
  - apply standard_gsub; [settle|vm_compute; discriminate].
  - apply standard_gdef; [settle|vm_compute; discriminate].
  - apply standard_fvar; [settle|vm_compute; discriminate].
  - apply standard_cpal; [settle|vm_compute; discriminate].
Qed.

(** ** A device *)

(** A [GPOS] table with a device for the sizes from 9 to [last], of four bits each. *)
Definition device_gpos (last : N) : file :=
  words [1; 0; 10; 12; 14; 0; 0; 1; 4; 1; 0; 1; 8; 1; 18; 17; 5; 10; 9; last; 2; 4660; 1; 1; 7].

Definition device_positioning (last : N) : GlyphPositioning :=
  mkDirectory 1 0 10 12 14 0 (mkScripts 0 [] []) (mkFeatures 0 [] [])
    (mkLookups 1 [4] [mkLookupRecord 1 0 1 [8] None
      [GposSingleAdjustment (SingleAdjustmentFormat1 (mkSingleAdjustment1 1 18 17
        (mkSingle (Some 5%Z) None None None (Some 10) None None None
          (Some (CorrectionDevice (mkDevice 9 last 2 [4660]))) None None None)
        (CoverageFormat1 (mkCoverage1 1 1 [7]))))]]) None.

(** Bytes of a list. *)
Ltac word := do 2 eexists; split; [|split]; vm_compute; reflexivity.

Lemma device_laid last :
  last = 11 \/ last = 12 -> std_glyph_positioning_at (device_gpos last) 0 (device_positioning last).
Proof.
  intros [-> | ->]; (
    repeat match goal with
    | |- u16_at _ _ _ => word
    | |- i16_at _ _ _ => eexists; split; [word|vm_compute; reflexivity]
    | |- vec_at _ _ _ _ [_] => apply vec_one
    | |- u16s_at _ _ _ [_] => apply vec_one
    | |- links_at _ _ _ _ => constructor
    | |- Forall2 _ _ _ => constructor
    | |- _ /\ _ => split
    | |- _ \/ _ => left; reflexivity
    | |- _ <> _ => discriminate
    | |- link_at _ _ _ _ => split
    | |- reserved_at _ _ _ _ => split
    | |- _ = _ => reflexivity
    | |- _ -> _ => intros
    | |- _ => progress (hnf)
    end).
  all: try lia; try discriminate.
  all: match goal with H : nth_error [] ?i = Some _ |- _ => destruct i; discriminate H end.
Qed.

Lemma device_bounded last : bounded (device_gpos last).
Proof. apply file_of_bounded. discriminate. Qed.

Lemma device_read :
  std_glyph_positioning_at (device_gpos 11) 0 (device_positioning 11) /\
  forall o, reads o read_glyph_positioning (device_gpos 11) 0 (device_positioning 11).
Proof.
  split; [apply device_laid; auto|]. intros o.
  apply (proj1 (gpos_standard o _ 0 _ (device_bounded 11)) (device_laid 11 ltac:(auto))). settle.
Qed.

Lemma device_not_read :
  std_glyph_positioning_at (device_gpos 12) 0 (device_positioning 12) /\
  forall o, ~ reads o read_glyph_positioning (device_gpos 12) 0 (device_positioning 12).
Proof.
  split; [apply device_laid; auto|]. intros o H.
  apply (proj1 (gpos_standard o _ 0 _ (device_bounded 12)) (device_laid 12 ltac:(auto))) in H.
  destruct H as [_ H]. inversion_clear H as [|? ? K _]. inversion_clear K as [|? ? L _].
  destruct L as [L _]. apply L. reflexivity.
Qed.

(** ** A table with variations *)

Lemma adobe_vf_store :
  exists store, reads debug_build read_store (file_of adobe_vf_gdef) 18 store /\
    strict_store store /\ supported_store debug_build store.
Proof.
  assert (holds (outcome (read_store (mkEnv (file_of adobe_vf_gdef) debug_build) 18)) (fun store =>
    strict_store store /\ supported_store debug_build store)) as H.
  { set (x := outcome _). vm_compute in x. subst x.
    cbv beta iota delta [holds strict_store supported_store presents nonzero].
    split; [split|]; repeat constructor; vm_compute; try discriminate; reflexivity. }
  destruct (read_store (mkEnv (file_of adobe_vf_gdef) debug_build) 18) as [[store q]| |] eqn:E;
    [|destruct H..].
  exists store. split; [exists q; exact E|exact H].
Qed.

Lemma adobe_vf_skipped :
  exists v, std_glyph_definition_at (file_of adobe_vf_gdef) 0 v /\
    (exists store, glyph_definition_variations v = Some store) /\
    glyph_definition_ligatures v = None /\ variations_skipped v /\
    forall o, ~ reads o read_glyph_definition (file_of adobe_vf_gdef) 0 v.
Proof.
  assert (bounded (file_of adobe_vf_gdef)) as Hb by (apply file_of_bounded; vm_compute; discriminate).
  destruct adobe_vf_store as (store & Hr & Hs & Ht).
  apply (proj2 (read_store_finds False (mkEnv (file_of adobe_vf_gdef) debug_build) Hb 18 ltac:(tauto))) in Hr.
  apply (proj2 (proj2 (store_agrees _ _ _ _)) Ht Hs) in Hr.
  exists (mkGlyphDefinition (GdefVersion13 (mkGdefHeader13 1 3 0 0 0 0 0 18)) None None None None
    None (Some store)).
  split; [|split; [eexists; reflexivity|split; [reflexivity|split; [reflexivity|]]]].
  - assert (u32_at (file_of adobe_vf_gdef) 14 18) as H32.
    { exists 0, 18. split; [word|split; [word|reflexivity]]. }
    cbn -[u16_at u32_at std_store_at N.add adobe_vf_gdef file_of].
    repeat split; try word; try discriminate; try exact H32. exact Hr.
  - intros o H. apply (request_reads RequestGdef o _ 0 _ Hb) in H.
    destruct H as (_ & _ & _ & _ & _ & _ & H & _). apply H. reflexivity.
Qed.

Lemma adobe_vf_not_read :
  exists v, std_glyph_definition_at (file_of adobe_vf_gdef) 0 v /\
    (exists store, glyph_definition_variations v = Some store) /\
    forall o, ~ reads o read_glyph_definition (file_of adobe_vf_gdef) 0 v.
Proof. destruct adobe_vf_skipped as (v & H & Hs & _ & _ & Hr). eauto. Qed.
