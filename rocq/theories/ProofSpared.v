(** Editing a font without touching the bytes a table is made of. *)

From Verif Require Export SpecEdit ProofOwned.
From Verif Require Import ProofEdit ProofAssembly ProofFontProperties.

Lemma edit_spares {A} (r : request A) d o this t record f g v p q :
  bounded f -> bounded g ->
  first_record (offsets_records (font_offsets this)) (table_tag t) record ->
  accepted d o f record -> accepted d o g record ->
  reads o (font_take d this t (reader r)) f p (Some v) ->
  reads o (font_take d this t (reader r)) g q (Some v) <->
  forall i, made_of o r v (offset_record_offset record) i -> g i = f i.
Proof.
  intros Bf Bg Hr Hf Hg H. apply (taken_at _ _ _ _ _ _ _ _ _ Hr Hf) in H.
  rewrite <- (made_exactly o f g r v _ Bf Bg H). apply (taken_at _ _ _ _ _ _ _ _ _ Hr Hg).
Qed.
