(** Property C85: following extensions. *)

From Verif Require Import ProofExtensions ProofDepartures Samples.

(** C85: "whoever follows extensions comes to an end". *)
Theorem C85_ends_refuted : ~ forall T o (k : family T) f x, bounded f -> ends o k f x.
Proof. exact endless_refuted. Qed.
Print Assumptions C85_ends_refuted.

(** C85: they do exactly if they do not come to an extension that leads to itself, *)
Theorem C85_exactly {T} o (k : family T) f x : bounded f -> ends o k f x <-> ~ loops o k f x.
Proof. exact (fun Hb => ends_iff o k f Hb x). Qed.
Print Assumptions C85_exactly.

(** which is one of the type of extensions with an offset of zero; *)
Theorem C85_loop {T} o (k : family T) f t a : bounded f ->
  leads o k f (t, a) (t, a) <->
  t = extension_type k /\ u16_at f a 1 /\ u16_at f (a + 2) (extension_type k) /\ u32_at f (a + 4) 0.
Proof. exact (fun Hb => leads_self o k f Hb t a). Qed.
Print Assumptions C85_loop.

(** otherwise it takes no more steps than there are bytes, *)
Theorem C85_steps {T} o (k : family T) f size n x y :
  bounded f -> (forall p, size <= p -> f p = None) -> ~ loops o k f x ->
  follows o k f n x y -> n = 0%nat \/ snd x + 7 + N.of_nat n <= size.
Proof. exact (fun Hb => follows_size o k f Hb size n x y). Qed.
Print Assumptions C85_steps.

(** and just one if the type an extension gives is that of something else, as it has to be. *)
Theorem C85_once {T} o (k : family T) f x y :
  bounded f -> leads o k f x y -> fst y <> extension_type k -> forall z, ~ leads o k f y z.
Proof. exact (fun Hb => leads_once o k f Hb x y). Qed.
Print Assumptions C85_once.

(** A list of lookups, with an extension that leads to itself. *)
Example C85_example_loop :
  let f := words [1; 4; 7; 0; 1; 8; 1; 7; 0; 0] in
  bounded f /\
  reads debug_build (piece_reader PieceGsubLookups) f 0
    (mkLookups 1 [4] [mkLookupRecord 7 0 1 [8] None
      [GsubExtensionSubstitution (mkExtensionSubstitution 1 7 0)]]) /\
  leads debug_build Substitution f (7, 12) (7, 12).
Proof.
  refine (conj _ (conj _ _)); [by_size|eexists; vm_compute; reflexivity|].
  do 2 eexists. split; [eexists; vm_compute; reflexivity|split; reflexivity].
Qed.

(** Two extensions in turn, and then a cursive attachment without connections. *)
Example C85_example :
  let f := words [1; 9; 0; 8; 1; 3; 0; 10; 0; 1; 6; 0; 1; 0] in
  bounded f /\
  follows debug_build Positioning f 2 (9, 0) (3, 18) /\
  reads debug_build (subtable Positioning 3) f 18
    (GposCursiveAttachment (mkCursiveAttachment 1 6 0 [] (CoverageFormat1 (mkCoverage1 1 0 [])))) /\
  ~ loops debug_build Positioning f (9, 0).
Proof.
  intros f. assert (B : bounded f) by by_size.
  assert (L : follows debug_build Positioning f 2 (9, 0) (3, 18)).
  { eapply follows_more with (y := (9, 8)); [|eapply follows_more with (y := (3, 18)); [|constructor]];
      (do 2 eexists; split; [eexists; vm_compute; reflexivity|split; reflexivity]). }
  refine (conj B (conj L (conj _ _))); [eexists; vm_compute; reflexivity|].
  apply (C85_exactly debug_build Positioning f (9, 0) B). exists 2%nat, (3, 18). split; [exact L|].
  intros z Z. apply (leads_iff _ _ _ B) in Z. destruct Z as [Z _]. discriminate Z.
Qed.
