(** Property C71: which error is reported. *)

From Verif Require Import Reads ProofParts ProofApart ProofDepartures Samples.

(** C71: once what a reader reads before its parts is intact, the value is refused with the error
    of the first of the parts that cannot be read, in the order of reading, *)
Theorem C71_error o f p A (m : M A) l x :
  bounded f -> parts o f p m l -> refuses o m f p x <-> first_bad o f (refused o f x) l.
Proof. exact (fun Hb H => parts_refused o f p A m l Hb H x). Qed.
Print Assumptions C71_error.

(** it is read if all the parts are, *)
Theorem C71_value o f p A (m : M A) l :
  bounded f -> parts o f p m l -> (exists v, reads o m f p v) <-> Forall (readable o f) l.
Proof. exact (parts_readable o f p A m l). Qed.
Print Assumptions C71_value.

(** and there is a panic if there is one in the first that is not read. *)
Theorem C71_panic o f p A (m : M A) l :
  bounded f -> parts o f p m l -> panics o m f p <-> first_bad o f (panicking o f) l.
Proof. exact (parts_panicking o f p A m l). Qed.
Print Assumptions C71_panic.

(** C71, for parts of parts: the error of the part that is to blame is that of the whole. *)
Theorem C71_blame o f A (m : M A) p B (n : M B) q x :
  bounded f -> blamed o f (Part m p) (Part n q) -> refuses o n f q x -> refuses o m f p x.
Proof. exact (blamed_refused o f (Part m p) (Part n q) x). Qed.
Print Assumptions C71_blame.

Theorem C71_blame_panic o f A (m : M A) p B (n : M B) q :
  bounded f -> blamed o f (Part m p) (Part n q) -> panics o n f q -> panics o m f p.
Proof. exact (blamed_panicking o f (Part m p) (Part n q)). Qed.
Print Assumptions C71_blame_panic.

(** C71, that nothing is missing: a table that is read has parts, those have parts, and so on, down
    to parts that have nothing but fields. *)
Theorem C71_complete o f d A (m : M A) p v :
  bounded f -> whole d m -> reads o m f p v -> taken_apart o f (Part m p).
Proof. exact (requested_apart o f d A m p v). Qed.
Print Assumptions C71_complete.

(** The coverage of the only subtable of the second lookup has the format 7. *)
Example C71_example :
  bounded (words bad_coverage) /\
  blamed debug_build (words bad_coverage) (Part read_glyph_substitution 0) (Part read_coverage 40) /\
  refuses debug_build read_coverage (words bad_coverage) 40 UnknownFormat.
Proof.
  pose (o := debug_build). pose (f := words bad_coverage).
  assert (word : forall p n, take_u16 (mkEnv f o) p = Ok (n, p + 2) -> u16_at f p n) by
    (intros p n H; apply (take_u16_takes True (mkEnv f o) p) in H; apply H).
  assert (row_of : forall p n l, take_vec n take_u16 (mkEnv f o) p = Ok (l, p + 2 * n) -> u16s_at f p n l) by
    (intros p n l H; apply (take_u16s_takes True (mkEnv f o) n p) in H; apply H).
  refine (conj _ (conj _ _)); [by_size| |vm_compute; reflexivity].
  refine (BlamedBelow o f _ _ 0 [Part read_scripts 10; Part read_features 12]
    (Part (read_lookups read_gsub_type) 14) []
    _ (PartsDirectory o f 0 _ _ 0 10 12 14 0 _ _ _ _ _ (or_introl (conj eq_refl eq_refl))) _ _);
    [apply word; reflexivity ..|repeat constructor; eexists; vm_compute; eexists; reflexivity|].
  refine (BlamedBelow o f _ _ 14 [Part (read_lookup_record read_gsub_type) 20] _ [] _
    (PartsLookups o f 14 _ read_gsub_type 2 [6; 12] _ _) _ _);
    [apply word; reflexivity|apply row_of; reflexivity|repeat constructor; eexists; vm_compute;
      eexists; reflexivity|].
  refine (BlamedBelow o f _ _ 26 [] _ [] _ (PartsLookupRecord o f 26 _ read_gsub_type 1 0 1 [8] _ _ _ _ _) _ _);
    [apply word; reflexivity|split; [apply word; reflexivity|reflexivity]|apply word; reflexivity
    |apply row_of; reflexivity|discriminate|constructor|].
  refine (BlamedBelow o f _ _ 34 [] _ [] _ (PartsGsub1 o f 34) _ _); [constructor|].
  refine (BlamedBelow o f _ _ 34 [] _ [] _ (PartsSingleSubstitution1 o f 34 6 1 _ _ _) _ _);
    [apply word; reflexivity|apply word; reflexivity| |constructor|constructor].
  exists 1. split; [apply word; reflexivity|reflexivity].
Qed.
