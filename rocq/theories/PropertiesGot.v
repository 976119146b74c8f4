(** Property C107: what the getters give is what the bytes say. *)

From Verif Require Import Samples ProofGot.

(** C107: the numbers of the features of a language, got by the tags of a script and of a language, or of the default
    language of a script, are those that the bytes have at the first script and the first language with those tags; *)
Theorem C107_gsub_languages o f p v script language x xs :
  bounded f -> reads o read_glyph_substitution f p v ->
  ((exists l, got_language (directory_scripts v) script language l /\
     language_record_required_feature_index l = x /\ language_record_feature_indices l = xs) <->
   (exists l, language_got_at o f p script language l /\ features_called_at f l x xs)).
Proof. exact (gsub_languages o f p v script language x xs). Qed.
Print Assumptions C107_gsub_languages.

Theorem C107_gpos_languages o f p v script language x xs :
  bounded f -> reads o read_glyph_positioning f p v ->
  ((exists l, got_language (directory_scripts v) script language l /\
     language_record_required_feature_index l = x /\ language_record_feature_indices l = xs) <->
   (exists l, language_got_at o f p script language l /\ features_called_at f l x xs)).
Proof. exact (gpos_languages o f p v script language x xs). Qed.
Print Assumptions C107_gpos_languages.

(** the numbers of the lookups of a feature, got by its tag, are those of the first feature with the tag; *)
Theorem C107_gsub_features o f p v t ks :
  bounded f -> reads o read_glyph_substitution f p v ->
  ((exists r, features_get (directory_features v) t = Ok (Some r) /\ feature_record_lookup_indices r = ks) <->
   (exists r, got_at o f p (p + 6) t r /\ lookups_called_at f r ks)).
Proof. exact (gsub_features o f p v t ks). Qed.
Print Assumptions C107_gsub_features.

Theorem C107_gpos_features o f p v t ks :
  bounded f -> reads o read_glyph_positioning f p v ->
  ((exists r, features_get (directory_features v) t = Ok (Some r) /\ feature_record_lookup_indices r = ks) <->
   (exists r, got_at o f p (p + 6) t r /\ lookups_called_at f r ks)).
Proof. exact (gpos_features o f p v t ks). Qed.
Print Assumptions C107_gpos_features.

(** and nothing is got exactly if the bytes have nothing with the tag. *)
Theorem C107_gsub_absent o f p v t :
  bounded f -> reads o read_glyph_substitution f p v ->
  (scripts_get (directory_scripts v) t = Ok None <-> forall r, ~ got_at o f p (p + 4) t r) /\
  (features_get (directory_features v) t = Ok None <-> forall r, ~ got_at o f p (p + 6) t r).
Proof. exact (gsub_not_got o f p v t). Qed.
Print Assumptions C107_gsub_absent.

Theorem C107_gpos_absent o f p v t :
  bounded f -> reads o read_glyph_positioning f p v ->
  (scripts_get (directory_scripts v) t = Ok None <-> forall r, ~ got_at o f p (p + 4) t r) /\
  (features_get (directory_features v) t = Ok None <-> forall r, ~ got_at o f p (p + 6) t r).
Proof. exact (gpos_not_got o f p v t). Qed.
Print Assumptions C107_gpos_absent.

(** So it is from the start of a font file on. *)
Theorem C107_font_gsub_languages d o f p w script language x xs :
  bounded f -> reads o (open_take d TableGlyphSubstitution read_glyph_substitution) f p w ->
  (taken_says w (fun v => exists l, got_language (directory_scripts v) script language l /\
     language_record_required_feature_index l = x /\ language_record_feature_indices l = xs) <->
   font_says f p (Tag "G" "S" "U" "B") (fun q => exists l, language_got_at o f q script language l /\ features_called_at f l x xs)).
Proof. exact (font_gsub_languages d o f p w script language x xs). Qed.
Print Assumptions C107_font_gsub_languages.

Theorem C107_font_gsub_features d o f p w t ks :
  bounded f -> reads o (open_take d TableGlyphSubstitution read_glyph_substitution) f p w ->
  (taken_says w (fun v => exists r, features_get (directory_features v) t = Ok (Some r) /\ feature_record_lookup_indices r = ks) <->
   font_says f p (Tag "G" "S" "U" "B") (fun q => exists r, got_at o f q (q + 6) t r /\ lookups_called_at f r ks)).
Proof. exact (font_gsub_features d o f p w t ks). Qed.
Print Assumptions C107_font_gsub_features.

Theorem C107_font_gpos_languages d o f p w script language x xs :
  bounded f -> reads o (open_take d TableGlyphPositioning read_glyph_positioning) f p w ->
  (taken_says w (fun v => exists l, got_language (directory_scripts v) script language l /\
     language_record_required_feature_index l = x /\ language_record_feature_indices l = xs) <->
   font_says f p (Tag "G" "P" "O" "S") (fun q => exists l, language_got_at o f q script language l /\ features_called_at f l x xs)).
Proof. exact (font_gpos_languages d o f p w script language x xs). Qed.
Print Assumptions C107_font_gpos_languages.

Theorem C107_font_gpos_features d o f p w t ks :
  bounded f -> reads o (open_take d TableGlyphPositioning read_glyph_positioning) f p w ->
  (taken_says w (fun v => exists r, features_get (directory_features v) t = Ok (Some r) /\ feature_record_lookup_indices r = ks) <->
   font_says f p (Tag "G" "P" "O" "S") (fun q => exists r, got_at o f q (q + 6) t r /\ lookups_called_at f r ks)).
Proof. exact (font_gpos_features d o f p w t ks). Qed.
Print Assumptions C107_font_gpos_features.

(** A script with a default language and another one, a second script with the same tag and without languages, and two
    features with the same tag: the first ones are got. *)
Example C107_example :
  let f := words [1; 0; 10; 56; 84;
    2; 27745; 29806; 14; 27745; 29806; 42;  10; 1; 17477; 21792; 18;  0; 65535; 1; 1;  0; 0; 2; 1; 0;  0; 0;
    2; 27753; 26465; 14; 27753; 26465; 20;  0; 1; 5;  0; 2; 7; 6;  0] in
  exists v l m r, bounded f /\ reads debug_build read_glyph_substitution f 0 v /\
    got_language (directory_scripts v) (Tag "l" "a" "t" "n") None l /\
    language_record_required_feature_index l = 65535 /\ language_record_feature_indices l = [1] /\
    got_language (directory_scripts v) (Tag "l" "a" "t" "n") (Some (Tag "D" "E" "U" " ")) m /\
    language_record_required_feature_index m = 0 /\ language_record_feature_indices m = [1; 0] /\
    features_get (directory_features v) (Tag "l" "i" "g" "a") = Ok (Some r) /\ feature_record_lookup_indices r = [5] /\
    scripts_get (directory_scripts v) (Tag "c" "y" "r" "l") = Ok None /\
    features_get (directory_features v) (Tag "s" "a" "l" "t") = Ok None.
Proof.
  do 4 eexists. split; [apply file_of_bounded; vm_compute; discriminate|]. split; [eexists; vm_compute; reflexivity|].
  split; [eexists; split; reflexivity|]. do 2 (split; [reflexivity|]).
  split; [eexists; split; reflexivity|]. do 2 (split; [reflexivity|]). repeat split; reflexivity.
Qed.
