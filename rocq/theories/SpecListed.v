(** The features that a language lists. *)

From Verif Require Export SpecKerning.

(** The features that a language of a script, or its default one, lists, beside the one it requires. *)
Definition offers {T} (v : Directory T) (script : tag) (language : option tag) (feature : tag) : Prop :=
  exists i h s l x g,
    entry (scripts_headers (directory_scripts v)) i = Some h /\ script_header_tag h = script /\
    entry (scripts_records (directory_scripts v)) i = Some s /\
    match language with
    | None => script_record_default_language s = Some l
    | Some t => exists i h, entry (script_record_language_headers s) i = Some h /\ language_header_tag h = t /\
        entry (script_record_language_records s) i = Some l
    end /\
    In x (language_record_feature_indices l) /\
    entry (features_headers (directory_features v)) x = Some g /\ feature_header_tag g = feature.

(** A table has a script. *)
Definition has_script {T} (v : Directory T) (script : tag) : Prop :=
  exists h, In h (scripts_headers (directory_scripts v)) /\ script_header_tag h = script.
