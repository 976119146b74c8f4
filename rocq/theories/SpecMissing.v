(** What a build that does not ignore incomplete tables makes of a missing list. *)

From Verif Require Export SpecBuilds.

(** A list with a zero offset is taken to be where the table itself is: its count is the
    major version, which is 1, and its only entry consists of the fields after that. *)
Definition misread_lists {T} (v : Directory T) : Prop :=
  (directory_script_offset v = 0 ->
    exists b r, Byte.to_N b = directory_minor_version v /\
      directory_scripts v =
        mkScripts 1 [mkScriptHeader (Tag x00 b x00 x00) (directory_feature_offset v)] [r]) /\
  (directory_feature_offset v = 0 ->
    exists t r, directory_features v = mkFeatures 1 [mkFeatureHeader t 0] [r] /\
      feature_record_parameter_offset r = 1 /\
      feature_record_lookup_index_count r = directory_minor_version v) /\
  (directory_lookup_offset v = 0 ->
    exists r, directory_lookups v = mkLookups 1 [directory_minor_version v] [r]).

(** The formats of an anchor. *)
Definition anchor_format (a : Anchor) : N :=
  match a with AnchorFormat1 _ => 1 | AnchorFormat2 _ => 2 | AnchorFormat3 _ => 3 end.
