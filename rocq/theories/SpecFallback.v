(** What the getter of languages returns for a script that was read. *)

From Verif Require Export ModelLayout.

(** Nothing exactly if no header has the tag, one of the records of the languages otherwise; the default
    language is not among these unless a header leads to an equal one. *)
Definition language_found (script : ScriptRecord) : Prop :=
  forall t,
    (script_record_get script t = Ok None <->
      forall h, In h (script_record_language_headers script) -> language_header_tag h <> t) /\
    (forall r, script_record_get script t = Ok (Some r) -> In r (script_record_language_records script)) /\
    script_record_get script t <> Panic.
