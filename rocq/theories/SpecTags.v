(** What a named variant and an ISO code are. *)

From Verif Require Export TagsFeature TagsScript TagsLanguage.
From Coq Require Import Ascii String.

(** The named variants: those a program can write without [Other]; [Default] exists
    only with the feature [default-language]. *)
Definition feature_named (v : Feature) : Prop := forall t, v <> FeatureOther t.
Definition script_named (v : Script) : Prop := forall t, v <> ScriptOther t.
Definition language_named (default_language : bool) (v : Language) : Prop :=
  (forall t, v <> LanguageOther t) /\ (v = LanguageDefault -> default_language = true).

Definition lower_case (c : ascii) : Prop := 97 <= N_of_ascii c <= 122.

(** Three lower-case letters. *)
Definition iso_code (s : string) : Prop :=
  exists a b c, s = String a (String b (String c EmptyString)) /\
    lower_case a /\ lower_case b /\ lower_case c.
