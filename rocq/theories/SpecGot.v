(** What the getters give, once in terms of the bytes; see SpecMeaning.v. *)

From Verif Require Export SpecMeaning ModelLayout.

(** Of the [n] records from [q] on, the first one with a tag has an offset that leads from [p] to [r]. *)
Definition first_at (f : file) (p n q : N) (t : tag) (r : N) : Prop :=
  exists i, tagged_at f p n q t i r /\ forall j, j < i -> ~ tag_at f (q + 6 * j) t.

(** The same of the list whose offset is at [at_] of a table at [p]: the first script or feature with a tag is at [r]. *)
Definition got_at (o : options) (f : file) (p at_ : N) (t : tag) (r : N) : Prop :=
  exists list n, list_found_at o f p at_ list /\ u16_at f list n /\ first_at f list n (list + 2) t r.

(** The default language of a script or the first one with a tag is at [l]. *)
Definition language_got_at (o : options) (f : file) (p : N) (script : tag) (language : option tag) (l : N) : Prop :=
  exists s, got_at o f p (p + 4) script s /\
  match language with
  | None => exists link, u16_at f s link /\ link <> 0 /\ l = s + link
  | Some t => exists n, u16_at f (s + 2) n /\ first_at f s n (s + 4) t l
  end.

(** The numbers of the features of the language at [l]: the required one and the others. *)
Definition features_called_at (f : file) (l required : N) (xs : list N) : Prop :=
  u16_at f (l + 2) required /\ exists n, u16_at f (l + 4) n /\ u16s_at f (l + 6) n xs.

(** The numbers of the lookups of the feature at [r]. *)
Definition lookups_called_at (f : file) (r : N) (ks : list N) : Prop :=
  exists n, u16_at f (r + 2) n /\ u16s_at f (r + 4) n ks.

(** What a caller gets: the script, and from it the language. *)
Definition got_language (v : Scripts) (script : tag) (language : option tag) (l : LanguageRecord) : Prop :=
  exists s, scripts_get v script = Ok (Some s) /\
  match language with
  | None => script_record_default_language s = Some l
  | Some t => script_record_get s t = Ok (Some l)
  end.
