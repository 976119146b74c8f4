(** Which error a read reports. *)

From Verif Require Export Requests.

(** The read returns this error. *)
Definition refuses {A} (o : options) (m : M A) (f : file) (p : N) (x : error) : Prop :=
  m (mkEnv f o) p = Err x.

(** The errors a read can report. *)
Definition possible_errors {A} (r : request A) : list error :=
  match r with
  | RequestFile _ => [UnexpectedEnd; Unsupported]
  | RequestFont _ => [UnexpectedEnd; Unsupported]
  | RequestGdef => [UnexpectedEnd; UnexpectedValue; UnknownFormat; Malformed]
  | RequestGpos =>
      [UnexpectedEnd; UnexpectedValue; InvalidFlags; UnknownFormat; UnknownVersion; UnknownType; Malformed]
  | RequestGsub =>
      [UnexpectedEnd; UnexpectedValue; InvalidFlags; UnknownFormat; UnknownVersion; UnknownType; Malformed]
  | RequestCpal => [UnexpectedEnd; UnknownVersion]
  | RequestFvar => [UnexpectedEnd; UnexpectedValue; InvalidFlags]
  end.

(** A format number, at [p], other than the ones listed. *)
Definition other_format (f : file) (p : N) (known : list N) : Prop :=
  exists n, u16_at f p n /\ ~ In n known.

(** The version of a layout table, two numbers at [p], is neither 1.0 nor 1.1. *)
Definition other_version (f : file) (p : N) : Prop :=
  exists major minor, u16_at f p major /\ u16_at f (p + 2) minor /\
    ~ (major = 1 /\ (minor = 0 \/ minor = 1)).

(** A directory starts with a tag, and it is not one of those that are read. *)
Definition other_tag (d : deps) (f : file) (p : N) : Prop :=
  exists t, tag_at f p t /\ truetype_accept d t = false.
