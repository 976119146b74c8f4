(** Property C88: fonts that do not begin where the tape does. *)

From Verif Require Import ProofEmbed Samples.

(** C88: a font behind other bytes would give the tables it gives by itself.  It does not. *)
Theorem C88_same_tables_refuted :
  ~ forall A d o t (r : request A) k f g p v,
    bounded f -> embedded k f g -> reads o (open_take d t (reader r)) g p (Some v) ->
    reads o (open_take d t (reader r)) f (k + p) (Some v).
Proof. exact behind_refuted. Qed.
Print Assumptions C88_same_tables_refuted.

(** C88: the directory is read where the font is, and the tables where they are listed from the beginning
    of the tape; with any reader. *)
Theorem C88_exactly {A} d o t (m : M A) k f g p w :
  embedded k f g ->
  (reads o (open_take d t m) f (k + p) w <->
   exists n, font_in (truetype_accept d) g p n /\
   match w with
   | Some v => exists s, lists g p n (table_tag t) s /\
       (ignore_invalid_checksums o = true \/ record_checksum d f s = Ok (offset_record_checksum s)) /\
       reads o m f (offset_record_offset s) v
   | None => lacks g p n (table_tag t)
   end).
Proof. exact (embedded_opens d o t m k f g p w). Qed.
Print Assumptions C88_exactly.

(** C88: so a table is looked for as many bytes too early as there are in front. *)
Theorem C88_early {A} d o t (r : request A) k f g p n s v :
  bounded f -> embedded k f g -> font_in (truetype_accept d) g p n -> lists g p n (table_tag t) s ->
  ignore_invalid_checksums o = true \/ record_checksum d f s = Ok (offset_record_checksum s) ->
  k <= offset_record_offset s ->
  (reads o (open_take d t (reader r)) f (k + p) (Some v) <->
   reads o (reader r) g (offset_record_offset s - k) v).
Proof. exact (embedded_early d o t r k f g p n s v). Qed.
Print Assumptions C88_early.

(** C88: if the number of bytes in front was added to the offsets of the directory, then every table that
    lies outside of the directory is read as before. *)
Theorem C88_adjusted {A} d o t (r : request A) k f g p n s v :
  bounded f -> font_in (truetype_accept d) g p n -> adjusted k f g p n -> lists g p n (table_tag t) s ->
  ignore_invalid_checksums o = true \/
    record_checksum d f (moved_record k s) = Ok (offset_record_checksum s) ->
  conforms o r (outside g p n) (offset_record_offset s) v ->
  reads o (open_take d t (reader r)) f (k + p) (Some v) /\
  (ignore_invalid_checksums o = true \/ record_checksum d g s = Ok (offset_record_checksum s) ->
   bounded g -> reads o (open_take d t (reader r)) g p (Some v)).
Proof. exact (adjusted_opens d o t r k f g p n s v). Qed.
Print Assumptions C88_adjusted.

(** C88: and a table that is not listed is not found. *)
Theorem C88_adjusted_absent {A} d o t (r : request A) k f g p n :
  font_in (truetype_accept d) g p n -> adjusted k f g p n -> lacks g p n (table_tag t) ->
  reads o (open_take d t (reader r)) f (k + p) None.
Proof. exact (adjusted_absent d o t r k f g p n). Qed.
Print Assumptions C88_adjusted_absent.

(** C88: offsets in a collection are from its beginning, so that the fonts of one can be read where its
    header says they are, while the collection itself is refused. *)
Theorem C88_collection {A} d o t (r : request A) f positions p n s v :
  bounded f -> collection_at f positions -> In p positions ->
  font_in (truetype_accept d) f p n -> lists f p n (table_tag t) s ->
  ignore_invalid_checksums o = true \/ record_checksum d f s = Ok (offset_record_checksum s) ->
  conforms o r f (offset_record_offset s) v ->
  fails o (open_take d t (reader r)) f 0 /\ reads o (open_take d t (reader r)) f p (Some v).
Proof. exact (collection_opens d o t r f positions p n s v). Qed.
Print Assumptions C88_collection.

(** C88: to get there, a caller reads the position in the header. *)
Theorem C88_member {A} o f positions i p (m : M A) q :
  collection_at f positions -> nth_error positions i = Some p ->
  member i m (mkEnv f o) q = m (mkEnv f o) p.
Proof. exact (collection_member o f positions i p m q). Qed.
Print Assumptions C88_member.

(** C88: adjusting the directory leaves the checksums of OpenType as they were. *)
Theorem C88_checksum k f g p n s :
  adjusted k f g p n -> apart p n s -> word_checksum f (moved_record k s) = word_checksum g s.
Proof. exact (adjusted_checksum k f g p n s). Qed.
Print Assumptions C88_checksum.

(** C88: fonts that list a table at the same offset share it. *)
Theorem C88_shared {A} d o t u (m : M A) f p q n l r s v w :
  font_in (truetype_accept d) f p n -> font_in (truetype_accept d) f q l ->
  lists f p n (table_tag t) r -> lists f q l (table_tag u) s ->
  offset_record_offset r = offset_record_offset s ->
  reads o (open_take d t m) f p (Some v) -> reads o (open_take d u m) f q (Some w) -> v = w.
Proof. exact (opens_shared d o t u m f p q n l r s v w). Qed.
Print Assumptions C88_shared.

(** A font with two lots of palettes, which lists the second: behind 26 bytes the first is read instead,
    and its checksum is the same. *)
Example C88_example :
  bounded (file_of behind_font) /\ embedded 26 (file_of behind_font) (file_of lone_font) /\
  reads debug_build (open_take sample_deps TableColorPalettes (reader RequestCpal)) (file_of lone_font) 0
    (Some exchanged_colors) /\
  reads debug_build (open_take sample_deps TableColorPalettes (reader RequestCpal)) (file_of behind_font) 26
    (Some sample_colors).
Proof. exact behind_differs. Qed.

Example C88_example_early :
  record_checksum sample_deps (file_of behind_font) (lone_record 54) = Ok 352259106 /\
  26 <= offset_record_offset (lone_record 54) /\
  reads debug_build (reader RequestCpal) (file_of lone_font) (54 - 26) sample_colors.
Proof. split; [vm_compute; reflexivity|]. split; [vm_compute; discriminate|]. eexists. vm_compute. reflexivity. Qed.

(** The same with the directory adjusted. *)
Example C88_example_adjusted :
  bounded (file_of behind_adjusted) /\
  adjusted 26 (file_of behind_adjusted) (file_of lone_font) 0 1 /\
  font_in (truetype_accept sample_deps) (file_of lone_font) 0 1 /\
  lists (file_of lone_font) 0 1 (Tag "C" "P" "A" "L") (lone_record 54) /\
  record_checksum sample_deps (file_of behind_adjusted) (moved_record 26 (lone_record 54)) = Ok 352259106 /\
  conforms debug_build RequestCpal (outside (file_of lone_font) 0 1) 54 exchanged_colors.
Proof. exact lone_adjusted. Qed.

Example C88_example_adjusted_reads :
  reads debug_build (open_take sample_deps TableColorPalettes (reader RequestCpal)) (file_of behind_adjusted) 26
    (Some exchanged_colors) /\
  reads debug_build (open_take sample_deps TableFontVariations (reader RequestFvar)) (file_of behind_adjusted) 26
    None.
Proof. split; eexists; vm_compute; reflexivity. Qed.

(** A collection of two fonts, which share a table. *)
Example C88_example_collection :
  bounded (file_of pair_collection) /\ collection_at (file_of pair_collection) [20; 48] /\
  (forall p, In p [20; 48] ->
    font_in (truetype_accept sample_deps) (file_of pair_collection) p 1 /\
    lists (file_of pair_collection) p 1 (Tag "C" "P" "A" "L") (lone_record 76)) /\
  record_checksum sample_deps (file_of pair_collection) (lone_record 76) = Ok 352259106 /\
  conforms debug_build RequestCpal (file_of pair_collection) 76 sample_colors.
Proof. exact pair_shared. Qed.

Example C88_example_member :
  apart 0 1 (lone_record 54) /\ apart 5 2 (lone_record 49) /\ ~ apart 5 2 (lone_record 48) /\
  reads debug_build (member 1 (open_take sample_deps TableColorPalettes (reader RequestCpal)))
    (file_of pair_collection) 0 (Some sample_colors).
Proof.
  do 2 (split; [right; vm_compute; discriminate|]). split; [intros [H|H]; vm_compute in H; apply H; reflexivity|].
  eexists. vm_compute. reflexivity.
Qed.
