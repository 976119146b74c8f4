(** C87: what is wrong with a file from which a table cannot be taken. *)

From Verif Require Import ProofFaultsOpen.

(** C87.  The directory of the file is at fault, the checksum of the table cannot be computed or is
    another one, or the table is at fault. *)
Theorem C87_open {A} d o t (m : M A) f p x : bounded f -> whole d m ->
  refuses o (open_take d t m) f p x <->
  (exists B (n : M B) q, blamed o f (Part (read_file d) p) (Part n q) /\ fault o f q n x) \/
  exists n s, font_in (truetype_accept d) f p n /\ lists f p n (table_tag t) s /\
    (ignore_invalid_checksums o = false /\
     (record_checksum d f s = Err x \/
      exists c, record_checksum d f s = Ok c /\ c <> offset_record_checksum s /\ x = Malformed) \/
     (ignore_invalid_checksums o = true \/ record_checksum d f s = Ok (offset_record_checksum s)) /\
     exists B (n : M B) q, blamed o f (Part m (offset_record_offset s)) (Part n q) /\ fault o f q n x).
Proof. exact (open_refused d o t f p m x). Qed.
Print Assumptions C87_open.

(** A panic comes from computing the checksum or from the table. *)
Theorem C87_open_panic {A} d o t (m : M A) f p : bounded f -> whole d m ->
  panics o (open_take d t m) f p <->
  exists n s, font_in (truetype_accept d) f p n /\ lists f p n (table_tag t) s /\
    (ignore_invalid_checksums o = false /\ record_checksum d f s = Panic \/
     (ignore_invalid_checksums o = true \/ record_checksum d f s = Ok (offset_record_checksum s)) /\
     overflow_checks o = true /\
     exists q, blamed o f (Part m (offset_record_offset s)) (Part read_store_record q) /\
       store_record_overflows f q).
Proof. exact (open_panicking d o t f p m). Qed.
Print Assumptions C87_open_panic.

(** For any reader at all, in terms of what it does by itself. *)
Theorem C87_open_any {A} d o t (m : M A) f p x :
  refuses o (open_take d t m) f p x <->
  refuses o (read_file d) f p x \/
  exists n s, font_in (truetype_accept d) f p n /\ lists f p n (table_tag t) s /\
    (ignore_invalid_checksums o = false /\
     (record_checksum d f s = Err x \/
      exists c, record_checksum d f s = Ok c /\ c <> offset_record_checksum s /\ x = Malformed) \/
     (ignore_invalid_checksums o = true \/ record_checksum d f s = Ok (offset_record_checksum s)) /\
     refuses o m f (offset_record_offset s) x).
Proof. exact (open_refuses d o t f p m x). Qed.
Print Assumptions C87_open_any.

(** A table with another checksum, and one whose colors are after the end of the file. *)
Example C87_open_example :
  (let s := mkOffsetRecord (Tag "G" "S" "U" "B") 7 86 10 in
   font_in (truetype_accept sample_deps) sample_file 0 3 /\
   lists sample_file 0 3 (Tag "G" "S" "U" "B") s /\
   record_checksum sample_deps sample_file s = Ok 65536) /\
  (let s := mkOffsetRecord (Tag "C" "P" "A" "L") 352259106 60 26 in
   font_in (truetype_accept sample_deps) cut_file 0 3 /\
   lists cut_file 0 3 (Tag "C" "P" "A" "L") s /\ ignore_invalid_checksums careless_build = true /\
   blamed careless_build cut_file (Part read_color_palettes 60) (Part read_color 78) /\
   fault careless_build cut_file 78 read_color UnexpectedEnd).
Proof. exact sample_faults. Qed.
