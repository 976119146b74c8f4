(** The parts a table is made of, for property C71. *)

From Verif Require Export SpecErrors SpecGpos SpecGsub SpecGdef SpecCpal SpecFvar SpecFont.

(** A part of a table: something to be read at a position. *)
Inductive part : Type :=
| Part {A : Type} (m : M A) (p : N).

Definition readable (o : options) (f : file) (x : part) : Prop :=
  let '(Part m p) := x in exists v, reads o m f p v.

Definition refused (o : options) (f : file) (e : error) (x : part) : Prop :=
  let '(Part m p) := x in refuses o m f p e.

Definition panicking (o : options) (f : file) (x : part) : Prop :=
  let '(Part m p) := x in panics o m f p.

(** The first part that cannot be read has [P]. *)
Definition first_bad (o : options) (f : file) (P : part -> Prop) (l : list part) : Prop :=
  exists before x after, l = before ++ x :: after /\ Forall (readable o f) before /\ P x.

(** Parts at the given offsets from [p]; at those of them that are not zero; and [n] parts from
    [q] on, [size] bytes apart. *)
Definition each {A} (p : N) (m : M A) (offsets : list N) : list part :=
  map (fun offset => Part m (p + offset)) offsets.

Definition nonzero {A} (p : N) (m : M A) (offsets : list N) : list part :=
  each p m (filter (fun offset => negb (offset =? 0)) offsets).

Definition row {A} (q size n : N) (m : M A) : list part :=
  map (fun i => Part m (q + size * N.of_nat i)) (seq 0 (N.to_nat n)).

(** A part whose offset may be zero in some builds only. *)
Definition unless {A} (missing : bool) (p : N) (m : M A) (offset : N) : list part :=
  if missing then nonzero p m [offset] else each p m [offset].

Definition given (offsets : list (option N)) : list N :=
  flat_map (fun offset => match offset with Some offset => [offset] | None => [] end) offsets.

(** A value record of a pair, which is there unless its format is zero. *)
Definition value_part (base flags p : N) : list part :=
  if flags =? 0 then [] else [Part (read_single base flags) p].

(** [parts o f p m l]: what [m] reads at [p] before any of its parts is intact, and its
    parts are [l], in the order in which they are read. *)
Inductive parts (o : options) (f : file) (p : N) : forall {A : Type}, M A -> list part -> Prop :=
(* Files *)
| PartsFile d t : tag_at f p t -> t <> Tag "t" "t" "c" "f" -> parts o f p (read_file d) [Part (read_font d) p]
| PartsFont d h : offsets_header_at f p h -> truetype_accept d (offsets_header_tag h) = true ->
    parts o f p (read_font d) (row (p + 12) 16 (offsets_header_table_count h) read_offset_record)
(* Lists *)
| PartsContextRecords n l : u16_at f p n -> u16s_at f (p + 2) n l ->
    parts o f p read_context_records (each p read_context_record l)
| PartsContextClassRecords n l : u16_at f p n -> u16s_at f (p + 2) n l ->
    parts o f p read_context_class_records (each p read_context_class_record l)
| PartsChainedRecords n l : u16_at f p n -> u16s_at f (p + 2) n l ->
    parts o f p read_chained_records (each p read_chained_record l)
| PartsChainedClassRecords n l : u16_at f p n -> u16s_at f (p + 2) n l ->
    parts o f p read_chained_class_records (each p read_chained_class_record l)
| PartsLigatures n l : u16_at f p n -> u16s_at f (p + 2) n l ->
    parts o f p read_ligatures (each p read_ligature l)
| PartsGdefLigature n l : u16_at f p n -> u16s_at f (p + 2) n l ->
    parts o f p read_gdef_ligature (each p read_caret l)
| PartsGposLigatures k n l : u16_at f p n -> u16s_at f (p + 2) n l ->
    parts o f p (read_gpos_ligatures k) (each p (read_gpos_ligature k) l)
| PartsMarks n l : u16_at f p 1 -> u16_at f (p + 2) n -> u32s_at f (p + 4) n l ->
    parts o f p read_marks (each p read_coverage l)
| PartsStore r n l : u16_at f p 1 -> u32_at f (p + 2) r -> u16_at f (p + 6) n -> u32s_at f (p + 8) n l ->
    parts o f p read_store (each p read_store_record l)
| PartsAttachments c n l : u16_at f p c -> u16_at f (p + 2) n -> u16s_at f (p + 4) n l ->
    parts o f p read_attachments (Part read_coverage (p + c) :: each p read_attachment l)
| PartsGdefLigatures c n l : u16_at f p c -> u16_at f (p + 2) n -> u16s_at f (p + 4) n l ->
    parts o f p read_gdef_ligatures (Part read_coverage (p + c) :: each p read_gdef_ligature l)
(* Scripts, features and lookups *)
| PartsScriptRecord d n l : u16_at f p d -> u16_at f (p + 2) n -> vec_at (language_header_at f) 6 (p + 4) n l ->
    parts o f p read_script_record
      (nonzero p read_language_record [d] ++ each p read_language_record (map language_header_offset l))
| PartsScripts n l : u16_at f p n -> vec_at (script_header_at f) 6 (p + 2) n l ->
    parts o f p read_scripts (each p read_script_record (map script_header_offset l))
| PartsFeatures n l : u16_at f p n -> vec_at (feature_header_at f) 6 (p + 2) n l ->
    parts o f p read_features (each p read_feature_record (map feature_header_offset l))
| PartsLookupRecord T (read_table : N -> M T) t flags n l :
    u16_at f p t -> flags_at (checked_flags o) 0x00E0 f (p + 2) flags -> u16_at f (p + 4) n ->
    u16s_at f (p + 6) n l ->
    (N.testbit flags 4 = true -> exists set, u16_at f (p + 6 + 2 * n) set) ->
    parts o f p (read_lookup_record read_table) (each p (read_table t) l)
| PartsLookups T (read_table : N -> M T) n l : u16_at f p n -> u16s_at f (p + 2) n l ->
    parts o f p (read_lookups read_table) (each p (read_lookup_record read_table) l)
| PartsDirectory T (read_table : N -> M T) minor s t l v :
    u16_at f p 1 -> u16_at f (p + 2) minor -> u16_at f (p + 4) s -> u16_at f (p + 6) t -> u16_at f (p + 8) l ->
    (minor = 0 /\ v = 0 \/ minor = 1 /\ u32_at f (p + 10) v) ->
    parts o f p (read_directory read_table)
      (unless (ignore_incomplete_directories o) p read_scripts s ++
       unless (ignore_incomplete_directories o) p read_features t ++
       unless (ignore_incomplete_directories o) p (read_lookups read_table) l ++
       nonzero p read_feature_variations [v])
(* Contexts *)
| PartsContext1 c n l : u16_at f p 1 -> u16_at f (p + 2) c -> u16_at f (p + 4) n -> u16s_at f (p + 6) n l ->
    parts o f p read_context (Part read_coverage (p + c) :: each p read_context_records l)
| PartsContext2 c k n l : u16_at f p 2 -> u16_at f (p + 2) c -> u16_at f (p + 4) k -> u16_at f (p + 6) n ->
    u16s_at f (p + 8) n l ->
    parts o f p read_context
      (Part read_coverage (p + c) :: Part read_class (p + k) :: nonzero p read_context_class_records l)
| PartsContext3 n m l actions : u16_at f p 3 -> u16_at f (p + 2) n -> u16_at f (p + 4) m ->
    u16s_at f (p + 6) n l -> vec_at (action_at f) 4 (p + 6 + 2 * n) m actions ->
    parts o f p read_context (each p read_coverage l)
| PartsChainedContext1 c n l :
    u16_at f p 1 -> u16_at f (p + 2) c -> u16_at f (p + 4) n -> u16s_at f (p + 6) n l ->
    parts o f p read_chained_context (Part read_coverage (p + c) :: each p read_chained_records l)
| PartsChainedContext2 c k1 k2 k3 n l : u16_at f p 2 -> u16_at f (p + 2) c ->
    u16_at f (p + 4) k1 -> u16_at f (p + 6) k2 -> u16_at f (p + 8) k3 -> u16_at f (p + 10) n ->
    u16s_at f (p + 12) n l ->
    parts o f p read_chained_context
      (Part read_coverage (p + c) :: each p read_class [k1; k2; k3] ++ nonzero p read_chained_class_records l)
| PartsChainedContext3 n1 l1 n2 l2 n3 l3 m actions : u16_at f p 3 ->
    u16_at f (p + 2) n1 -> u16s_at f (p + 4) n1 l1 ->
    u16_at f (p + 4 + 2 * n1) n2 -> u16s_at f (p + 6 + 2 * n1) n2 l2 ->
    u16_at f (p + 6 + 2 * n1 + 2 * n2) n3 -> u16s_at f (p + 8 + 2 * n1 + 2 * n2) n3 l3 ->
    u16_at f (p + 8 + 2 * n1 + 2 * n2 + 2 * n3) m ->
    vec_at (action_at f) 4 (p + 10 + 2 * n1 + 2 * n2 + 2 * n3) m actions ->
    parts o f p read_chained_context (each p read_coverage (l1 ++ l2 ++ l3))
(* GSUB *)
| PartsGsub1 : parts o f p (read_gsub_type 1) [Part read_single_substitution p]
| PartsGsub2 : parts o f p (read_gsub_type 2) [Part read_multiple_substitution p]
| PartsGsub3 : parts o f p (read_gsub_type 3) [Part read_alternate_substitution p]
| PartsGsub4 : parts o f p (read_gsub_type 4) [Part read_ligature_substitution p]
| PartsGsub5 : parts o f p (read_gsub_type 5) [Part read_context p]
| PartsGsub6 : parts o f p (read_gsub_type 6) [Part read_chained_context p]
| PartsGsub7 : parts o f p (read_gsub_type 7) [Part read_extension_substitution p]
| PartsGsub8 : parts o f p (read_gsub_type 8) [Part read_reverse_chained_contextual_substibution p]
| PartsSingleSubstitution1 c delta : u16_at f p 1 -> u16_at f (p + 2) c -> i16_at f (p + 4) delta ->
    parts o f p read_single_substitution [Part read_coverage (p + c)]
| PartsSingleSubstitution2 c n glyphs :
    u16_at f p 2 -> u16_at f (p + 2) c -> u16_at f (p + 4) n -> u16s_at f (p + 6) n glyphs ->
    parts o f p read_single_substitution [Part read_coverage (p + c)]
| PartsMultipleSubstitution c n l :
    u16_at f p 1 -> u16_at f (p + 2) c -> u16_at f (p + 4) n -> u16s_at f (p + 6) n l ->
    parts o f p read_multiple_substitution (Part read_coverage (p + c) :: each p read_sequence l)
| PartsAlternateSubstitution c n l :
    u16_at f p 1 -> u16_at f (p + 2) c -> u16_at f (p + 4) n -> u16s_at f (p + 6) n l ->
    parts o f p read_alternate_substitution (Part read_coverage (p + c) :: each p read_alternates l)
| PartsLigatureSubstitution c n l :
    u16_at f p 1 -> u16_at f (p + 2) c -> u16_at f (p + 4) n -> u16s_at f (p + 6) n l ->
    parts o f p read_ligature_substitution (Part read_coverage (p + c) :: each p read_ligatures l)
| PartsReverse format c n1 l1 n2 l2 m glyphs : u16_at f p format -> u16_at f (p + 2) c ->
    u16_at f (p + 4) n1 -> u16s_at f (p + 6) n1 l1 ->
    u16_at f (p + 6 + 2 * n1) n2 -> u16s_at f (p + 8 + 2 * n1) n2 l2 ->
    u16_at f (p + 8 + 2 * n1 + 2 * n2) m -> u16s_at f (p + 10 + 2 * n1 + 2 * n2) m glyphs ->
    parts o f p read_reverse_chained_contextual_substibution (each p read_coverage (c :: l1 ++ l2))
(* GPOS *)
| PartsGpos1 : parts o f p (read_gpos_type 1) [Part read_single_adjustment p]
| PartsGpos2 : parts o f p (read_gpos_type 2) [Part read_pair_adjustment p]
| PartsGpos3 : parts o f p (read_gpos_type 3) [Part read_cursive_attachment p]
| PartsGpos4 : parts o f p (read_gpos_type 4) [Part read_mark_to_base_attachment p]
| PartsGpos5 : parts o f p (read_gpos_type 5) [Part read_mark_to_ligature_attachment p]
| PartsGpos6 : parts o f p (read_gpos_type 6) [Part read_mark_to_mark_attachment p]
| PartsGpos7 : parts o f p (read_gpos_type 7) [Part read_context p]
| PartsGpos8 : parts o f p (read_gpos_type 8) [Part read_chained_context p]
| PartsGpos9 : parts o f p (read_gpos_type 9) [Part read_extension_positioning p]
| PartsAnchor1 x y : u16_at f p 1 -> i16_at f (p + 2) x -> i16_at f (p + 4) y ->
    parts o f p read_anchor []
| PartsAnchor2 x y i : u16_at f p 2 -> i16_at f (p + 2) x -> i16_at f (p + 4) y -> u16_at f (p + 6) i ->
    parts o f p read_anchor []
| PartsAnchor3 x y a b : u16_at f p 3 -> i16_at f (p + 2) x -> i16_at f (p + 4) y ->
    u16_at f (p + 6) a -> u16_at f (p + 8) b ->
    parts o f p read_anchor (nonzero p read_correction [a; b])
| PartsBase base k l : base < 2 ^ 63 -> u16s_at f p k l ->
    parts o f p (read_base base k) (nonzero base read_anchor l)
| PartsBases k n : u16_at f p n -> parts o f p (read_bases k) (row (p + 2) (2 * k) n (read_base p k))
| PartsComponent base k l : base < 2 ^ 63 -> u16s_at f p k l ->
    parts o f p (read_component base k) (nonzero base read_anchor l)
| PartsGposLigature k n : u16_at f p n ->
    parts o f p (read_gpos_ligature k) (row (p + 2) (2 * k) n (read_component p k))
| PartsMark1 base c a : base < 2 ^ 63 -> u16_at f p c -> u16_at f (p + 2) a ->
    parts o f p (read_mark1 base) (unless (ignore_incomplete_marks o) base read_anchor a)
| PartsMark1s n : u16_at f p n -> parts o f p read_mark1s (row (p + 2) 4 n (read_mark1 p))
| PartsMark2 base k l : base < 2 ^ 63 -> u16s_at f p k l ->
    parts o f p (read_mark2 base k) (nonzero base read_anchor l)
| PartsMark2s k n : u16_at f p n -> parts o f p (read_mark2s k) (row (p + 2) (2 * k) n (read_mark2 p k))
| PartsConnection base a b : base < 2 ^ 63 -> u16_at f p a -> u16_at f (p + 2) b ->
    parts o f p (read_connection base) (nonzero base read_anchor [a; b])
| PartsSingle base flags x y xa ya a b c d : base < 2 ^ 63 ->
    field_at (i16_at f) flags 0 p x -> field_at (i16_at f) flags 1 p y ->
    field_at (i16_at f) flags 2 p xa -> field_at (i16_at f) flags 3 p ya ->
    field_at (u16_at f) flags 4 p a -> field_at (u16_at f) flags 5 p b ->
    field_at (u16_at f) flags 6 p c -> field_at (u16_at f) flags 7 p d ->
    parts o f p (read_single base flags) (nonzero base read_correction (given [a; b; c; d]))
| PartsPair1 base flags1 flags2 g : base < 2 ^ 63 -> u16_at f p g ->
    parts o f p (read_pair1 base flags1 flags2)
      (value_part base flags1 (p + 2) ++ value_part base flags2 (p + 2 + value_size flags1))
| PartsPair1s flags1 flags2 n : u16_at f p n ->
    parts o f p (read_pair1s flags1 flags2)
      (row (p + 2) (2 + value_size flags1 + value_size flags2) n (read_pair1 p flags1 flags2))
| PartsPair2 base flags1 flags2 : base < 2 ^ 63 ->
    parts o f p (read_pair2 base flags1 flags2)
      (value_part base flags1 p ++ value_part base flags2 (p + value_size flags1))
| PartsPair2s base n flags1 flags2 : base < 2 ^ 63 ->
    parts o f p (read_pair2s base n flags1 flags2)
      (row p (value_size flags1 + value_size flags2) n (read_pair2 base flags1 flags2))
| PartsSingleAdjustment1 c flags :
    u16_at f p 1 -> u16_at f (p + 2) c -> flags_at (checked_flags o) 0xFF00 f (p + 4) flags ->
    parts o f p read_single_adjustment [Part (read_single p flags) (p + 6); Part read_coverage (p + c)]
| PartsSingleAdjustment2 c flags n :
    u16_at f p 2 -> u16_at f (p + 2) c -> flags_at (checked_flags o) 0xFF00 f (p + 4) flags ->
    u16_at f (p + 6) n ->
    parts o f p read_single_adjustment
      (row (p + 8) (value_size flags) n (read_single p flags) ++ [Part read_coverage (p + c)])
| PartsPairAdjustment1 c flags1 flags2 n l : u16_at f p 1 -> u16_at f (p + 2) c ->
    flags_at (checked_flags o) 0xFF00 f (p + 4) flags1 -> flags_at (checked_flags o) 0xFF00 f (p + 6) flags2 ->
    u16_at f (p + 8) n -> u16s_at f (p + 10) n l ->
    parts o f p read_pair_adjustment (Part read_coverage (p + c) :: each p (read_pair1s flags1 flags2) l)
| PartsPairAdjustment2 c flags1 flags2 k1 k2 n1 n2 : u16_at f p 2 -> u16_at f (p + 2) c ->
    flags_at (checked_flags o) 0xFF00 f (p + 4) flags1 -> flags_at (checked_flags o) 0xFF00 f (p + 6) flags2 ->
    u16_at f (p + 8) k1 -> u16_at f (p + 10) k2 -> u16_at f (p + 12) n1 -> u16_at f (p + 14) n2 ->
    parts o f p read_pair_adjustment
      (row (p + 16) ((value_size flags1 + value_size flags2) * n2) n1 (read_pair2s p n2 flags1 flags2) ++
       Part read_coverage (p + c) :: each p read_class [k1; k2])
| PartsCursive c n : u16_at f p 1 -> u16_at f (p + 2) c -> u16_at f (p + 4) n ->
    parts o f p read_cursive_attachment (row (p + 6) 4 n (read_connection p) ++ [Part read_coverage (p + c)])
| PartsMarkToBase c1 c2 k a b : u16_at f p 1 -> u16_at f (p + 2) c1 -> u16_at f (p + 4) c2 ->
    u16_at f (p + 6) k -> u16_at f (p + 8) a -> u16_at f (p + 10) b ->
    parts o f p read_mark_to_base_attachment
      (each p read_coverage [c1; c2] ++ [Part read_mark1s (p + a); Part (read_bases k) (p + b)])
| PartsMarkToLigature c1 c2 k a b : u16_at f p 1 -> u16_at f (p + 2) c1 -> u16_at f (p + 4) c2 ->
    u16_at f (p + 6) k -> u16_at f (p + 8) a -> u16_at f (p + 10) b ->
    parts o f p read_mark_to_ligature_attachment
      (each p read_coverage [c1; c2] ++ [Part read_mark1s (p + a); Part (read_gpos_ligatures k) (p + b)])
| PartsMarkToMark c1 c2 k a b : u16_at f p 1 -> u16_at f (p + 2) c1 -> u16_at f (p + 4) c2 ->
    u16_at f (p + 6) k -> u16_at f (p + 8) a -> u16_at f (p + 10) b ->
    parts o f p read_mark_to_mark_attachment
      (each p read_coverage [c1; c2] ++ [Part read_mark1s (p + a); Part (read_mark2s k) (p + b)])
(* GDEF, CPAL and fvar *)
| PartsCaret1 : u32_at f p 1 -> parts o f p read_caret []
| PartsCaret2 : u32_at f p 2 -> parts o f p read_caret []
| PartsCaret3 a : u32_at f p 3 -> u16_at f (p + 4) a ->
    parts o f p read_caret [Part read_correction (p + a)]
| PartsGdef h a b c d m i : gdef_header_at f p h -> gdef_offsets h = (a, b, c, d, m, i) ->
    parts o f p read_glyph_definition
      (nonzero p read_class [a] ++ nonzero p read_attachments [b] ++ nonzero p read_gdef_ligatures [c] ++
       nonzero p read_class [d] ++ nonzero p read_marks [m] ++ nonzero p read_store [gdef_variation_offset h])
| PartsCpal0 h : cpal_header_at f p (CpalVersion0 h) ->
    parts o f p read_color_palettes
      (row (p + cpal_header0_color_offset h) 4 (cpal_header0_color_count h) read_color)
| PartsCpal1 h : cpal_header_at f p (CpalVersion1 h) ->
    parts o f p read_color_palettes
      (row (p + cpal_header1_color_offset h) 4 (cpal_header1_color_count h) read_color)
| PartsFvar h : fvar_header_at f p h ->
    parts o f p read_font_variations
      (row (p + fvar_header_axis_offset h) (fvar_header_axis_size h) (fvar_header_axis_count h)
         read_axis_record ++
       row (p + fvar_header_axis_offset h + fvar_header_axis_count h * fvar_header_axis_size h)
         (fvar_header_instance_size h) (fvar_header_instance_count h)
         (read_instance_record (fvar_header_axis_count h)))
(* Formats that are read by themselves, whatever their number is *)
| PartsOnlyContext1 format c n l :
    u16_at f p format -> u16_at f (p + 2) c -> u16_at f (p + 4) n -> u16s_at f (p + 6) n l ->
    parts o f p read_context1 (Part read_coverage (p + c) :: each p read_context_records l)
| PartsOnlyContext2 format c k n l : u16_at f p format -> u16_at f (p + 2) c -> u16_at f (p + 4) k ->
    u16_at f (p + 6) n -> u16s_at f (p + 8) n l ->
    parts o f p read_context2
      (Part read_coverage (p + c) :: Part read_class (p + k) :: nonzero p read_context_class_records l)
| PartsOnlyContext3 format n m l actions : u16_at f p format -> u16_at f (p + 2) n -> u16_at f (p + 4) m ->
    u16s_at f (p + 6) n l -> vec_at (action_at f) 4 (p + 6 + 2 * n) m actions ->
    parts o f p read_context3 (each p read_coverage l)
| PartsOnlyChainedContext1 format c n l :
    u16_at f p format -> u16_at f (p + 2) c -> u16_at f (p + 4) n -> u16s_at f (p + 6) n l ->
    parts o f p read_chained_context1 (Part read_coverage (p + c) :: each p read_chained_records l)
| PartsOnlyChainedContext2 format c k1 k2 k3 n l : u16_at f p format -> u16_at f (p + 2) c ->
    u16_at f (p + 4) k1 -> u16_at f (p + 6) k2 -> u16_at f (p + 8) k3 -> u16_at f (p + 10) n ->
    u16s_at f (p + 12) n l ->
    parts o f p read_chained_context2
      (Part read_coverage (p + c) :: each p read_class [k1; k2; k3] ++ nonzero p read_chained_class_records l)
| PartsOnlyChainedContext3 format n1 l1 n2 l2 n3 l3 m actions : u16_at f p format ->
    u16_at f (p + 2) n1 -> u16s_at f (p + 4) n1 l1 ->
    u16_at f (p + 4 + 2 * n1) n2 -> u16s_at f (p + 6 + 2 * n1) n2 l2 ->
    u16_at f (p + 6 + 2 * n1 + 2 * n2) n3 -> u16s_at f (p + 8 + 2 * n1 + 2 * n2) n3 l3 ->
    u16_at f (p + 8 + 2 * n1 + 2 * n2 + 2 * n3) m ->
    vec_at (action_at f) 4 (p + 10 + 2 * n1 + 2 * n2 + 2 * n3) m actions ->
    parts o f p read_chained_context3 (each p read_coverage (l1 ++ l2 ++ l3))
| PartsOnlySingleSubstitution1 format c delta :
    u16_at f p format -> u16_at f (p + 2) c -> i16_at f (p + 4) delta ->
    parts o f p read_single_substitution1 [Part read_coverage (p + c)]
| PartsOnlySingleSubstitution2 format c n glyphs :
    u16_at f p format -> u16_at f (p + 2) c -> u16_at f (p + 4) n -> u16s_at f (p + 6) n glyphs ->
    parts o f p read_single_substitution2 [Part read_coverage (p + c)]
| PartsOnlyAnchor3 format x y a b : u16_at f p format -> i16_at f (p + 2) x -> i16_at f (p + 4) y ->
    u16_at f (p + 6) a -> u16_at f (p + 8) b ->
    parts o f p read_anchor3 (nonzero p read_correction [a; b])
| PartsOnlySingleAdjustment1 format c flags :
    u16_at f p format -> u16_at f (p + 2) c -> flags_at (checked_flags o) 0xFF00 f (p + 4) flags ->
    parts o f p read_single_adjustment1 [Part (read_single p flags) (p + 6); Part read_coverage (p + c)]
| PartsOnlySingleAdjustment2 format c flags n :
    u16_at f p format -> u16_at f (p + 2) c -> flags_at (checked_flags o) 0xFF00 f (p + 4) flags ->
    u16_at f (p + 6) n ->
    parts o f p read_single_adjustment2
      (row (p + 8) (value_size flags) n (read_single p flags) ++ [Part read_coverage (p + c)])
| PartsOnlyPairAdjustment1 format c flags1 flags2 n l : u16_at f p format -> u16_at f (p + 2) c ->
    flags_at (checked_flags o) 0xFF00 f (p + 4) flags1 -> flags_at (checked_flags o) 0xFF00 f (p + 6) flags2 ->
    u16_at f (p + 8) n -> u16s_at f (p + 10) n l ->
    parts o f p read_pair_adjustment1 (Part read_coverage (p + c) :: each p (read_pair1s flags1 flags2) l)
| PartsOnlyPairAdjustment2 format c flags1 flags2 k1 k2 n1 n2 : u16_at f p format -> u16_at f (p + 2) c ->
    flags_at (checked_flags o) 0xFF00 f (p + 4) flags1 -> flags_at (checked_flags o) 0xFF00 f (p + 6) flags2 ->
    u16_at f (p + 8) k1 -> u16_at f (p + 10) k2 -> u16_at f (p + 12) n1 -> u16_at f (p + 14) n2 ->
    parts o f p read_pair_adjustment2
      (row (p + 16) ((value_size flags1 + value_size flags2) * n2) n1 (read_pair2s p n2 flags1 flags2) ++
       Part read_coverage (p + c) :: each p read_class [k1; k2])
| PartsOnlyCaret3 format x a : u16_at f p format -> i16_at f (p + 2) x -> u16_at f (p + 4) a ->
    parts o f p read_caret3 [Part read_correction (p + a)].

(** [blamed o f x y]: going down from [x], each time to the first part that cannot be read,
    one gets to [y]. *)
Inductive blamed (o : options) (f : file) : part -> part -> Prop :=
| BlamedHere x : blamed o f x x
| BlamedBelow A (m : M A) p before x after y :
    parts o f p m (before ++ x :: after) -> Forall (readable o f) before -> blamed o f x y ->
    blamed o f (Part m p) y.

(** What has no parts but only fields. *)
Inductive simple : part -> Prop :=
| SimpleCoverage p : simple (Part read_coverage p)
| SimpleClass p : simple (Part read_class p)
| SimpleCorrection p : simple (Part read_correction p)
| SimpleContextRecord p : simple (Part read_context_record p)
| SimpleContextClassRecord p : simple (Part read_context_class_record p)
| SimpleChainedRecord p : simple (Part read_chained_record p)
| SimpleChainedClassRecord p : simple (Part read_chained_class_record p)
| SimpleLanguageRecord p : simple (Part read_language_record p)
| SimpleFeatureRecord p : simple (Part read_feature_record p)
| SimpleFeatureVariations p : simple (Part read_feature_variations p)
| SimpleStoreRecord p : simple (Part read_store_record p)
| SimpleSequence p : simple (Part read_sequence p)
| SimpleAlternates p : simple (Part read_alternates p)
| SimpleLigature p : simple (Part read_ligature p)
| SimpleExtensionSubstitution p : simple (Part read_extension_substitution p)
| SimpleExtensionPositioning p : simple (Part read_extension_positioning p)
| SimpleAttachment p : simple (Part read_attachment p)
| SimpleColor p : simple (Part read_color p)
| SimpleAxisRecord p : simple (Part read_axis_record p)
| SimpleInstanceRecord n p : simple (Part (read_instance_record n) p)
| SimpleOffsetRecord p : simple (Part read_offset_record p).

(** [taken_apart o f x]: parts of parts, down to those that have only fields. *)
Inductive taken_apart (o : options) (f : file) : part -> Prop :=
| TakenSimple x : simple x -> taken_apart o f x
| TakenApart A (m : M A) p l : parts o f p m l -> Forall (taken_apart o f) l -> taken_apart o f (Part m p).

(** The tables of the crate and the table directory. *)
Inductive whole (d : deps) : forall {A : Type}, M A -> Prop :=
| WholeGsub : whole d read_glyph_substitution
| WholeGpos : whole d read_glyph_positioning
| WholeGdef : whole d read_glyph_definition
| WholeCpal : whole d read_color_palettes
| WholeFvar : whole d read_font_variations
| WholeFile : whole d (read_file d).
