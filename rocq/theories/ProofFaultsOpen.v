(** Opening a file and taking a table is refused exactly if the directory is, the checksum is, or
    the table is. *)

From Verif Require Export ModelOpen SpecOpen.
From Verif Require Import Reads ProofOpen.
From Verif Require Export ProofTraced Samples.

Section Open.
Context (d : deps) (o : options) (t : table) (f : file) (p : N).

Lemma checked_refused s x :
  checksum_test d (mkEnv f o) s = Err x <-> ignore_invalid_checksums o = false /\
    (record_checksum d f s = Err x \/
     exists c, record_checksum d f s = Ok c /\ c <> offset_record_checksum s /\ x = Malformed).
Proof.
  unfold checksum_test. cbn [opts content]. destruct (ignore_invalid_checksums o).
  { split; [discriminate|]. intros [[=] _]. }
  destruct (record_checksum d f s) as [c|y|].
  - destruct (N.eqb_spec (offset_record_checksum s) c) as [E|H].
    + split; [discriminate|]. intros [_ [[=]|(c' & [= <-] & H & _)]]. congruence.
    + split.
      * intros [= <-]. split; [reflexivity|]. right. exists c. repeat split. congruence.
      * intros [_ [[=]|(c' & _ & _ & ->)]]. reflexivity.
  - split.
    + intros [= ->]. auto.
    + intros [_ [[= ->]|(c' & [=] & _)]]. reflexivity.
  - split; [discriminate|]. intros [_ [[=]|(c' & [=] & _)]].
Qed.

Lemma checked_panics s :
  checksum_test d (mkEnv f o) s = Panic <->
  ignore_invalid_checksums o = false /\ record_checksum d f s = Panic.
Proof.
  unfold checksum_test. cbn [opts content]. destruct (ignore_invalid_checksums o).
  { split; [discriminate|]. intros [[=] _]. }
  destruct (record_checksum d f s) as [c|y|].
  - split; [|intros [_ [=]]]. destruct (offset_record_checksum s =? c); discriminate.
  - split; [discriminate|intros [_ [=]]].
  - split; auto.
Qed.

(** What opening comes to. *)
Inductive open_outcome {A} (m : M A) : res (option A * N) -> Prop :=
| OpenUnread x : (forall n, ~ font_in (truetype_accept d) f p n) ->
    read_file d (mkEnv f o) p = Err x -> open_outcome m (Err x)
| OpenLacks n q : (forall x, ~ refuses o (read_file d) f p x) ->
    font_in (truetype_accept d) f p n -> lacks f p n (table_tag t) -> open_outcome m (Ok (None, q))
| OpenLists n s : (forall x, ~ refuses o (read_file d) f p x) ->
    font_in (truetype_accept d) f p n -> lists f p n (table_tag t) s ->
    open_outcome m (match checksum_test d (mkEnv f o) s with
                    | Ok _ => res_map (fun '(v, q) => (Some v, q)) (m (mkEnv f o) (offset_record_offset s))
                    | Err x => Err x
                    | Panic => Panic
                    end).

Lemma open_cases {A} (m : M A) : open_outcome m (open_take d t m (mkEnv f o) p).
Proof.
  destruct (file_or_error d o f p) as [(offsets & q & E & Ho & Hin)|[[x E] Hin]].
  - assert (Hr : forall x, ~ refuses o (read_file d) f p x) by (unfold refuses; intros x; congruence).
    assert (Eo : open_take d t m (mkEnv f o) p = font_take d (mkFont offsets) t m (mkEnv f o) q).
    { unfold open_take, bind. rewrite E. reflexivity. }
    rewrite Eo. destruct (first_record_cases (offsets_records offsets) (table_tag t)) as [[s Hs]|Hn].
    + rewrite (take_present d (mkFont offsets) t s m (mkEnv f o) q Hs).
      apply (directory_lists f p offsets (table_tag t) s Ho) in Hs as Hl.
      match goal with |- open_outcome _ ?r => replace r with
        (match checksum_test d (mkEnv f o) s with
         | Ok _ => res_map (fun '(v, q) => (Some v, q)) (m (mkEnv f o) (offset_record_offset s))
         | Err x => Err x
         | Panic => Panic
         end) end.
      * eapply OpenLists; eassumption.
      * destruct (checksum_test d (mkEnv f o) s) as [[]| |]; try reflexivity.
        destruct (m (mkEnv f o) (offset_record_offset s)) as [[]| |]; reflexivity.
    + rewrite (take_absent d (mkFont offsets) t m (mkEnv f o) q Hn).
      eapply OpenLacks; [exact Hr|exact Hin|]. apply directory_lacks; assumption.
  - unfold open_take, bind. rewrite E. apply OpenUnread; assumption.
Qed.

Lemma lists_unique n s r : lists f p n (table_tag t) s -> lists f p n (table_tag t) r -> s = r.
Proof.
  intros (i & Hi & Hs & Ts & Bs) (j & Hj & Hr & Tr & Br).
  assert (i = j) as <-.
  { destruct (N.lt_trichotomy i j) as [H|[H|H]]; [exfalso|exact H|exfalso].
    - apply (Br i H). rewrite <- Ts. apply Hs.
    - apply (Bs j H). rewrite <- Tr. apply Hr. }
  exact (listed_unique f p i s r Hs Hr).
Qed.

Lemma open_refuses {A} (m : M A) x :
  refuses o (open_take d t m) f p x <->
  refuses o (read_file d) f p x \/
  exists n s, font_in (truetype_accept d) f p n /\ lists f p n (table_tag t) s /\
    (ignore_invalid_checksums o = false /\
     (record_checksum d f s = Err x \/
      exists c, record_checksum d f s = Ok c /\ c <> offset_record_checksum s /\ x = Malformed) \/
     (ignore_invalid_checksums o = true \/ record_checksum d f s = Ok (offset_record_checksum s)) /\
     refuses o m f (offset_record_offset s) x).
Proof.
  unfold refuses at 1. destruct (open_cases m) as [y Hn E|n q Hr Hn Hl|n s Hr Hn Hl].
  - split.
    + intros [= ->]. left. exact E.
    + intros [H|(n & s & H & _)]; [|destruct (Hn n H)]. unfold refuses in H. congruence.
  - split; [discriminate|]. intros [H|(n' & s & Hn' & Hs & _)]; [destruct (Hr x H)|].
    rewrite (font_in_unique d f p n' n Hn' Hn) in Hs. destruct Hs as (i & Hi & Hs & Ht & _).
    destruct (Hl i Hi). rewrite <- Ht. apply Hs.
  - pose proof (checked d o f s) as Hc. pose proof (checked_refused s) as Hx. split.
    + intros H. right. exists n, s. split; [exact Hn|]. split; [exact Hl|].
      destruct (checksum_test d (mkEnv f o) s) as [[]|y|].
      * right. split; [apply Hc; reflexivity|]. unfold refuses.
        destruct (m (mkEnv f o) (offset_record_offset s)) as [[]| |]; cbn in H; congruence.
      * left. apply Hx. congruence.
      * discriminate.
    + intros [H|(n' & r & Hn' & Hs & H)]; [destruct (Hr x H)|].
      rewrite (font_in_unique d f p n' n Hn' Hn) in Hs. rewrite (lists_unique n r s Hs Hl) in H.
      destruct H as [H|[H Hm]].
      * apply Hx in H. rewrite H. reflexivity.
      * apply Hc in H. rewrite H, Hm. reflexivity.
Qed.

Lemma open_panics {A} (m : M A) :
  panics o (open_take d t m) f p <->
  exists n s, font_in (truetype_accept d) f p n /\ lists f p n (table_tag t) s /\
    (ignore_invalid_checksums o = false /\ record_checksum d f s = Panic \/
     (ignore_invalid_checksums o = true \/ record_checksum d f s = Ok (offset_record_checksum s)) /\
     panics o m f (offset_record_offset s)).
Proof.
  unfold panics at 1. destruct (open_cases m) as [y Hn E|n q Hr Hn Hl|n s Hr Hn Hl].
  - split; [discriminate|]. intros (n & s & H & _). destruct (Hn n H).
  - split; [discriminate|]. intros (n' & s & Hn' & Hs & _).
    rewrite (font_in_unique d f p n' n Hn' Hn) in Hs. destruct Hs as (i & Hi & Hs & Ht & _).
    destruct (Hl i Hi). rewrite <- Ht. apply Hs.
  - pose proof (checked d o f s) as Hc. pose proof (checked_panics s) as Hx. split.
    + intros H. exists n, s. split; [exact Hn|]. split; [exact Hl|].
      destruct (checksum_test d (mkEnv f o) s) as [[]|y|].
      * right. split; [apply Hc; reflexivity|]. unfold panics.
        destruct (m (mkEnv f o) (offset_record_offset s)) as [[]| |]; cbn in H; congruence.
      * discriminate.
      * left. apply Hx. congruence.
    + intros (n' & r & Hn' & Hs & H).
      rewrite (font_in_unique d f p n' n Hn' Hn) in Hs. rewrite (lists_unique n r s Hs Hl) in H.
      destruct H as [H|[H Hm]].
      * apply Hx in H. rewrite H. reflexivity.
      * apply Hc in H. rewrite H, Hm. reflexivity.
Qed.

Lemma open_refused {A} (m : M A) x : bounded f -> whole d m ->
  refuses o (open_take d t m) f p x <->
  (exists B (n : M B) q, blamed o f (Part (read_file d) p) (Part n q) /\ fault o f q n x) \/
  exists n s, font_in (truetype_accept d) f p n /\ lists f p n (table_tag t) s /\
    (ignore_invalid_checksums o = false /\
     (record_checksum d f s = Err x \/
      exists c, record_checksum d f s = Ok c /\ c <> offset_record_checksum s /\ x = Malformed) \/
     (ignore_invalid_checksums o = true \/ record_checksum d f s = Ok (offset_record_checksum s)) /\
     exists B (n : M B) q, blamed o f (Part m (offset_record_offset s)) (Part n q) /\ fault o f q n x).
Proof.
  intros Hb Hm. rewrite open_refuses, (whole_refused o f d _ (read_file d) p Hb (WholeFile d)).
  split; (intros [H|(n & s & Hn & Hs & H)]; [left; exact H|right; exists n, s]);
    (split; [exact Hn|]; split; [exact Hs|]; destruct H as [H|[Hc H]]; [left; exact H|right]);
    (split; [exact Hc|]); apply (whole_refused o f d A m (offset_record_offset s) Hb Hm); exact H.
Qed.

Lemma open_panicking {A} (m : M A) : bounded f -> whole d m ->
  panics o (open_take d t m) f p <->
  exists n s, font_in (truetype_accept d) f p n /\ lists f p n (table_tag t) s /\
    (ignore_invalid_checksums o = false /\ record_checksum d f s = Panic \/
     (ignore_invalid_checksums o = true \/ record_checksum d f s = Ok (offset_record_checksum s)) /\
     overflow_checks o = true /\
     exists q, blamed o f (Part m (offset_record_offset s)) (Part read_store_record q) /\
       store_record_overflows f q).
Proof.
  intros Hb Hm. rewrite open_panics.
  split; intros (n & s & Hn & Hs & H); exists n, s;
    (split; [exact Hn|]; split; [exact Hs|]; destruct H as [H|[Hc H]]; [left; exact H|right]);
    (split; [exact Hc|]); apply (whole_panics o f d A m (offset_record_offset s) Hb Hm); exact H.
Qed.

End Open.

(** ** Examples *)

(** The sample font, and the same without the end of its colors. *)
Definition cut_file : file := file_of (firstn 80 sample_font_bytes).

Lemma sample_directory f : reads debug_build (read_file sample_deps) f 0 (mkFile [sample_font]) ->
  font_in (truetype_accept sample_deps) f 0 3 /\
  forall t s, first_record sample_records t s -> lists f 0 3 t s.
Proof.
  intros [q R]. destruct (file_or_error sample_deps debug_build f 0) as [(offsets & q' & E & Ho & H)|[[x E] _]];
    rewrite R in E; [|discriminate].
  injection E as <- _. split; [exact H|]. intros t s. apply (directory_lists f 0 _ t s Ho).
Qed.

Lemma sample_faults :
  (let s := mkOffsetRecord (Tag "G" "S" "U" "B") 7 86 10 in
   font_in (truetype_accept sample_deps) sample_file 0 3 /\
   lists sample_file 0 3 (Tag "G" "S" "U" "B") s /\
   record_checksum sample_deps sample_file s = Ok 65536) /\
  (let s := mkOffsetRecord (Tag "C" "P" "A" "L") 352259106 60 26 in
   font_in (truetype_accept sample_deps) cut_file 0 3 /\
   lists cut_file 0 3 (Tag "C" "P" "A" "L") s /\ ignore_invalid_checksums careless_build = true /\
   blamed careless_build cut_file (Part read_color_palettes 60) (Part read_color 78) /\
   fault careless_build cut_file 78 read_color UnexpectedEnd).
Proof.
  cbv zeta. destruct (sample_directory sample_file) as [H1 L1]; [eexists; vm_compute; reflexivity|].
  destruct (sample_directory cut_file) as [H2 L2]; [eexists; vm_compute; reflexivity|].
  assert (word : forall p n, take_u16 (mkEnv cut_file debug_build) p = Ok (n, p + 2) -> u16_at cut_file p n) by
    (intros p n H; apply (take_u16_takes True (mkEnv cut_file debug_build) p) in H; apply H).
  assert (long : forall p n, take_u32 (mkEnv cut_file debug_build) p = Ok (n, p + 4) -> u32_at cut_file p n) by
    (intros p n H; apply (take_u32_takes True (mkEnv cut_file debug_build) p) in H; apply H).
  assert (words_of : forall p n l, take_vec n take_u16 (mkEnv cut_file debug_build) p = Ok (l, p + 2 * n) ->
    u16s_at cut_file p n l) by
    (intros p n l H; apply (take_u16s_takes True (mkEnv cut_file debug_build) n p) in H; apply H).
  split; [split; [exact H1|split]|split; [exact H2|split; [|split; [reflexivity|split]]]].
  - apply L1. exists 1%nat. split; [reflexivity|]. split; [reflexivity|].
    intros [|[|j]] s Hj; [intros [= <-]; discriminate|lia..].
  - vm_compute. reflexivity.
  - apply L2. exists 0%nat. split; [reflexivity|]. split; [reflexivity|]. intros j s Hj. lia.
  - refine (BlamedBelow _ _ _ _ 60 [Part read_color 74] (Part read_color 78) [Part read_color 82] _
      (PartsCpal0 _ _ 60 (mkCpalHeader0 0 2 1 3 14 [1]) _) _ _).
    + unfold cpal_header_at, cpal_header0_at.
      do 6 (split; [first [apply word; reflexivity | apply long; reflexivity | reflexivity]|]).
      apply words_of. reflexivity.
    + repeat constructor. eexists. vm_compute. eexists. reflexivity.
    + constructor.
  - eapply FaultFields; [constructor|]. exists 2. split; reflexivity.
Qed.
