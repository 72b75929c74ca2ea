(** Props_Entry.v - properties C01-C05, C57: partition entries. *)
From Verif Require Import Samples.
Open Scope list_scope.
Open Scope N_scope.

(** C01.  A used partition written as entry [i] of the array a header describes is read back, as
    partition number [i + 1], by every header describing that array with the right checksum. *)
Theorem C01_entry_round_trip : forall oc lb p i start num d,
  fault_free d -> addressable d -> partition_ok p -> used p ->
  i < num -> oc = false \/ num < 2 ^ 31 \/ lenN (data d) < 2 ^ 38 -> start * lb_u64 lb + num * 128 <= lenN (data d) ->
  exists d', write_to_device oc p i start lb 128 d = (Ok tt, d') /\
  forall h, part_start h = start -> num_parts h = num -> part_size h = 128 ->
    crc32_parts h = crc32 (range (start * lb_u64 lb) (num * 128) (data d')) ->
    exists m d'' q, file_read_partitions oc h lb d' = (Ok m, d'') /\
      has m (i + 1) q /\ same_entry p q /\ (forall q', has m (i + 1) q' -> q' = q).
Proof.
  intros oc lb p i start num d HF HA HP HU Hi Hn HL.
  rewrite partition_ok_iff in HP. rewrite used_iff in HU. rewrite addressable_iff in HA.
  destruct (write_to_device_ok oc p i start lb 128 d) as (q & EW);
    [exact HF|unfold dev_len; lia|exact HA|].
  rewrite EW. eexists. split; [reflexivity|].
  intros h Hs Hnum Hsz Hc.
  set (L := store (start * lb_u64 lb + i * 128) (as_bytes p 128) (data d)) in *.
  cbn [data set_data] in Hc.
  assert (HLen : lenN L = lenN (data d)).
  { unfold L. rewrite store_lenN_in; [reflexivity|]. rewrite as_bytes_lenN. lia. }
  destruct (file_read_partitions_ok oc h lb (set_data d L q)) as (q' & ER);
    [apply healthy_set_data; exact HF|exact Hsz|unfold dev_len; cbn [data set_data]; rewrite HLen; apply (proj1 (countable_iff _ _ _)); unfold countable; rewrite Hnum; exact Hn|unfold dev_len in *; cbn [data set_data] in *; rewrite HLen; exact HA|].
  rewrite ER. cbn [data set_data]. unfold read_parts_at. rewrite Hs, Hnum, HLen.
  assert (MA : dev_len d = lenN (data d)) by reflexivity.
  replace (modulus 64 <=? start * lb_u64 lb) with false by (symmetry; apply N.leb_gt; lia).
  replace (start * lb_u64 lb + num * 128 <=? lenN (data d)) with true by (symmetry; apply N.leb_le; lia).
  assert (ET : table_of h lb L = slice (start * lb_u64 lb) (num * 128) L).
  { unfold table_of. rewrite Hs, Hnum, Hsz. reflexivity. }
  rewrite ET. rewrite Hc. unfold range. fold (slice (start * lb_u64 lb) (num * 128) L).
  rewrite N.eqb_refl.
  assert (HT : lenN (slice (start * lb_u64 lb) (num * 128) L) = 128 * num).
  { rewrite slice_length by lia. lia. }
  assert (HS : slot (i + 1) (slice (start * lb_u64 lb) (num * 128) L) = as_bytes p 128).
  { unfold slot. rewrite range_slice, slice_slice by lia.
    replace (start * lb_u64 lb + 128 * (i + 1 - 1)) with (start * lb_u64 lb + i * 128) by lia.
    unfold L. apply slice_store_same. rewrite as_bytes_lenN. reflexivity. }
  eexists _, _, (normal p). split; [reflexivity|].
  unfold parts_of. rewrite ET, Hnum.
  split; [|split].
  - apply table_parts_has; [exact HT|]. rewrite HS. split; [lia|]. split.
    + rewrite all_zero_128 by apply as_bytes_length. apply used_entry_nonzero; assumption.
    + apply as_bytes_decodes. exact HP.
  - apply same_entry_normal. apply HP.
  - intros q0 H0. apply table_parts_has in H0; [|exact HT]. rewrite HS in H0.
    destruct H0 as (_ & _ & H0). eapply entry_decodes_fun; [exact H0|]. apply as_bytes_decodes. exact HP.
Qed.
Print Assumptions C01_entry_round_trip.
Example C01_case :
  fault_free mini_dev /\ addressable mini_dev /\ partition_ok sample_part /\ used sample_part /\
  2 < 4 /\ 4 < 2 ^ 31 /\ 2 * lb_u64 Lb512 + 4 * 128 <= lenN (data mini_dev).
Proof.
  split; [exact mini_fault_free|]. split; [exact mini_addressable|]. split; [exact sample_part_ok|].
  split; [exact sample_part_used|]. repeat split; vm_compute; congruence.
Qed.

(** C02.  The name part of the round trip.  [same_entry] (C01, C17) says the name comes back as
    [kept_name 36]; here is what that is: the whole name when it fits and has no NUL ... *)
Theorem C02_name_that_fits : forall s,
  name_units s <= 36 -> ~ In 0 s -> kept_name 36 s = s.
Proof.
  intros s H N0. rewrite kept_36. apply stored_name_short; [|exact N0].
  rewrite name_units_length in H. unfold lenN in H. lia.
Qed.
Print Assumptions C02_name_that_fits.
(** ... and in every case the decoding of the first 36 code units up to the first zero. *)
Theorem C02_name_any : forall s, Forall char_ok s ->
  exists us, before_nul (firstn 36 (utf16_units s)) us /\ utf16 us (kept_name 36 s).
Proof.
  intros s H. rewrite chars_ok_iff in H. exists (until_zero (firstn 36 (utf16_units s))).
  split; [apply before_nul_spec|]. rewrite kept_36, <- (decode_stored 36 s H).
  eapply decode_utf16_spec. apply Nat.le_refl.
Qed.
Print Assumptions C02_name_any.
(** Reading never fails because of the name, and a name read survives being written again. *)
Theorem C02_name_reread : forall b, lenN b = 128 ->
  exists p, fst (parse_entry b) = Ok p /\ Forall char_ok (name p) /\ ~ In 0 (name p) /\
    (Forall char_ok (name p) -> kept_name 36 (kept_name 36 (name p)) = kept_name 36 (name p)).
Proof.
  intros b H. destruct (parse_entry_decodes b) as (p & E & D & W & NZ).
  { unfold lenN in H. lia. }
  exists p. split; [exact E|]. destruct W as (_ & _ & _ & _ & _ & W).
  split; [apply chars_ok_iff; exact W|]. split; [exact NZ|]. intros _.
  rewrite !kept_36. apply stored_name_idem. exact W.
Qed.
Print Assumptions C02_name_reread.
(** A surrogate pair straddling unit 36, a NUL, and a name that fits. *)
Example C02_cases :
  kept_name 36 (repeat 97 35 ++ [0x1F600; 98]) = repeat 97 35 ++ [0xFFFD] /\
  kept_name 36 [97; 0; 98] = [97] /\
  kept_name 36 (repeat 97 40) = repeat 97 36 /\
  name_units [97; 0x1F600] <= 36 /\ ~ In 0 [97; 0x1F600].
Proof. repeat split; try reflexivity; [vm_compute; discriminate|]. intros [H|[H|[]]]; discriminate. Qed.

(** C03.  Serialised size, padding, and the zero partition. *)
Theorem C03_entry_size : forall p s, lenN (as_bytes p s) = s.
Proof. exact as_bytes_lenN. Qed.
Print Assumptions C03_entry_size.
Theorem C03_entry_padding : forall p s i, partition_ok p ->
  56 + 2 * N.min 36 (name_units (name p)) <= i < s -> byte_no (as_bytes p s) i = Some x00.
Proof. intros p s i H. rewrite partition_ok_iff in H. apply as_bytes_tail. exact H. Qed.
Print Assumptions C03_entry_padding.
Theorem C03_zero_partition : forall s, all_zero (as_bytes partition_zero s).
Proof. intros s. rewrite as_bytes_zero. apply all_zero_iff. rewrite zeros_length. reflexivity. Qed.
Print Assumptions C03_zero_partition.
(** The bytes of an entry of standard size, field by field. *)
Theorem C03_entry_layout : forall p, partition_ok p -> entry_bytes (as_bytes p 128) p.
Proof.
  intros p H. rewrite partition_ok_iff in H.
  destruct (as_bytes_decodes p H) as [[A B C D F G] _ _]. constructor; auto.
  rewrite B. f_equal. apply type_guid_from_uuid.
Qed.
Print Assumptions C03_entry_layout.
Example C03_case : partition_ok sample_part /\ 56 + 2 * N.min 36 (name_units (name sample_part)) <= 70 < 128.
Proof. split; [exact sample_part_ok|]. vm_compute. split; congruence. Qed.

(** C04.  What writing one entry can change, for every device and every fault schedule, as long as
    the byte offset of the entry is below 2^64.  What is missing for the full property: when the
    offset itself overflows although both products fit - see [C04_sum_overflow_refuted]. *)
Theorem C04_entry_write_frame_partial : forall oc p i start lb size d,
  let off := start * lb_u64 lb + i * size in
  let d' := snd (write_to_device oc p i start lb size d) in
  off < 2 ^ 64 ->
  (forall j, j < lenN (data d) -> ~ between off (off + size) j -> byte_no (data d') j = byte_no (data d) j) /\
  (off + size <= lenN (data d) -> changed_only_in (between off (off + size)) (data d) (data d')).
Proof.
  intros oc p i start lb size d off d' H. rewrite <- two64 in H.
  destruct (write_to_device_prefix oc p i start lb size d H) as (k & E).
  fold off in E. fold d' in E. rewrite E. split.
  - intros j Hj Hn. rewrite !byte_no_at. apply byte_at_store_out; [|exact Hj].
    pose proof (lenN_firstn_le k (as_bytes p size)) as B. rewrite as_bytes_lenN in B.
    unfold between in Hn. lia.
  - intros HL. apply changed_only_in_iff. apply only_in_store; [|rewrite as_bytes_lenN; exact HL|apply only_in_refl].
    rewrite as_bytes_lenN. intros j Hj. exact Hj.
Qed.
Print Assumptions C04_entry_write_frame_partial.
Theorem C04_offset_overflow_is_an_error : forall oc p i start lb size d,
  2 ^ 64 <= start * lb_u64 lb \/ 2 ^ 64 <= i * size ->
  exists e, write_to_device oc p i start lb size d = (Err e, d).
Proof. intros oc p i start lb size d H. rewrite <- two64 in H. apply write_to_device_overflow. exact H. Qed.
Print Assumptions C04_offset_overflow_is_an_error.
(** Both products fit but their sum does not: a release build overwrites the start of the device and
    reports success, a debug build panics. *)
Theorem C04_sum_overflow_refuted : exists p i start d,
  start * lb_u64 Lb512 < 2 ^ 64 /\ i * 128 < 2 ^ 64 /\ fault_free d /\ partition_ok p /\
  fst (write_to_device false p i start Lb512 128 d) = Ok tt /\
  byte_no (data (snd (write_to_device false p i start Lb512 128 d))) 0 <> byte_no (data d) 0 /\
  fst (write_to_device true p i start Lb512 128 d) = Panic.
Proof.
  exists sample_part, 4, (2 ^ 55 - 1), mini_dev.
  split; [reflexivity|]. split; [reflexivity|]. split; [exact mini_fault_free|].
  split; [exact sample_part_ok|].
  split; [vm_compute; reflexivity|]. split; [vm_compute; discriminate|vm_compute; reflexivity].
Qed.
Print Assumptions C04_sum_overflow_refuted.
Example C04_case : 2 * lb_u64 Lb512 + 3 * 128 < 2 ^ 64 /\
  2 * lb_u64 Lb512 + 3 * 128 + 128 <= lenN (data mini_dev).
Proof. split; vm_compute; congruence. Qed.

(** C05.  Lengths and offsets are exact, or an error. *)
Theorem C05_sectors_len : forall p,
  last_lba p < 2 ^ 64 ->
  (first_lba p <= last_lba p -> last_lba p - first_lba p + 1 < 2 ^ 64 ->
     sectors_len p = Ok (last_lba p - first_lba p + 1)) /\
  (last_lba p < first_lba p \/ 2 ^ 64 <= last_lba p - first_lba p + 1 -> exists e, sectors_len p = Err e).
Proof.
  intros p HL. unfold sectors_len, checked_sub64, checked_add64. rewrite two64. split.
  - intros H1 H2. replace (first_lba p <=? last_lba p) with true by (symmetry; apply N.leb_le; lia).
    cbn [ok_or obind]. replace (_ <? 2 ^ 64) with true by (symmetry; apply N.ltb_lt; lia). reflexivity.
  - intros H. destruct (N.leb_spec (first_lba p) (last_lba p)) as [Hl|Hl]; cbn [ok_or obind].
    + replace (_ <? 2 ^ 64) with false by (symmetry; apply N.ltb_ge; lia). eexists; reflexivity.
    + eexists; reflexivity.
Qed.
Print Assumptions C05_sectors_len.
Theorem C05_bytes_len : forall p lb,
  last_lba p < 2 ^ 64 ->
  (first_lba p <= last_lba p -> (last_lba p - first_lba p + 1) * lb_u64 lb < 2 ^ 64 ->
     bytes_len p lb = Ok ((last_lba p - first_lba p + 1) * lb_u64 lb)) /\
  (last_lba p < first_lba p \/ 2 ^ 64 <= (last_lba p - first_lba p + 1) * lb_u64 lb ->
     exists e, bytes_len p lb = Err e).
Proof.
  intros p lb HL. pose proof (C05_sectors_len p HL) as [A B]. pose proof (lb_pos lb) as P.
  unfold bytes_len. split.
  - intros H1 H2. rewrite A by (auto; nia). cbn [obind]. unfold checked_mul64. rewrite two64.
    replace (_ <? 2 ^ 64) with true by (symmetry; apply N.ltb_lt; exact H2). reflexivity.
  - intros H. destruct (N.lt_ge_cases (last_lba p) (first_lba p)) as [C|C].
    + destruct B as (e & ->); [left; exact C|]. cbn [obind]. eexists; reflexivity.
    + destruct (N.lt_ge_cases (last_lba p - first_lba p + 1) (2 ^ 64)) as [D|D].
      * rewrite A by auto. cbn [obind]. unfold checked_mul64. rewrite two64.
        replace (_ <? 2 ^ 64) with false by (symmetry; apply N.ltb_ge; lia). eexists; reflexivity.
      * destruct B as (e & ->); [right; exact D|]. cbn [obind]. eexists; reflexivity.
Qed.
Print Assumptions C05_bytes_len.
Theorem C05_bytes_start : forall p lb,
  (first_lba p * lb_u64 lb < 2 ^ 64 -> bytes_start p lb = Ok (first_lba p * lb_u64 lb)) /\
  (2 ^ 64 <= first_lba p * lb_u64 lb -> exists e, bytes_start p lb = Err e).
Proof.
  intros p lb. unfold bytes_start, checked_mul64. rewrite two64. split; intros H.
  - replace (_ <? 2 ^ 64) with true by (symmetry; apply N.ltb_lt; exact H). reflexivity.
  - replace (_ <? 2 ^ 64) with false by (symmetry; apply N.ltb_ge; exact H). eexists; reflexivity.
Qed.
Print Assumptions C05_bytes_start.
(** Both the largest length and the one-too-large length occur. *)
Example C05_cases :
  (forall t, sectors_len (mkPart t [] 1 (2 ^ 64 - 1) 0 []) = Ok (2 ^ 64 - 1)) /\
  (forall t, exists e, sectors_len (mkPart t [] 0 (2 ^ 64 - 1) 0 []) = Err e).
Proof. split; intros t; [vm_compute; reflexivity|]. eexists. vm_compute. reflexivity. Qed.

(** C57.  What reading the array means: partition [k] is reported exactly when entry [k] is not all
    zeros, with the values that entry holds in the UEFI layout. *)
Theorem C57_array_meaning : forall oc h lb d m d',
  fault_free d -> addressable d -> part_size h = 128 -> countable oc h (data d) -> 
  array_at lb h + array_len h <= lenN (data d) ->
  file_read_partitions oc h lb d = (Ok m, d') ->
  forall k p, has m k p <->
    1 <= k <= num_parts h /\
    let entry := slot k (range (array_at lb h) (array_len h) (data d)) in
    ~ all_zero entry /\ entry_decodes entry p.
Proof.
  intros oc h lb d m d' HF HA HP HN HL HR k p.
  rewrite addressable_iff in HA. rewrite countable_iff in HN.
  destruct (file_read_partitions_ok oc h lb d HF HP HN HA) as (q & E). rewrite E in HR.
  injection HR as HR _. unfold read_parts_at in HR.
  assert (MA : dev_len d = lenN (data d)) by reflexivity. unfold array_at, array_len in *. rewrite HP in *.
  replace (modulus 64 <=? part_start h * lb_u64 lb) with false in HR by (symmetry; apply N.leb_gt; lia).
  replace (part_start h * lb_u64 lb + num_parts h * 128 <=? lenN (data d)) with true in HR
    by (symmetry; apply N.leb_le; lia).
  destruct (_ =? _); [|discriminate]. apply Ok_inj in HR. subst m.
  unfold parts_of, table_of. rewrite HP. apply table_parts_has.
  rewrite slice_length by lia. lia.
Qed.
Print Assumptions C57_array_meaning.
(** Entries decode to at most one partition, so the previous theorem determines the result. *)
Theorem C57_entry_meaning_unique : forall b p q, entry_decodes b p -> entry_decodes b q -> p = q.
Proof. exact entry_decodes_fun. Qed.
Print Assumptions C57_entry_meaning_unique.
