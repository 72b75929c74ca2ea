(** Props_Header.v - properties C06-C09, C41, C42: reading and writing headers, detecting damage. *)
From Verif Require Import AcceptFacts.
Open Scope list_scope.
Open Scope N_scope.

(** C06.  A header written as primary is read back from the same place with every field unchanged and
    correct checksums, and only its block was touched ([header_written]). *)
Theorem C06_primary_round_trip : forall h lb d,
  fault_free d -> addressable d -> header_ok h -> current_lba h < backup_lba h ->
  array_at lb h + array_len h <= lenN (data d) -> (current_lba h + 1) * lb_u64 lb <= lenN (data d) ->
  (array_at lb h + array_len h <= current_lba h * lb_u64 lb \/
   (current_lba h + 1) * lb_u64 lb <= array_at lb h) ->
  exists h' r d', write_primary h lb d = (Ok (lb_u64 lb), (h', d')) /\
    header_written lb h h' r (current_lba h) (data d) (data d') /\
    fst (file_read_header (current_lba h * lb_u64 lb) d') = Ok r /\
    (current_lba h = 1 -> fst (read_primary_header lb d') = Ok r).
Proof.
  intros h lb d HF HA HO HC HT HB HD.
  destruct (file_write_header_written h lb (current_lba h) d HF HA HO HT HB HD) as (h' & r & d' & E & W & R & F').
  exists h', r, d'. unfold write_primary.
  replace (backup_lba h <=? current_lba h) with false by (symmetry; apply N.leb_gt; lia).
  split; [exact E|]. split; [exact W|]. split.
  - destruct (file_read_header_ok (current_lba h * lb_u64 lb) d' F') as (p & ->). exact R.
  - intros H1. rewrite read_primary_header_ok by exact F'. cbn [fst]. rewrite H1, N.mul_1_l in R. exact R.
Qed.
Print Assumptions C06_primary_round_trip.
Theorem C06_backup_round_trip : forall h lb d,
  fault_free d -> addressable d -> header_ok h -> backup_lba h < current_lba h ->
  array_at lb h + array_len h <= lenN (data d) -> (current_lba h + 1) * lb_u64 lb <= lenN (data d) ->
  (array_at lb h + array_len h <= current_lba h * lb_u64 lb \/
   (current_lba h + 1) * lb_u64 lb <= array_at lb h) ->
  exists h' r d', write_backup h lb d = (Ok (lb_u64 lb), (h', d')) /\
    header_written lb h h' r (current_lba h) (data d) (data d') /\
    fst (file_read_header (current_lba h * lb_u64 lb) d') = Ok r /\
    (3 * lb_u64 lb <= lenN (data d) -> current_lba h = last_whole_block lb d ->
     fst (read_backup_header lb d') = Ok r).
Proof.
  intros h lb d HF HA HO HC HT HB HD.
  destruct (file_write_header_written h lb (current_lba h) d HF HA HO HT HB HD) as (h' & r & d' & E & W & R & F').
  exists h', r, d'. unfold write_backup.
  replace (current_lba h <=? backup_lba h) with false by (symmetry; apply N.leb_gt; lia).
  split; [exact E|]. split; [exact W|]. split.
  - destruct (file_read_header_ok (current_lba h * lb_u64 lb) d' F') as (p & ->). exact R.
  - intros H3 H1. destruct (hw_only _ _ _ _ _ _ _ W) as [HL _].
    rewrite addressable_iff in HA. unfold dev_len in HA.
    rewrite read_backup_header_ok by (auto; unfold dev_len; lia). cbn [fst].
    unfold read_backup_at, dev_len. rewrite HL.
    replace (lenN (data d) <? lb_u64 lb * 3) with false by (symmetry; apply N.ltb_ge; lia).
    replace (last_block lb d') with (current_lba h); [exact R|].
    rewrite H1. unfold last_whole_block, last_block, dev_len. rewrite HL. reflexivity.
Qed.
Print Assumptions C06_backup_round_trip.
(** Writing a header in the wrong role is refused before anything is touched. *)
Theorem C06_wrong_role_refused : forall h lb d,
  (backup_lba h <= current_lba h -> write_primary h lb d = (Err HWritingToWrongLba, (h, d))) /\
  (current_lba h <= backup_lba h -> write_backup h lb d = (Err HWritingToWrongLba, (h, d))).
Proof.
  intros h lb d. unfold write_primary, write_backup. split; intros H.
  - replace (backup_lba h <=? current_lba h) with true by (symmetry; apply N.leb_le; lia). reflexivity.
  - replace (current_lba h <=? backup_lba h) with true by (symmetry; apply N.leb_le; lia). reflexivity.
Qed.
Print Assumptions C06_wrong_role_refused.
Definition mini_backup_header : header := mkHeader EFI_PART 1 0 92 0 0 5 1 3 3 sample_guid 4 4 128 0.
Example C06_case :
  header_ok mini_header /\ current_lba mini_header < backup_lba mini_header /\
  array_at Lb512 mini_header + array_len mini_header <= lenN (data mini_dev) /\
  (current_lba mini_header + 1) * lb_u64 Lb512 <= array_at Lb512 mini_header /\
  header_ok mini_backup_header /\ backup_lba mini_backup_header < current_lba mini_backup_header /\
  array_at Lb512 mini_backup_header + array_len mini_backup_header
    <= current_lba mini_backup_header * lb_u64 Lb512 /\
  (current_lba mini_backup_header + 1) * lb_u64 Lb512 <= lenN (data mini_dev) /\
  current_lba mini_backup_header = last_whole_block Lb512 mini_dev.
Proof.
  split; [exact mini_header_ok|]. do 3 (split; [vm_compute; congruence|]).
  split; [constructor; try reflexivity; repeat split|]. repeat split; vm_compute; congruence.
Qed.

(** C07.  What reading a header gives, in terms of the bytes ([header_at]: too short, wrong signature,
    wrong checksum, or the header those bytes encode). *)
Theorem C07_primary_header_acceptance : forall lb d, fault_free d ->
  header_at (data d) (lb_u64 lb) (fst (read_primary_header lb d)).
Proof. intros lb d H. rewrite read_primary_header_ok by exact H. apply read_header_at_spec. Qed.
Print Assumptions C07_primary_header_acceptance.
Theorem C07_backup_header_acceptance : forall lb d, fault_free d -> addressable d ->
  (3 * lb_u64 lb <= lenN (data d) ->
     header_at (data d) (last_whole_block lb d * lb_u64 lb) (fst (read_backup_header lb d))) /\
  (lenN (data d) < 3 * lb_u64 lb -> fst (read_backup_header lb d) = Err HToSmallForBackup).
Proof.
  intros lb d H HA. rewrite addressable_iff in HA. rewrite read_backup_header_ok by auto. cbn [fst].
  unfold read_backup_at, dev_len. split; intros HL.
  - replace (lenN (data d) <? lb_u64 lb * 3) with false by (symmetry; apply N.ltb_ge; lia).
    apply read_header_at_spec.
  - replace (lenN (data d) <? lb_u64 lb * 3) with true by (symmetry; apply N.ltb_lt; lia). reflexivity.
Qed.
Print Assumptions C07_backup_header_acceptance.
(** The bytes leave no choice. *)
Theorem C07_acceptance_unique : forall l off r r', header_at l off r -> header_at l off r' -> r = r'.
Proof. exact header_at_fun. Qed.
Print Assumptions C07_acceptance_unique.
(** Reading headers never panics, on any device and under any faults. *)
Theorem C07_reading_never_panics : forall lb d,
  fst (read_primary_header lb d) <> Panic /\ fst (read_backup_header lb d) <> Panic.
Proof. intros lb d. split; [apply calm_read_primary_header|apply calm_read_backup_header]. Qed.
Print Assumptions C07_reading_never_panics.

(** The mini device with a primary header on it. *)
Definition mini_written : dev := snd (snd (write_primary mini_header Lb512 mini_dev)).
Example mini_written_reads :
  match fst (read_primary_header Lb512 mini_written) with
  | Ok h => crc32_hdr h = 0x8ed1593c /\ num_parts h = 4
  | _ => False
  end.
Proof. vm_compute. auto. Qed.
(** Each of the four outcomes occurs. *)
Example C07_cases :
  (exists h, fst (read_primary_header Lb512 mini_written) = Ok h) /\
  fst (read_primary_header Lb512 mini_dev) = Err HInvalidGptSignature /\
  fst (read_primary_header Lb4096 mini_dev) = Err (HIo IoUnexpectedEof) /\
  fst (read_primary_header Lb512 (set_data mini_written (store 600 [xff] (data mini_written)) 0))
    = Err HInvalidCRC32Checksum /\
  fst (read_backup_header Lb4096 mini_dev) = Err HToSmallForBackup.
Proof. split; [eexists; vm_compute; reflexivity|]. repeat split; vm_compute; reflexivity. Qed.

(** C08.  A readable header changed in one run of at most four bytes that does not straddle the CRC
    field (in particular in one byte) can no longer be read. *)
Theorem C08_damaged_primary_header : forall lb d d' h k n,
  fault_free d -> fault_free d' -> fst (read_primary_header lb d) = Ok h ->
  changed_only_in (between (lb_u64 lb + k) (lb_u64 lb + k + n)) (data d) (data d') -> data d <> data d' ->
  k + n <= 92 -> n <= 4 -> k + n <= 16 \/ 20 <= k \/ (16 <= k /\ k + n <= 20) ->
  exists e, fst (read_primary_header lb d') = Err e.
Proof.
  intros lb d d' h k n F F' R C D Hk Hn HW.
  rewrite read_primary_header_ok in R by exact F. rewrite read_primary_header_ok by exact F'. cbn [fst] in *.
  eapply read_header_damage; eauto.
Qed.
Print Assumptions C08_damaged_primary_header.
Theorem C08_damaged_backup_header : forall lb d d' h k n,
  fault_free d -> addressable d -> fault_free d' -> fst (read_backup_header lb d) = Ok h ->
  let off := last_whole_block lb d * lb_u64 lb in
  changed_only_in (between (off + k) (off + k + n)) (data d) (data d') -> data d <> data d' ->
  k + n <= 92 -> n <= 4 -> k + n <= 16 \/ 20 <= k \/ (16 <= k /\ k + n <= 20) ->
  exists e, fst (read_backup_header lb d') = Err e.
Proof.
  intros lb d d' h k n F HA F' R off C D Hk Hn HW. rewrite addressable_iff in HA.
  assert (HL : dev_len d' = dev_len d) by (destruct C as [C _]; exact C).
  rewrite read_backup_header_ok in R by auto. rewrite read_backup_header_ok by (auto; lia). cbn [fst] in *.
  unfold read_backup_at in *. replace (last_block lb d') with (last_block lb d) by (unfold last_block; congruence).
  rewrite HL. destruct (dev_len d <? lb_u64 lb * 3); [discriminate|].
  eapply read_header_damage; eauto.
Qed.
Print Assumptions C08_damaged_backup_header.
(** One byte, anywhere in the header. *)
Theorem C08_one_byte : forall lb d d' h k,
  fault_free d -> fault_free d' -> fst (read_primary_header lb d) = Ok h -> k < 92 ->
  changed_only_in (eq (lb_u64 lb + k)) (data d) (data d') -> data d <> data d' ->
  exists e, fst (read_primary_header lb d') = Err e.
Proof.
  intros lb d d' h k F F' R Hk C D.
  apply (C08_damaged_primary_header lb d d' h k 1); auto; try lia.
  eapply changed_only_in_weaken; [|exact C]. intros i <-. unfold between. lia.
Qed.
Print Assumptions C08_one_byte.
Example C08_case : (exists h, fst (read_primary_header Lb512 mini_written) = Ok h) /\
  changed_only_in (between (lb_u64 Lb512 + 40) (lb_u64 Lb512 + 40 + 4)) (data mini_written)
    (store 552 [x01; x02; x03; x04] (data mini_written)) /\
  data mini_written <> store 552 [x01; x02; x03; x04] (data mini_written).
Proof.
  split; [eexists; vm_compute; reflexivity|]. split.
  - apply changed_only_in_iff. apply (only_in_store _ _ 552 [x01; x02; x03; x04] _ 4); [|vm_compute; discriminate|apply only_in_refl].
    intros i Hi. exact Hi.
  - intros E. apply (f_equal (fun l => byte_no l 553)) in E. vm_compute in E. discriminate.
Qed.
(** The restriction on straddling runs is needed: these four bytes (17 to 20) can be changed so that
    the header still reads, with a different value in the reserved field. *)
Theorem C08_straddling_run_refuted : exists d d' h h',
  fst (read_primary_header Lb512 d) = Ok h /\ fst (read_primary_header Lb512 d') = Ok h' /\
  changed_only_in (between (lb_u64 Lb512 + 17) (lb_u64 Lb512 + 21)) (data d) (data d') /\
  reserved h <> reserved h'.
Proof.
  exists mini_written, (set_data mini_written (store 529 [x9a; x15; xd3; x68] (data mini_written)) 0).
  eexists _, _. split; [vm_compute; reflexivity|]. split; [vm_compute; reflexivity|]. split.
  - apply changed_only_in_iff. apply (only_in_store _ _ 529 [x9a; x15; xd3; x68] _ 4); [|vm_compute; discriminate|apply only_in_refl].
    intros i Hi. exact Hi.
  - discriminate.
Qed.
Print Assumptions C08_straddling_run_refuted.

(** C09.  A partition array changed in one run of at most four bytes is rejected by every header whose
    checksum covered it ... *)
Theorem C09_damaged_array : forall oc lb h d d' m k n,
  fault_free d -> addressable d -> fault_free d' -> part_size h = 128 -> countable oc h (data d) ->
  array_at lb h + array_len h <= lenN (data d) ->
  fst (file_read_partitions oc h lb d) = Ok m ->
  changed_only_in (between (array_at lb h + k) (array_at lb h + k + n)) (data d) (data d') ->
  data d <> data d' -> n <= 4 -> k + n <= array_len h ->
  fst (file_read_partitions oc h lb d') = Err (IoOther "partition table CRC mismatch").
Proof.
  intros oc lb h d d' m k n F HA F' HP HN HL R C D Hn Hk.
  rewrite addressable_iff in HA. rewrite countable_iff in HN.
  assert (HL' : dev_len d' = dev_len d) by (destruct C as [C _]; exact C).
  destruct (file_read_partitions_ok oc h lb d F HP HN HA) as (p & E). rewrite E in R. cbn [fst] in R.
  destruct (file_read_partitions_ok oc h lb d' F' HP) as (p' & E'); [rewrite HL'; exact HN|lia|]. rewrite E'. cbn [fst].
  unfold array_at, array_len, read_parts_at, dev_len in *. rewrite HL'. rewrite HP in *.
  replace (modulus 64 <=? part_start h * lb_u64 lb) with false in * by (symmetry; apply N.leb_gt; lia).
  replace (part_start h * lb_u64 lb + num_parts h * 128 <=? lenN (data d)) with true in *
    by (symmetry; apply N.leb_le; lia).
  unfold table_of in *. rewrite HP in *.
  destruct (N.eqb_spec (crc32 (slice (part_start h * lb_u64 lb) (num_parts h * 128) (data d))) (crc32_parts h))
    as [X|X]; [|discriminate].
  destruct (N.eqb_spec (crc32 (slice (part_start h * lb_u64 lb) (num_parts h * 128) (data d'))) (crc32_parts h))
    as [Y|Y]; [|reflexivity].
  exfalso. rewrite <- Y in X. revert X.
  apply (crc32_changed k n).
  - eapply changed_only_in_weaken; [|apply changed_slice; [exact C|lia]]. unfold between. intros i. cbn beta. lia.
  - rewrite slice_length by lia. exact Hk.
  - exact Hn.
  - intros X. apply D. eapply (changed_in_slice k n); [exact C|exact Hk|lia|exact X].
Qed.
Print Assumptions C09_damaged_array.
(** ... and an array that is on the device and has the right checksum is always accepted. *)
Theorem C09_intact_array : forall oc lb h d,
  fault_free d -> addressable d -> part_size h = 128 -> countable oc h (data d) ->
  array_at lb h + array_len h <= lenN (data d) ->
  crc32_parts h = crc32 (range (array_at lb h) (array_len h) (data d)) ->
  exists m, fst (file_read_partitions oc h lb d) = Ok m.
Proof.
  intros oc lb h d F HA HP HN HL HC. rewrite addressable_iff in HA. rewrite countable_iff in HN.
  destruct (file_read_partitions_ok oc h lb d F HP HN HA) as (p & ->). cbn [fst].
  unfold array_at, array_len, read_parts_at, dev_len in *. rewrite HP in HL.
  replace (modulus 64 <=? part_start h * lb_u64 lb) with false by (symmetry; apply N.leb_gt; lia).
  replace (part_start h * lb_u64 lb + num_parts h * 128 <=? lenN (data d)) with true
    by (symmetry; apply N.leb_le; lia).
  rewrite range_slice in HC. unfold table_of.
  replace (_ =? crc32_parts h) with true by (symmetry; apply N.eqb_eq; symmetry; exact HC).
  eexists; reflexivity.
Qed.
Print Assumptions C09_intact_array.
Example C09_case : part_size mini_header = 128 /\ num_parts mini_header < 2 ^ 31 /\
  array_at Lb512 mini_header + array_len mini_header <= lenN (data mini_dev) /\
  let h := set_crc32_parts mini_header (crc32 (range 1024 512 (data mini_dev))) in
  crc32_parts h = crc32 (range (array_at Lb512 h) (array_len h) (data mini_dev)) /\
  fst (file_read_partitions true h Lb512 mini_dev) = Ok [].
Proof. repeat split; vm_compute; congruence. Qed.

(** C41.  The backup header is in the last whole block; finding it moves nothing. *)
Theorem C41_backup_location : forall lb d, fault_free d ->
  find_backup_lba lb d =
  (if 3 * lb_u64 lb <=? lenN (data d) then Ok (last_whole_block lb d) else Err HToSmallForBackup, d).
Proof.
  intros lb d F. rewrite find_backup_lba_ok by exact F. unfold dev_len.
  destruct (N.leb_spec (3 * lb_u64 lb) (lenN (data d))) as [H|H].
  - replace (lenN (data d) <? lb_u64 lb * 3) with false by (symmetry; apply N.ltb_ge; lia).
    do 2 f_equal. apply last_block_eq. unfold dev_len. lia.
  - replace (lenN (data d) <? lb_u64 lb * 3) with true by (symmetry; apply N.ltb_lt; lia). reflexivity.
Qed.
Print Assumptions C41_backup_location.
(** [last_whole_block] is what its name says. *)
Theorem C41_last_whole_block : forall lb d, 3 * lb_u64 lb <= lenN (data d) ->
  (last_whole_block lb d + 1) * lb_u64 lb <= lenN (data d) < (last_whole_block lb d + 2) * lb_u64 lb.
Proof. intros lb d H. apply (last_block_bound lb d). unfold dev_len. lia. Qed.
Print Assumptions C41_last_whole_block.

(** C42.  Reading a header leaves the device as it was, position included, whatever the header. *)
Theorem C42_position_restored : forall lb d, fault_free d -> addressable d ->
  snd (read_primary_header lb d) = d /\ snd (read_backup_header lb d) = d.
Proof.
  intros lb d F HA. rewrite addressable_iff in HA.
  rewrite read_primary_header_ok, read_backup_header_ok by auto. split; reflexivity.
Qed.
Print Assumptions C42_position_restored.
Example C42_case : fault_free mini_dev /\ addressable mini_dev /\ 3 * lb_u64 Lb512 <= lenN (data mini_dev).
Proof. split; [exact mini_fault_free|]. split; [exact mini_addressable|]. vm_compute. discriminate. Qed.
