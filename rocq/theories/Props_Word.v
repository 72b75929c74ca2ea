(** Props_Word.v - C96: how many bits a [usize] has. *)
From Verif Require Import SpecMemory WordFacts SpecCrc Props_Crc Samples HeaderFacts.
Open Scope list_scope.
Open Scope N_scope.

(** C96.  The lengths of arrays are computed in 64 bits and then turned into a [usize], in two places without a check.  If
    the array a header describes fits the memory, its length fits the [usize], and the number of bits makes no difference:
    for reading the entries of a header, on a device of any length, *)
Theorem C96_read_partial : forall mc oc h lb d, machine_ok mc -> num_parts h * part_size h <= m_mem mc ->
  file_read_partitions_in mc oc h lb d = file_read_partitions oc h lb d.
Proof. intros mc oc h lb d K. apply same_small_array, K. Qed.
Print Assumptions C96_read_partial.
(** for opening a disk, *)
Theorem C96_open_partial : forall mc oc cfg d, machine_ok mc ->
  (forall d1 h, data d1 = data d ->
     fst (read_primary_header (c_lb cfg) d1) = Ok h \/ fst (read_backup_header (c_lb cfg) d1) = Ok h ->
     num_parts h * part_size h <= m_mem mc) ->
  open_from_device_in mc oc cfg d = open_from_device oc cfg d.
Proof. intros mc oc cfg d K. apply same_open_small, K. Qed.
Print Assumptions C96_open_partial.
(** and for writing, on an open disk ([C94_write], [C94_session]) or a header alone ([C94_write_primary_partial]).

    If it does not fit, the checksum covers the first bytes only, as many as remain when the length is divided by 2^32 on
    a machine of 32 bits. *)
Theorem C96_checked : forall mc oc h lb d, m_bits mc <= 64 -> fault_free d -> addressable d ->
  part_size h = 128 -> num_parts h < 2 ^ 31 -> part_start h * lb_u64 lb + num_parts h * 128 <= lenN (data d) ->
  (num_parts h * 128) mod 2 ^ m_bits mc <= m_mem mc ->
  ((exists m, fst (file_read_partitions_in mc oc h lb d) = Ok m) <->
   checksum_of (range (part_start h * lb_u64 lb) ((num_parts h * 128) mod 2 ^ m_bits mc) (data d)) (crc32_parts h)).
Proof.
  intros mc oc h lb d B F A P N1 L M. apply fault_free_iff in F.
  rewrite (array_in_device mc oc h lb d F P N1 A L M B), C78_crc. change range with slice. unfold as_usize.
  destruct (N.eqb_spec (crc32 (slice (part_start h * lb_u64 lb) ((num_parts h * 128) mod 2 ^ m_bits mc) (data d))) (crc32_parts h)) as [E|E].
  - split; [intros _; symmetry; exact E|eauto].
  - split; [intros (m & X); discriminate X|intros X; symmetry in X; contradiction].
Qed.
Print Assumptions C96_checked.
(** On a device with 4 GB of zeros, the header says that the checksum of its 2^25 entries is 0.  It is not. *)
Definition mc32 : machine := mkMachine 32 (2 ^ 31 - 1).
Definition long_header : header := mkHeader EFI_PART 1 0 92 0 0 1 5 3 3 sample_guid 2 33554432 128 0.
Lemma long_table z d : data d = zeros z -> N.of_nat z = 1024 + 2 ^ 32 -> crc32 (table_of long_header Lb512 (data d)) = 0xD202EF8D.
Proof.
  intros D Z. rewrite <- crc_zeros_4g. f_equal. unfold table_of, slice. rewrite D.
  change (num_parts long_header * part_size long_header) with (2 ^ 32). change (part_start long_header * lb_u64 Lb512) with 1024.
  rewrite skipn_zeros, firstn_zeros. f_equal. revert Z. generalize (2 ^ 32). intros n Z. lia.
Qed.
Lemma long_differs z d : data d = zeros z -> N.of_nat z = 1024 + 2 ^ 32 -> fault_free d ->
  addressable d /\ (exists m, fst (file_read_partitions_in mc32 true long_header Lb512 d) = Ok m) /\
  (exists e, fst (file_read_partitions true long_header Lb512 d) = Err e).
Proof.
  intros D Z F. assert (L : dev_len d = 1024 + 2 ^ 32) by (unfold dev_len; rewrite D, lenN_zeros; exact Z).
  assert (A : dev_len d < 2 ^ 64) by (rewrite L; reflexivity). split; [exact A|]. split.
  - rewrite array_in_device; [|exact F|reflexivity|reflexivity|exact A|rewrite L; vm_compute; discriminate|vm_compute; discriminate|vm_compute; discriminate].
    change (as_usize mc32 (num_parts long_header * 128)) with 0. rewrite slice_0. change (crc32 [] =? crc32_parts long_header) with true. eauto.
  - destruct (file_read_partitions_ok true long_header Lb512 d F eq_refl (or_intror (or_introl eq_refl)) A) as (p & R).
    rewrite R. cbn [fst]. unfold read_parts_at. rewrite (long_table z d D Z). fold (dev_len d). rewrite L.
    change (modulus 64 <=? part_start long_header * lb_u64 Lb512) with false. cbv iota.
    change (part_start long_header * lb_u64 Lb512 + num_parts long_header * 128 <=? 1024 + 2 ^ 32) with true. cbv iota.
    change (0xD202EF8D =? crc32_parts long_header) with false. eauto.
Qed.
Lemma zeros_dev n : exists z d, data d = zeros z /\ N.of_nat z = n /\ fault_free d.
Proof. exists (N.to_nat n), (mkDev (zeros (N.to_nat n)) 0 false false [] []). split; [reflexivity|]. split; [apply N2Nat.id|reflexivity]. Qed.
Theorem C96_read_refuted :
  ~ (forall mc oc h lb d, machine_ok mc -> m_bits mc = 32 -> addressable d -> fault_free d ->
     fst (file_read_partitions_in mc oc h lb d) = fst (file_read_partitions oc h lb d)).
Proof.
  intros X. destruct (zeros_dev (1024 + 2 ^ 32)) as (z & d & D & Z & F). destruct (long_differs z d D Z F) as (A & (m & P) & (e & Q)).
  specialize (X mc32 true long_header Lb512 d eq_refl eq_refl A F). rewrite P, Q in X. discriminate X.
Qed.
Print Assumptions C96_read_refuted.
(** Writing a header whose array is not there at all: an end-of-file error with 64 bits, success with 32, and the header on
    the disk says that the checksum of the 2^25 entries is that of no bytes, 0. *)
Definition short_dev : dev := mkDev (zeros (N.to_nat 3072)) 0 false false [] [].
Theorem C96_write_refuted :
  ~ (forall mc h lb d, machine_ok mc -> m_bits mc = 32 -> fst (write_primary_in mc h lb d) = fst (write_primary h lb d)).
Proof.
  intros X. specialize (X mc32 long_header Lb512 short_dev eq_refl eq_refl).
  assert (A : fst (write_primary_in mc32 long_header Lb512 short_dev) = Ok 512) by (vm_compute; reflexivity).
  assert (B : fst (write_primary long_header Lb512 short_dev) = Err (HIo IoUnexpectedEof)) by (vm_compute; reflexivity).
  rewrite A, B in X. discriminate X.
Qed.
Print Assumptions C96_write_refuted.
(** Zeroing entries is the place with a check: too many bytes for the [usize] are an error. *)
Theorem C96_zero_entries : forall mc oc i n s lb z d, 2 ^ m_bits mc <= z * n -> m_bits mc <= 64 ->
  s * lb_u64 lb + i * z < 2 ^ 64 -> fault_free d ->
  exists d', write_zero_entries_in mc oc i n s lb z d = (Err (IoOther "partition overflow - bytes to zero"), d') /\ data d' = data d.
Proof.
  intros mc oc i n s lb z d L B S F. apply fault_free_iff in F. change (2 ^ 64) with (modulus 64) in S. unfold write_zero_entries_in.
  unfold bind at 1. rewrite BaseFacts.checked_mul64_ok by lia. cbn [lift ok_or]. unfold bind at 1. rewrite BaseFacts.checked_mul64_ok by lia. cbn [lift ok_or].
  unfold bind at 1. unfold addw, lift. replace (s * lb_u64 lb + i * z <? modulus 64) with true by (symmetry; apply N.ltb_lt, S).
  unfold bind at 1. rewrite seek_start_ok by exact F. eexists. split; [|shelve].
  assert (T : try_usize mc (checked_mul64 z n) = None).
  { unfold try_usize, checked_mul64. destruct (z * n <? modulus 64); [|reflexivity]. replace (z * n <? 2 ^ m_bits mc) with false; [reflexivity|].
    symmetry. apply N.ltb_ge, L. }
  rewrite T. cbn [ok_or]. unfold bind. reflexivity.
  Unshelve. reflexivity.
Qed.
Print Assumptions C96_zero_entries.
(** Cases: the machine of 32 bits opens, changes and writes an ordinary disk, and the header it wrote for the array that is
    not there can be read. *)
Definition small_machine_works : bool :=
  match fst (create_from_device true mini_config None sample_guid wide_dev) with
  | Ok g => match run_in mc32 true [OpAdd [120] 512 (mkType linux_fs OsLinux) 0 None other_guid; OpWrite] g with
            | Some g' => match fst (open_from_device_in mc32 true mini_config (g_device g')) with Ok g'' => lenN (g_partitions g'') =? 1 | _ => false end
            | None => false
            end
  | _ => false
  end.
Definition short_header_read : option (N * N) :=
  match fst (read_primary_header Lb512 (snd (snd (write_primary_in mc32 long_header Lb512 short_dev)))) with
  | Ok h => Some (num_parts h, crc32_parts h)
  | _ => None
  end.
Example C96_case : machine_ok mc32 /\ small_machine_works = true /\ short_header_read = Some (33554432, 0) /\
  fst (write_zero_entries_in mc32 true 0 33554432 2 Lb512 128 short_dev) = Err (IoOther "partition overflow - bytes to zero").
Proof. vm_compute. repeat split; reflexivity. Qed.
