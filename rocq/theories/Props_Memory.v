(** Props_Memory.v - C94: how much memory the library asks for.  C95: how many device calls it makes. *)
From Verif Require Import SpecMemory MemoryFacts CallFacts Samples HeaderFacts.
Open Scope list_scope.
Open Scope N_scope.

(** C94.  The functions of Memory.v are those of the rest of the model, except that they run on a machine [mc]
    where asking for a buffer longer than [m_mem mc] bytes ends the program.  Opening never asks for one longer than the device, whatever the headers on it say. *)
Theorem C94_open : forall mc oc cfg d, machine_ok mc -> lenN (data d) <= m_mem mc ->
  open_from_device_in mc oc cfg d = open_from_device oc cfg d.
Proof. intros mc oc cfg d K. apply same_open, K. Qed.
Print Assumptions C94_open.
(** Nor does reading the entries a header describes, for any header at all. *)
Theorem C94_read_partitions : forall mc oc h lb d, machine_ok mc -> lenN (data d) <= m_mem mc ->
  file_read_partitions_in mc oc h lb d = file_read_partitions oc h lb d.
Proof. intros mc oc h lb d K. apply same_read_partitions, K. Qed.
Print Assumptions C94_read_partitions.
(** Writing asks for the array of the header in use, at most, and one block. *)
Theorem C94_write : forall mc oc g, machine_ok mc -> 4096 <= m_mem mc ->
  (forall h, header_of g h -> num_parts h * part_size h <= m_mem mc /\ part_size h <= m_mem mc) ->
  write_inplace_in mc oc g = write_inplace oc g.
Proof. intros mc oc g K L F. apply same_write_inplace; [exact K| |exact L]. intros h T. apply F, header_of_iff, T. Qed.
Print Assumptions C94_write.
(** A whole history on a disk that was opened: memory for the device, for what the caller brings in and for 128 entries is
    enough, whatever the device contains and however its calls fail. *)
Theorem C94_session : forall mc oc cfg d g d' ops, machine_ok mc -> open_from_device oc cfg d = (Ok g, d') ->
  16384 <= m_mem mc -> lenN (data d) + 128 * all_given ops <= m_mem mc ->
  run_in mc oc ops g = run oc ops g.
Proof.
  intros mc oc cfg d g d' ops K E L F. apply (slim_run mc oc ops K (lenN (data d) / 128)); [exact (slim_open oc cfg d g d' E)|exact L|].
  pose proof (N.mul_div_le (lenN (data d)) 128 ltac:(discriminate)). lia.
Qed.
Print Assumptions C94_session.
(** On a disk that was created, what the device contains plays no part. *)
Theorem C94_created : forall mc oc cfg u rnd d g d' ops, machine_ok mc -> create_from_device oc cfg u rnd d = (Ok g, d') ->
  16384 <= m_mem mc -> 128 * all_given ops <= m_mem mc ->
  run_in mc oc ops g = run oc ops g.
Proof.
  intros mc oc cfg u rnd d g d' ops K E L F. apply (slim_run mc oc ops K 0); [exact (slim_create oc cfg u rnd d g d' E)|exact L|lia].
Qed.
Print Assumptions C94_created.
(** [write_header] needs 16384 bytes for the checksum of the 128 entries. *)
Lemma same_write_primary mc h lb d : machine_ok mc -> num_parts h * part_size h <= m_mem mc -> 4096 <= m_mem mc -> write_primary_in mc h lb d = write_primary h lb d.
Proof.
  intros K A B. unfold write_primary_in, write_primary. destruct (_ <=? _); [reflexivity|]. apply same_file_write; [exact K|exact A|destruct lb; cbn; lia].
Qed.
Theorem C94_write_header : forall mc oc u rnd lb d, machine_ok mc -> 16384 <= m_mem mc ->
  write_header_in mc oc u rnd lb d = write_header oc u rnd lb d.
Proof.
  intros mc oc u rnd lb d K L. unfold write_header_in, write_header. unfold bind. destruct (find_backup_lba lb d) as [[n|e|] d1]; [|reflexivity..].
  unfold lift. match goal with |- context [build oc ?b lb] => destruct (build oc b lb) as [h|e|] eqn:B end; [|reflexivity..].
  apply build_fields in B. destruct B as (_ & _ & B1 & B2 & _).
  assert (X : num_parts h = 128 /\ part_size h = 128) by (destruct u; auto). destruct X as (X1 & X2).
  rewrite same_write_primary; [reflexivity|exact K|rewrite X1, X2; lia|lia].
Qed.
Print Assumptions C94_write_header.

(** The functions on headers ask for what the header says before they look at the device.  A disk of 3072 bytes whose
    header, with the right checksum, claims 2^32 - 1 entries of 2^32 - 1 bytes each: *)
Definition huge_header : header := mkHeader EFI_PART 1 0 92 0 0 1 5 3 3 sample_guid 2 4294967295 4294967295 0.
Definition huge_dev : dev :=
  mkDev (zeros 512 ++ hdr_image huge_header 0 (hdr_crc huge_header 0) ++ zeros (N.to_nat 2468)) 0 false false [] [].
Definition huge_read : header := set_crc32 huge_header (hdr_crc huge_header 0).
(** reading that header succeeds; writing it back, which fails with an end-of-file error given unlimited memory, ends the
    program if no buffer can be longer than 2^63 - 1 bytes, which is so for every Rust program. *)
Theorem C94_write_primary_refuted :
  ~ (forall mc h lb d, mc = mkMachine 64 (2 ^ 63 - 1) -> fst (read_primary_header lb d) = Ok h -> lenN (data d) <= m_mem mc ->
     fst (write_primary_in mc h lb d) = fst (write_primary h lb d)).
Proof.
  intros X. specialize (X (mkMachine 64 (2 ^ 63 - 1)) huge_read Lb512 huge_dev eq_refl).
  assert (A : fst (write_primary_in (mkMachine 64 (2 ^ 63 - 1)) huge_read Lb512 huge_dev) = Panic) by (vm_compute; reflexivity).
  assert (B : fst (write_primary huge_read Lb512 huge_dev) = Err (HIo IoUnexpectedEof)) by (vm_compute; reflexivity).
  rewrite A, B in X. discriminate X; [vm_compute; reflexivity|vm_compute; discriminate].
Qed.
Print Assumptions C94_write_primary_refuted.
(** What is true of it: a buffer for the array the header describes is enough. *)
Theorem C94_write_primary_partial : forall mc h lb d, machine_ok mc -> num_parts h * part_size h <= m_mem mc -> 4096 <= m_mem mc ->
  write_primary_in mc h lb d = write_primary h lb d /\ write_backup_in mc h lb d = write_backup h lb d.
Proof.
  intros mc h lb d K A B. split; [apply same_write_primary; assumption|]. unfold write_backup_in, write_backup.
  destruct (_ <=? _); [reflexivity|]. apply same_file_write; [exact K|exact A|destruct lb; cbn; lia].
Qed.
Print Assumptions C94_write_primary_partial.
(** The two public functions that write entries ask for what their arguments say. *)
Theorem C94_entries : forall mc oc p i k n s lb z d, machine_ok mc ->
  (z <= m_mem mc -> 128 <= m_mem mc -> write_to_device_in mc oc p i s lb z d = write_to_device oc p i s lb z d) /\
  (z * n <= m_mem mc -> write_zero_entries_in mc oc k n s lb z d = write_zero_entries oc k n s lb z d).
Proof. intros. split; intros; [apply same_write_to_device|apply same_write_zero]; assumption. Qed.
Print Assumptions C94_entries.
(** The bounds are the least: creating a table, adding a partition and writing needs 16384 bytes and not one less, and
    opening a table of 4 entries 512. *)
Definition returned {A} (r : option A) : bool := match r with Some _ => true | None => false end.
Definition add_and_write : list op := [OpAdd [120] 512 (mkType linux_fs OsLinux) 0 None other_guid; OpWrite].
Definition created_returned (mem : N) : bool :=
  match fst (create_from_device true mini_config None sample_guid wide_dev) with
  | Ok g => returned (run_in (mkMachine 64 mem) true add_and_write g)
  | _ => false
  end.
Definition opened_in (mem : N) : bool :=
  match fst (open_from_device_in (mkMachine 64 mem) true mini_config (g_device (snd (write_inplace true (mini_disk [(1, sample_part)]))))) with
  | Ok g => lenN (g_partitions g) =? 1
  | _ => false
  end.
Example C94_case : all_given add_and_write = 1 /\ created_returned 16384 = true /\ created_returned 16383 = false /\
  opened_in 512 = true /\ opened_in 511 = false.
Proof. vm_compute. repeat split; reflexivity. Qed.

(** C95.  Opening makes at most 15 calls of the device and one for each 128 bytes of it. *)
Theorem C95_open : forall oc cfg d, spent (15 + lenN (data d) / 128) d (snd (open_from_device oc cfg d)).
Proof. exact spent_open. Qed.
Print Assumptions C95_open.
Theorem C95_create : forall oc cfg u rnd d, spent 3 d (snd (create_from_device oc cfg u rnd d)).
Proof. exact spent_create. Qed.
Print Assumptions C95_create.
(** A call on an open disk makes at most 3, writing 17 and 4 for each partition in use, those that only change or read the
    table none. *)
Theorem C95_calls : forall oc o g g', step oc o g = Some g' -> (forall d w, o <> OpUpdateDevice d w) ->
  spent (budget o g) (g_device g) (g_device g').
Proof. exact spent_step. Qed.
Print Assumptions C95_calls.
(** The functions that read one header or the entries of any header. *)
Theorem C95_read : forall oc h lb d,
  spent 4 d (snd (read_primary_header lb d)) /\ spent 7 d (snd (read_backup_header lb d)) /\
  spent 3 d (snd (find_backup_lba lb d)) /\ spent (4 + lenN (data d) / 128) d (snd (file_read_partitions oc h lb d)).
Proof. intros oc h lb d. repeat split; [apply co_read_primary|apply co_read_backup|apply co_find_backup|apply spent_read_partitions]. Qed.
Print Assumptions C95_read.
(** Every bound on the headers and on writing is reached: with 100 calls allowed, so many are left. *)
Definition long_faults (d : dev) : dev := with_faults (repeat None 100) d.
Definition left_over (d : dev) : nat := length (faults d).
Example C95_case :
  left_over (snd (read_primary_header Lb512 (long_faults mini_dev))) = 96%nat /\
  left_over (snd (read_backup_header Lb512 (long_faults mini_dev))) = 93%nat /\
  left_over (snd (create_from_device true mini_config None sample_guid (long_faults wide_dev))) = 97%nat /\
  left_over (g_device (snd (write_inplace true (set_sync true (set_device (long_faults wide_dev) (wide_disk two_parts)))))) = (100 - 25)%nat.
Proof. vm_compute. repeat split; reflexivity. Qed.
