(** Props_Fault.v - properties C61 and C62: failing device operations. *)
From Verif Require Import TraceFacts Samples Props_Open.
Open Scope list_scope.
Open Scope N_scope.

(** C61.  No failed device operation goes unnoticed: a call that succeeds performed only operations
    that worked, and does exactly what it does on a device that never fails.  For writing the disk ... *)
Theorem C61_write : forall oc, disk_reports_faults (write_inplace oc).
Proof. exact drf_write. Qed.
Print Assumptions C61_write.
(** ... the calls that change the table in memory (they too use the device, to find its size) ... *)
Theorem C61_update_partitions : forall oc pp, disk_reports_faults (update_partitions oc pp).
Proof. exact drf_update_partitions. Qed.
Print Assumptions C61_update_partitions.
Theorem C61_add_partition : forall oc nm size ty fl al rnd,
  disk_reports_faults (add_partition oc nm size ty fl al rnd).
Proof. exact drf_add. Qed.
Print Assumptions C61_add_partition.
Theorem C61_add_partition_at : forall oc nm id first n ty fl rnd,
  disk_reports_faults (add_partition_at oc nm id first n ty fl rnd).
Proof. exact drf_add_at. Qed.
Print Assumptions C61_add_partition_at.
(** ... creating a disk ... *)
Theorem C61_create : forall oc cfg u rnd d g d', create_from_device oc cfg u rnd d = (Ok g, d') ->
  no_fault_between d d' /\ create_from_device oc cfg u rnd (repaired d) = (Ok (repaired_disk g), repaired d').
Proof. exact create_reports. Qed.
Print Assumptions C61_create.
(** ... writing one entry, writing a header, reading the table ... *)
Theorem C61_single_calls : forall oc p i start lb n u rnd h,
  reports_faults (write_to_device oc p i start lb n) /\
  reports_faults (write_header oc u rnd lb) /\
  reports_faults (file_read_partitions oc h lb) /\
  (forall d a h' d', write_primary h lb d = (Ok a, (h', d')) ->
     no_fault_between d d' /\ write_primary h lb (repaired d) = (Ok a, (h', repaired d'))) /\
  (forall d a h' d', write_backup h lb d = (Ok a, (h', d')) ->
     no_fault_between d d' /\ write_backup h lb (repaired d) = (Ok a, (h', repaired d'))).
Proof.
  intros. split; [apply rf_write_to|]. split; [apply rf_write_header|]. split; [apply rf_read_partitions|].
  split; [apply rf_write_primary|apply rf_write_backup].
Qed.
Print Assumptions C61_single_calls.
(** ... and the calls on the MBR. *)
Theorem C61_mbr : forall lb m off bs n,
  reports_faults (mbr_from_disk lb) /\ reports_faults (overwrite_lba0 m) /\
  reports_faults (update_conservative m) /\ reports_faults (read_at_mbr off n) /\
  reports_faults (write_at_mbr off bs).
Proof.
  intros. split; [apply rf_mbr_from_disk|]. split; [apply rf_overwrite|]. split; [apply rf_conservative|].
  split; [apply rf_read_at|apply rf_write_at].
Qed.
Print Assumptions C61_mbr.
(** Writing the mini disk with its one partition takes 20 device operations: a fault in the last one
    is reported, a fault after it does no harm. *)
Definition faulty_one (n : nat) : gdisk :=
  set_device (with_faults (repeat None n ++ [Some 0%nat]) (g_device mini_one)) mini_one.
Example C61_cases :
  (exists e, fst (write_inplace true (faulty_one 19)) = Err e) /\
  fst (write_inplace true (faulty_one 20)) = Ok tt /\
  faults (g_device (snd (write_inplace true (faulty_one 20)))) = [Some 0%nat].
Proof. split; [eexists; vm_compute; reflexivity|]. split; vm_compute; reflexivity. Qed.

(** C62.  Opening does swallow faults.  If the seek to the primary header fails, whatever is at the
    current position is read instead, and reported as the primary header.  The device below has a valid
    primary header in block 1 and its position at the backup header. *)
Definition skewed_dev : dev :=
  mkDev (data mini_one_dev) 2560 false false [None; Some 0%nat] [].
Theorem C62_wrong_primary_refuted : exists d g h hb,
  header_at (data d) 512 (Ok h) /\ header_at (data d) 2560 (Ok hb) /\ hb <> h /\
  fst (open_from_device true config_default d) = Ok g /\ g_primary g = Ok hb /\
  ~ no_fault_between d (g_device g).
Proof.
  exists skewed_dev. destruct (fst (open_from_device true config_default skewed_dev)) as [g| |] eqn:E;
    [|vm_compute in E; discriminate|vm_compute in E; discriminate].
  destruct (read_header_at 512 (data skewed_dev)) as [h| |] eqn:E1;
    [|vm_compute in E1; discriminate|vm_compute in E1; discriminate].
  destruct (read_header_at 2560 (data skewed_dev)) as [hb| |] eqn:E2;
    [|vm_compute in E2; discriminate|vm_compute in E2; discriminate].
  exists g, h, hb. split; [rewrite <- E1; apply read_header_at_spec|]. split; [rewrite <- E2; apply read_header_at_spec|].
  vm_compute in E, E1, E2. injection E as <-. injection E1 as <-. injection E2 as <-.
  split; [discriminate|]. split; [reflexivity|]. split; [reflexivity|].
  intros (fs & F & N). cbn in F. rewrite app_nil_r in F. subst fs.
  inversion N as [|? ? _ N']. inversion N' as [|? ? X _]. discriminate X.
Qed.
Print Assumptions C62_wrong_primary_refuted.
(** What is true: whatever fails, the headers reported are valid headers found on the device, and GUID and
    partitions are exactly those of the header in use. *)
Theorem C62_opened_under_faults_partial : forall oc cfg d g d',
  addressable d -> open_from_device oc cfg d = (Ok g, d') ->
  (exists h, header_of g h /\ g_guid g = disk_guid h /\ part_size h = 128 /\
     array_intact (c_lb cfg) h (data d) /\ table_read (c_lb cfg) h (data d) (g_partitions g)) /\
  (forall h, g_primary g = Ok h \/ g_backup g = Ok h -> stored_header (data d) h) /\
  same_medium d (g_device g).
Proof.
  intros oc cfg d g d' A E. destruct (open_stored _ _ _ _ _ E A) as (h & H1 & H2 & H3 & H4 & H5 & H6).
  split; [exists h; auto|]. split; [exact H6|].
  destruct (C10_open_changes_nothing oc cfg d) as (U & _ & G). rewrite E in U, G. cbn [fst snd] in U, G.
  rewrite (G g eq_refl). exact U.
Qed.
Print Assumptions C62_opened_under_faults_partial.
(** And if no operation failed, the result - success or error - is the one on a device without faults,
    to which C11, C12 and C22 apply. *)
Theorem C62_no_fault_partial : forall oc cfg d r d',
  open_from_device oc cfg d = (r, d') -> no_fault_between d d' ->
  open_from_device oc cfg (repaired d) = (repaired_result r, repaired d').
Proof.
  intros oc cfg d r d' E N. rewrite (traced_calm _ _ _ _ _ (tr_open oc cfg) E N). destruct r; reflexivity.
Qed.
Print Assumptions C62_no_fault_partial.
(** The first theorem covers disks opened in spite of faults, the second late faults. *)
Example C62_case : exists g, fst (open_from_device true config_default skewed_dev) = Ok g /\
  map fst (g_partitions g) = [1].
Proof. eexists. split; vm_compute; reflexivity. Qed.
Example C62_late_fault : let d := with_faults (repeat None 40 ++ [Some 0%nat]) mini_one_dev in
  no_fault_between d (snd (open_from_device true config_default d)) /\
  faults (snd (open_from_device true config_default d)) <> [].
Proof.
  split.
  - exists (firstn (40 - (length (faults (snd (open_from_device true config_default
      (with_faults (repeat None 40 ++ [Some 0%nat]) mini_one_dev)))) - 1)) (repeat None 40)).
    split; [vm_compute; reflexivity|]. vm_compute. repeat constructor.
  - vm_compute. discriminate.
Qed.
