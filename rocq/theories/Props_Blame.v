(** Props_Blame.v - property C105: the error of a failed device operation is the error reported. *)
From Verif Require Import BlameFacts TraceFacts Props_Header Props_Fault Props_Success Samples.
Open Scope list_scope.
Open Scope N_scope.

(** C105.  Writing, whatever the disk looks like: either no device operation failed, and the outcome is that without faults,
    or one failed, and its error is reported. *)
Theorem C105_write : forall oc, disk_blames gpt_failed (write_inplace oc).
Proof. exact db_write. Qed.
Print Assumptions C105_write.
Theorem C105_write_back : forall oc g r g', write oc g = (r, g') ->
  no_fault_between (g_device g) (g_device g') /\
    (forall d, r = Ok d -> write oc (repaired_disk g) = (Ok (repaired d), repaired_disk g')) /\
    (forall e, r = Err e -> write oc (repaired_disk g) = (Err e, repaired_disk g')) \/
  fault_between (g_device g) (g_device g') /\ exists e, r = Err e /\ gpt_failed e.
Proof.
  intros oc g r g' H. unfold write, bind in *. destruct (write_inplace oc g) as [o g1] eqn:E.
  destruct (db_write oc _ _ _ E) as [(N1 & R1)|(F & e & -> & He)].
  - rewrite R1. destruct o as [[]|e|]; injection H as <- <-; left; (split; [exact N1|]); split; intros x X; try discriminate X;
      injection X as <-; reflexivity.
  - injection H as <- <-. right. eauto.
Qed.
Print Assumptions C105_write_back.
(** Changing the table in memory (the size of the device is looked up). *)
Theorem C105_changes : forall oc pp nm size ty fl al id first n rnd,
  disk_blames gpt_failed (update_partitions oc pp) /\
  disk_blames gpt_failed (add_partition oc nm size ty fl al rnd) /\
  disk_blames gpt_failed (add_partition_at oc nm id first n ty fl rnd).
Proof. intros. split; [apply db_update_partitions|]. split; [apply db_add|apply db_add_at]. Qed.
Print Assumptions C105_changes.
(** Creating a disk. *)
Theorem C105_create : forall oc cfg u rnd d r d', create_from_device oc cfg u rnd d = (r, d') ->
  no_fault_between d d' /\ create_from_device oc cfg u rnd (repaired d) = (repaired_result r, repaired d') \/
  fault_between d d' /\ exists e, r = Err e /\ gpt_failed e.
Proof.
  intros oc cfg u rnd d r d'. unfold create_from_device. set (g0 := mkGdisk _ d _ _ _ _ _).
  set (g2 := mkGdisk _ (repaired d) _ _ _ _ _). change g2 with (repaired_disk g0).
  destruct (init_headers oc g0) as [o g1] eqn:E1. intros H.
  destruct (db_init oc _ _ _ E1) as [(N1 & R1)|(F & e & -> & He)].
  - rewrite R1. left. destruct o; injection H as <- <-; (split; [exact N1|reflexivity]).
  - injection H as <- <-. right. split; [exact F|eauto].
Qed.
Print Assumptions C105_create.
(** Single entries, headers, the array, and the functions of mbr.rs. *)
Theorem C105_single_calls : forall oc p i start lb n u rnd h m off bs,
  blames io_failed (write_to_device oc p i start lb n) /\
  blames io_failed (write_zero_entries oc i n start lb off) /\
  blames hdr_failed (write_header oc u rnd lb) /\
  blames hdr_failed (find_backup_lba lb) /\
  blames hdr_failed (partentry_checksum h lb) /\
  blames io_failed (file_read_partitions oc h lb) /\
  (forall d r h' d', write_primary h lb d = (r, (h', d')) ->
     no_fault_between d d' /\ write_primary h lb (repaired d) = (r, (h', repaired d')) \/
     fault_between d d' /\ exists e, r = Err e /\ hdr_failed e) /\
  (forall d r h' d', write_backup h lb d = (r, (h', d')) ->
     no_fault_between d d' /\ write_backup h lb (repaired d) = (r, (h', repaired d')) \/
     fault_between d d' /\ exists e, r = Err e /\ hdr_failed e) /\
  blames mbr_failed (mbr_from_disk lb) /\ blames mbr_failed (overwrite_lba0 m) /\ blames mbr_failed (update_conservative m) /\
  blames io_failed (read_at_mbr off n) /\ blames io_failed (write_at_mbr off bs).
Proof.
  intros. repeat split; first [apply bl_write_to|apply bl_write_zero|apply bl_write_header|apply bl_find_backup|apply bl_checksum
    |apply bl_read_partitions|apply bl_write_primary|apply bl_write_backup|apply bl_mbr_from_disk|apply bl_overwrite
    |apply bl_conservative|apply bl_read_at|apply bl_write_at].
Qed.
Print Assumptions C105_single_calls.
(** Opening is different: it does not look at the result of the seek to a header, and so reports a failed seek on a good disk as a
    bad signature. *)
Theorem C105_open_refuted : exists d h g, fault_free d /\ header_at (data d) 512 (Ok h) /\
  fst (open_from_device true strict_config d) = Ok g /\
  fst (open_from_device true strict_config (with_faults [None; Some 0%nat] d)) = Err (GHeader HInvalidGptSignature).
Proof.
  exists saved_dev. destruct (read_header_at 512 (data saved_dev)) as [h| |] eqn:E1;
    [|vm_compute in E1; discriminate|vm_compute in E1; discriminate].
  exists h. eexists. split; [vm_compute; reflexivity|]. split; [rewrite <- E1; apply read_header_at_spec|].
  split; vm_compute; reflexivity.
Qed.
Print Assumptions C105_open_refuted.
(** What opening does after the two headers. *)
Definition open_after (oc : bool) (cfg : config) (h1 h2 : outcome hdr_err header) : M dev gpt_err gdisk :=
  let* hh :=
    (if c_only_valid_headers cfg then
       let* a := lift (omap_err GHeader h1) in
       let* b := lift (omap_err GHeader h2) in
       ret (Ok a, Ok b)
     else match h1, h2 with
          | Err e, Err _ => throw (GHeader e)
          | _, _ => ret (h1, h2)
          end) in
  let (h1, h2) := hh : outcome hdr_err header * outcome hdr_err header in
  let* h := (match or_else h1 h2 with Ok h => ret h | _ => panic end) in
  let* table := map_err GIo (file_read_partitions oc h (c_lb cfg)) in
  fun d => (Ok (mkGdisk cfg d (disk_guid h) h1 h2 table false), d).
(** If reading the headers went without faults, opening too reports what failed. *)
Theorem C105_open_partial : forall oc cfg d r1 d1 r2 d2 r d',
  read_primary_header (c_lb cfg) d = (r1, d1) -> read_backup_header (c_lb cfg) d1 = (r2, d2) ->
  no_fault_between d d1 -> no_fault_between d1 d2 -> open_from_device oc cfg d = (r, d') ->
  no_fault_between d d' /\ open_from_device oc cfg (repaired d) = (repaired_result r, repaired d') \/
  fault_between d d' /\ exists e, r = Err e /\ gpt_failed e.
Proof.
  intros oc cfg d r1 d1 r2 d2 r d' E1 E2 N1 N2.
  pose proof (traced_calm _ _ _ _ _ (tr_primary (c_lb cfg)) E1 N1) as R1. rewrite oval_id in R1.
  pose proof (traced_calm _ _ _ _ _ (tr_backup (c_lb cfg)) E2 N2) as R2. rewrite oval_id in R2.
  assert (N12 : no_fault_between d d2) by (eapply nf_trans; eauto).
  assert (X : forall h x y (d' : dev) r, (let* table := map_err GIo (file_read_partitions oc h (c_lb cfg)) in
      fun d => (Ok (mkGdisk cfg d (disk_guid h) x y table false), d)) d2 = (r, d') ->
    no_fault_between d d' /\ (let* table := map_err GIo (file_read_partitions oc h (c_lb cfg)) in
      fun d => (Ok (mkGdisk cfg d (disk_guid h) x y table false), d)) (repaired d2) = (repaired_result r, repaired d') \/
    fault_between d d' /\ exists e, r = Err e /\ gpt_failed e).
  { intros h x y dd rr. unfold bind, map_err. destruct (file_read_partitions oc h (c_lb cfg) d2) as [o d3] eqn:E3.
    destruct (bl_read_partitions oc h (c_lb cfg) _ _ _ E3) as [(N3 & R3)|(F & e & -> & He)]; intros Q.
    - rewrite R3. left. destruct o; injection Q as <- <-; (split; [eapply nf_trans; eauto|reflexivity]).
    - injection Q as <- <-. right. split; [eapply fb_first; eauto|]. eexists. split; [reflexivity|]. apply map_gpt, He. }
  assert (Y : forall o : outcome gpt_err gdisk, (o, d2) = (r, d') -> (forall g, o <> Ok g) ->
     no_fault_between d d' /\ (o, repaired d2) = (repaired_result r, repaired d') \/
    fault_between d d' /\ exists e, r = Err e /\ gpt_failed e).
  { intros o Q NO. injection Q as <- <-. left. split; [exact N12|]. destruct o; [destruct (NO a); reflexivity|reflexivity..]. }
  assert (P1 : r1 <> Panic).
  { pose proof (proj1 (C07_reading_never_panics (c_lb cfg) d)) as N. rewrite E1 in N. exact N. }
  assert (P2 : r2 <> Panic).
  { pose proof (proj2 (C07_reading_never_panics (c_lb cfg) d1)) as N. rewrite E2 in N. exact N. }
  assert (O : forall x x1 x2, read_primary_header (c_lb cfg) x = (r1, x1) -> read_backup_header (c_lb cfg) x1 = (r2, x2) ->
    open_from_device oc cfg x = open_after oc cfg r1 r2 x2).
  { intros x x1 x2 A B. unfold open_from_device. unfold bind at 1, attempt at 1. rewrite A.
    destruct r1; [| |congruence]; (unfold bind at 1, attempt at 1; rewrite B; destruct r2; [| |congruence]; reflexivity). }
  rewrite (O _ _ _ E1 E2), (O _ _ _ R1 R2). unfold open_after.
  destruct (c_only_valid_headers cfg), r1 as [a|a|], r2 as [b|b|]; try congruence; cbn [omap_err or_else];
    unfold bind, lift, ret, throw; intros Q; try (apply Y; [exact Q|discriminate]); apply X in Q; exact Q.
Qed.
Print Assumptions C105_open_partial.

(** A fault in the 20th and last operation of a write, and one in the second operation of creating a disk. *)
Example C105_cases : fst (write_inplace true (faulty_one 19)) = Err (GIo IoFault) /\
  fst (write_inplace true (faulty_one 0)) = Err (GHeader (HIo IoFault)) /\
  fst (create_from_device true mini_config None sample_guid (with_faults [None; Some 0%nat] mini_dev)) = Err (GHeader (HIo IoFault)).
Proof. vm_compute. repeat split. Qed.
(** A disk whose headers are read and whose array is not: the fault is in the 14th operation. *)
Example C105_open_case : fst (open_from_device true mini_config (with_faults (repeat None 13 ++ [Some 0%nat]) saved_dev)) = Err (GIo IoFault).
Proof. vm_compute. reflexivity. Qed.
