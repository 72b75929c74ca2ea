(** Props_More.v - properties C58-C60: the usable range, partition contents, adding when there is room. *)
From Verif Require Import Props_Open Props_Write Props_Alloc AllocFacts.
Open Scope list_scope.
Open Scope N_scope.

(** C58.  Writing and the usable range.  False: the last usable block is raised to the last block before
    the backup array. *)
Definition seven_header : header := mkHeader EFI_PART 1 0 92 0 0 1 6 3 3 sample_guid 2 4 128 0.
Definition seven_disk : gdisk :=
  mkGdisk mini_config (mkDev (zeros (N.to_nat 3584)) 0 false false [] []) sample_guid (Ok seven_header) (Err HInvalidGptSignature) [] false.
Lemma seven_ready : ready seven_disk seven_header.
Proof.
  constructor; [reflexivity|left; reflexivity|reflexivity| |vm_compute; discriminate|constructor].
  constructor; try reflexivity; vm_compute; discriminate.
Qed.
Theorem C58_last_usable_raised_refuted : exists g h g' g2 h2,
  ready g h /\ fault_free (g_device g) /\ write_inplace true g = (Ok tt, g') /\
  fst (open_from_device true config_default (g_device g')) = Ok g2 /\ header_of g2 h2 /\
  last_usable h = 3 /\ last_usable h2 = 4.
Proof.
  destruct (C17_write_then_open_primary true true seven_disk seven_header config_default seven_ready eq_refl eq_refl eq_refl)
    as (g' & hp & hb & g2 & E & O & [F1 F2 F3 F4 F5 F6 F7 F8 F9] & _ & P & _).
  exists seven_disk, seven_header, g', g2, hp. split; [apply seven_ready|]. split; [reflexivity|]. split; [exact E|].
  split; [exact O|]. split; [left; exact P|]. split; [reflexivity|]. destruct F7 as (-> & _). reflexivity.
Qed.
Print Assumptions C58_last_usable_raised_refuted.
(** The first usable block stays, the last is never lowered, and the range stays clear of the arrays. *)
Theorem C58_usable_range_partial : forall oc oc' g h cfg,
  ready g h -> fault_free (g_device g) -> c_lb cfg = c_lb (g_config g) -> c_only_valid_headers cfg = false ->
  exists g' g2 h2, write_inplace oc g = (Ok tt, g') /\ fst (open_from_device oc' cfg (g_device g')) = Ok g2 /\
    header_of g2 h2 /\ first_usable h2 = first_usable h /\ last_usable h <= last_usable h2 /\
    last_usable h2 = backup_at h - array_blocks (c_lb (g_config g)) h - 1 /\
    2 + array_blocks (c_lb (g_config g)) h <= first_usable h2 /\
    last_usable h2 + array_blocks (c_lb (g_config g)) h + 1 = backup_at h.
Proof.
  intros oc oc' g h cfg HR HF C1 C2.
  destruct (C17_write_then_open_primary oc oc' g h cfg HR HF C1 C2)
    as (g' & hp & hb & g2 & E & O & [F1 F2 F3 F4 F5 F6 F7 F8 F9] & _ & P & _).
  destruct (rd_layout _ _ HR) as [S1 S2 S3 S4 S5 S6 S7 S8]. exists g', g2, hp.
  split; [exact E|]. split; [exact O|]. split; [left; exact P|]. destruct F6 as (-> & _), F7 as (-> & _).
  split; [reflexivity|]. split; [lia|]. split; [reflexivity|]. split; [exact S5|]. lia.
Qed.
Print Assumptions C58_usable_range_partial.
Example C58_case : ready seven_disk seven_header /\ fault_free (g_device seven_disk).
Proof. split; [apply seven_ready|reflexivity]. Qed.

(** C59.  Opening a disk and writing it keeps the contents of its partitions.  False: the header read at
    block 1 may say that it is at block 3, inside the partition.  Then the header is written there, over
    the data, and the copy at block 1 stays as it was. *)
Definition liar_header : header := mkHeader EFI_PART 1 0 92 0 0 3 7 3 5 sample_guid 2 4 128 0.
Definition liar_dev : dev :=
  snd (snd (file_write_header liar_header 1 Lb512
              (mkDev (store 1024 (as_bytes sample_part 128) (zeros (N.to_nat 4096))) 0 false false [] []))).
Theorem C59_contents_overwritten_refuted : exists d g g' p,
  fault_free d /\ lenN (data d) = 4096 /\ fst (open_from_device true mini_config d) = Ok g /\
  g_partitions g = [(1, p)] /\ used p /\ first_lba p = 3 /\ last_lba p = 3 /\
  write_inplace true g = (Ok tt, g') /\
  range (3 * 512) 512 (data (g_device g')) <> range (3 * 512) 512 (data d) /\
  range 512 1024 (data (g_device g')) = range 512 1024 (data d).
Proof.
  exists liar_dev. eexists _, _, _. split; [vm_compute; reflexivity|]. split; [vm_compute; reflexivity|].
  split; [vm_compute; reflexivity|]. split; [reflexivity|]. split; [discriminate|]. do 2 (split; [reflexivity|]).
  split; [vm_compute; reflexivity|]. split; [vm_compute; discriminate|]. vm_compute. reflexivity.
Qed.
Print Assumptions C59_contents_overwritten_refuted.
(** It holds if the header opened describes a sane layout (whatever I/O faults occur while writing),
    for every partition in the usable range. *)
Theorem C59_contents_kept_partial : forall oc oc' cfg d r1 r2 h g k p i fs,
  fault_free d -> addressable d -> c_only_valid_headers cfg = false ->
  header_at (data d) (lb_u64 (c_lb cfg)) r1 -> backup_header_at (c_lb cfg) d r2 ->
  r1 = Ok h \/ (exists e, r1 = Err e) /\ r2 = Ok h -> countable oc h (data d) ->
  layout_ok (c_lb cfg) (lenN (data d)) h ->
  fst (open_from_device oc cfg d) = Ok g -> has (g_partitions g) k p ->
  first_usable h <= first_lba p -> last_lba p <= last_usable h ->
  let L := lb_u64 (c_lb cfg) in
  first_lba p * L <= i < (last_lba p + 1) * L ->
  byte_no (data (g_device (snd (write_inplace oc' (set_device (with_faults fs (g_device g)) g))))) i = byte_no (data d) i.
Proof.
  intros oc oc' cfg d r1 r2 h g k p i fs HF HA HV R1 R2 HH NP LO E HP FU LU L Hi.
  pose proof (C11_header_used oc cfg d r1 r2 h HF HA HV R1 R2 HH (lo_psize _ _ _ LO) NP) as O. rewrite E in O.
  destruct O as (_ & _ & O1 & O2 & O3 & O4 & (D & _) & _).
  set (g1 := set_device _ g).
  assert (H1 : header_of g1 h).
  { destruct HH as [->|((e & ->) & ->)]; [left; exact O3|right]. split; [|exact O4]. intros h'. cbn. rewrite O3. discriminate. }
  rewrite <- D. apply (C16_usable_area_preserved oc' g1 h i H1); cbn [g1 set_device g_device g_config with_faults data].
  - unfold addressable in *. cbn [with_faults data]. rewrite D. exact HA.
  - rewrite D, O1. exact LO.
  - rewrite O1. fold L. right. left. pose proof (lb_pos (c_lb cfg)). unfold L in *. split; nia.
Qed.
Print Assumptions C59_contents_kept_partial.
Example C59_case : match fst (open_from_device true config_default mini_one_dev) with
  | Ok g => match g_primary g with
            | Ok h => match g_partitions g with
                      | [(k, p)] => first_usable h <= first_lba p /\ last_lba p <= last_usable h /\ num_parts h < 2 ^ 31 /\ plba h = 1
                      | _ => False
                      end
            | _ => False
            end
  | _ => False
  end.
Proof. vm_compute. repeat split; discriminate. Qed.

(** C60.  Adding a partition when there is room and a free id.  False: a disk with fewer than 128 entries
    takes no partition without permission to change the count, though it has free entries. *)
Theorem C60_small_table_refuted : exists g h,
  tidy g h /\ (forall k, ~ is_in_use k (g_partitions g)) /\ num_parts h = 4 /\ fits_at h (g_partitions g) 1 1 3 /\
  fst (add_partition true [] 512 (mkType linux_fs OsLinux) 0 None sample_guid g) = Err GPartitionCountWouldChange.
Proof.
  exists (mini_disk []), mini_header. split.
  { constructor; [apply mini_addressable|apply mini_header_of|apply mini_layout| |apply arranged_nil].
    split; [discriminate|]. split; [discriminate|reflexivity]. }
  split; [intros k (p & [] & _)|]. split; [reflexivity|]. split; [|vm_compute; reflexivity].
  split; [reflexivity|]. intros x Hx. split; [cbn; lia|]. intros k p [].
Qed.
Print Assumptions C60_small_table_refuted.
(** With at least 128 entries it always works: the lowest free id, the lowest place that fits, and
    nothing else changes. *)
Theorem C60_added_partial : forall oc nm size ty fl al rnd g h k s,
  header_of g h -> usable_ok h -> arranged h (g_partitions g) -> c_change_partition_count (g_config g) = false ->
  128 <= num_parts h -> num_parts h + 1 < 2 ^ 32 -> 1 <= size ->
  let n := blocks_for size (c_lb (g_config g)) in
  1 <= alignment al -> alignment al + n < 2 ^ 64 ->
  1 <= k <= num_parts h -> ~ is_in_use k (g_partitions g) -> fits_at h (g_partitions g) n (alignment al) s ->
  exists id start m', add_partition oc nm size ty fl al rnd g = (Ok id, set_partitions m' g) /\
    smallest (fun k => 1 <= k <= num_parts h /\ ~ is_in_use k (g_partitions g)) id /\
    smallest (fits_at h (g_partitions g) n (alignment al)) start /\
    placed (g_partitions g) id (mkPart ty rnd start (start + n - 1) fl nm) m'.
Proof.
  intros oc nm size ty fl al rnd g h k s HH HU HA HC N1 N2 HS n A1 A2 HK HI HF.
  destruct (add_partition_choose oc nm size ty fl al rnd g h HH HU HA HS) as [(start & S & E)|[(X & _)|(X & _)]].
  - split; [exact A1|right; exact A2].
  - fold n in S, E. destruct (finish_add_fixed oc nm n ty fl rnd start g h HH (ar_map _ _ HA) N1 N2 HC) as [(id & I & F)|(F & _)].
    + exists id, start. eexists. split; [rewrite E; exact F|]. split; [exact I|]. split; [exact S|]. apply placed_insert, HA.
    + destruct (HI (F k HK)).
  - destruct (X s HF).
  - fold n in X. lia.
Qed.
Print Assumptions C60_added_partial.
Example C60_case : fits_at wide_header two_parts 3 8 56 /\ ~ is_in_use 2 two_parts /\ 128 <= num_parts wide_header.
Proof.
  split; [|split; [|discriminate]].
  - split; [reflexivity|]. intros x Hx. split; [cbn; lia|].
    intros k p [E|[E|[]]] _; injection E as <- <-; unfold covers; cbn; lia.
  - intros (p & [E|[E|[]]] & _); discriminate.
Qed.
