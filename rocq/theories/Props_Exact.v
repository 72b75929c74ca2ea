(** Props_Exact.v - what a call leaves behind, to the byte, where the other theorems on the property only bound it. *)
From Verif Require Import Spec SpecFacts TableFacts EntryFacts AllocFacts Samples Props_Entry Props_Panic.
Open Scope list_scope.
Open Scope N_scope.

(** C04.  Writing an entry that lies within the device, without faults: it succeeds, the entry is there in the standard
    layout and nothing else changed.  [Partition::write] is the same with entries of 128 bytes. *)
Theorem C04_written : forall oc p i start lb d,
  let off := start * lb_u64 lb + i * 128 in
  partition_ok p -> fault_free d -> addressable d -> off + 128 <= lenN (data d) ->
  exists d', partition_write oc p i start lb d = (Ok tt, d') /\ write_to_device oc p i start lb 128 d = (Ok tt, d') /\
    entry_bytes (range off 128 (data d')) p /\ fault_free d' /\
    changed_only_in (between off (off + 128)) (data d) (data d').
Proof.
  intros oc p i start lb d off P F A L.
  destruct (write_to_device_ok oc p i start lb 128 d F L) as (q & E); [apply addressable_iff, A|].
  pose proof (C04_entry_write_frame_partial oc p i start lb 128 d) as W. cbn zeta in W. fold off in W. rewrite E in W. cbn [snd] in W.
  eexists. split; [exact E|]. split; [exact E|]. split; [|split; [exact F|apply W; [|exact L]]].
  - cbn [data set_data]. fold off. rewrite range_slice. 
    rewrite slice_store_same by (symmetry; apply as_bytes_lenN).
    apply C03_entry_layout, P.
  - unfold addressable in A. lia.
Qed.
Print Assumptions C04_written.
Example C04_written_case : partition_ok sample_part /\ fault_free mini_dev /\ addressable mini_dev /\ 2 * lb_u64 Lb512 + 3 * 128 + 128 <= lenN (data mini_dev).
Proof. split; [exact sample_part_ok|]. split; [exact mini_fault_free|]. split; [unfold addressable|]; vm_compute; congruence. Qed.

(** C42.  If the device cannot say where it stands and otherwise works, the header is read all the same and the device
    stands at its start afterwards. *)
Theorem C42_position_unknown : forall lb d n, faults d = [Some n] ->
  fst (read_primary_header lb d) = fst (read_primary_header lb (repaired d)) /\ data (snd (read_primary_header lb d)) = data d /\
  pos (snd (read_primary_header lb d)) = 0.
Proof.
  intros lb d n F. assert (H0 : healthy (repaired d)) by reflexivity.
  assert (E : read_primary_header lb d = (read_header_at (lb_u64 lb) (data d), set_pos (repaired d) 0)).
  { assert (T : attempt (F := hdr_err) stream_position d = (Ok (Err IoFault), repaired d)).
    { unfold attempt, stream_position, tick. rewrite F. reflexivity. }
    unfold read_primary_header, stream_position_or_0. unfold bind at 1 2. rewrite T. cbn [ret]. unfold bind at 1.
    destruct (file_read_header_ok (lb_u64 lb) (repaired d) H0) as (p & R). pose proof (read_header_at_no_panic (lb_u64 lb) (data d)) as NP.
    change (data (repaired d)) with (data d) in *. unfold attempt at 1. rewrite R.
    destruct (read_header_at (lb_u64 lb) (data d)) as [h|e|]; [| |contradiction];
      unfold bind, attempt; rewrite seek_start_ok by (apply healthy_set_pos; exact H0); reflexivity. }
  rewrite E, (read_primary_header_ok lb (repaired d) H0). auto.
Qed.
Print Assumptions C42_position_unknown.
(** The sample disk, standing at its sixth byte: *)
Definition lost_dev : dev := mkDev (data (g_device (snd (write_inplace true (mini_disk [(1, sample_part)]))))) 5 false false [Some 0%nat] [].
Definition lost_read : bool * N := (match fst (read_primary_header Lb512 lost_dev) with Ok _ => true | _ => false end, pos (snd (read_primary_header Lb512 lost_dev))).
Example C42_lost_case : faults lost_dev = [Some 0%nat] /\ lost_read = (true, 0).
Proof. vm_compute. split; reflexivity. Qed.

(** C25.  Without overflow checks, on a disk whose header says that block 0 is usable and that has no used partitions:
    the one section reported as free is what lies beyond the usable range - none of its blocks is usable. *)
Theorem C25_first_zero_refuted : forall g h, header_of g h -> first_usable h = 0 -> last_usable h + 3 < 2 ^ 64 ->
  spans (g_partitions g) = [] ->
  @find_free_sectors gpt_err false g = Ok [(last_usable h + 2, 2 ^ 64 - 3 - last_usable h)] /\
  ~ (exists x, between (last_usable h + 2) (2 ^ 64 - 1) x /\ free_lba h (g_partitions g) x) /\
  (exists x, free_lba h (g_partitions g) x).
Proof.
  intros g h H Z B S. assert (U : used_parts (g_partitions g) = []).
  { unfold spans in S. apply map_eq_nil in S. rewrite used_in_order_eq in S. apply map_eq_nil in S. exact S. }
  split; [|split].
  - unfold find_free_sectors. rewrite (the_header_of g h H). cbn [obind]. rewrite U, Z. cbn [flat_map app].
    unfold subw at 1. change (1 <=? 0) with false. cbv iota. rewrite two64.
    change ((0 + 2 ^ 64 - 1) mod 2 ^ 64) with (2 ^ 64 - 1). cbn [obind].
    rewrite addw_ok by (rewrite two64; lia). cbn [obind sort_N fold_right insert_sorted].
    destruct (N.leb_spec (2 ^ 64 - 1) (last_usable h + 1)) as [Q|Q]; [lia|]. cbn [free_chunks].
    rewrite addw_ok by (rewrite two64; lia). cbn [obind]. rewrite subw_ok by lia. cbn [obind].
    destruct (N.leb_spec (last_usable h + 1 + 1) (2 ^ 64 - 1 - 1)) as [W|W]; [|lia].
    rewrite subw_ok by lia. cbn [obind]. rewrite addw_ok by (rewrite two64; lia). cbn [obind]. do 3 f_equal; lia.
  - intros (x & X & (_ & Y) & _). unfold between in X. lia.
  - exists 0. split; [lia|]. intros k p K UP. exfalso.
    assert (In (k, p) (used_parts (g_partitions g))) as Q; [|rewrite U in Q; exact Q].
    apply filter_In. split; [exact K|]. apply used_is, UP.
Qed.
Print Assumptions C25_first_zero_refuted.
(** Such a disk can be opened: block 0 and up to block 3 usable, six blocks, no partitions.  The section reported begins at
    block 5, the place of the backup header. *)
Definition low_header : header := mkHeader EFI_PART 1 0 92 0 0 1 5 0 3 sample_guid 2 4 128 0.
Definition low_dev : dev := snd (snd (write_primary low_header Lb512 boot_dev)).
Definition low_disk : gdisk := match fst (open_from_device false mini_config low_dev) with Ok g => g | _ => mini_disk [] end.
Example C25_low_case : fault_free low_dev /\ fst (open_from_device false mini_config low_dev) = Ok low_disk /\
  (exists h, header_of low_disk h /\ first_usable h = 0 /\ last_usable h = 3 /\ backup_lba h = 5) /\ spans (g_partitions low_disk) = [] /\
  @find_free_sectors gpt_err false low_disk = Ok [(5, 2 ^ 64 - 6)].
Proof.
  split; [vm_compute; reflexivity|]. split; [vm_compute; reflexivity|]. split; [|split; [|split]; vm_compute; reflexivity].
  eexists. split; [rewrite header_of_iff; vm_compute; reflexivity|]. vm_compute. auto.
Qed.

(** C31.  On such a disk every span of usable blocks is refused, although all of them are free: with overflow checks the
    call panics, without them it finds no room. *)
Theorem C31_first_zero_refuted : forall oc nm id first n ty fl rnd g h,
  header_of g h -> first_usable h = 0 -> last_usable h + 3 < 2 ^ 64 -> spans (g_partitions g) = [] -> map_ok (g_partitions g) ->
  1 <= id -> 1 <= n -> first + n <= last_usable h + 1 ->
  free_run h (g_partitions g) first n /\
  fst (add_partition_at oc nm id first n ty fl rnd g) = (if oc then Panic else Err GNotEnoughSpace).
Proof.
  intros oc nm id first n ty fl rnd g h H Z B S MO I1 N1 L.
  assert (NU : forall k p, has (g_partitions g) k p -> ~ used p).
  { intros k p K U. unfold spans in S. apply map_eq_nil in S. rewrite used_in_order_eq in S. apply map_eq_nil in S.
    assert (Q : In (k, p) (used_parts (g_partitions g))) by (apply filter_In; split; [exact K|apply used_is, U]). rewrite S in Q. exact Q. }
  split.
  - intros x X. split; [lia|]. intros k p K U. exfalso. exact (NU k p K U).
  - unfold add_partition_at. replace (n =? 0) with false by (symmetry; apply N.eqb_neq; lia).
    replace (id =? 0) with false by (symmetry; apply N.eqb_neq; lia).
    assert (G : match pm_get id (g_partitions g) with Some p => is_used p | None => false end = false).
    { match goal with |- ?x = false => destruct x eqn:E; [exfalso|reflexivity] end.
      apply (in_use_get _ _ MO) in E. destruct E as (p & K & U). exact (NU _ _ K U). }
    rewrite G. unfold bind. destruct oc.
    + unfold find_free_sectors. rewrite (the_header_of g h H). cbn [obind]. rewrite Z. reflexivity.
    + destruct (C25_first_zero_refuted g h H Z B S) as (-> & _). cbn [add_at_in_sections].
      destruct (N.leb_spec (last_usable h + 2) first); [lia|]. reflexivity.
Qed.
Print Assumptions C31_first_zero_refuted.
Example C31_low_case : free_run low_header (g_partitions low_disk) 3 1 /\
  fst (add_partition_at true [] 1 3 1 (mkType linux_fs OsLinux) 0 sample_guid low_disk) = Panic /\
  fst (add_partition_at false [] 1 3 1 (mkType linux_fs OsLinux) 0 sample_guid low_disk) = Err GNotEnoughSpace.
Proof.
  split; [|split; vm_compute; reflexivity]. intros x X. split; [cbn; lia|]. vm_compute. intros k p [].
Qed.
