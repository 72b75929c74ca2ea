(** Props_Query.v - calls that only look at a disk. *)
From Verif Require Import Samples QueryFacts Props_Panic.
Open Scope list_scope.
Open Scope N_scope.

(** * C65: looking at an opened disk does not panic *)
(** False in a debug build: a disk whose header has the largest possible last usable block opens, and asking
    for free space panics.  So does the first request for a partition. *)
Theorem C65_find_free_refuted : exists d g d',
  fault_free d /\ lenN (data d) = 3072 /\ open_from_device true mini_config d = (Ok g, d') /\
  @find_free_sectors gpt_err true g = Panic /\
  fst (add_partition true [120] 512 (mkType linux_fs OsLinux) 0 None sample_guid g) = Panic.
Proof.
  exists huge_dev, huge_disk, (g_device huge_disk).
  split; [vm_compute; reflexivity|]. split; [vm_compute; reflexivity|]. split; [vm_compute; reflexivity|].
  split; vm_compute; reflexivity.
Qed.
Print Assumptions C65_find_free_refuted.
(** Exactly when it panics, for any header and any partitions: an end of the usable range is at the end of
    the range of numbers, or two of the edges of free space coincide at 0 or at the largest number. *)
Theorem C65_free_panics_iff_partial : forall g h,
  header_of g h -> fields_fit h (g_partitions g) ->
  (@find_free_sectors gpt_err true g = Panic <->
   first_usable h = 0 \/ last_usable h = 2 ^ 64 - 1 \/
   at_least_two 0 (edges h (g_partitions g)) \/ at_least_two (2 ^ 64 - 1) (edges h (g_partitions g))).
Proof. intros g h. apply find_free_panics. Qed.
Print Assumptions C65_free_panics_iff_partial.
(** Everything else holds in both builds after any history of calls: there is a header to look at, the next
    id can be asked for, and without overflow checks the free space too.  (The remaining calls are total
    functions of the state: they cannot panic.) *)
Theorem C65_opened_partial : forall oc cfg d g d' ops g',
  open_from_device oc cfg d = (Ok g, d') -> Forall args_ok ops -> run oc ops g = Some g' ->
  exists h, header_of g' h /\ @the_header gpt_err g' = Ok h /\
    (exists r, @find_next_partition_id gpt_err g' = Ok r) /\
    exists s, @find_free_sectors gpt_err false g' = Ok s.
Proof.
  intros oc cfg d g d' ops g' E F R. apply sound_queries. eapply sound_run; eauto. eapply open_sound, E.
Qed.
Print Assumptions C65_opened_partial.
Theorem C65_created_partial : forall oc cfg u rnd d g d' ops g',
  guid_ok (match u with Some u => u | None => rnd end) ->
  create_from_device oc cfg u rnd d = (Ok g, d') -> Forall args_ok ops -> run oc ops g = Some g' ->
  exists h, header_of g' h /\ @the_header gpt_err g' = Ok h /\
    (exists r, @find_next_partition_id gpt_err g' = Ok r) /\
    exists s, @find_free_sectors gpt_err false g' = Ok s.
Proof.
  intros oc cfg u rnd d g d' ops g' HG E F R. apply sound_queries. eapply sound_run; eauto. eapply create_sound; eauto.
Qed.
Print Assumptions C65_created_partial.
(** Cases: a header with first usable block 1 and two partitions starting at block 0. *)
Definition low_header : header := mkHeader EFI_PART 1 0 92 0 0 1 93 1 60 sample_guid 2 128 128 0.
Definition low_disk (m : pmap) : gdisk :=
  mkGdisk mini_config (mkDev [] 0 false false [] []) sample_guid (Ok low_header) (Err HInvalidGptSignature) m false.
Example C65_cases :
  header_of (low_disk [(1, part_at 0 5)]) low_header /\ fields_fit low_header [(1, part_at 0 5)] /\
  at_least_two 0 (edges low_header [(1, part_at 0 5)]) /\
  @find_free_sectors gpt_err true (low_disk [(1, part_at 0 5)]) = Panic /\
  @find_free_sectors gpt_err true (low_disk [(1, part_at 1 5)]) = Ok [(6, 55)] /\
  @find_free_sectors gpt_err true (wide_disk two_parts) = Ok [(34, 6); (45, 5); (51, 10)].
Proof.
  split; [left; reflexivity|]. split.
  - split; [reflexivity|]. split; [reflexivity|]. intros k p [E|[]]. injection E as <- <-. split; reflexivity.
  - split; [vm_compute; apply le_n|]. repeat split.
Qed.
