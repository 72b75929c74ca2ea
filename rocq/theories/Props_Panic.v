(** Props_Panic.v - properties C53 and C54: panics when writing, and overflow checks. *)
From Verif Require Import RefineFacts BigFacts MapFacts Samples Props_Alloc.
Open Scope list_scope.
Open Scope N_scope.

(** C13, overflow checks.  On a device of 256 GiB and more open can also panic for a header with
    128-byte entries: more than 2^31 - 1 empty entries overflow the counter of empty entries. *)
Theorem C13_empty_entries_refuted : exists d h,
  fault_free d /\ lenN (data d) = 2 ^ 38 + 1024 /\
  header_at (data d) 512 (Ok h) /\ part_size h = 128 /\ num_parts h = 2 ^ 31 /\
  fst (open_from_device true config_default d) = Panic.
Proof.
  destruct (big_dev_exists) as (z & HZ).
  exists (mkDev (big_start ++ zeros z) 0 false false [] []), (hdr_written big_header 0).
  assert (HL : lenN (big_start ++ zeros z) = 2 ^ 38 + 1024).
  { rewrite lenN_app, lenN_zeros, big_start_len, HZ. reflexivity. }
  split; [reflexivity|]. split; [exact HL|].
  split; [|split; [reflexivity|split; [reflexivity|]]].
  - cbn [data]. rewrite <- (big_header_read (zeros z)) by (rewrite HL; discriminate). apply read_header_at_spec.
  - apply (big_dev_panics z); [exact HZ|reflexivity|reflexivity].
Qed.
Print Assumptions C13_empty_entries_refuted.

(** C53.  The property is false: a header with the largest possible last usable block opens, and
    writing it back panics in a debug build.  In a release build the sum wraps around to block 0, and
    the write reports success having put the "backup" array over the protective MBR. *)
Definition boot_dev : dev := mkDev (repeat xff 512 ++ zeros (N.to_nat 2560)) 0 false false [] [].
Definition huge_header : header := mkHeader EFI_PART 1 0 92 0 0 1 5 3 (2 ^ 64 - 1) sample_guid 2 4 128 0.
Definition huge_dev : dev := snd (snd (write_primary huge_header Lb512 boot_dev)).
Definition huge_disk : gdisk :=
  match fst (open_from_device true mini_config huge_dev) with Ok g => g | _ => mini_disk [] end.
Theorem C53_last_usable_refuted : exists d g d' g',
  fault_free d /\ growable d = false /\ lenN (data d) = 3072 /\
  open_from_device true mini_config d = (Ok g, d') /\ open_from_device false mini_config d = (Ok g, d') /\
  fst (write_inplace true g) = Panic /\
  write_inplace false g = (Ok tt, g') /\
  range 0 512 (data d) = repeat xff 512 /\ range 0 512 (data (g_device g')) = repeat x00 512.
Proof.
  exists huge_dev, huge_disk, (g_device huge_disk), (snd (write_inplace false huge_disk)).
  split; [vm_compute; reflexivity|]. split; [vm_compute; reflexivity|]. split; [vm_compute; reflexivity|].
  split; [vm_compute; reflexivity|]. split; [vm_compute; reflexivity|]. split; [vm_compute; reflexivity|].
  split; [vm_compute; reflexivity|]. split; vm_compute; reflexivity.
Qed.
Print Assumptions C53_last_usable_refuted.

(** In a release build nothing panics after a successful open: not write_inplace and no other call
    with arguments the documentation allows, in any order, whatever the disk holds and whichever I/O
    operations fail. *)
Theorem C53_release_partial : forall cfg d g d' ops,
  open_from_device false cfg d = (Ok g, d') -> Forall args_ok ops ->
  exists g', run false ops g = Some g' /\ fst (write_inplace false g') <> Panic.
Proof.
  intros cfg d g d' ops E F. destruct (release_run ops g F (open_sound _ _ _ _ _ E)) as (g' & R & S).
  exists g'. split; [exact R|]. destruct (so_header g' S) as (h & Hh).
  exact (write_inplace_calm false g' h Hh (sound_wf g' h S Hh) (or_introl eq_refl)).
Qed.
Print Assumptions C53_release_partial.
(** The same for a disk made by create. *)
Theorem C53_release_created_partial : forall cfg u rnd d g d' ops,
  guid_ok (match u with Some u => u | None => rnd end) ->
  create_from_device false cfg u rnd d = (Ok g, d') -> Forall args_ok ops ->
  exists g', run false ops g = Some g' /\ fst (write_inplace false g') <> Panic.
Proof.
  intros cfg u rnd d g d' ops HG E F. destruct (release_run ops g F (create_sound _ _ _ _ _ _ _ HG E)) as (g' & R & S).
  exists g'. split; [exact R|]. destruct (so_header g' S) as (h & Hh).
  exact (write_inplace_calm false g' h Hh (sound_wf g' h S Hh) (or_introl eq_refl)).
Qed.
Print Assumptions C53_release_created_partial.

(** In a debug build, on a device of fixed size: write_inplace does not panic - whichever I/O
    operations fail and whatever partitions are in the table - unless the header in use overflows ... *)
Theorem C53_debug_partial : forall oc g h,
  header_of g h -> header_ok h -> addressable (g_device g) -> growable (g_device g) = false ->
  ~ overflows (c_lb (g_config g)) (c_readonly_backup (g_config g)) h ->
  fst (write_inplace oc g) <> Panic.
Proof. exact no_overflow_calm. Qed.
Print Assumptions C53_debug_partial.
(** ... and without I/O faults it does panic exactly then. *)
Theorem C53_debug_panics_iff_partial : forall g h,
  c_writable (g_config g) = true -> header_of g h -> header_ok h ->
  fault_free (g_device g) -> addressable (g_device g) -> growable (g_device g) = false ->
  3 * lb_u64 (c_lb (g_config g)) <= lenN (data (g_device g)) ->
  (fst (write_inplace true g) = Panic <->
   overflows (c_lb (g_config g)) (c_readonly_backup (g_config g)) h).
Proof.
  intros g h W HH HO FF AD GR L3. split.
  - intros P. assert (ND := no_overflow_calm true g h HH HO AD GR).
    destruct (overflows_dec (c_lb (g_config g)) (c_readonly_backup (g_config g)) h) as [O|O]; [exact O|].
    destruct (ND O P).
  - intros O. apply overflow_panics with h; assumption.
Qed.
Print Assumptions C53_debug_panics_iff_partial.
(** For a disk as opened, on a device of fixed size below 4 GiB, only the two extreme values of the
    header in use are left. *)
Theorem C53_small_disk_partial : forall oc oc' cfg d g d' h,
  growable d = false -> lenN (data d) < 2 ^ 32 ->
  open_from_device oc cfg d = (Ok g, d') -> header_of g h ->
  last_usable h + 1 < 2 ^ 64 -> primary_at h + 1 < 2 ^ 64 ->
  fst (write_inplace oc' g) <> Panic.
Proof.
  intros oc oc' cfg d g d' h GR L E HH LU PA.
  pose proof (untouched_open oc cfg d) as U. rewrite E in U. cbn [snd] in U. destruct U as (U1 & _ & U3 & _).
  destruct (open_room oc cfg d g d' E) as (ED & RM).
  destruct (gives_open oc cfg d g d' E) as [_ _ _ (h' & T & WF & PS & _)].
  assert (HT := HH). rewrite header_of_iff in HT. assert (h' = h) by congruence. subst h'.
  specialize (RM h HT). unfold dev_len in RM. rewrite U1 in RM.
  apply no_overflow_calm with h.
  - exact HH.
  - apply header_ok_iff. exact WF.
  - unfold addressable. rewrite ED, U1. apply N.lt_trans with (2 ^ 32); [exact L|reflexivity].
  - rewrite ED, U3. exact GR.
  - unfold overflows. rewrite PS. intros [O|(_ & _ & [O|(_ & O)])]; lia.
Qed.
Print Assumptions C53_small_disk_partial.
Example C53_cases :
  overflows Lb512 false huge_header /\ ~ overflows Lb512 false mini_header /\
  header_ok huge_header /\ (exists h, header_of huge_disk h /\ last_usable h = 2 ^ 64 - 1 /\ num_parts h = 4) /\
  Forall args_ok [OpAdd [120] 512 (mkType linux_fs OsLinux) 0 (Some 1) sample_guid; OpWrite; OpTake; OpWrite] /\
  fst (write_inplace true (mini_disk [(1, sample_part)])) = Ok tt.
Proof.
  split; [right; vm_compute; repeat split; try discriminate; auto|].
  split; [intros [O|(_ & _ & [O|(_ & O)])]; vm_compute in O; try discriminate; destruct O; reflexivity|].
  split; [constructor; vm_compute; repeat split; discriminate || reflexivity|].
  split; [eexists; split; [left; vm_compute; reflexivity|split; reflexivity]|]. split; [repeat constructor; discriminate|vm_compute; reflexivity].
Qed.

(** C54.  Whatever the state, if the debug build does not panic in a call, the release build returns
    the same result and leaves the same disk in memory and the same device. *)
Theorem C54_debug_determines_release :
  (forall cfg d, fst (open_from_device true cfg d) <> Panic ->
     open_from_device false cfg d = open_from_device true cfg d) /\
  (forall cfg u rnd d, fst (create_from_device true cfg u rnd d) <> Panic ->
     create_from_device false cfg u rnd d = create_from_device true cfg u rnd d) /\
  (forall nm size ty fl al rnd g, fst (add_partition true nm size ty fl al rnd g) <> Panic ->
     add_partition false nm size ty fl al rnd g = add_partition true nm size ty fl al rnd g) /\
  (forall nm id first n ty fl rnd g, fst (add_partition_at true nm id first n ty fl rnd g) <> Panic ->
     add_partition_at false nm id first n ty fl rnd g = add_partition_at true nm id first n ty fl rnd g) /\
  (forall pp g, fst (update_partitions true pp g) <> Panic ->
     update_partitions false pp g = update_partitions true pp g) /\
  (forall g, @find_free_sectors gpt_err true g <> Panic ->
     @find_free_sectors gpt_err false g = find_free_sectors true g) /\
  (forall g, fst (write_inplace true g) <> Panic -> write_inplace false g = write_inplace true g) /\
  (forall u rnd lb d, fst (write_header true u rnd lb d) <> Panic ->
     write_header false u rnd lb d = write_header true u rnd lb d) /\
  (forall b lb, build true b lb <> Panic -> build false b lb = build true b lb).
Proof.
  split; [exact (fun cfg => al_open cfg)|]. split; [exact (fun cfg u rnd => al_create cfg u rnd)|].
  split; [exact (fun nm size ty fl al rnd => al_add nm size ty fl al rnd)|].
  split; [exact (fun nm id first n ty fl rnd => al_add_at nm id first n ty fl rnd)|].
  split; [exact (fun pp => al_update pp)|]. split; [exact (fun g => so_free g)|].
  split; [exact al_write|]. split; [exact (fun u rnd lb => al_write_header u rnd lb)|exact so_build].
Qed.
Print Assumptions C54_debug_determines_release.
Theorem C54_histories : forall ops g g', run true ops g = Some g' -> run false ops g = Some g'.
Proof. exact al_run. Qed.
Print Assumptions C54_histories.

(** On a disk in good order the debug build does not panic in any history of requests whose sizes fit
    in 64 bits, with any I/O faults; so the two builds reach the same state and agree on every next
    call. *)
Lemma fitting_tidy oc lb o : fitting_op lb o -> tidy_op oc lb o.
Proof. destruct o; cbn; auto. intros (_ & A & B). split; [exact A|right; exact B]. Qed.
Lemma fitting_step oc o g h : tidy g h -> c_change_partition_count (g_config g) = false ->
  fitting_op (c_lb (g_config g)) o -> exists g', step oc o g = Some g'.
Proof.
  intros T HC F. assert (K : forall A (m : M gdisk gpt_err A), fst (m g) <> Panic -> exists g', kept (m g) = Some g').
  { intros A m N. destruct (m g) as [[a|e|] g']; cbn in *; eauto. congruence. }
  destruct o; cbn [fitting_op step] in *; try contradiction; try (eexists; reflexivity).
  - apply K. destruct F as (F1 & F2 & F3). apply add_calm with h; assumption.
  - apply K. apply tidy_write_calm with h. exact T.
Qed.
Theorem C54_agree : forall ops g h,
  tidy g h -> c_change_partition_count (g_config g) = false ->
  Forall (fitting_op (c_lb (g_config g))) ops ->
  exists g', run true ops g = Some g' /\ run false ops g = Some g' /\
    write_inplace false g' = write_inplace true g' /\ fst (write_inplace true g') <> Panic /\
    @find_free_sectors gpt_err false g' = find_free_sectors true g' /\
    forall nm size ty fl al rnd, 1 <= size -> 1 <= alignment al ->
      alignment al + blocks_for size (c_lb (g_config g)) < 2 ^ 64 ->
      add_partition false nm size ty fl al rnd g' = add_partition true nm size ty fl al rnd g' /\
      fst (add_partition true nm size ty fl al rnd g') <> Panic.
Proof.
  intros ops. enough (K : forall g h, tidy g h -> c_change_partition_count (g_config g) = false ->
    Forall (fitting_op (c_lb (g_config g))) ops ->
    exists g' h', run true ops g = Some g' /\ tidy g' h' /\ g_config g' = g_config g).
  { intros g h T HC F. destruct (K g h T HC F) as (g' & h' & R & T' & C). exists g'.
    split; [exact R|]. split; [apply al_run, R|]. pose proof (tidy_write_calm true g' h' T') as W.
    split; [apply al_write, W|]. split; [exact W|]. split.
    { apply so_free. destruct T' as [_ A _ B D]. destruct (@find_free_spec gpt_err true g' h' A B D) as (s & -> & _). discriminate. }
    intros nm size ty fl al rnd H1 H2 H3.
    assert (NP : fst (add_partition true nm size ty fl al rnd g') <> Panic).
    { apply add_calm with h'; auto; rewrite C; assumption. }
    split; [apply al_add, NP|exact NP]. }
  induction ops as [|o ops IH]; intros g h T HC F; cbn [run]; [eauto|].
  inversion F as [|a l F1 F2]; subst. destruct (fitting_step true o g h T HC F1) as (g1 & E). rewrite E.
  destruct T as [T1 T2 T3 T4 T5].
  destruct (tidy_step true o g h g1 HC (fitting_tidy _ _ _ F1) T1 T2 T3 T4 T5 E) as (C & L & h1 & A1 & A2 & A3 & A4 & A5 & A6 & A7).
  destruct (IH g1 h1) as (g' & h' & R & T' & C').
  - constructor; auto; [unfold addressable; rewrite L; exact T1|rewrite C, L; exact A2].
  - rewrite C. exact HC.
  - rewrite C. exact F2.
  - exists g', h'. split; [exact R|]. split; [exact T'|]. congruence.
Qed.
Print Assumptions C54_agree.
(** Requests do fit on a sane disk, and outside the hypotheses the builds do differ. *)
Example C54_case :
  Forall (fitting_op Lb512) [OpAdd [120] 1025 (mkType linux_fs OsLinux) 0 (Some 8) sample_guid; OpRemove 1; OpWrite] /\
  match run true [OpAdd [120] 1025 (mkType linux_fs OsLinux) 0 (Some 8) sample_guid; OpRemove 1] (wide_disk two_parts) with
  | Some g => map (fun x => (fst x, first_lba (snd x), last_lba (snd x))) (g_partitions g) = [(2, 56, 58); (3, 50, 50)]
  | None => False
  end.
Proof. split; [repeat constructor; discriminate|vm_compute; reflexivity]. Qed.
Example C54_differ : let o := OpAdd [120] 20480 (mkType linux_fs OsLinux) 0 (Some (2 ^ 64 - 1)) sample_guid in
  step true o (wide_disk two_parts) = None /\ exists g, step false o (wide_disk two_parts) = Some g.
Proof. split; vm_compute; [reflexivity|eexists; reflexivity]. Qed.
