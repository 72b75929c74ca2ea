(** Props_Refuse.v - properties C72 to C74: calls that are refused. *)
From Verif Require Import RefuseFacts Props_Write Props_Mbr.
Open Scope list_scope.
Open Scope N_scope.

Lemma plba_at h : plba h = primary_at h.
Proof. unfold plba, primary_at, builder_from_header. cbn. destruct (N.ltb_spec (current_lba h) (backup_lba h)); lia. Qed.
(** C72.  False: where the table has to grow and there is no room, add_partition and update_partitions return
    an error although the table in memory has been changed. *)
Definition small_disk (m : pmap) : gdisk :=
  mkGdisk (mkConfig Lb512 true false false true) mini_dev sample_guid (Ok mini_header) (Err HInvalidGptSignature) m false.
Theorem C72_failed_add_refuted : exists g h nm size ty fl rnd e g' id p,
  ready g h /\ fault_free (g_device g) /\ g_partitions g = [] /\
  add_partition true nm size ty fl None rnd g = (Err e, g') /\ g_partitions g' = [(id, p)].
Proof.
  exists (small_disk []), mini_header, [120], 512, (mkType linux_fs OsLinux), 0, other_guid. eexists _, _, _, _.
  split. { destruct mini_ready as [A B C D E F]. constructor; auto; try (vm_compute; discriminate). constructor. }
  split; [reflexivity|]. split; [reflexivity|]. split; vm_compute; reflexivity.
Qed.
Print Assumptions C72_failed_add_refuted.
Theorem C72_failed_update_refuted : exists g h pp e g',
  ready g h /\ fault_free (g_device g) /\ g_partitions g = [] /\ pp <> [] /\
  update_partitions true pp g = (Err e, g') /\ g_partitions g' = pp.
Proof.
  exists (small_disk []), mini_header, [(1, sample_part)]. eexists _, _.
  split. { destruct mini_ready as [A B C D E F]. constructor; auto; try (vm_compute; discriminate). constructor. }
  split; [reflexivity|]. split; [reflexivity|]. split; [discriminate|]. split; vm_compute; reflexivity.
Qed.
Print Assumptions C72_failed_update_refuted.
(** Every other error of these calls - NotEnoughSpace, PartitionIdAlreadyUsed, PartitionCountWouldChange, ... -
    leaves the whole disk as it was, in every state and under all faults. *)
Theorem C72_refused_partial : forall oc g e g',
  (exists nm size ty fl al rnd, add_partition oc nm size ty fl al rnd g = (Err e, g')) \/
  (exists nm id first len ty fl rnd, add_partition_at oc nm id first len ty fl rnd g = (Err e, g')) \/
  (exists pp, update_partitions oc pp g = (Err e, g')) ->
  (forall x, e <> GHeader x) -> g' = g.
Proof.
  intros oc g e g' H NH.
  assert (X : header_error e \/ g' = g).
  { destruct H as [(nm & size & ty & fl & al & rnd & H)|[(nm & id & first & len & ty & fl & rnd & H)|(pp & H)]].
    - eapply shy_add; exact H.
    - eapply shy_add_at; exact H.
    - eapply shy_update; exact H. }
  destruct X as [(x & X)|X]; [|exact X]. exfalso. exact (NH x X).
Qed.
Print Assumptions C72_refused_partial.
(** Without change_partition_count no error of adding changes anything. *)
Theorem C72_fixed_count_partial : forall oc g e g',
  c_change_partition_count (g_config g) = false ->
  (exists nm size ty fl al rnd, add_partition oc nm size ty fl al rnd g = (Err e, g')) \/
  (exists nm id first len ty fl rnd, add_partition_at oc nm id first len ty fl rnd g = (Err e, g')) -> g' = g.
Proof.
  intros oc g e g' HC [(nm & size & ty & fl & al & rnd & H)|(nm & id & first & len & ty & fl & rnd & H)].
  - destruct (add_fixed oc nm size ty fl al rnd g HC) as [X|(i & p & h & _ & _ & _ & X)]; rewrite H in X; [exact X|discriminate].
  - destruct (add_at_fixed oc nm id first len ty fl rnd g HC) as [X|(i & p & h & _ & _ & _ & X)]; rewrite H in X; [exact X|discriminate].
Qed.
Print Assumptions C72_fixed_count_partial.
(** A write, however it ends, leaves table, GUID and settings in memory alone. *)
Theorem C72_write : forall oc g r g', write_inplace oc g = (r, g') ->
  g_partitions g' = g_partitions g /\ g_guid g' = g_guid g /\ g_config g' = g_config g /\ g_sync g' = g_sync g.
Proof.
  intros oc g r g' E. pose proof (wo_write oc g) as (A & B & C & D). rewrite E in A, B, C, D. cbn [snd] in *. auto.
Qed.
Print Assumptions C72_write.
Example C72_case : add_partition true [120] 5120 (mkType linux_fs OsLinux) 0 None other_guid (mini_disk [(1, sample_part)]) =
  (Err GNotEnoughSpace, mini_disk [(1, sample_part)]).
Proof. vm_compute. reflexivity. Qed.

(** C73.  update_partitions: a table with an id 0 panics, one that needs more entries than there are is refused
    unless that is allowed - both leave the disk alone ... *)
Theorem C73_refused : forall oc pp g h, header_of g h -> map_ok pp -> lenN pp < 2 ^ 32 ->
  ((exists p, has pp 0 p) -> update_partitions oc pp g = (Panic, g)) /\
  ((forall p, ~ has pp 0 p) -> num_parts h < N.max (lenN pp) 128 -> c_change_partition_count (g_config g) = false ->
   update_partitions oc pp g = (Err GPartitionCountWouldChange, g)).
Proof.
  intros oc pp g h HH MO L. unfold update_partitions. split.
  - intros (p & H). apply (pm_get_some pp MO) in H. unfold bind at 1. rewrite H. reflexivity.
  - intros H W HC. apply (pm_get_none pp MO) in H. unfold bind at 1. rewrite H. cbn [ret].
    unfold bind at 1, check_count. rewrite (the_header_of g h HH). cbn [obind].
    rewrite N.mod_small by (rewrite two32; exact L). rewrite (proj2 (would_change_iff h (lenN pp)) W), HC. reflexivity.
Qed.
Print Assumptions C73_refused.
(** ... and if it succeeds, in whatever state and whatever the device does, the table is exactly the one given,
    the device is not written, and the headers are those of a disk with that number of entries whose backup is
    in the last block. *)
Theorem C73_accepted : forall oc pp g h g', header_of g h -> map_ok pp -> lenN pp < 2 ^ 32 ->
  update_partitions oc pp g = (Ok tt, g') ->
  (forall p, ~ has pp 0 p) /\
  (c_change_partition_count (g_config g) = true \/ N.max (lenN pp) 128 <= num_parts h) /\
  g_partitions g' = pp /\ g_guid g' = g_guid g /\ g_config g' = g_config g /\ g_sync g' = g_sync g /\
  same_medium (g_device g) (g_device g') /\
  exists hp, g_primary g' = Ok hp /\ num_parts hp = N.max (lenN pp) 128 /\ disk_guid hp = g_guid g /\
    part_size hp = part_size h /\ current_lba hp = primary_at h /\
    backup_lba hp = last_whole_block (c_lb (g_config g)) (g_device g) /\
    first_usable h <= first_usable hp <= last_usable hp /\ last_usable h <= last_usable hp /\
    (c_readonly_backup (g_config g) = true -> g_backup g' = g_backup g) /\
    (c_readonly_backup (g_config g) = false -> exists hb, g_backup g' = Ok hb /\ mirrored hp hb).
Proof.
  intros oc pp g h g' HH MO L. unfold update_partitions. unfold bind at 1.
  destruct (pm_get 0 pp) eqn:Z; [discriminate|]. cbn [ret]. unfold bind at 1, check_count.
  rewrite (the_header_of g h HH). cbn [obind]. rewrite N.mod_small by (rewrite two32; exact L).
  destruct (num_parts_would_change h (lenN pp)) eqn:W.
  - destruct (c_change_partition_count (g_config g)) eqn:HC; cbn [andb negb]; [|discriminate].
    unfold bind. intros E. apply (init_success oc (set_partitions pp g) h) in E; [|exact HH].
    destruct E as (U & E2 & E3 & E4 & E5 & hp & P1 & P2 & P3 & P4 & P5 & P6 & P7 & P8 & P9 & Q).
    split; [apply pm_get_none; auto|]. split; [left; reflexivity|]. do 4 (split; [assumption|]).
    split; [apply same_medium_of; exact U|]. exists hp. split; [exact P1|].
    split; [rewrite P2; unfold next_count; cbn [g_partitions set_partitions]; rewrite N.mod_small by (rewrite two32; exact L); reflexivity|].
    split; [exact P3|]. split; [exact P4|]. split; [rewrite P6; apply plba_at|].
    split; [exact P5|]. split; [split; [exact P7|exact P9]|]. split; [exact P8|exact Q].
  - cbn [andb]. unfold bind. intros E. apply (init_success oc (set_partitions pp g) h) in E; [|exact HH].
    destruct E as (U & E2 & E3 & E4 & E5 & hp & P1 & P2 & P3 & P4 & P5 & P6 & P7 & P8 & P9 & Q).
    split; [apply pm_get_none; auto|]. split.
    { right. apply N.nlt_ge. intros X. apply would_change_iff in X. congruence. }
    do 4 (split; [assumption|]).
    split; [apply same_medium_of; exact U|]. exists hp. split; [exact P1|].
    split; [rewrite P2; unfold next_count; cbn [g_partitions set_partitions]; rewrite N.mod_small by (rewrite two32; exact L); reflexivity|].
    split; [exact P3|]. split; [exact P4|]. split; [rewrite P6; apply plba_at|].
    split; [exact P5|]. split; [split; [exact P7|exact P9]|]. split; [exact P8|exact Q].
Qed.
Print Assumptions C73_accepted.
Definition roomy_disk : gdisk :=
  mkGdisk mini_config wide_dev sample_guid (Ok wide_header) (Err HInvalidGptSignature) [] false.
Example C73_case : match update_partitions true [(0, sample_part)] roomy_disk with (Panic, _) => True | _ => False end /\
  match update_partitions true [(7, sample_part)] roomy_disk with
  | (Ok _, g') => g_partitions g' = [(7, sample_part)]
  | _ => False
  end.
Proof. split; vm_compute; auto. Qed.

(** C74.  On a device of fewer than three blocks nothing can be created or written and nothing is changed: exactly
    this error without faults ... *)
Theorem C74_too_small : forall oc g, fault_free (g_device g) ->
  lenN (data (g_device g)) < 3 * lb_u64 (c_lb (g_config g)) -> c_writable (g_config g) = true ->
  write_inplace oc g = (Err (GHeader HToSmallForBackup), g) /\
  (forall pp h, header_of g h -> map_ok pp -> (forall p, ~ has pp 0 p) ->
     c_change_partition_count (g_config g) = true \/ N.max (lenN pp) 128 <= num_parts h -> lenN pp < 2 ^ 32 ->
     exists g', update_partitions oc pp g = (Err (GHeader HToSmallForBackup), g') /\ g_device g' = g_device g) /\
  (forall u rnd, create_from_device oc (g_config g) u rnd (g_device g) = (Err (GHeader HToSmallForBackup), g_device g)) /\
  (forall u rnd, write_header oc u rnd (c_lb (g_config g)) (g_device g) = (Err HToSmallForBackup, g_device g)) /\
  read_backup_header (c_lb (g_config g)) (g_device g) = (Err HToSmallForBackup, g_device g).
Proof.
  intros oc g HF HL HW.
  assert (F : find_backup_lba (c_lb (g_config g)) (g_device g) = (Err HToSmallForBackup, g_device g)).
  { rewrite find_backup_lba_ok by exact HF. replace (dev_len (g_device g) <? _) with true; [reflexivity|].
    symmetry. apply N.ltb_lt. unfold dev_len. lia. }
  assert (SD : set_device (g_device g) g = g) by (destruct g; reflexivity).
  assert (IN : forall g1, g_device g1 = g_device g -> g_config g1 = g_config g ->
     init_headers oc g1 = (Err (GHeader HToSmallForBackup), g1)).
  { intros g1 D1 C1. unfold init_headers, bind, on_device, map_err. rewrite D1, C1, F. cbn [omap_err].
    rewrite <- D1. destruct g1; reflexivity. }
  split.
  { unfold write_inplace. rewrite HW. cbn [negb]. unfold bind, on_device, map_err. rewrite F. cbn [omap_err]. rewrite SD. reflexivity. }
  split.
  { intros pp h HH MO NZ HC L. exists (set_partitions pp g). unfold update_partitions. unfold bind at 1.
    rewrite (proj2 (pm_get_none pp MO 0) NZ). cbn [ret]. unfold bind at 1, check_count.
    rewrite (the_header_of g h HH). cbn [obind]. rewrite N.mod_small by (rewrite two32; exact L).
    assert (W : num_parts_would_change h (lenN pp) && negb (c_change_partition_count (g_config g)) = false).
    { destruct HC as [->|HC]; [apply andb_false_r|]. apply andb_false_intro1.
      apply Bool.not_true_iff_false. intros X. apply would_change_iff in X. lia. }
    rewrite W. unfold bind. split; [apply IN; reflexivity|reflexivity]. }
  split.
  { intros u rnd. unfold create_from_device. rewrite IN by reflexivity. reflexivity. }
  split.
  { intros u rnd. unfold write_header, bind. rewrite F. reflexivity. }
  rewrite read_backup_header_ok by (try exact HF; unfold dev_len; rewrite two64; destruct (c_lb (g_config g)); cbn in *; lia). unfold read_backup_at.
  destruct (N.ltb_spec (dev_len (g_device g)) (lb_u64 (c_lb (g_config g)) * 3)) as [X|X]; [reflexivity|].
  unfold dev_len in X. lia.
Qed.
Print Assumptions C74_too_small.
(** ... and with any faults no success and no changed byte. *)
Theorem C74_too_small_faults : forall oc g,
  lenN (data (g_device g)) < 3 * lb_u64 (c_lb (g_config g)) ->
  same_medium (g_device g) (g_device (snd (write_inplace oc g))) /\
  (exists e, fst (write_inplace oc g) = Err e) /\
  forall pp, fst (update_partitions oc pp g) <> Ok tt.
Proof.
  intros oc g HL.
  pose proof (untouched_find_backup_lba (c_lb (g_config g)) (g_device g)) as U.
  assert (NP : fst (find_backup_lba (c_lb (g_config g)) (g_device g)) <> Panic).
  { apply calm_find_backup_lba. }
  assert (NOK : forall n d1, find_backup_lba (c_lb (g_config g)) (g_device g) <> (Ok n, d1)).
  { intros n d1 E. apply find_backup_len in E. unfold dev_len in E. lia. }
  assert (SM : forall d, same_media d d) by (intros; apply same_media_refl).
  assert (W : same_media (g_device g) (g_device (snd (write_inplace oc g))) /\ exists e, fst (write_inplace oc g) = Err e).
  { unfold write_inplace. destruct (negb _); [split; [apply SM|eexists; reflexivity]|].
    unfold bind, on_device, map_err.
    destruct (find_backup_lba (c_lb (g_config g)) (g_device g)) as [[n|e|] d1]; cbn [omap_err fst snd] in *.
    - exfalso. exact (NOK n d1 eq_refl).
    - split; [exact U|eexists; reflexivity].
    - contradiction. }
  destruct W as (W1 & W2). split; [apply same_medium_of; exact W1|]. split; [exact W2|].
  intros pp E. unfold update_partitions in E. unfold bind at 1 in E. destruct (pm_get 0 pp); [discriminate|]. cbn [ret] in E.
  unfold bind at 1, check_count in E. destruct (let? h := the_header g in _) as [c|e|]; try discriminate.
  unfold bind at 1 in E. unfold init_headers in E. unfold bind at 1, on_device, map_err in E.
  cbn [g_config set_partitions g_device] in E.
  destruct (find_backup_lba (c_lb (g_config g)) (g_device g)) as [[n|e|] d1]; cbn [omap_err fst] in E; try discriminate.
  exact (NOK n d1 eq_refl).
Qed.
Print Assumptions C74_too_small_faults.
Definition tiny_dev : dev := mkDev (zeros (N.to_nat 1535)) 0 false false [] [].
Example C74_case : write_inplace true (set_device tiny_dev (mini_disk [(1, sample_part)])) =
  (Err (GHeader HToSmallForBackup), set_device tiny_dev (mini_disk [(1, sample_part)])).
Proof. vm_compute. reflexivity. Qed.
