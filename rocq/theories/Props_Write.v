(** Props_Write.v - properties C14-C24, C51, C52: writing the partition table. *)
From Verif Require Import RetryFacts.
Open Scope list_scope.
Open Scope N_scope.

(** * Bridges *)
Lemma ready_sane g h : ready g h ->
  try_header g = Ok h /\ dev_len (g_device g) < modulus 64 /\
  sane (c_lb (g_config g)) (dev_len (g_device g)) h /\
  lenN (used_list (g_partitions g)) <= num_parts h /\
  Forall (fun p => wf_part p /\ is_used p = true) (used_list (g_partitions g)).
Proof.
  intros [H1 H2 H3 H4 H5 H6]. rewrite header_of_iff in H2. rewrite addressable_iff in H3.
  rewrite layout_ok_iff in H4. rewrite used_in_order_eq in H5, H6. repeat split; auto; try apply H4.
  pose proof (used_list_all_used (g_partitions g)) as U. rewrite Forall_forall in *.
  intros p Hp. split; [apply partition_ok_iff; auto|auto].
Qed.
Lemma read_back_normal m ps : Forall (fun p => wf_part p /\ is_used p = true) ps -> ps = used_list m ->
  read_back m (number 1 (map normal ps)).
Proof.
  intros W ->. exists (map normal (used_list m)). rewrite numbered_eq, used_in_order_eq. split; [reflexivity|].
  induction W as [|p ps (W1 & W2) W IH]; cbn [map]; constructor; auto. apply same_entry_normal, W1.
Qed.
Lemma changed_agree R l l' : changed_only_in R l l' -> agree_off R l' l.
Proof. intros H. apply changed_only_in_iff in H. exact H. Qed.
Lemma no_header_err l off : (forall h, ~ header_at l off (Ok h)) -> exists e, read_header_at off l = Err e.
Proof.
  intros H. pose proof (read_header_at_spec off l) as S. destruct (read_header_at off l) as [h|e|].
  - destruct (H h S). - eauto. - inversion S.
Qed.

(** C14.  A disk that is not writable is never written, and nothing about it changes. *)
Theorem C14_read_only : forall oc g, c_writable (g_config g) = false ->
  write_inplace oc g = (Err GReadOnly, g) /\ write oc g = (Err GReadOnly, g).
Proof.
  intros oc g H. assert (E : write_inplace oc g = (Err GReadOnly, g)) by (unfold write_inplace; rewrite H; reflexivity).
  split; [exact E|]. unfold write. rewrite (bind_err E). reflexivity.
Qed.
Print Assumptions C14_read_only.
(** So it is in every history in which the device is not replaced: device and permission stay. *)
Theorem C14_read_only_history : forall oc ops g g', c_writable (g_config g) = false ->
  (forall o, In o ops -> forall d w, o <> OpUpdateDevice d w) ->
  run oc ops g = Some g' ->
  same_medium (g_device g) (g_device g') /\ g_config g' = g_config g.
Proof.
  intros oc ops g g' H NS HR.
  assert (X : c_writable (g_config g) = false ->
              same_media (g_device g) (g_device g') /\ g_config g' = g_config g); [|apply X, H].
  revert HR. apply (run_ind (fun a b => c_writable (g_config a) = false ->
      same_media (g_device a) (g_device b) /\ g_config b = g_config a)).
  - intros a _. split; [apply same_media_refl|reflexivity].
  - intros a b c HA HB W. destruct (HA W) as (A1 & A2). rewrite <- A2 in W. destruct (HB W) as (B1 & B2).
    split; [eapply same_media_trans; eauto|congruence].
  - intros o a b I E W. assert (S : ~ swaps o) by (intros (d & w & ->); eapply (NS _ I); reflexivity).
    destruct (step_config _ _ _ _ S E) as (C & _). split; [|exact C].
    destruct o; try (eapply step_in_memory in E; [apply E| |exact S]; discriminate).
    cbn [step] in E. rewrite (proj1 (C14_read_only oc a W)) in E. cbn in E. injection E as <-. apply same_media_refl.
Qed.
Print Assumptions C14_read_only_history.
Example C14_case : c_writable (g_config (mkGdisk config_default mini_dev sample_guid (Ok mini_header)
  (Err HInvalidGptSignature) [(1, sample_part)] false)) = false.
Proof. reflexivity. Qed.

(** C15.  Every call but write leaves the device's contents alone, whatever its outcome and the faults. *)
Theorem C15_calls_do_not_write : forall oc g,
  (forall nm size ty fl al rnd, same_medium (g_device g) (g_device (snd (add_partition oc nm size ty fl al rnd g)))) /\
  (forall nm id first len ty fl rnd,
     same_medium (g_device g) (g_device (snd (add_partition_at oc nm id first len ty fl rnd g)))) /\
  (forall pp, same_medium (g_device g) (g_device (snd (update_partitions oc pp g)))) /\
  (forall id, g_device (snd (remove_partition id g)) = g_device g) /\
  (forall u, g_device (snd (remove_partition_by_guid u g)) = g_device g) /\
  g_device (snd (take_partitions g)) = g_device g /\
  (forall u rnd, g_device (update_guid u rnd g) = g_device g).
Proof.
  intros oc g. split; [intros; apply mo_add|]. split; [intros; apply mo_add_at|].
  split; [intros; apply mo_update_partitions|]. split; [|split; [|split; [reflexivity|reflexivity]]].
  - intros id. unfold remove_partition. destruct (pm_get _ _); reflexivity.
  - intros u. unfold remove_partition_by_guid. destruct (find _ _) as [[k p]|]; reflexivity.
Qed.
Print Assumptions C15_calls_do_not_write.
Theorem C15_history_without_write : forall oc ops g g',
  (forall o, In o ops -> o <> OpWrite /\ forall d w, o <> OpUpdateDevice d w) ->
  run oc ops g = Some g' -> same_medium (g_device g) (g_device g').
Proof.
  intros oc ops g g' H. apply (run_ind (fun a b => same_media (g_device a) (g_device b))).
  - intros a. apply same_media_refl.
  - intros a b c. apply same_media_trans.
  - intros o a b I E. destruct (H o I) as (H1 & H2). eapply step_in_memory; [| |exact E].
    + exact H1.
    + intros (d & w & X). exact (H2 d w X).
Qed.
Print Assumptions C15_history_without_write.
(** Creating a disk does not write either. *)
Theorem C15_create_does_not_write : forall oc cfg u rnd d,
  same_medium d (snd (create_from_device oc cfg u rnd d)).
Proof.
  intros oc cfg u rnd d. unfold create_from_device.
  match goal with |- context [init_headers oc ?g] => pose proof (mo_init oc g) as (U & _) end.
  destruct (init_headers oc _) as [[[]|e|] g']; exact U.
Qed.
Print Assumptions C15_create_does_not_write.

(** C16.  write_inplace, whatever faults cut it short, changes at most the two copies of the metadata. *)
Theorem C16_write_frame : forall oc g h,
  header_of g h -> addressable (g_device g) ->
  layout_ok (c_lb (g_config g)) (lenN (data (g_device g))) h ->
  changed_only_in (fun i => primary_copy (c_lb (g_config g)) h i \/ backup_copy (c_lb (g_config g)) h i)
    (data (g_device g)) (data (g_device (snd (write_inplace oc g)))).
Proof.
  intros oc g h HT HA HS. rewrite header_of_iff in HT. rewrite addressable_iff in HA.
  apply changed_only_in_iff. eapply only_in_weaken; [|apply write_inplace_frame; [exact HT|exact HA|apply sane_of, HS]].
  intros i [H|(_ & H)]; [left; apply primary_copy_iff, H|right; apply backup_copy_iff, H].
Qed.
Print Assumptions C16_write_frame.
(** In particular block 0, every usable block and whatever follows the backup header. *)
Theorem C16_usable_area_preserved : forall oc g h i,
  header_of g h -> addressable (g_device g) ->
  layout_ok (c_lb (g_config g)) (lenN (data (g_device g))) h ->
  let L := lb_u64 (c_lb (g_config g)) in
  i < L \/ first_usable h * L <= i < (last_usable h + 1) * L \/ (backup_at h + 1) * L <= i ->
  byte_no (data (g_device (snd (write_inplace oc g)))) i = byte_no (data (g_device g)) i /\
  byte_no (data (g_device (snd (write oc g)))) i = byte_no (data (g_device g)) i.
Proof.
  intros oc g h i HT HA HS L Hi.
  assert (X : byte_no (data (g_device (snd (write_inplace oc g)))) i = byte_no (data (g_device g)) i).
  { apply (C16_write_frame oc g h HT HA HS). fold L. pose proof (sane_areas _ _ _ (sane_of _ _ _ HS)) as
      (A1 & A2 & A3 & A4 & A5 & A6). destruct HS as [S1 S2 S3 S4 S5 S6 S7 S8].
    unfold primary_copy, backup_copy, between. rewrite array_blocks_eq, backup_at_eq in *. fold L in A1, A2, A3, A4, A5 |- *.
    set (t := ablocks (num_parts h) 128 (c_lb (g_config g))) in *.
    assert ((last_usable h + 1) * L <= (blba h - t) * L) by (apply N.mul_le_mono_r; lia). lia. }
  split; [exact X|]. unfold write, bind. destruct (write_inplace oc g) as [[[]|e|] g']; exact X.
Qed.
Print Assumptions C16_usable_area_preserved.
Lemma mini_ready : ready (mini_disk [(1, sample_part)]) mini_header.
Proof.
  constructor.
  - reflexivity.
  - apply mini_header_of.
  - apply mini_addressable.
  - apply mini_layout.
  - vm_compute. discriminate.
  - vm_compute used_in_order. constructor; [apply sample_part_ok|constructor].
Qed.

(** C17.  Writing succeeds, and opening the device again - with any permissions, in any build - gives
    the same GUID, the headers written, and the used partitions numbered 1, 2, 3, ... in id order. *)
Theorem C17_write_then_open : forall oc oc' g h cfg,
  ready g h -> fault_free (g_device g) -> c_readonly_backup (g_config g) = false ->
  backup_at h = last_whole_block (c_lb (g_config g)) (g_device g) ->
  c_lb cfg = c_lb (g_config g) ->
  exists g' hp hb g2, write_inplace oc g = (Ok tt, g') /\
    fst (open_from_device oc' cfg (g_device g')) = Ok g2 /\
    headers_for (c_lb (g_config g)) h hp hb /\
    g_primary g' = Ok hp /\ g_backup g' = Ok hb /\ g_primary g2 = Ok hp /\ g_backup g2 = Ok hb /\
    g_guid g2 = disk_guid h /\ read_back (g_partitions g) (g_partitions g2).
Proof.
  intros oc oc' g h cfg HR HF HO HB HC. assert (HW := rd_writable _ _ HR).
  apply ready_sane in HR. destruct HR as (HT & HA & HS & HU & HP).
  destruct (write_inplace_sane oc g h HW HO HT (conj HF HA) HS HU)
    as (g' & E & D & P & B & C & G & Q & Y & (_ & _ & F) & _).
  destruct (reopen_image oc' cfg (c_lb (g_config g)) h (used_list (g_partitions g)) (data (g_device g)) (g_device g'))
    as (q & O); auto.
  - unfold healthy. rewrite F. exact HF.
  - rewrite <- backup_at_eq, HB. unfold last_whole_block, last_block, dev_len. rewrite D.
    rewrite image_len; auto.
  - eexists g', _, _, _. split; [exact E|]. rewrite O. cbn [fst]. split; [reflexivity|].
    split; [apply headers_for_new|]. cbn [g_primary g_backup g_guid g_partitions].
    repeat split; auto. apply read_back_normal; auto.
Qed.
Print Assumptions C17_write_then_open.
(** With a read-only backup, or if the header does not name the last block as backup: the same, with
    the default only_valid_headers and without a statement about the backup header. *)
Theorem C17_write_then_open_primary : forall oc oc' g h cfg,
  ready g h -> fault_free (g_device g) ->
  c_lb cfg = c_lb (g_config g) -> c_only_valid_headers cfg = false ->
  exists g' hp hb g2, write_inplace oc g = (Ok tt, g') /\
    fst (open_from_device oc' cfg (g_device g')) = Ok g2 /\
    headers_for (c_lb (g_config g)) h hp hb /\
    g_primary g' = Ok hp /\ g_primary g2 = Ok hp /\
    g_guid g2 = disk_guid h /\ read_back (g_partitions g) (g_partitions g2).
Proof.
  intros oc oc' g h cfg HR HF HC HV. assert (HW := rd_writable _ _ HR).
  apply ready_sane in HR. destruct HR as (HT & HA & HS & HU & HP).
  destruct (write_any oc g h HW HT (conj HF HA) HS HU) as (g' & E & D & P & M & F).
  set (ps := used_list (g_partitions g)) in *. set (lb := c_lb (g_config g)) in *.
  assert (X : lenN (data (g_device g')) = lenN (data (g_device g)) /\
     read_header_at (lb_u64 lb) (data (g_device g')) = Ok (hdr_written (new_primary lb h) (crc32 (table_image h ps))) /\
     slice (2 * lb_u64 lb) (128 * num_parts h) (data (g_device g')) = table_image h ps).
  { rewrite D. unfold image_for. fold lb. destruct (c_readonly_backup (g_config g)).
    - pose proof (ro_facts lb h ps _ HS HU) as (F1 & F2 & F3). repeat split; auto. apply ro_primary; auto.
    - pose proof (image_facts lb h ps _ HS HU) as (F1 & F2 & F3 & F4 & F5). repeat split; auto.
      apply image_primary; auto. }
  destruct X as (X1 & X2 & X3).
  destruct (reopen_primary oc' cfg lb h ps (data (g_device g)) (g_device g')) as (q & O); auto.
  eexists g', _, (hdr_written (new_backup lb h) (crc32 (table_image h ps))), _. split; [exact E|]. rewrite O. cbn [fst].
  split; [reflexivity|]. split; [apply headers_for_new|]. cbn [g_primary g_guid g_partitions].
  repeat split; auto. apply read_back_normal; auto.
Qed.
Print Assumptions C17_write_then_open_primary.
Example C17_case : ready (mini_disk [(1, sample_part)]) mini_header /\
  fault_free (g_device (mini_disk [(1, sample_part)])) /\
  backup_at mini_header = last_whole_block Lb512 mini_dev /\
  match fst (open_from_device true config_default (g_device (snd (write_inplace true (mini_disk [(3, sample_part)]))))) with
  | Ok g => g_partitions g = [(1, sample_part)]
  | _ => False
  end.
Proof. split; [apply mini_ready|]. vm_compute. auto. Qed.

(** C18.  False: gaps in the numbering are closed by a write. *)
Theorem C18_ids_stable_refuted : exists g h g' g2 k p,
  ready g h /\ fault_free (g_device g) /\ has (g_partitions g) k p /\ used p /\
  write_inplace true g = (Ok tt, g') /\ fst (open_from_device true config_default (g_device g')) = Ok g2 /\
  forall q, ~ has (g_partitions g2) k q.
Proof.
  exists (mini_disk [(2, sample_part)]), mini_header. eexists _, _, 2, sample_part.
  split. { destruct mini_ready as [A B C D E F]. constructor; auto. }
  split; [reflexivity|]. split; [left; reflexivity|]. split; [apply sample_part_used|].
  split; [vm_compute; reflexivity|]. split; [vm_compute; reflexivity|].
  intros q [E|[]]. discriminate.
Qed.
Print Assumptions C18_ids_stable_refuted.
(** It holds if the used partitions have the ids 1 to n. *)
Theorem C18_ids_stable_partial : forall oc oc' g h cfg ps k p,
  ready g h -> fault_free (g_device g) ->
  c_lb cfg = c_lb (g_config g) -> c_only_valid_headers cfg = false ->
  g_partitions g = numbered ps -> Forall used ps -> has (g_partitions g) k p ->
  exists g' g2 q, write_inplace oc g = (Ok tt, g') /\
    fst (open_from_device oc' cfg (g_device g')) = Ok g2 /\
    has (g_partitions g2) k q /\ same_entry p q.
Proof.
  intros oc oc' g h cfg ps k p HR HF HC HV HN HU HK.
  destruct (C17_write_then_open_primary oc oc' g h cfg HR HF HC HV) as (g' & hp & hb & g2 & E & O & _ & _ & _ & _ & B).
  destruct B as (qs & B1 & B2).
  assert (EU : used_in_order (g_partitions g) = ps).
  { rewrite HN, used_in_order_eq, numbered_eq. apply used_list_number. eapply Forall_impl; [|exact HU].
    intros a. apply used_iff. }
  rewrite EU in B2. exists g', g2.
  assert (X : exists q, has (g_partitions g2) k q /\ same_entry p q).
  { rewrite B1. rewrite HN in HK. clear - B2 HK. unfold has, numbered in *.
    assert (Y : forall i, In (k, p) (combine (map N.of_nat (seq i (length ps))) ps) ->
      exists q, In (k, q) (combine (map N.of_nat (seq i (length qs))) qs) /\ same_entry p q); [|apply Y, HK].
    clear HK. induction B2 as [|a b ps qs AB B2 IH]; intros i; [intros []|].
    cbn [length seq map combine In]. intros [H|H].
    - injection H as <- <-. exists b. auto.
    - destruct (IH _ H) as (q & H1 & H2). exists q. auto. }
  destruct X as (q & X1 & X2). exists q. auto.
Qed.
Print Assumptions C18_ids_stable_partial.

(** C19.  The two copies agree. *)
Theorem C19_copies_agree : forall oc g h,
  ready g h -> fault_free (g_device g) -> c_readonly_backup (g_config g) = false ->
  let lb := c_lb (g_config g) in
  exists g' hp hb, write_inplace oc g = (Ok tt, g') /\
    let l := data (g_device g') in
    header_at l (lb_u64 lb) (Ok hp) /\ header_at l (backup_at h * lb_u64 lb) (Ok hb) /\
    headers_for lb h hp hb /\
    range (array_at lb hp) (array_len hp) l = range (array_at lb hb) (array_len hb) l /\
    array_intact lb hp l /\ array_intact lb hb l.
Proof.
  intros oc g h HR HF HO lb. assert (HW := rd_writable _ _ HR).
  apply ready_sane in HR. destruct HR as (HT & HA & HS & HU & HP).
  destruct (write_inplace_sane oc g h HW HO HT (conj HF HA) HS HU)
    as (g' & E & D & P & B & C & G & Q & Y & (_ & _ & F) & _).
  fold lb in HS, D, P, B. set (ps := used_list (g_partitions g)) in *.
  pose proof (image_facts lb h ps _ HS HU) as (F1 & F2 & F3 & F4 & F5).
  pose proof (sane_areas _ _ _ HS) as (A1 & A2 & A3 & A4 & A5 & A6).
  exists g', (hdr_written (new_primary lb h) (crc32 (table_image h ps))),
    (hdr_written (new_backup lb h) (crc32 (table_image h ps))).
  split; [exact E|]. cbv zeta. rewrite D.
  split; [rewrite <- (image_primary lb h ps _ HS HU HA); apply read_header_at_spec|].
  split; [rewrite backup_at_eq, <- (image_backup lb h ps _ HS HU HA); apply read_header_at_spec|].
  split; [apply headers_for_new|]. unfold dev_len in *.
  split; [|split].
  - unfold array_at, array_len. cbn [hdr_written new_primary new_backup set_crc32 set_crc32_parts part_start num_parts part_size].
    replace (num_parts h * 128) with (128 * num_parts h) by lia.
    etransitivity; [exact F4|symmetry; exact F5].
  - eapply array_intact_slice; try reflexivity; cbn [hdr_written new_primary set_crc32 set_crc32_parts part_start num_parts crc32_parts];
      rewrite ?F1; try lia. rewrite F4. reflexivity.
  - eapply array_intact_slice; try reflexivity; cbn [hdr_written new_backup set_crc32 set_crc32_parts part_start num_parts crc32_parts];
      rewrite ?F1; try lia. rewrite F5. reflexivity.
Qed.
Print Assumptions C19_copies_agree.

(** C20.  Writing again what was just written changes no byte, at whatever point it is cut short ... *)
Theorem C20_write_twice : forall oc oc' g h g' fs,
  ready g h -> fault_free (g_device g) -> c_readonly_backup (g_config g) = false ->
  write_inplace oc g = (Ok tt, g') ->
  data (g_device (snd (write_inplace oc' (set_device (with_faults fs (g_device g')) g')))) = data (g_device g').
Proof.
  intros oc oc' g h g' fs HR HF HO E. assert (HW := rd_writable _ _ HR).
  apply ready_sane in HR. destruct HR as (HT & HA & HS & HU & HP).
  destruct (write_inplace_sane oc g h HW HO HT (conj HF HA) HS HU)
    as (g1 & E1 & D & P & B & C & G & Q & Y & (_ & _ & F) & _).
  rewrite E in E1. injection E1 as <-. set (g1 := set_device (with_faults fs (g_device g')) g').
  assert (L : dev_len (g_device g') = dev_len (g_device g)).
  { unfold dev_len. rewrite D. apply image_len; auto. }
  change (data (g_device g')) with (data (g_device g1)).
  set (x := hdr_written (new_primary (c_lb (g_config g)) h) (crc32 (table_image h (used_list (g_partitions g))))) in *.
  apply (write_inplace_redundant oc' g1 x (data (g_device g))).
  - unfold try_header. cbn. rewrite P. reflexivity.
  - change (dev_len (g_device g1)) with (dev_len (g_device g')). rewrite L. exact HA.
  - change (dev_len (g_device g1)) with (dev_len (g_device g')). rewrite L. cbn. rewrite C.
    apply sane_written_primary. exact HS.
  - cbn. rewrite Q. exact HU.
  - cbn [g1 set_device g_config g_device g_partitions with_faults data]. rewrite C, Q, D.
    symmetry. eapply final_image_primary. exact HS.
  - exact (eq_sym L).
Qed.
Print Assumptions C20_write_twice.
(** ... and so does reopening and writing, if all names are such that a write keeps them. *)
Theorem C20_reopen_and_write_partial : forall oc oc' oc'' g h g' cfg g2 fs,
  ready g h -> fault_free (g_device g) -> c_readonly_backup (g_config g) = false ->
  backup_at h = last_whole_block (c_lb (g_config g)) (g_device g) ->
  Forall name_survives (used_in_order (g_partitions g)) ->
  write_inplace oc g = (Ok tt, g') -> c_lb cfg = c_lb (g_config g) ->
  fst (open_from_device oc' cfg (g_device g')) = Ok g2 ->
  data (g_device (snd (write_inplace oc'' (set_device (with_faults fs (g_device g2)) g2)))) = data (g_device g').
Proof.
  intros oc oc' oc'' g h g' cfg g2 fs HR HF HO HB HN E HC O. assert (HW := rd_writable _ _ HR).
  apply ready_sane in HR. destruct HR as (HT & HA & HS & HU & HP).
  destruct (write_inplace_sane oc g h HW HO HT (conj HF HA) HS HU)
    as (g1 & E1 & D & P & B & C & G & Q & Y & (_ & _ & F) & _).
  rewrite E in E1. injection E1 as <-.
  assert (L : dev_len (g_device g') = dev_len (g_device g)).
  { unfold dev_len. rewrite D. apply image_len; auto. }
  set (lb := c_lb (g_config g)) in *. set (ps := used_list (g_partitions g)) in *.
  destruct (reopen_image oc' cfg lb h ps (data (g_device g)) (g_device g')) as (q & O'); auto.
  { unfold healthy. rewrite F. exact HF. }
  { rewrite <- backup_at_eq, HB. unfold last_whole_block, last_block. rewrite L. reflexivity. }
  rewrite O' in O. cbn [fst] in O. apply Ok_inj in O. subst g2.
  match goal with |- context [write_inplace oc'' ?G] => set (g3 := G) end.
  set (x := hdr_written (new_primary lb h) (crc32 (table_image h ps))) in *.
  assert (US : Forall (fun p => is_used p = true) ps) by apply used_list_all_used.
  assert (U2 : used_list (g_partitions g3) = map normal ps).
  { cbn [g3 g_partitions]. apply used_list_number. apply map_normal_used. exact US. }
  assert (TI : table_image h (map normal ps) = table_image h ps).
  { apply table_image_normal. rewrite used_in_order_eq in HN. eapply Forall_impl; [|exact HN].
    intros p Hp. unfold name_survives in Hp. rewrite kept_36 in Hp. exact Hp. }
  change (data (g_device g')) with (data (g_device g3)).
  assert (DL : dev_len (g_device g3) = dev_len (g_device g)) by exact L.
  assert (C3 : c_lb (g_config g3) = lb) by exact HC.
  apply (write_inplace_redundant oc'' g3 x (data (g_device g))).
  - reflexivity.
  - rewrite DL. exact HA.
  - rewrite DL, C3. apply sane_written_primary. exact HS.
  - rewrite U2. unfold lenN in *. rewrite map_length. exact HU.
  - rewrite U2, C3. change (data (g_device g3)) with (data (g_device g')). rewrite D.
    unfold x. rewrite (final_image_primary _ _ _ _ _ _ HS). apply final_image_table. symmetry. exact TI.
  - exact (eq_sym DL).
Qed.
Print Assumptions C20_reopen_and_write_partial.
(** Names read from a disk are of that kind, so from the second time on nothing changes. *)
Theorem C20_reopened_names : forall oc g h cfg g' g2,
  ready g h -> fault_free (g_device g) ->
  c_lb cfg = c_lb (g_config g) -> c_only_valid_headers cfg = false ->
  write_inplace oc g = (Ok tt, g') -> fst (open_from_device oc cfg (g_device g')) = Ok g2 ->
  Forall name_survives (used_in_order (g_partitions g2)).
Proof.
  intros oc g h cfg g' g2 HR HF HC HV E O. assert (HR' := HR). apply ready_sane in HR'.
  destruct HR' as (_ & _ & _ & _ & HP).
  destruct (C17_write_then_open_primary oc oc g h cfg HR HF HC HV) as (g1 & hp & hb & g3 & E1 & O1 & _ & _ & _ & _ & B).
  rewrite E in E1. injection E1 as <-. rewrite O in O1. apply Ok_inj in O1. subst g3.
  destruct B as (qs & B1 & B2). rewrite B1. rewrite used_in_order_eq in *.
  assert (X : Forall name_survives qs).
  { rewrite <- used_in_order_eq in HP. rewrite used_in_order_eq in HP. clear - B2 HP.
    induction B2 as [|p q ps qs PQ B2 IH]; constructor.
    - inversion HP as [|a l (W & _) HP']; subst. destruct PQ as [_ _ _ _ _ _ PN].
      unfold name_survives. rewrite PN, kept_36. rewrite kept_36. apply (normal_name_stable p W).
    - apply IH. inversion HP; assumption. }
  rewrite Forall_forall in *. intros q Hq. apply X.
  unfold used_list, used_parts, numbered in Hq. apply in_map_iff in Hq. destruct Hq as ((k & q') & <- & Hq).
  apply filter_In in Hq. destruct Hq as (Hq & _). eapply in_combine_r. exact Hq.
Qed.
Print Assumptions C20_reopened_names.
(** For other names it is false: a name with a NUL in it is cut on reading, and what followed the NUL
    disappears from the disk with the second write. *)
Definition nul_part : partition := mkPart (mkType linux_fs OsLinux) sample_guid 3 3 4 [65; 0; 66].
Theorem C20_reopen_and_write_refuted : exists g h g' g2 g3,
  ready g h /\ fault_free (g_device g) /\ c_readonly_backup (g_config g) = false /\
  backup_at h = last_whole_block (c_lb (g_config g)) (g_device g) /\
  write_inplace true g = (Ok tt, g') /\
  fst (open_from_device true (g_config g) (g_device g')) = Ok g2 /\
  write_inplace true g2 = (Ok tt, g3) /\ data (g_device g3) <> data (g_device g').
Proof.
  exists (mini_disk [(1, nul_part)]), mini_header. eexists _, _, _.
  split.
  { destruct mini_ready as [A B C D _ _]. constructor; auto; [vm_compute; discriminate|].
    vm_compute used_in_order. repeat constructor; unfold char_ok; lia. }
  split; [reflexivity|]. split; [reflexivity|]. split; [vm_compute; reflexivity|].
  split; [vm_compute; reflexivity|]. split; [vm_compute; reflexivity|]. split; [vm_compute; reflexivity|].
  intros E. apply (f_equal (fun l => byte_no l 1084)) in E. vm_compute in E. discriminate.
Qed.
Print Assumptions C20_reopen_and_write_refuted.
Example C20_case : Forall name_survives (used_in_order [(1, sample_part)]) /\
  exists g', write_inplace true (mini_disk [(1, sample_part)]) = (Ok tt, g').
Proof. split; [repeat constructor|]. eexists. vm_compute. reflexivity. Qed.

(** C21.  The primary copy may be overwritten at will, as long as no valid header results: opening
    falls back to the backup and gives the same partitions ... *)
Theorem C21_backup_is_used : forall oc oc' g h g' d cfg,
  ready g h -> fault_free (g_device g) -> c_readonly_backup (g_config g) = false ->
  backup_at h = last_whole_block (c_lb (g_config g)) (g_device g) ->
  write_inplace oc g = (Ok tt, g') ->
  fault_free d -> changed_only_in (primary_copy (c_lb (g_config g)) h) (data (g_device g')) (data d) ->
  (forall x, ~ header_at (data d) (lb_u64 (c_lb (g_config g))) (Ok x)) ->
  c_lb cfg = c_lb (g_config g) -> c_only_valid_headers cfg = false ->
  exists g2, fst (open_from_device oc' cfg d) = Ok g2 /\
    g_backup g2 = g_backup g' /\ g_guid g2 = disk_guid h /\ read_back (g_partitions g) (g_partitions g2).
Proof.
  intros oc oc' g h g' d cfg HR HF HO HB E HF' HD HN HC HV. assert (HW := rd_writable _ _ HR).
  apply ready_sane in HR. destruct HR as (HT & HA & HS & HU & HP).
  destruct (write_inplace_sane oc g h HW HO HT (conj HF HA) HS HU)
    as (g1 & E1 & D & P & B & C & G & Q & Y & (_ & _ & F) & _).
  rewrite E in E1. injection E1 as <-.
  destruct (reopen_backup oc' cfg (c_lb (g_config g)) h (used_list (g_partitions g)) (data (g_device g)) d)
    as (q & O); auto.
  - rewrite <- D. apply changed_agree. eapply changed_only_in_weaken; [|exact HD].
    intros i Hi. apply primary_copy_iff, Hi.
  - apply no_header_err, HN.
  - rewrite <- backup_at_eq, HB. unfold last_whole_block, last_block, dev_len. destruct HD as (HL & _).
    rewrite HL, D, image_len; auto.
  - eexists. rewrite O. split; [reflexivity|]. cbn [g_backup g_guid g_partitions]. repeat split; auto.
    apply read_back_normal; auto.
Qed.
Print Assumptions C21_backup_is_used.
(** ... and writing the opened disk restores every byte, if all names are such that a write keeps them
    (see C20 for other names). *)
Theorem C21_rewrite_restores_partial : forall oc oc' oc'' g h g' d cfg g2,
  ready g h -> fault_free (g_device g) -> c_readonly_backup (g_config g) = false ->
  backup_at h = last_whole_block (c_lb (g_config g)) (g_device g) ->
  Forall name_survives (used_in_order (g_partitions g)) ->
  write_inplace oc g = (Ok tt, g') ->
  fault_free d -> changed_only_in (primary_copy (c_lb (g_config g)) h) (data (g_device g')) (data d) ->
  (forall x, ~ header_at (data d) (lb_u64 (c_lb (g_config g))) (Ok x)) ->
  c_lb cfg = c_lb (g_config g) -> c_only_valid_headers cfg = false ->
  c_writable cfg = true -> c_readonly_backup cfg = false ->
  fst (open_from_device oc' cfg d) = Ok g2 ->
  exists g3, write_inplace oc'' g2 = (Ok tt, g3) /\ data (g_device g3) = data (g_device g').
Proof.
  intros oc oc' oc'' g h g' d cfg g2 HR HF HO HB HNm E HF' HD HN HC HV HW2 HO2 O. assert (HW := rd_writable _ _ HR).
  apply ready_sane in HR. destruct HR as (HT & HA & HS & HU & HP).
  destruct (write_inplace_sane oc g h HW HO HT (conj HF HA) HS HU)
    as (g1 & E1 & D & P & B & C & G & Q & Y & (_ & _ & F) & _).
  rewrite E in E1. injection E1 as <-.
  set (lb := c_lb (g_config g)) in *. set (ps := used_list (g_partitions g)) in *.
  assert (AG : agree_off (primary_area lb h) (data d) (final_image lb h ps (data (g_device g)))).
  { rewrite <- D. apply changed_agree. eapply changed_only_in_weaken; [|exact HD].
    intros i Hi. apply primary_copy_iff, Hi. }
  assert (L : lenN (data d) = lenN (data (g_device g))).
  { destruct AG as (AG & _). rewrite AG. apply image_len; auto. }
  destruct (no_header_err _ _ HN) as (e & HE).
  destruct (reopen_backup oc' cfg lb h ps (data (g_device g)) d) as (q & O'); eauto.
  { rewrite <- backup_at_eq, HB. unfold last_whole_block, last_block, dev_len. rewrite L. reflexivity. }
  rewrite O' in O. cbn [fst] in O. apply Ok_inj in O.
  assert (US : Forall (fun p => is_used p = true) ps) by apply used_list_all_used.
  assert (U2 : used_list (g_partitions g2) = map normal ps).
  { rewrite <- O. cbn [g_partitions]. apply used_list_number. apply map_normal_used. exact US. }
  assert (TI : table_image h (map normal ps) = table_image h ps).
  { apply table_image_normal. rewrite used_in_order_eq in HNm. eapply Forall_impl; [|exact HNm].
    intros p Hp. unfold name_survives in Hp. rewrite kept_36 in Hp. exact Hp. }
  set (x := hdr_written (new_backup lb h) (crc32 (table_image h ps))) in *.
  assert (C2 : g_config g2 = cfg) by (rewrite <- O; reflexivity).
  assert (D2 : data (g_device g2) = data d) by (rewrite <- O; reflexivity).
  destruct (write_inplace_sane oc'' g2 x) as (g3 & E3 & D3 & _).
  - rewrite C2. exact HW2.
  - rewrite C2. exact HO2.
  - rewrite <- O. unfold try_header. cbn [g_primary g_backup]. rewrite HE. reflexivity.
  - split; [rewrite <- O; exact HF'|]. unfold dev_len. rewrite D2, L. exact HA.
  - unfold dev_len. rewrite C2, D2, L, HC. apply sane_written_backup. exact HS.
  - rewrite U2. unfold lenN in *. rewrite map_length. exact HU.
  - exists g3. split; [exact E3|]. rewrite D3, U2, C2, D2, HC, D. unfold x.
    rewrite (final_image_backup _ _ _ _ _ _ HS). rewrite (final_image_table _ _ _ _ _ TI).
    rewrite (final_image_agree lb h ps (data d) (final_image lb h ps (data (g_device g)))).
    + apply final_image_idem; auto.
    + rewrite L. exact HS.
    + exact HU.
    + destruct AG as (AG1 & AG2). split; [exact AG1|]. intros i Hi. apply AG2. tauto.
Qed.
Print Assumptions C21_rewrite_restores_partial.
(** For other names it is false, for the reason given at C20. *)
Theorem C21_rewrite_restores_refuted : exists g h g' d g2 g3,
  ready g h /\ fault_free (g_device g) /\ c_readonly_backup (g_config g) = false /\
  backup_at h = last_whole_block (c_lb (g_config g)) (g_device g) /\
  write_inplace true g = (Ok tt, g') /\
  fault_free d /\ changed_only_in (primary_copy (c_lb (g_config g)) h) (data (g_device g')) (data d) /\
  (forall x, ~ header_at (data d) (lb_u64 (c_lb (g_config g))) (Ok x)) /\
  fst (open_from_device true (g_config g) d) = Ok g2 /\
  write_inplace true g2 = (Ok tt, g3) /\ data (g_device g3) <> data (g_device g').
Proof.
  set (w := snd (write_inplace true (mini_disk [(1, nul_part)]))).
  exists (mini_disk [(1, nul_part)]), mini_header, w, (set_data (g_device w) (store 512 [x00] (data (g_device w))) 0). eexists _, _.
  split.
  { destruct mini_ready as [A B C D _ _]. constructor; auto; [vm_compute; discriminate|].
    vm_compute used_in_order. repeat constructor; unfold char_ok; lia. }
  split; [reflexivity|]. split; [reflexivity|]. split; [vm_compute; reflexivity|].
  split; [vm_compute; reflexivity|]. split; [vm_compute; reflexivity|]. split.
  { change (data (set_data (g_device w) (store 512 [x00] (data (g_device w))) 0)) with (store 512 [x00] (data (g_device w))).
    assert (L : 512 + lenN [x00] <= lenN (data (g_device w))) by (vm_compute; discriminate).
    split; [apply store_lenN_in, L|]. intros i Hi. rewrite !byte_no_at, byte_at_store_in by exact L.
    destruct (N.leb_spec 512 i), (N.ltb_spec i (512 + lenN [x00])) as [J|J]; cbn [andb]; try reflexivity. exfalso. apply Hi. left.
    unfold between. change (lenN [x00]) with 1 in J. cbn. lia. }
  split.
  { intros x H. pose proof (header_at_fun _ _ _ _ H (read_header_at_spec _ _)) as X. vm_compute in X. discriminate. }
  split; [vm_compute; reflexivity|]. split; [vm_compute; reflexivity|].
  intros E. apply (f_equal (fun l => byte_no l 1084)) in E. vm_compute in E. discriminate.
Qed.
Print Assumptions C21_rewrite_restores_refuted.
Example C21_case :
  let g' := snd (write_inplace true (mini_disk [(1, sample_part)])) in
  let l := store 512 (repeat xff 700) (data (g_device g')) in
  changed_only_in (primary_copy Lb512 mini_header) (data (g_device g')) l /\
  read_header_at 512 l = Err HInvalidGptSignature.
Proof.
  cbv zeta. split; [|vm_compute; reflexivity]. apply changed_only_in_iff.
  match goal with |- only_in ?l _ _ => set (L := l) end.
  apply (only_in_store L (primary_copy Lb512 mini_header) 512 (repeat xff 700) L 700).
  - intros i Hi. change (lenN (repeat xff 700)) with 700 in Hi. unfold primary_copy, between.
    change (lb_u64 Lb512) with 512. change (num_parts mini_header) with 4. lia.
  - vm_compute. discriminate.
  - apply only_in_refl.
Qed.

(** C22.  False: with an intact primary header and a damaged primary array, opening fails although the
    backup copy is intact. *)
Theorem C22_damaged_array_fallback_refuted : exists g h g' d e,
  ready g h /\ fault_free (g_device g) /\ c_readonly_backup (g_config g) = false /\
  backup_at h = last_whole_block (c_lb (g_config g)) (g_device g) /\
  write_inplace true g = (Ok tt, g') /\ fault_free d /\
  changed_only_in (between 1024 1025) (data (g_device g')) (data d) /\
  fst (open_from_device true config_default d) = Err e.
Proof.
  exists (mini_disk [(1, sample_part)]), mini_header. eexists.
  exists (set_data (g_device (snd (write_inplace true (mini_disk [(1, sample_part)]))))
            (store 1024 [xff] (data (g_device (snd (write_inplace true (mini_disk [(1, sample_part)])))))) 0).
  eexists. split; [apply mini_ready|]. split; [reflexivity|]. split; [reflexivity|]. split; [vm_compute; reflexivity|].
  split; [vm_compute; reflexivity|]. split; [vm_compute; reflexivity|]. split; [|vm_compute; reflexivity].
  apply changed_only_in_iff.
  match goal with |- only_in ?l _ _ => set (L := l) end.
  apply (only_in_store L (between 1024 1025) 1024 [xff] L 1).
  - intros i Hi. change (lenN [xff]) with 1 in Hi. unfold between. lia.
  - vm_compute. discriminate.
  - apply only_in_refl.
Qed.
Print Assumptions C22_damaged_array_fallback_refuted.
(** What is true: the damage is always reported, never a list from a damaged array. *)
Theorem C22_damaged_array_reported_partial : forall oc cfg d h,
  fault_free d -> addressable d -> c_only_valid_headers cfg = false ->
  header_at (data d) (lb_u64 (c_lb cfg)) (Ok h) -> part_size h = 128 -> countable oc h (data d) ->
  ~ array_intact (c_lb cfg) h (data d) ->
  exists e, fst (open_from_device oc cfg d) = Err (GIo e).
Proof.
  intros oc cfg d h HF HA HV H1 HP HN HI.
  assert (O : opened_with cfg d (Ok h) (read_backup_at (c_lb cfg) d) h (fst (open_from_device oc cfg d))).
  { apply open_with_header; auto; [apply backup_header_spec|]. unfold select. rewrite HV.
    pose proof (read_backup_at_no_panic (c_lb cfg) d). destruct (read_backup_at (c_lb cfg) d); congruence. }
  unfold opened_with in O. destruct (fst (open_from_device oc cfg d)) as [g|[]|]; try contradiction.
  - destruct O as (O & _). contradiction.
  - eexists. reflexivity.
Qed.
Print Assumptions C22_damaged_array_reported_partial.

(** C23.  False: a write that is cut short after the first entry leaves a disk that cannot be opened,
    although it could be opened before. *)
Definition second_part : partition := mkPart (mkType linux_fs OsLinux) other_guid 3 3 0 [120].
Theorem C23_interrupted_write_refuted : exists g h fs r g' e,
  ready g h /\ (exists g0, fst (open_from_device true config_default (g_device g)) = Ok g0) /\
  write_inplace true (set_device (with_faults fs (g_device g)) g) = (r, g') /\
  fst (open_from_device true config_default (repaired (g_device g'))) = Err e.
Proof.
  exists (set_partitions [(1, second_part)] (snd (write_inplace true (mini_disk [(1, sample_part)])))).
  eexists. exists (repeat None 6 ++ [Some 0%nat]). eexists _, _, _. split; [|split; [|split]].
  3: vm_compute; reflexivity.
  3: vm_compute; reflexivity.
  2: eexists; vm_compute; reflexivity.
  constructor.
  - reflexivity.
  - left. vm_compute. reflexivity.
  - vm_compute. reflexivity.
  - constructor; try reflexivity; vm_compute; discriminate.
  - vm_compute. discriminate.
  - vm_compute used_in_order. repeat constructor; unfold char_ok; lia.
Qed.
Print Assumptions C23_interrupted_write_refuted.
(** What is true: nothing outside the metadata is lost (C16), and repeating the write on the same disk
    once the device works again completes it - the device is as if nothing had gone wrong. *)
Theorem C23_retry_completes_partial : forall oc g h,
  ready g h ->
  let g1 := snd (write_inplace oc g) in
  exists g2 g3,
    write_inplace oc (set_device (repaired (g_device g1)) g1) = (Ok tt, g2) /\
    write_inplace oc (set_device (repaired (g_device g)) g) = (Ok tt, g3) /\
    data (g_device g2) = data (g_device g3).
Proof.
  intros oc g h HR g1. assert (HW := rd_writable _ _ HR).
  apply ready_sane in HR. destruct HR as (HT & HA & HS & HU & HP).
  destruct (retry oc oc g h HW HT HA HS HU) as (g2 & E2 & D2).
  destruct (write_any oc (set_device (repaired (g_device g)) g) h HW HT (conj eq_refl HA) HS HU)
    as (g3 & E3 & D3 & _).
  exists g2, g3. split; [exact E2|]. split; [exact E3|]. rewrite D2, D3. reflexivity.
Qed.
Print Assumptions C23_retry_completes_partial.

(** C24.  With readonly_backup the backup copy, and everything else but the primary copy, stays. *)
Theorem C24_readonly_backup : forall oc g h,
  header_of g h -> addressable (g_device g) ->
  layout_ok (c_lb (g_config g)) (lenN (data (g_device g))) h ->
  c_readonly_backup (g_config g) = true ->
  let d' := g_device (snd (write_inplace oc g)) in
  changed_only_in (primary_copy (c_lb (g_config g)) h) (data (g_device g)) (data d') /\
  (forall i, backup_copy (c_lb (g_config g)) h i -> byte_no (data d') i = byte_no (data (g_device g)) i).
Proof.
  intros oc g h HT HA HS HO d'. rewrite header_of_iff in HT. rewrite addressable_iff in HA.
  assert (X : changed_only_in (primary_copy (c_lb (g_config g)) h) (data (g_device g)) (data d')).
  { apply changed_only_in_iff. eapply only_in_weaken;
      [|apply write_inplace_frame; [exact HT|exact HA|apply sane_of, HS]].
    intros i [H|(H & _)]; [apply primary_copy_iff, H|congruence]. }
  split; [exact X|]. intros i Hi. apply X. clear X.
  pose proof (sane_areas _ _ _ (sane_of _ _ _ HS)) as (A1 & A2 & A3 & A4 & A5 & A6).
  unfold primary_copy, backup_copy, between in *. rewrite array_blocks_eq, backup_at_eq in *. lia.
Qed.
Print Assumptions C24_readonly_backup.
Example C24_case : header_of (set_config (cset_readonly_backup true mini_config) (mini_disk [(1, sample_part)])) mini_header.
Proof. left. reflexivity. Qed.

(** C51.  A successful write of a disk that was opened or created by path has reached the medium, after
    any history. *)
Lemma run_sync oc ops g g' : run oc ops g = Some g' -> g_sync g' = g_sync g.
Proof.
  apply (run_ind (fun a b => g_sync b = g_sync a)); [reflexivity|intros a b c; congruence|].
  intros o a b _ E. destruct o; try (eapply step_config in E; [apply E|intros (d' & w' & X); discriminate]).
  cbn in E. injection E as <-. reflexivity.
Qed.
Theorem C51_write_is_durable : forall oc ops g g1 g2,
  (exists cfg d, fst (open_path oc cfg d) = Ok g) \/ (exists cfg rnd d, fst (create_path oc cfg rnd d) = Ok g) ->
  run oc ops g = Some g1 -> write_inplace oc g1 = (Ok tt, g2) ->
  durable (g_device g2) = data (g_device g2).
Proof.
  intros oc ops g g1 g2 H HR HW. eapply write_inplace_durable; [|exact HW].
  rewrite (run_sync _ _ _ _ HR). destruct H as [(cfg & d & H)|(cfg & rnd & d & H)].
  - unfold open_path, with_sync, bind in H. destruct (open_from_device oc cfg d) as [[x|e|] d']; try discriminate.
    apply Ok_inj in H. subst. reflexivity.
  - unfold create_path, with_sync, bind in H. destruct (create_from_device oc cfg None rnd d) as [[x|e|] d']; try discriminate.
    apply Ok_inj in H. subst. reflexivity.
Qed.
Print Assumptions C51_write_is_durable.
Example C51_case :
  match fst (open_path true (cset_writable true config_default)
              (g_device (snd (write_inplace true (mini_disk [(1, sample_part)]))))) with
  | Ok g => durable (g_device g) = [] /\ fst (write_inplace true g) = Ok tt
  | _ => False
  end.
Proof. vm_compute. auto. Qed.

(** C52.  Swapping the device. *)
Theorem C52_with_disk_device : forall d w g,
  let g2 := with_disk_device d w g in
  g_device g2 = d /\ g_guid g2 = g_guid g /\ g_partitions g2 = g_partitions g /\
  g_config g2 = cset_writable w (g_config g) /\
  (forall h, g_primary g2 = Ok h <-> g_primary g = Ok h) /\
  (forall h, g_backup g2 = Ok h <-> g_backup g = Ok h) /\
  (forall h, header_of g2 h <-> header_of g h).
Proof.
  intros d w g g2. assert (X : forall (o : outcome hdr_err header) h, omap_err lossy_clone o = Ok h <-> o = Ok h).
  { intros [x|e|] h; cbn; split; congruence. }
  do 4 (split; [reflexivity|]). do 2 (split; [intros h; apply X|]).
  intros h. unfold header_of. cbn [g2 with_disk_device g_primary g_backup]. rewrite !X.
  split; (intros [H|(H1 & H2)]; [left; exact H|right; split; [|exact H2]]; intros h' H'; apply (H1 h'), X, H').
Qed.
Print Assumptions C52_with_disk_device.
(** Writing the result puts the table on the new device. *)
Theorem C52_write_to_new_device : forall oc oc' g h d cfg,
  ready (with_disk_device d true g) h -> fault_free d ->
  c_lb cfg = c_lb (g_config g) -> c_only_valid_headers cfg = false ->
  exists g' g2, write_inplace oc (with_disk_device d true g) = (Ok tt, g') /\
    fst (open_from_device oc' cfg (g_device g')) = Ok g2 /\
    g_guid g2 = disk_guid h /\ read_back (g_partitions g) (g_partitions g2).
Proof.
  intros oc oc' g h d cfg HR HF HC HV.
  destruct (C17_write_then_open_primary oc oc' _ h cfg HR HF HC HV) as (g' & hp & hb & g2 & E & O & _ & _ & _ & G & B).
  exists g', g2. auto.
Qed.
Print Assumptions C52_write_to_new_device.
Theorem C52_update_and_clone : forall d w g,
  (let (old, g2) := update_disk_device d w g in
   old = g_device g /\ g_device g2 = d /\ g_config g2 = cset_writable w (g_config g) /\ g_guid g2 = g_guid g /\
   g_primary g2 = g_primary g /\ g_backup g2 = g_backup g /\ g_partitions g2 = g_partitions g /\ g_sync g2 = g_sync g) /\
  (let g2 := gdisk_clone g in
   g_device g2 = g_device g /\ g_config g2 = g_config g /\ g_guid g2 = g_guid g /\
   g_partitions g2 = g_partitions g /\ g_sync g2 = g_sync g /\
   (forall h, g_primary g2 = Ok h <-> g_primary g = Ok h) /\ (forall h, g_backup g2 = Ok h <-> g_backup g = Ok h)).
Proof.
  intros d w g. split; [repeat split|].
  assert (X : forall (o : outcome hdr_err header) h, omap_err lossy_clone o = Ok h <-> o = Ok h).
  { intros [x|e|] h; cbn; split; congruence. }
  do 5 (split; [reflexivity|]). split; intros h; apply X.
Qed.
Print Assumptions C52_update_and_clone.
Example C52_case : ready (with_disk_device mini_dev true (mini_disk [(1, sample_part)])) mini_header.
Proof. destruct mini_ready as [A B C D E F]. constructor; auto. Qed.
