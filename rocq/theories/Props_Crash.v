(** Props_Crash.v - property C71: what an interrupted write can be mistaken for. *)
From Verif Require Import CrashFacts SpecCrash Props_Write.
Open Scope list_scope.
Open Scope N_scope.

(** C71.  However a write is interrupted, opening the disk afterwards gives the old table, the new one or
    an error - provided no cut of the primary array has the old checksum by accident.  The device has any
    contents with a primary header for the layout of [h], any fault schedule, and [full] is what the write
    gives when nothing goes wrong. *)
Theorem C71_old_new_or_error_partial : forall oc oc' cfg g h hp hb g0 full,
  ready g h -> c_readonly_backup (g_config g) = false -> c_lb cfg = c_lb (g_config g) ->
  backup_at h = last_whole_block (c_lb cfg) (g_device g) ->
  headers_for (c_lb cfg) h hp hb ->
  header_at (data (g_device g)) (lb_u64 (c_lb cfg)) (Ok hp) ->
  fst (open_from_device oc' cfg (repaired (g_device g))) = Ok g0 ->
  write_inplace oc (repaired_disk g) = (Ok tt, full) ->
  tear_proof (primary_array (c_lb cfg) h (g_device g)) (primary_array (c_lb cfg) h (g_device full)) ->
  match fst (open_from_device oc' cfg (repaired (g_device (snd (write_inplace oc g))))) with
  | Ok g' => (g_partitions g' = g_partitions g0 \/ read_back (g_partitions g) (g_partitions g')) /\
             g_guid g' = disk_guid h
  | Err _ => True
  | Panic => False
  end.
Proof.
  intros oc oc' cfg g h hp hb g0 full HR HO HC HB HH HA H0 HF TP. assert (HW := rd_writable _ _ HR).
  apply ready_sane in HR. destruct HR as (HT & H64 & HS & HU & HP).
  assert (RH : read_header_at (lb_u64 (c_lb cfg)) (data (g_device g)) = Ok hp).
  { eapply header_at_fun; [apply read_header_at_spec|exact HA]. }
  assert (HS' := HS). rewrite <- HC in HS'.
  rewrite backup_at_eq, last_whole_block_eq in HB.
  assert (EF : primary_array (c_lb cfg) h (g_device full) = table_image h (used_list (g_partitions g))).
  { destruct (write_inplace_sane oc (repaired_disk g) h HW HO HT (conj eq_refl H64) HS HU) as (g3 & E3 & D3 & _).
    rewrite HF in E3. injection E3 as <-. unfold primary_array. rewrite range_slice, D3.
    cbn [repaired_disk set_device g_config g_partitions]. rewrite HC.
    apply (image_facts (c_lb (g_config g)) h _ _ HS HU). }
  rewrite EF in TP. unfold tear_proof, torn, primary_array in TP. rewrite range_slice in TP.
  pose proof (crash_open oc oc' cfg g g0 h hp hb HW HO HC HT H64 HS' HU HP HB HH RH H0) as K.
  cbv zeta in K. specialize (K TP).
  destruct (fst (open_from_device oc' cfg (repaired (g_device (snd (write_inplace oc g)))))) as [g'|e|]; auto.
  destruct K as [[K|K] KG]; split; auto. right. rewrite K. apply read_back_normal; auto.
Qed.
Print Assumptions C71_old_new_or_error_partial.

(** No accident is possible when the array changes in a run of at most four bytes. *)
Lemma small_torn (old new : list byte) : small_change old new -> tear_proof old new.
Proof.
  intros (a & w & w' & b & -> & -> & HL & H4) k HC. left. unfold torn in *.
  rewrite app_cut in * by auto. rewrite cut_self in *.
  rewrite app_cut in * by auto. rewrite cut_self in *.
  set (v := firstn (k - length a) w' ++ skipn (k - length a) w) in *.
  assert (LV : length v = length w).
  { unfold v. rewrite app_length, firstn_length, skipn_length. lia. }
  destruct (list_eq_dec Byte.byte_eq_dec v w) as [->|NE]; auto.
  exfalso. apply (crc32_burst a v w b); auto. lia.
Qed.
Theorem C71_small_change : forall oc oc' cfg g h hp hb g0 full,
  ready g h -> c_readonly_backup (g_config g) = false -> c_lb cfg = c_lb (g_config g) ->
  backup_at h = last_whole_block (c_lb cfg) (g_device g) ->
  headers_for (c_lb cfg) h hp hb ->
  header_at (data (g_device g)) (lb_u64 (c_lb cfg)) (Ok hp) ->
  fst (open_from_device oc' cfg (repaired (g_device g))) = Ok g0 ->
  write_inplace oc (repaired_disk g) = (Ok tt, full) ->
  small_change (primary_array (c_lb cfg) h (g_device g)) (primary_array (c_lb cfg) h (g_device full)) ->
  match fst (open_from_device oc' cfg (repaired (g_device (snd (write_inplace oc g))))) with
  | Ok g' => (g_partitions g' = g_partitions g0 \/ read_back (g_partitions g) (g_partitions g')) /\
             g_guid g' = disk_guid h
  | Err _ => True
  | Panic => False
  end.
Proof.
  intros oc oc' cfg g h hp hb g0 full H1 H2 H3 H4 H5 H6 H7 H8 HS.
  eapply C71_old_new_or_error_partial; eauto. apply small_torn. exact HS.
Qed.
Print Assumptions C71_small_change.

(** Two writes.  The first one, of table [m0] say, went well; the second one, of table [m], is interrupted in
    any way.  Afterwards the disk is unreadable, or shows the first table, or the second. *)
Theorem C71_second_write_partial : forall oc oc' cfg g h g1 m fs full,
  ready g h -> fault_free (g_device g) -> c_readonly_backup (g_config g) = false ->
  backup_at h = last_whole_block (c_lb cfg) (g_device g) -> c_lb cfg = c_lb (g_config g) ->
  write_inplace oc g = (Ok tt, g1) ->
  lenN (used_in_order m) <= num_parts h -> Forall partition_ok (used_in_order m) ->
  write_inplace oc (set_partitions m g1) = (Ok tt, full) ->
  tear_proof (primary_array (c_lb cfg) h (g_device g1)) (primary_array (c_lb cfg) h (g_device full)) ->
  let g2 := set_partitions m (set_device (with_faults fs (g_device g1)) g1) in
  match fst (open_from_device oc' cfg (repaired (g_device (snd (write_inplace oc g2))))) with
  | Ok g' => (read_back (g_partitions g) (g_partitions g') \/ read_back m (g_partitions g')) /\
             g_guid g' = disk_guid h
  | Err _ => True
  | Panic => False
  end.
Proof.
  intros oc oc' cfg g h g1 m fs full HR HF HO HB HC E1 HU2 HP2 E2 TP g2. assert (HW := rd_writable _ _ HR).
  assert (HLB : backup_at h = last_whole_block (c_lb (g_config g)) (g_device g)) by congruence.
  destruct (C17_write_then_open oc oc' g h cfg HR HF HO HLB HC)
    as (g1' & hp & hb & g0 & E1' & O0 & HH & P1 & B1 & P0 & B0 & G0 & RB).
  rewrite E1 in E1'. injection E1' as <-.
  apply ready_sane in HR. destruct HR as (HT & HA & HS & HU & HP).
  destruct (write_inplace_sane oc g h HW HO HT (conj HF HA) HS HU)
    as (g1' & E1' & D1 & PP & _ & C1 & _ & _ & _ & (_ & _ & F1) & _).
  rewrite E1 in E1'. injection E1' as <-.
  set (lb := c_lb (g_config g)) in *.
  pose proof (image_facts lb h (used_list (g_partitions g)) (data (g_device g)) HS HU) as (L1 & _).
  rewrite <- D1 in L1.
  assert (EP : hp = hdr_written (new_primary lb h) (crc32 (table_image h (used_list (g_partitions g))))) by congruence.
  assert (HF1 : fault_free (g_device g1)). { unfold fault_free. rewrite F1. exact HF. }
  assert (HSP : sane lb (dev_len (g_device g)) hp). { rewrite EP. apply sane_written_primary. exact HS. }
  assert (HBP : backup_at hp = backup_at h). { rewrite !backup_at_eq, EP. eapply blba_written_primary. exact HS. }
  assert (HN : num_parts hp = num_parts h) by apply HH.
  assert (HAB : array_blocks lb hp = array_blocks lb h) by (unfold array_blocks; rewrite HN; reflexivity).
  assert (HH' : headers_for lb hp hp hb).
  { destruct HH as [Q1 Q2 Q3 Q4 Q5 Q6 Q7 Q8 Q9]. constructor; rewrite ?HBP, ?HAB; auto.
    - destruct Q3; split; congruence.
    - destruct Q4; split; congruence.
    - destruct Q6; split; congruence. }
  assert (R2 : ready g2 hp).
  { constructor; cbn [g2 set_partitions set_device g_config g_device g_partitions with_faults data].
    - rewrite C1. exact HW.
    - left. exact P1.
    - unfold addressable. cbn [data with_faults]. rewrite L1. apply addressable_iff. exact HA.
    - rewrite C1. fold lb. unfold dev_len in *. rewrite L1. apply layout_ok_iff. exact HSP.
    - rewrite HN. exact HU2.
    - exact HP2. }
  assert (X := C71_old_new_or_error_partial oc oc' cfg g2 hp hp hb g0 full R2).
  assert (PA : forall d, primary_array (c_lb cfg) hp d = primary_array (c_lb cfg) h d).
  { intros d. unfold primary_array. rewrite HN. reflexivity. }
  rewrite !PA in X.
  assert (GD : disk_guid hp = disk_guid h) by apply HH. rewrite GD in X.
  assert (RD : repaired (with_faults fs (g_device g1)) = g_device g1).
  { unfold fault_free in HF1. destruct (g_device g1) as [? ? ? ? f ?]. cbn in HF1 |- *. subst f. reflexivity. }
  assert (K : match fst (open_from_device oc' cfg (repaired (g_device (snd (write_inplace oc g2))))) with
  | Ok g' => (g_partitions g' = g_partitions g0 \/ read_back m (g_partitions g')) /\ g_guid g' = disk_guid h
  | Err _ => True
  | Panic => False
  end).
  { apply X.
    - cbn. rewrite C1. exact HO.
    - cbn. rewrite C1. exact HC.
    - rewrite HBP, HB. unfold last_whole_block. cbn [g2 set_partitions set_device g_device with_faults data]. rewrite L1. reflexivity.
    - rewrite HC. exact HH'.
    - cbn [g2 set_partitions set_device g_device with_faults data]. rewrite HC. fold lb. rewrite D1.
      rewrite EP. rewrite <- (image_primary lb h (used_list (g_partitions g)) (data (g_device g))); auto. apply read_header_at_spec.
    - cbn [g2 set_partitions set_device g_device]. rewrite RD. exact O0.
    - replace (repaired_disk g2) with (set_partitions m g1); [exact E2|].
      unfold repaired_disk. cbn [g2 set_partitions set_device g_device]. rewrite RD. destruct g1; reflexivity.
    - exact TP. }
  destruct (fst (open_from_device oc' cfg (repaired (g_device (snd (write_inplace oc g2)))))) as [g'|e|]; auto.
  destruct K as [[K|K] KG]; split; auto. left. rewrite K. exact RB.
Qed.
Print Assumptions C71_second_write_partial.

(** Seven blocks: LBA 0, header, 4-entry array, two usable blocks, array, header. *)
Definition duo_header : header := mkHeader EFI_PART 1 0 92 0 0 1 6 3 4 sample_guid 2 4 128 0.
Definition duo_dev : dev := mkDev (zeros (N.to_nat 3584)) 0 false false [] [].
Definition duo_disk (m : pmap) : gdisk :=
  mkGdisk mini_config duo_dev sample_guid (Ok duo_header) (Err HInvalidGptSignature) m false.
(** Two GUIDs that differ by the bits of the CRC polynomial. *)
Definition guid_a : uuid := [x11;x12;x13;x14;x15;x16;x17;x18;x00;x00;x00;x00;x00;x1e;x1f;x20].
Definition guid_b : uuid := [x11;x12;x13;x14;x15;x16;x17;x18;x41;x06;x71;xdb;x01;x1e;x1f;x20].
Definition one_block (u : uuid) (b : N) : partition := mkPart (mkType linux_fs OsLinux) u b b 0 [120].
Definition duo_old : pmap := [(1, one_block guid_a 3); (2, one_block sample_guid 4)].
Definition duo_new : pmap := [(1, one_block guid_b 3); (2, one_block other_guid 4)].
(** C71.  False without that proviso: the two first entries have the same checksum, the write is cut after
    the first one, and the disk then shows the first partition of the new table and the second of the old. *)
Theorem C71_mixture_refuted : exists g h g1 m fs full g' p q,
  ready g h /\ fault_free (g_device g) /\ c_readonly_backup (g_config g) = false /\
  backup_at h = last_whole_block (c_lb (g_config g)) (g_device g) /\
  write_inplace true g = (Ok tt, g1) /\
  lenN (used_in_order m) <= num_parts h /\ Forall partition_ok (used_in_order m) /\
  write_inplace true (set_partitions m g1) = (Ok tt, full) /\
  fst (open_from_device true config_default (repaired (g_device (snd (write_inplace true
    (set_partitions m (set_device (with_faults fs (g_device g1)) g1))))))) = Ok g' /\
  used_in_order (g_partitions g') = [p; q] /\
  used_in_order (g_partitions g) = [one_block guid_a 3; q] /\ used_in_order m = [p; one_block other_guid 4] /\
  ~ read_back (g_partitions g) (g_partitions g') /\ ~ read_back m (g_partitions g').
Proof.
  exists (duo_disk duo_old), duo_header, (snd (write_inplace true (duo_disk duo_old))), duo_new, (repeat None 8 ++ [Some 0%nat]).
  eexists _, _, (one_block guid_b 3), (one_block sample_guid 4).
  split.
  { constructor.
    - reflexivity.
    - left. reflexivity.
    - unfold addressable. vm_compute. reflexivity.
    - constructor; try reflexivity; vm_compute; discriminate.
    - vm_compute. discriminate.
    - vm_compute used_in_order. repeat constructor; unfold char_ok; lia. }
  split; [reflexivity|]. split; [reflexivity|]. split; [vm_compute; reflexivity|].
  split; [vm_compute; reflexivity|]. split; [vm_compute; discriminate|].
  split; [vm_compute used_in_order; repeat constructor; unfold char_ok; lia|].
  split; [vm_compute; reflexivity|]. split; [vm_compute; reflexivity|].
  split; [vm_compute; reflexivity|]. split; [vm_compute; reflexivity|]. split; [vm_compute; reflexivity|].
  split; intros (qs & E & F); vm_compute in E.
  - vm_compute in F. inversion F as [|? x ? l S1 F1 E1 E2]; subst. inversion F1 as [|? y ? l' S2 F2 E1 E2]; subst.
    inversion F2; subst. injection E as E _. rewrite <- E in S1. destruct S1. discriminate.
  - vm_compute in F. inversion F as [|? x ? l S1 F1 E1 E2]; subst. inversion F1 as [|? y ? l' S2 F2 E1 E2]; subst.
    inversion F2; subst. injection E as _ E. rewrite <- E in S2. destruct S2. discriminate.
Qed.
Print Assumptions C71_mixture_refuted.
(** The hypotheses can be met: writing another attribute of the partition of the sample disk, cut anywhere. *)
Definition flagged : pmap := [(1, mkPart (part_type sample_part) (part_guid sample_part)
  (first_lba sample_part) (last_lba sample_part) 1 (name sample_part))].
Definition mini_written : gdisk := snd (write_inplace true (mini_disk [(1, sample_part)])).
Example C71_case : forall n j,
  match fst (open_from_device true config_default (repaired (g_device (snd (write_inplace true
    (set_partitions flagged (set_device (with_faults (repeat None n ++ [Some j]) (g_device mini_written)) mini_written))))))) with
  | Ok g' => read_back [(1, sample_part)] (g_partitions g') \/ read_back flagged (g_partitions g')
  | Err _ => True
  | Panic => False
  end.
Proof.
  intros n j.
  assert (K := C71_second_write_partial true true config_default (mini_disk [(1, sample_part)]) mini_header
    mini_written flagged (repeat None n ++ [Some j]) (snd (write_inplace true (set_partitions flagged mini_written)))
    mini_ready eq_refl eq_refl).
  cbv zeta in K.
  match type of K with _ -> _ -> _ -> _ -> _ -> _ -> _ -> ?C => assert (K' : C) end.
  { apply K; clear K.
    - vm_compute. reflexivity.
    - reflexivity.
    - vm_compute. reflexivity.
    - vm_compute. discriminate.
    - vm_compute used_in_order. constructor; [|constructor]. destruct sample_part_ok. constructor; auto; reflexivity.
    - vm_compute. reflexivity.
    - apply small_torn. set (a := firstn 48 (primary_array Lb512 mini_header (g_device mini_written))).
      set (b := skipn 49 (primary_array Lb512 mini_header (g_device mini_written))).
      exists a, [x04], [x01], b. split; [vm_compute; reflexivity|]. split; [vm_compute; reflexivity|].
      split; [reflexivity|]. cbn. lia. }
  clear K.
  destruct (fst (open_from_device true config_default (repaired (g_device (snd (write_inplace true
    (set_partitions flagged (set_device (with_faults (repeat None n ++ [Some j]) (g_device mini_written)) mini_written))))))))
    as [g'|e|]; auto. apply K'.
Qed.
