(** UefiFacts.v - what write_inplace leaves on a device, in the terms of SpecUefi. *)
From Verif Require Export RetryFacts SpecFacts AcceptFacts SpecUefi SessionFacts Props_Alloc Props_Open.
Open Scope list_scope.
Open Scope N_scope.

Lemma num_in off n a m l : off + n <= m -> num_at off n (range a m l) = num_at (a + off) n l.
Proof. apply num_at_slice. Qed.
Lemma range_in off n a m l : off + n <= m -> range off n (range a m l) = range (a + off) n l.
Proof. intros H. rewrite !range_slice. apply slice_slice. exact H. Qed.
Lemma checksum_92 off l : header_checksum (range off 92 l) =
  crc32 (range off 16 l ++ repeat x00 4 ++ range (off + 20) (92 - 20) l).
Proof. unfold header_checksum. rewrite !range_in by lia. rewrite N.add_0_r. reflexivity. Qed.

(** Entry [i] of an array the library wrote. *)
Lemma table_slot ps : forall np i, lenN ps <= np -> N.of_nat i < np ->
  slice (128 * N.of_nat i) 128 (table_bytes ps np) =
  match nth_error ps i with Some p => as_bytes p 128 | None => zeros 128 end.
Proof.
  induction ps as [|p ps IH]; intros np i L J.
  - destruct i; cbn [nth_error]; unfold table_bytes; cbn [entries flat_map app lenN length N.of_nat]; unfold slice;
      rewrite skipn_zeros, firstn_zeros; f_equal; rewrite N.sub_0_r; apply Nat.min_l; lia.
  - rewrite lenN_cons in L. unfold table_bytes. cbn [entries flat_map]. rewrite <- app_assoc. rewrite lenN_cons.
    replace (np - (1 + lenN ps)) with (np - 1 - lenN ps) by lia. fold (entries ps). fold (table_bytes ps (np - 1)).
    assert (LA : length (as_bytes p 128) = 128%nat) by (pose proof (as_bytes_lenN p 128) as X; unfold lenN in X; lia).
    destruct i as [|i].
    + cbn [nth_error]. unfold slice. cbn [N.of_nat]. rewrite N.mul_0_r. change (N.to_nat 0) with 0%nat. cbn [skipn].
      change (N.to_nat 128) with 128%nat. rewrite firstn_app, LA, Nat.sub_diag, firstn_O, app_nil_r.
      apply firstn_all2. lia.
    + cbn [nth_error]. rewrite <- (IH (np - 1) i) by lia. unfold slice.
      rewrite skipn_app, skipn_all2 by lia. cbn [app]. do 2 f_equal. rewrite LA. lia.
Qed.

(** Used partitions are apart, whatever their places in the list. *)
Definition apart (p q : partition) : Prop := last_lba p < first_lba q \/ last_lba q < first_lba p.
Lemma arranged_apart h m : arranged h m -> ForallOrdPairs apart (used_in_order m).
Proof.
  unfold used_in_order. intros [M R A]. unfold map_ok in M.
  assert (U : forall p, used_dec p = true <-> used p).
  { intros p. unfold used_dec, used. destruct (list_eq_dec _ _ _); cbn [negb]; split; intros; auto; try discriminate; contradiction. }
  induction m as [|[k p] m IH]; [constructor|]. cbn [map fst snd filter] in *.
  assert (T : ForallOrdPairs apart (filter used_dec (map snd m))).
  { apply IH; [inversion M; auto| |].
    - intros k' q H. apply (R k'). right. exact H.
    - intros j p' k' q H1 H2. apply (A j p' k' q); right; assumption. }
  destruct (used_dec p) eqn:D; [|exact T]. constructor; [|exact T]. apply Forall_forall. intros q I.
  apply filter_In in I as [I Q]. apply in_map_iff in I as ((k' & q') & E & I). cbn in E. subst q'.
  assert (K : k <> k').
  { inversion M as [|? ? _ F]; subst. rewrite Forall_forall in F. specialize (F k' (in_map fst _ _ I)). lia. }
  assert (H1 : has ((k, p) :: m) k p) by (left; reflexivity).
  assert (H2 : has ((k, p) :: m) k' q) by (right; exact I).
  apply U in D. apply U in Q. pose proof (R _ _ H1 D) as R1. pose proof (R _ _ H2 Q) as R2.
  pose proof (A _ _ _ _ H1 H2 D Q K (N.max (first_lba p) (first_lba q))) as X. unfold apart, covers in *. lia.
Qed.
Lemma fop_nth {A} (P : A -> A -> Prop) l : ForallOrdPairs P l -> forall i j x y, (i < j)%nat ->
  nth_error l i = Some x -> nth_error l j = Some y -> P x y.
Proof.
  induction 1 as [|a l F _ IH]; intros i j x y H E1 E2; [destruct i; discriminate|].
  destruct j as [|j]; [lia|]. cbn in E2. destruct i as [|i].
  - cbn in E1. injection E1 as <-. rewrite Forall_forall in F. apply F. eapply nth_error_In; eauto.
  - cbn in E1. apply (IH i j); auto. lia.
Qed.

(** One valid header with an intact array. *)
Lemma copy_of lb l lba other hd :
  (lba + 1) * lb_u64 lb <= lenN l -> header_at l (lba * lb_u64 lb) (Ok hd) ->
  current_lba hd = lba -> backup_lba hd = other -> header_size_le hd = 92 -> rev_major hd = 1 -> rev_minor hd = 0 ->
  reserved hd = 0 -> part_size hd = 128 -> array_at lb hd + array_len hd <= lenN l -> array_intact lb hd l ->
  all_zero (range (lba * lb_u64 lb + 92) (lb_u64 lb - 92) l) ->
  uefi_copy lb l lba other /\ array_start lb l lba = part_start hd /\ entry_count lb l lba = num_parts hd /\
  usable_from lb l lba = first_usable hd /\ usable_to lb l lba = last_usable hd /\
  range (lba * lb_u64 lb + 56) 16 l = guid_on_disk (disk_guid hd).
Proof.
  intros HL H C O Z V1 V2 RS PS FT (_ & _ & AI) PAD. assert (HB : 92 <= lb_u64 lb) by (destruct lb; cbn; lia).
  inversion H as [| | |? L SG CK HB']; subst.
  destruct HB' as [B1 B2 B3 B4 B5 B6 B7 B8 B9 B10 B11 B12 B13 B14 B15].
  rewrite !num_in in * by lia. rewrite !range_in in * by lia. rewrite N.add_0_r in B1.
  unfold array_at, array_len in *. rewrite PS in *.
  assert (E1 : array_start lb l (current_lba hd) = part_start hd) by exact B12.
  assert (E2 : entry_count lb l (current_lba hd) = num_parts hd) by exact B13.
  split; [|repeat split; auto].
  constructor; auto.
  - unfold uefi_header. rewrite B4, Z. split; [lia|]. split; [exact SG|]. split; [lia|]. split; [|exact B7].
    rewrite CK. apply checksum_92.
  - split; congruence.
  - congruence.
  - rewrite E1, E2. exact FT.
  - unfold array_bytes. rewrite E1, E2, B15, AI. reflexivity.
Qed.

Lemma hdr_block_rest h c lb : length (signature h) = 8%nat -> wf_uuid (disk_guid h) ->
  all_zero (slice 92 (lb_u64 lb - 92) (hdr_block h c lb)).
Proof.
  intros H1 H2. unfold hdr_block, slice. rewrite skipn_app, skipn_all2 by (rewrite length_image; auto; lia).
  rewrite length_image by auto. change (N.to_nat 92 - 92)%nat with 0%nat. cbn [app skipn].
  rewrite firstn_all2 by (rewrite zeros_length; lia). unfold all_zero, zeros. apply Forall_forall.
  intros b I. apply repeat_spec in I. auto.
Qed.
(** Only entries of used partitions count as used. *)
Lemma slot_used ps np i : lenN ps <= np -> i < np ->
  entry_used (slice (128 * i) 128 (table_bytes ps np)) ->
  exists p, nth_error ps (N.to_nat i) = Some p /\ slice (128 * i) 128 (table_bytes ps np) = as_bytes p 128.
Proof.
  intros HL HI. rewrite <- (N2Nat.id i). rewrite table_slot by lia. rewrite N2Nat.id.
  destruct (nth_error _ _) as [p|]; [eauto|]. intros H. exfalso. apply H. vm_compute. repeat constructor.
Qed.

Lemma image_uefi lb h m l0 : sane lb (lenN l0) h -> lenN l0 < modulus 64 -> lenN (used_in_order m) <= num_parts h ->
  Forall partition_ok (used_in_order m) -> arranged h m -> blba h = lenN l0 / lb_u64 lb - 1 ->
  last_usable h <= blba h - ablocks (num_parts h) 128 lb - 1 ->
  uefi_disk lb (final_image lb h (used_in_order m) l0) (blba h).
Proof.
  intros S H64 HU HP HA HB HLU. set (ps := used_in_order m) in *. set (L := final_image lb h ps l0).
  pose proof (image_facts lb h ps _ S HU) as (F1 & F2 & F3 & F4 & F5). fold L in F1, F2, F3, F4, F5.
  pose proof (sane_areas _ _ _ S) as (A1 & A2 & A3 & A4 & A5 & A6).
  pose proof (image_primary lb h ps _ S HU H64) as RP. pose proof (image_backup lb h ps _ S HU H64) as RB.
  fold L in RP, RB.
  assert (WU : wf_uuid (disk_guid h)) by apply S.
  set (hp := hdr_written (new_primary lb h) (crc32 (table_image h ps))) in *.
  set (hb := hdr_written (new_backup lb h) (crc32 (table_image h ps))) in *.
  set (t := ablocks (num_parts h) 128 lb) in *.
  assert (HAP : header_at L (1 * lb_u64 lb) (Ok hp)) by (rewrite N.mul_1_l, <- RP; apply read_header_at_spec).
  assert (HAB : header_at L (blba h * lb_u64 lb) (Ok hb)) by (rewrite <- RB; apply read_header_at_spec).
  assert (PP : all_zero (range (1 * lb_u64 lb + 92) (lb_u64 lb - 92) L)).
  { rewrite range_slice, N.mul_1_l, <- (slice_slice (lb_u64 lb) (lb_u64 lb) 92 (lb_u64 lb - 92)) by lia. rewrite F2.
    apply hdr_block_rest; auto. }
  assert (PB : all_zero (range (blba h * lb_u64 lb + 92) (lb_u64 lb - 92) L)).
  { rewrite range_slice, <- (slice_slice (blba h * lb_u64 lb) (lb_u64 lb) 92 (lb_u64 lb - 92)) by lia. rewrite F3.
    apply hdr_block_rest; auto. }
  assert (IP : array_intact lb hp L).
  { eapply array_intact_slice; try reflexivity;
      cbn [hp hdr_written new_primary set_crc32 set_crc32_parts part_start num_parts crc32_parts]; rewrite ?F1; fold t; try lia.
    rewrite F4. reflexivity. }
  assert (IB : array_intact lb hb L).
  { eapply array_intact_slice; try reflexivity;
      cbn [hb hdr_written new_backup set_crc32 set_crc32_parts part_start num_parts crc32_parts]; rewrite ?F1; fold t; try lia.
    rewrite F5. reflexivity. }
  destruct (copy_of lb L 1 (blba h) hp) as (CP & P1 & P2 & P3 & P4 & P5); auto;
    [rewrite F1; lia|unfold array_at, array_len;
     cbn [hp hb hdr_written new_primary new_backup set_crc32 set_crc32_parts part_start num_parts part_size]; rewrite F1; fold t; lia|].
  destruct (copy_of lb L (blba h) 1 hb) as (CB & B1 & B2 & B3 & B4 & B5); auto;
    [rewrite F1; lia|unfold array_at, array_len;
     cbn [hp hb hdr_written new_primary new_backup set_crc32 set_crc32_parts part_start num_parts part_size]; rewrite F1; fold t; lia|].
  change (part_start hp) with 2 in P1. change (num_parts hp) with (num_parts h) in P2.
  change (first_usable hp) with (first_usable h) in P3. change (last_usable hp) with (blba h - t - 1) in P4.
  change (part_start hb) with (blba h - t) in B1. change (num_parts hb) with (num_parts h) in B2.
  change (first_usable hb) with (first_usable h) in B3. change (last_usable hb) with (blba h - t - 1) in B4.
  assert (AP : array_bytes lb L 1 = table_image h ps).
  { unfold array_bytes. rewrite P1, P2, N.mul_comm with (n := num_parts h). exact F4. }
  assert (AB : array_bytes lb L (blba h) = table_image h ps).
  { unfold array_bytes. rewrite B1, B2, N.mul_comm with (n := num_parts h). exact F5. }
  assert (SL : forall i, i < num_parts h -> entry_used (array_entry lb L 1 i) ->
    exists p, nth_error ps (N.to_nat i) = Some p /\ entry_first (array_entry lb L 1 i) = first_lba p /\
      entry_last (array_entry lb L 1 i) = last_lba p).
  { intros i HI U. unfold array_entry in *. rewrite AP in *. rewrite range_slice in *.
    destruct (slot_used ps (num_parts h) i HU HI U) as (p & N1 & E). exists p. split; [exact N1|]. unfold table_image. rewrite E.
    assert (PO : partition_ok p) by (rewrite Forall_forall in HP; apply HP; eapply nth_error_In; eauto).
    rewrite partition_ok_iff in PO. destruct (as_bytes_decodes p PO) as [[] _ _]. split; auto. }
  assert (IN : forall p, In p ps -> first_usable h <= first_lba p /\ first_lba p <= last_lba p /\ last_lba p <= last_usable h).
  { intros p I. unfold ps, used_in_order in I. apply filter_In in I as [I U]. apply in_map_iff in I as ((k & q) & E & I).
    cbn in E. subst q. apply (ar_range _ _ HA k p I). unfold used_dec in U. unfold used.
    destruct (list_eq_dec _ _ _); [discriminate|assumption]. }
  constructor; auto.
  - rewrite F1. exact HB.
  - rewrite P3, P4, B3, B4. auto.
  - rewrite P5, B5. reflexivity.
  - congruence.
  - congruence.
  - rewrite P1, P2, P3, P4, B1, B2. pose proof (lb_pos lb). destruct S. nia.
  - intros i HI e U. rewrite P2 in HI. destruct (SL i HI U) as (p & N1 & E1 & E2). unfold e. rewrite E1, E2, P3, P4.
    destruct (IN p (nth_error_In _ _ N1)) as (X1 & X2 & X3). lia.
  - intros i j HI HJ e e' U U'. rewrite P2 in HJ. destruct (SL i) as (p & N1 & E1 & E2); auto; [lia|].
    destruct (SL j HJ U') as (q & N2 & E3 & E4). unfold e, e'. rewrite E1, E2, E3, E4.
    apply (fop_nth apart ps (arranged_apart h m HA) (N.to_nat i) (N.to_nat j)); auto. lia.
Qed.

(** * Histories do not move the backup *)
Lemma place_step oc o g h g' : c_change_partition_count (g_config g) = false -> tidy_op oc (c_lb (g_config g)) o -> tidy g h ->
  step oc o g = Some g' -> exists h', header_of g' h' /\ backup_at h' = backup_at h.
Proof.
  intros HC TO [T1 T2 T3 T4 T5] E.
  assert (KEEP : g_primary g' = g_primary g -> g_backup g' = g_backup g ->
    exists h', header_of g' h' /\ backup_at h' = backup_at h).
  { intros E1 E2. exists h. split; [|reflexivity]. unfold header_of. rewrite E1, E2. exact T2. }
  destruct o; cbn [tidy_op] in TO; try contradiction; cbn [step] in E.
  - assert (S1 : 1 <= size).
    { destruct (N.eq_dec size 0) as [->|NE]; [|lia]. unfold add_partition in E. cbn in E. discriminate. }
    assert (NP : fst (add_partition oc nm size ty fl al rnd g) <> Panic).
    { destruct (add_partition oc nm size ty fl al rnd g) as [[]]; cbn in E |- *; discriminate. }
    apply kept_some in E.
    destruct (add_partition_choose oc nm size ty fl al rnd g h T2 T4 T5 S1 TO) as [(start & _ & EQ)|[(_ & EQ)|(_ & EQ)]].
    + rewrite EQ in E. destruct (finish_add_cases oc nm (blocks_for size (c_lb (g_config g))) ty fl rnd start g h T2 HC) as [X|(id & X)];
        rewrite X in E; subst g'; apply KEEP; reflexivity.
    + rewrite EQ in E. subst g'. apply KEEP; reflexivity.
    + rewrite EQ in NP. destruct NP. reflexivity.
  - injection E as <-. unfold remove_partition in *. destruct (pm_get _ _); apply KEEP; reflexivity.
  - injection E as <-. unfold remove_partition_by_guid in *. destruct (find _ _) as [[k p]|]; apply KEEP; reflexivity.
  - injection E as <-. apply KEEP; reflexivity.
  - injection E as <-. apply KEEP; reflexivity.
  - apply kept_some in E. rewrite header_of_iff in T2. rewrite addressable_iff in T1.
    destruct (write_inplace_header oc g h T2 T1 (sane_of _ _ _ T3)) as (x & X1 & (X2 & X3 & _)).
    rewrite E in *. exists x. rewrite header_of_iff. split; [exact X1|]. rewrite !backup_at_eq. exact X3.
Qed.
Lemma place_run oc ops : forall g h g', c_change_partition_count (g_config g) = false ->
  Forall (tidy_op oc (c_lb (g_config g))) ops -> tidy g h -> run oc ops g = Some g' ->
  exists h', header_of g' h' /\ backup_at h' = backup_at h.
Proof.
  induction ops as [|o ops IH]; intros g h g' HC F T; cbn [run].
  - intros E. injection E as <-. exists h. split; [apply T|reflexivity].
  - destruct (step oc o g) as [g1|] eqn:E; [|discriminate]. intros R. inversion F as [|a l F1 F2]; subst.
    destruct (place_step oc o g h g1 HC F1 T E) as (h1 & P1 & P2).
    destruct T as [T1 T2 T3 T4 T5].
    destruct (tidy_step oc o g h g1 HC F1 T1 T2 T3 T4 T5 E) as (C & L & h2 & A1 & A2 & A3 & A4 & A5 & A6 & A7).
    assert (h2 = h1) by (eapply header_of_fun; eassumption). subst h2.
    destruct (IH g1 h1 g') as (h' & Q1 & Q2); auto.
    + rewrite C. exact HC.
    + rewrite C. exact F2.
    + constructor; auto; [unfold addressable; rewrite L; exact T1|rewrite C, L; exact A2].
    + exists h'. split; [exact Q1|congruence].
Qed.

(** * A history and a write that succeeds *)
Lemma write_uefi oc g h g' : tidy g h -> typed_table (g_partitions g) -> c_readonly_backup (g_config g) = false ->
  backup_at h = last_whole_block (c_lb (g_config g)) (g_device g) ->
  write_inplace oc g = (Ok tt, g') -> uefi_disk (c_lb (g_config g)) (data (g_device g')) (backup_at h).
Proof.
  intros T TT RB BA W. destruct (drf_write oc g tt g' W) as (_ & W').
  assert (WR : c_writable (g_config g) = true).
  { destruct (c_writable (g_config g)) eqn:E; [reflexivity|].
    destruct (C14_read_only oc g E) as (X & _). rewrite X in W. discriminate. }
  set (gr := repaired_disk g) in *. set (lb := c_lb (g_config g)) in *.
  assert (TH : try_header gr = Ok h) by (apply header_of_iff, T).
  assert (HD : healthy (g_device gr) /\ dev_len (g_device gr) < modulus 64).
  { split; [reflexivity|]. pose proof (ti_size _ _ T) as AD. rewrite addressable_iff in AD. exact AD. }
  assert (SN : sane lb (dev_len (g_device gr)) h) by (apply sane_of, (ti_layout _ _ T)).
  assert (CNT : lenN (used_list (g_partitions gr)) <= num_parts h).
  { destruct (N.le_gt_cases (lenN (used_list (g_partitions gr))) (num_parts h)) as [X|X]; [exact X|exfalso].
    assert (Z : fst (write_inplace oc gr) = Err GOverflowPartitionCount) by (apply (write_overflow oc gr h); auto).
    rewrite W' in Z. discriminate. }
  destruct (write_inplace_sane oc gr h WR RB TH HD SN CNT) as (g1 & E & D & _).
  rewrite W' in E. injection E as <-. cbn [repaired_disk set_device g_device repaired with_faults data] in D. rewrite D.
  rewrite backup_at_eq in *. rewrite <- used_in_order_eq in *. apply image_uefi; auto.
  - apply HD.
  - apply Forall_forall. intros p H. apply used_in_order_in in H. destruct H as (U & k & H).
    eapply typed_ok; [apply (ti_usable _ _ T)|apply (ti_arranged _ _ T)|exact TT|exact H|exact U].
  - apply (ti_arranged _ _ T).
  - destruct (ti_layout _ _ T) as [_ _ _ _ _ L _ _]. rewrite array_blocks_eq, backup_at_eq in L. fold lb in L. change (c_lb (g_config gr)) with lb. lia.
Qed.

(** * Reading a valid GPT *)
Lemma accepted_iff lb l lba :
  (lba + 1) * lb_u64 lb <= lenN l -> num_at (lba * lb_u64 lb + 12) 4 l = 92 -> num_at (lba * lb_u64 lb + 24) 8 l = lba ->
  ((exists h, header_at l (lba * lb_u64 lb) (Ok h)) <-> uefi_header lb l lba).
Proof.
  intros HL HS HM. assert (HB : 92 <= lb_u64 lb) by (destruct lb; cbn; lia).
  split.
  - intros (h & H). inversion H as [| | |? L SG CK HB']; subst. unfold uefi_header. rewrite HS.
    split; [lia|]. split; [exact SG|]. split; [lia|]. split; [|exact HM]. rewrite CK. apply checksum_92.
  - intros (L & SG & _ & CK & _). rewrite HS in CK.
    assert (S := read_header_at_spec (lba * lb_u64 lb) l).
    inversion S as [L1 E|L1 NS E|L1 S1 C1 E|h L1 S1 C1 B1 E]; rewrite <- E in S.
    + lia.
    + contradiction.
    + exfalso. apply C1. rewrite checksum_92. exact CK.
    + exists h. exact S.
Qed.
Lemma copy_header lb l lba other : uefi_copy lb l lba other -> num_at (lba * lb_u64 lb + 12) 4 l = 92 ->
  exists hd, header_at l (lba * lb_u64 lb) (Ok hd) /\ current_lba hd = lba /\ backup_lba hd = other /\
    part_size hd = 128 /\ part_start hd = array_start lb l lba /\ num_parts hd = entry_count lb l lba /\
    first_usable hd = usable_from lb l lba /\ last_usable hd = usable_to lb l lba /\
    guid_on_disk (disk_guid hd) = range (lba * lb_u64 lb + 56) 16 l /\
    crc32_parts hd = crc32 (array_bytes lb l lba).
Proof.
  intros [C1 C2 C3 C4 C5 C6 C7 C8] HS. assert (C1' := C1). destruct C1 as (A1 & A2 & A3 & A4 & A5).
  apply accepted_iff in C1'; auto; [|lia].
  destruct C1' as (hd & H). exists hd. split; [exact H|]. inversion H as [| | |? L SG CK HB']; subst hd0 || subst.
  destruct HB' as [B1 B2 B3 B4 B5 B6 B7 B8 B9 B10 B11 B12 B13 B14 B15].
  rewrite !num_in in * by lia. rewrite !range_in in * by lia.
  repeat split; try congruence; unfold array_start, entry_count, usable_from, usable_to; congruence.
Qed.
Lemma used_entry b p : entry_decodes b p -> (entry_used b <-> used p) /\ entry_first b = first_lba p /\ entry_last b = last_lba p.
Proof.
  intros [[E1 E2 E3 E4 E5 E6] _ _]. split; [|auto]. unfold entry_used, used. rewrite E2.
  assert (X : all_zero (guid_on_disk (guid (part_type p))) <-> guid (part_type p) = repeat x00 16).
  { split.
    - intros H. rewrite <- (guid_on_disk_invol (guid (part_type p))). rewrite <- E2 in *.
      assert (length (range 0 16 b) = 16%nat).
      { unfold lenN in E1. rewrite range_slice. unfold slice. rewrite firstn_length, skipn_length. lia. }
      assert (range 0 16 b = repeat x00 16) as ->; [|reflexivity].
      rewrite <- H0. apply Forall_eq_repeat. exact H.
    - intros ->. vm_compute. repeat constructor. }
  tauto.
Qed.
Lemma array_blocks_fit lb h a b : a * lb_u64 lb + num_parts h * 128 <= b * lb_u64 lb -> a + array_blocks lb h <= b.
Proof.
  intros H. rewrite array_blocks_eq. unfold ablocks, div_ceil. pose proof (lb_pos lb).
  assert ((num_parts h * 128 + lb_u64 lb - 1) / lb_u64 lb < b - a + 1); [apply N.div_lt_upper_bound; nia|].
  replace (128 * num_parts h) with (num_parts h * 128) by lia. nia.
Qed.
Lemma uefi_open oc cfg d last : fault_free d -> addressable d -> let lb := c_lb cfg in let l := data d in
  uefi_disk lb l last -> num_at (1 * lb_u64 lb + 12) 4 l = 92 -> num_at (last * lb_u64 lb + 12) 4 l = 92 ->
  entry_count lb l 1 < 2 ^ 25 ->
  exists g h, fst (open_from_device oc cfg d) = Ok g /\ tidy g h /\ typed_table (g_partitions g) /\
    backup_at h = last /\ last = last_whole_block lb (g_device g) /\ g_config g = cfg /\ data (g_device g) = l /\
    num_parts h = entry_count lb l 1 /\
    forall k p, has (g_partitions g) k p <->
      1 <= k <= entry_count lb l 1 /\ ~ all_zero (array_entry lb l 1 (k - 1)) /\
      entry_decodes (array_entry lb l 1 (k - 1)) p.
Proof.
  intros HF HA lb l [U1 U2 U3 U4 U5 U6 U7 (O1 & O2 & O3 & O4 & O5) U9 U10] S1 S2 HN.
  destruct (copy_header _ _ _ _ U2 S1) as (hp & P0 & P1 & P2 & P3 & P4 & P5 & P6 & P7 & P8 & P9).
  destruct (copy_header _ _ _ _ U3 S2) as (hb & B0 & _).
  rewrite N.mul_1_l in P0. pose proof (lb_pos lb) as LP.
  assert (LS : last >= 3).
  { assert (last * lb_u64 lb >= array_start lb l last * lb_u64 lb) by lia.
    assert (array_start lb l last <= last) by (apply N.mul_le_mono_pos_r with (p := lb_u64 lb); lia).
    assert (2 * lb_u64 lb <= usable_from lb l 1 * lb_u64 lb) by nia.
    assert (2 <= usable_from lb l 1) by (apply N.mul_le_mono_pos_r with (p := lb_u64 lb); lia). lia. }
  assert (LEN : (last + 1) * lb_u64 lb <= lenN l).
  { rewrite U1 at 1. pose proof (N.mul_div_le (lenN l) (lb_u64 lb)). nia. }
  assert (HB : backup_header_at lb d (Ok hb)).
  { split; [intros _|intros X; fold l in X; nia]. change (last_whole_block lb d) with (lenN l / lb_u64 lb - 1). rewrite <- U1. exact B0. }
  assert (CT : countable oc hp (data d)) by (right; left; rewrite P5; lia).
  assert (OW : opened_with cfg d (Ok hp) (Ok hb) hp (fst (open_from_device oc cfg d))).
  { destruct (c_only_valid_headers cfg) eqn:V.
    - destruct (C12_only_valid_headers oc cfg d _ _ HF HA V P0 HB) as (_ & _ & _ & X). apply (X hp hb); auto.
    - apply C11_header_used; auto. }
  assert (AE : array_at lb hp = array_start lb l 1 * lb_u64 lb /\ array_len hp = entry_count lb l 1 * 128).
  { unfold array_at, array_len. rewrite P4, P5, P3. auto. }
  destruct AE as (AE1 & AE2).
  assert (AI : array_intact lb hp l).
  { unfold addressable in HA. fold l in HA. pose proof (uc_fit _ _ _ _ U2) as FT.
    unfold array_intact. rewrite AE1, AE2. split; [lia|]. split; [right; exact FT|]. rewrite P9. reflexivity. }
  destruct (fst (open_from_device oc cfg d)) as [g|e|]; cbn [opened_with] in OW; [|destruct e; contradiction|contradiction].
  destruct OW as (_ & (TM & TR) & GC & GG & GP & GB & (GD & _) & _). fold lb l in TR, GD.
  assert (TR' : forall k p, has (g_partitions g) k p <->
      1 <= k <= entry_count lb l 1 /\ ~ all_zero (array_entry lb l 1 (k - 1)) /\
      entry_decodes (array_entry lb l 1 (k - 1)) p).
  { intros k p. rewrite TR, P5. unfold slot. rewrite AE1, AE2. reflexivity. }
  exists g, hp. split; [reflexivity|].
  assert (BA : backup_at hp = last) by (unfold backup_at; rewrite P1, P2; lia).
  assert (TY : typed_table (g_partitions g)).
  { intros k p H. apply TR' in H as (H1 & _ & H2).
    assert (LE : length (array_entry lb l 1 (k - 1)) = 128%nat).
    { pose proof (eb_len _ _ (ed_bytes _ _ H2)) as X. unfold lenN in X. lia. }
    destruct (parse_entry_decodes _ LE) as (q & _ & D & W & _). rewrite (entry_decodes_fun _ _ _ H2 D).
    rewrite <- partition_ok_iff in W. destruct W. repeat split; auto. }
  split; [|split; [exact TY|split; [exact BA|split; [|split; [exact GC|split; [exact GD|split; [exact P5|exact TR']]]]]]].
  2: { change (last_whole_block lb (g_device g)) with (lenN (data (g_device g)) / lb_u64 lb - 1). rewrite GD. exact U1. }
  assert (LO : layout_ok lb (lenN l) hp).
  { constructor.
    - unfold guid_ok. assert (X : length (guid_on_disk (disk_guid hp)) = 16%nat).
      { rewrite P8, range_slice. pose proof (slice_lenN (1 * lb_u64 lb + 56) 16 l) as Y. unfold lenN in *. 
        assert (512 <= lb_u64 lb) by (destruct lb; cbn; lia). lia. }
      destruct (disk_guid hp) as [|? [|? [|? [|? [|? [|? [|? [|? ?]]]]]]]]; exact X.
    - exact P3.
    - rewrite P5. lia.
    - unfold primary_at. rewrite P1, P2. lia.
    - rewrite P6. apply (array_blocks_fit lb hp 2 (usable_from lb l 1)). rewrite P5. nia.
    - rewrite P7, BA. assert (array_start lb l last + array_blocks lb hp <= last); [|lia].
      apply array_blocks_fit. rewrite P5, U6. exact O5.
    - rewrite P6, BA. assert (array_start lb l last + array_blocks lb hp <= last); [|lia].
      apply array_blocks_fit. rewrite P5, U6. exact O5.
    - rewrite BA. exact LEN. }
  unfold addressable in HA. fold l in HA. assert (LB : last + 1 <= (last + 1) * lb_u64 lb) by nia.
  constructor.
  - unfold addressable. rewrite GD. exact HA.
  - left. exact GP.
  - rewrite GC, GD. exact LO.
  - destruct LO as [_ _ _ _ L5 L6 L7 L8]. unfold usable_ok. rewrite BA in *. rewrite P6, P7 in *. lia.
  - constructor; [exact TM| |].
    + intros k p H Hu. apply TR' in H as (H1 & _ & H2). destruct (used_entry _ _ H2) as (X1 & X2 & X3).
      rewrite P6, P7, <- X2, <- X3. apply U9; [lia|]. apply X1, Hu.
    + intros j p k q H1 H2 Hp Hq NE x (C1 & C2). apply TR' in H1 as (H1 & _ & H1'). apply TR' in H2 as (H2 & _ & H2').
      destruct (used_entry _ _ H1') as (X1 & X2 & X3). destruct (used_entry _ _ H2') as (Y1 & Y2 & Y3).
      unfold covers in *. apply X1 in Hp. apply Y1 in Hq.
      destruct (N.lt_total j k) as [LT|[EQ|LT]]; [|contradiction|].
      * pose proof (U10 (j - 1) (k - 1) ltac:(lia) ltac:(lia) Hp Hq) as Z. lia.
      * pose proof (U10 (k - 1) (j - 1) ltac:(lia) ltac:(lia) Hq Hp) as Z. lia.
Qed.
