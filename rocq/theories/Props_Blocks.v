(** Props_Blocks.v - opening a disk with the wrong block size. *)
From Verif Require Import Samples SpecBlocks MapFacts Props_Entry Props_Open Props_Write.
Open Scope list_scope.
Open Scope N_scope.

Lemma entry_in_table ps : forall np j, lenN ps <= np -> j < np ->
  (exists p, In p ps /\ slice (128 * j) 128 (table_bytes ps np) = as_bytes p 128) \/
  slice (128 * j) 128 (table_bytes ps np) = zeros 128.
Proof.
  induction ps as [|p ps IH]; intros np j L J.
  - right. unfold table_bytes. cbn [entries flat_map app lenN length N.of_nat]. unfold slice. rewrite skipn_zeros, firstn_zeros.
    f_equal. rewrite N.sub_0_r. apply Nat.min_l. lia.
  - rewrite lenN_cons in L. unfold table_bytes. cbn [entries flat_map]. rewrite <- app_assoc. rewrite lenN_cons.
    replace (np - (1 + lenN ps)) with (np - 1 - lenN ps) by lia. fold (entries ps). fold (table_bytes ps (np - 1)).
    assert (LA : length (as_bytes p 128) = 128%nat) by (pose proof (as_bytes_lenN p 128) as X; unfold lenN in X; lia).
    destruct (N.eq_dec j 0) as [->|NZ].
    + left. exists p. split; [left; reflexivity|]. unfold slice. rewrite N.mul_0_r. change (N.to_nat 0) with 0%nat. cbn [skipn].
      change (N.to_nat 128) with 128%nat. rewrite firstn_app, LA, Nat.sub_diag, firstn_O, app_nil_r.
      apply firstn_all2. lia.
    + assert (E : slice (128 * j) 128 (as_bytes p 128 ++ table_bytes ps (np - 1)) =
                  slice (128 * (j - 1)) 128 (table_bytes ps (np - 1))).
      { unfold slice. f_equal. rewrite skipn_app, LA. rewrite skipn_all2 by lia. cbn [app]. f_equal. lia. }
      rewrite E. destruct (IH (np - 1) (j - 1)) as [(q & I & Q)|Q]; [lia|lia| |right; exact Q].
      left. exists q. split; [right; exact I|exact Q].
Qed.
(** No entry of the array looks like a header. *)
Lemma no_signature ps np j : lenN ps <= np -> j < np ->
  Forall (fun p => partition_ok p /\ ~ disguised p) ps ->
  slice (128 * j) 8 (table_bytes ps np) <> efi_part.
Proof.
  intros L J F. assert (S : slice (128 * j) 8 (table_bytes ps np) = slice 0 8 (slice (128 * j) 128 (table_bytes ps np))).
  { rewrite slice_slice by lia. f_equal. lia. }
  rewrite S. destruct (entry_in_table ps np j L J) as [(p & I & E)|E]; rewrite E.
  - rewrite Forall_forall in F. destruct (F p I) as (P & D). intros X. apply D. unfold disguised.
    rewrite <- (eb_type _ _ (C03_entry_layout p P)), range_slice.
    unfold slice in X |- *. cbn [N.to_nat skipn] in *. rewrite firstn_firstn. exact X.
  - vm_compute. discriminate.
Qed.
Lemma open_no_headers oc cfg d : fault_free d -> addressable d ->
  header_at (data d) (lb_u64 (c_lb cfg)) (Err HInvalidGptSignature) ->
  backup_header_at (c_lb cfg) d (Err HInvalidGptSignature) ->
  fst (open_from_device oc cfg d) = Err (GHeader HInvalidGptSignature).
Proof.
  intros F A H1 H2. destruct (c_only_valid_headers cfg) eqn:V.
  - apply (C12_only_valid_headers oc cfg d _ _ F A V H1 H2). reflexivity.
  - apply (C11_header_error oc cfg d _ _ _ F A V H1 H2). split; [reflexivity|eexists; reflexivity].
Qed.

Lemma range_ext a n l l' : (forall i, a <= i < a + n -> byte_no l' i = byte_no l i) -> range a n l' = range a n l.
Proof.
  intros H. rewrite !range_slice. apply byte_at_ext. intros i. rewrite !byte_at_slice.
  destruct (N.ltb_spec i n); [|reflexivity]. apply H. lia.
Qed.
Lemma range_app_l a n l r : a + n <= lenN l -> range a n (l ++ r) = range a n l.
Proof.
  intros H. apply range_ext. intros i I. unfold byte_no. unfold lenN in H. apply nth_error_app1. lia.
Qed.
Lemma block0_kept oc g h : ready g h -> forall a n, a + n <= lb_u64 (c_lb (g_config g)) ->
  range a n (data (g_device (snd (write_inplace oc g)))) = range a n (data (g_device g)).
Proof.
  intros HR a n H. apply range_ext. intros i I.
  apply (C16_usable_area_preserved oc g h i (rd_header _ _ HR) (rd_size _ _ HR) (rd_layout _ _ HR)). left. lia.
Qed.
(** * C64: a disk does not open with the wrong block size *)
(** A disk written with blocks of 512 bytes, opened as one with blocks of 4096 bytes.  At byte 4096 and in
    the last 4096 bytes there are entries of the two arrays; so it is rejected unless one of them is
    disguised as a header. *)
Theorem C64_small_as_large_partial : forall oc oc' g h cfg,
  ready g h -> fault_free (g_device g) -> c_lb (g_config g) = Lb512 -> c_readonly_backup (g_config g) = false ->
  backup_at h = last_whole_block Lb512 (g_device g) -> 128 <= num_parts h ->
  Forall (fun p => ~ disguised p) (used_in_order (g_partitions g)) ->
  c_lb cfg = Lb4096 ->
  exists g', write_inplace oc g = (Ok tt, g') /\
    fst (open_from_device oc' cfg (g_device g')) = Err (GHeader HInvalidGptSignature).
Proof.
  intros oc oc' g h cfg HR HF LB RO HB NP DI HC.
  assert (PO := rd_parts _ _ HR). assert (HW := rd_writable _ _ HR). assert (LO := rd_layout _ _ HR). rewrite LB in LO.
  apply ready_sane in HR. destruct HR as (HT & HA & HS & HU & HP).
  destruct (write_inplace_sane oc g h HW RO HT (conj HF HA) HS HU)
    as (g' & E & D & P & B & C & G & Q & Y & (_ & _ & F) & _).
  exists g'. split; [exact E|]. rewrite LB in D, HS.
  set (ps := used_list (g_partitions g)) in *. set (l0 := data (g_device g)) in *.
  destruct (image_facts Lb512 h ps l0 HS HU) as (L & _ & _ & T1 & T2). rewrite <- D in L, T1, T2.
  assert (FO : Forall (fun p => partition_ok p /\ ~ disguised p) ps).
  { rewrite Forall_forall in *. intros p I. unfold ps in I. rewrite <- used_in_order_eq in I. split; [apply PO, I|apply DI, I]. }
  destruct (sane_areas Lb512 (lenN l0) h HS) as (Z1 & Z2 & Z3 & Z4 & _ & Z5).
  rewrite backup_at_eq in HB. unfold last_whole_block in HB. fold l0 in HB. cbn [lb_u64] in *.
  set (t := ablocks (num_parts h) 128 Lb512) in *.
  assert (TT : t * 512 < 128 * num_parts h + 512 /\ 128 * num_parts h <= t * 512).
  { pose proof (lo_num _ _ _ LO) as LN. unfold t, ablocks, div_ceil. cbn [lb_u64].
    pose proof (N.div_mod (num_parts h * 128 + (512 - 1)) 512 ltac:(lia)) as X.
    pose proof (N.mod_lt (num_parts h * 128 + (512 - 1)) 512 ltac:(lia)). lia. }
  destruct TT as (TT1 & TT2).
  pose proof (N.div_mod (lenN l0) 512 ltac:(lia)) as DM. pose proof (N.mod_lt (lenN l0) 512 ltac:(lia)) as ML.
  pose proof (N.div_mod (lenN l0) 4096 ltac:(lia)) as DM2. pose proof (N.mod_lt (lenN l0) 4096 ltac:(lia)) as ML2.
  set (q1 := lenN l0 / 512) in *. set (q2 := lenN l0 / 4096) in *.
  apply open_no_headers.
  - unfold fault_free. rewrite F. exact HF.
  - unfold addressable. rewrite L. rewrite <- two64. exact HA.
  - rewrite HC. cbn [lb_u64]. apply ha_signature; [rewrite L; lia|]. rewrite range_slice.
    replace (slice 4096 8 (data (g_device g'))) with (slice (128 * 24) 8 (table_bytes ps (num_parts h))).
    + apply no_signature; auto. lia.
    + fold (table_image h ps). rewrite <- T1. rewrite slice_slice by lia. reflexivity.
  - rewrite HC. split; [intros _|rewrite L; cbn [lb_u64]; lia].
    cbn [lb_u64]. unfold last_whole_block. rewrite L. cbn [lb_u64]. fold q2.
    apply ha_signature; [rewrite L; lia|]. rewrite range_slice.
    set (A := (blba h - t) * 512) in *.
    assert (AX : exists j, (q2 - 1) * 4096 = A + 128 * j /\ j < num_parts h).
    { exists (((q2 - 1) * 8 - (blba h - t)) * 4). unfold A. lia. }
    destruct AX as (j & AX & J). rewrite AX.
    replace (slice (A + 128 * j) 8 (data (g_device g'))) with (slice (128 * j) 8 (table_bytes ps (num_parts h))).
    + apply no_signature; auto.
    + fold (table_image h ps). rewrite <- T2. rewrite slice_slice by lia. reflexivity.
Qed.
Print Assumptions C64_small_as_large_partial.
(** The other way round: a disk written with blocks of 4096 bytes, opened as one with blocks of 512 bytes.
    The second 512 bytes belong to block 0, which writing leaves alone; so it is rejected unless there was a
    header there already. *)
Theorem C64_large_as_small_partial : forall oc oc' g h cfg,
  ready g h -> fault_free (g_device g) -> c_lb (g_config g) = Lb4096 -> c_readonly_backup (g_config g) = false ->
  backup_at h = last_whole_block Lb4096 (g_device g) -> lenN (data (g_device g)) mod 4096 = 0 ->
  range 512 8 (data (g_device g)) <> efi_part ->
  c_lb cfg = Lb512 ->
  exists g', write_inplace oc g = (Ok tt, g') /\
    fst (open_from_device oc' cfg (g_device g')) = Err (GHeader HInvalidGptSignature).
Proof.
  intros oc oc' g h cfg HR HF LB RO HB ML SI HC. assert (R0 := HR).
  assert (HW := rd_writable _ _ HR).
  apply ready_sane in HR. destruct HR as (HT & HA & HS & HU & HP).
  destruct (write_inplace_sane oc g h HW RO HT (conj HF HA) HS HU)
    as (g' & E & D & P & B & C & G & Q & Y & (_ & _ & F) & _).
  exists g'. split; [exact E|]. rewrite LB in D, HS.
  set (ps := used_list (g_partitions g)) in *. set (l0 := data (g_device g)) in *.
  destruct (image_facts Lb4096 h ps l0 HS HU) as (L & _ & T1 & _ & _). rewrite <- D in L, T1.
  destruct (image_lens Lb4096 h ps l0 HS HU) as (_ & _ & L3).
  destruct (sane_areas Lb4096 (lenN l0) h HS) as (Z1 & Z2 & Z3 & Z4 & _ & Z5).
  rewrite backup_at_eq in HB. unfold last_whole_block in HB. fold l0 in HB. cbn [lb_u64] in *.
  pose proof (N.div_mod (lenN l0) 4096 ltac:(lia)) as DM. rewrite ML in DM.
  set (q := lenN l0 / 4096) in *.
  assert (K := block0_kept oc g h R0). rewrite LB, E in K. cbn [snd lb_u64] in K. fold l0 in K.
  apply open_no_headers.
  - unfold fault_free. rewrite F. exact HF.
  - unfold addressable. rewrite L. rewrite <- two64. exact HA.
  - rewrite HC. cbn [lb_u64]. apply ha_signature; [rewrite L; lia|]. rewrite (K 512 8) by lia. exact SI.
  - rewrite HC. split; [intros _|rewrite L; cbn [lb_u64]; lia].
    cbn [lb_u64]. unfold last_whole_block. rewrite L. cbn [lb_u64].
    replace (lenN l0 / 512) with (8 * q).
    2:{ rewrite DM. replace (4096 * q + 0) with (8 * q * 512) by lia. rewrite N.div_mul by lia. reflexivity. }
    apply ha_signature; [rewrite L; lia|]. rewrite range_slice.
    replace ((8 * q - 1) * 512) with (blba h * 4096 + 3584) by lia.
    rewrite <- (slice_slice (blba h * 4096) 4096) by lia. rewrite T1. unfold hdr_block.
    set (im := hdr_image _ _ _) in *. assert (LI : lenN im = 92).
    { unfold hdr_block in L3. fold im in L3. unfold lenN in L3 |- *. rewrite app_length, zeros_length in L3. cbn [lb_u64] in L3. lia. }
    cbn [lb_u64]. unfold slice. rewrite skipn_app. rewrite skipn_all2 by (unfold lenN in LI; lia). cbn [app].
    rewrite skipn_zeros, firstn_zeros. unfold lenN in LI. replace (length im) with 92%nat by lia. vm_compute. discriminate.
Qed.
Print Assumptions C64_large_as_small_partial.
(** Without that proviso the property is false: a table that lies in block 0 survives. *)
Lemma stale_opens oc oc' g h s cfg :
  ready g h -> fault_free (g_device g) -> c_lb (g_config g) = Lb4096 -> c_readonly_backup (g_config g) = false ->
  header_at (data (g_device g)) 512 (Ok s) -> part_size s = 128 -> array_intact Lb512 s (data (g_device g)) ->
  array_at Lb512 s + array_len s <= 4096 -> c_lb cfg = Lb512 -> c_only_valid_headers cfg = false ->
  exists g' g2, write_inplace oc g = (Ok tt, g') /\ fst (open_from_device oc' cfg (g_device g')) = Ok g2 /\
    g_primary g2 = Ok s /\ g_guid g2 = disk_guid s /\ table_read Lb512 s (data (g_device g)) (g_partitions g2).
Proof.
  intros HR HF LB RO HH PS AI AL HC HV. assert (K := block0_kept oc g h HR). rewrite LB in K. cbn [lb_u64] in K.
  assert (HW := rd_writable _ _ HR). apply ready_sane in HR. destruct HR as (HT & HA & HS & HU & HP).
  destruct (write_inplace_sane oc g h HW RO HT (conj HF HA) HS HU)
    as (g' & E & D & P & B & C & G & Q & Y & (_ & _ & F) & _).
  exists g'. rewrite E in K. cbn [snd] in K.
  assert (L : lenN (data (g_device g')) = lenN (data (g_device g))) by (rewrite D; apply image_len; auto).
  assert (HH' : header_at (data (g_device g')) 512 (Ok s)).
  { inversion HH as [| | |h' A1 A2 A3 A4]; subst. apply ha_valid.
    - rewrite L. exact A1.
    - rewrite (K 512 8) by lia. exact A2.
    - unfold num_at in *. rewrite (K (512 + 16) 4), (K 512 92) by lia. exact A3.
    - rewrite (K 512 92) by lia. exact A4. }
  assert (AA : array_at Lb512 s + array_len s <= 4096 -> range (array_at Lb512 s) (array_len s) (data (g_device g')) =
    range (array_at Lb512 s) (array_len s) (data (g_device g))) by (intros _; apply K; exact AL).
  specialize (AA AL).
  assert (OW := C11_header_used oc' cfg (g_device g') (Ok s) (read_backup_at (c_lb cfg) (g_device g')) s).
  assert (FF : fault_free (g_device g')) by (unfold fault_free; rewrite F; exact HF).
  assert (AD : addressable (g_device g')) by (unfold addressable; rewrite L; rewrite <- two64; exact HA).
  specialize (OW FF AD HV). rewrite HC in OW. cbn [lb_u64] in OW.
  specialize (OW HH' (backup_header_spec Lb512 (g_device g')) (or_introl eq_refl) PS).
  assert (CO : countable oc' s (data (g_device g'))).
  { right. left. unfold array_len in AL. rewrite PS in AL. rewrite <- two31. 
    assert (num_parts s * 128 <= 4096) by lia. assert (num_parts s <= 32) by lia. eapply N.le_lt_trans; [eassumption|reflexivity]. }
  specialize (OW CO). unfold opened_with in OW. rewrite HC in OW.
  destruct (fst (open_from_device oc' cfg (g_device g'))) as [g2|e|]; [|exfalso|contradiction].
  - destruct OW as (O1 & O2 & O3 & O4 & O5 & _). exists g2. split; [exact E|]. split; [reflexivity|].
    split; [exact O5|]. split; [exact O4|]. unfold table_read in *. rewrite AA in O2. exact O2.
  - destruct e; try contradiction. apply OW. destruct AI as (I1 & I2 & I3). split; [exact I1|]. split; [rewrite L; exact I2|].
    rewrite AA. exact I3.
Qed.
Definition large_config : config := mkConfig Lb4096 true false false false.
Definition large_header : header := mkHeader EFI_PART 1 0 92 0 0 1 5 3 3 other_guid 2 4 128 0.
Definition large_disk (l : list byte) : gdisk :=
  mkGdisk large_config (mkDev l 0 false false [] []) other_guid (Ok large_header) (Err HInvalidGptSignature) [] false.
Lemma large_ready l : lenN l = 24576 -> ready (large_disk l) large_header.
Proof.
  intros L. constructor; [reflexivity|left; reflexivity| | | |constructor].
  - unfold addressable. cbn [large_disk g_device data]. rewrite L. reflexivity.
  - cbn [large_disk g_device data g_config large_config c_lb]. rewrite L.
    constructor; try reflexivity; vm_compute; discriminate.
  - vm_compute. discriminate.
Qed.
Definition stale_bytes : list byte := data mini_one_dev ++ zeros (N.to_nat 21504).
Lemma stale_len : lenN stale_bytes = 24576.
Proof.
  unfold stale_bytes, lenN. rewrite app_length, zeros_length.
  replace (length (data mini_one_dev)) with (N.to_nat 3072) by (vm_compute; reflexivity). lia.
Qed.
(** An empty table is written with blocks of 4096 bytes; opening with the default settings gives another
    disk GUID and a partition. *)
Theorem C64_stale_table_refuted : exists g h g' g2,
  ready g h /\ c_lb (g_config g) = Lb4096 /\ g_partitions g = [] /\ disk_guid h = other_guid /\
  write_inplace true g = (Ok tt, g') /\
  fst (open_from_device true config_default (g_device g')) = Ok g2 /\
  g_guid g2 = sample_guid /\ exists p, has (g_partitions g2) 1 p.
Proof.
  assert (X : exists s, read_header_at 512 (data mini_one_dev) = Ok s /\ part_size s = 128 /\ part_start s = 2 /\
     num_parts s = 4 /\ disk_guid s = sample_guid /\
     crc32 (range 1024 512 (data mini_one_dev)) = crc32_parts s /\
     read_parts_at s Lb512 (data mini_one_dev) = Ok (number 1 [normal sample_part])).
  { eexists. split; [vm_compute; reflexivity|]. repeat split; vm_compute; reflexivity. }
  destruct X as (s & X1 & X2 & X3 & X4 & X5 & X6 & X7).
  assert (LM : lenN (data mini_one_dev) = 3072) by (vm_compute; reflexivity).
  assert (R : forall a n, a + n <= 3072 -> range a n stale_bytes = range a n (data mini_one_dev)).
  { intros a n H. apply range_app_l. rewrite LM. exact H. }
  assert (HA : header_at stale_bytes 512 (Ok s)).
  { pose proof (read_header_at_spec 512 (data mini_one_dev)) as HA. rewrite X1 in HA.
    inversion HA as [| | |h' A1 A2 A3 A4]; subst. apply ha_valid.
    - rewrite stale_len. discriminate.
    - rewrite R by lia. exact A2.
    - unfold num_at in *. rewrite !R by lia. exact A3.
    - rewrite R by lia. exact A4. }
  destruct (stale_opens true true (large_disk stale_bytes) large_header s config_default) as (g' & g2 & E1 & E2 & E3 & E4 & E5);
    try reflexivity; auto.
  - apply large_ready, stale_len.
  - unfold array_intact, array_at, array_len. rewrite X2, X3, X4. cbn [lb_u64 large_disk g_device data].
    split; [reflexivity|]. split; [right; rewrite stale_len; discriminate|]. rewrite R by lia. exact X6.
  - unfold array_at, array_len. rewrite X2, X3, X4. discriminate.
  - exists (large_disk stale_bytes), large_header, g', g2.
    split; [apply large_ready, stale_len|]. split; [reflexivity|]. split; [reflexivity|]. split; [reflexivity|].
    split; [exact E1|]. split; [exact E2|]. split; [congruence|].
    pose proof (read_parts_spec s Lb512 (data mini_one_dev) X2) as RP.
    rewrite LM in RP. specialize (RP eq_refl). rewrite X7 in RP. destruct RP as (_ & (_ & RP)).
    exists (normal sample_part). apply E5. 
    destruct (proj1 (RP 1 (normal sample_part)) (or_introl eq_refl)) as (RP1 & RP2). split; [exact RP1|].
    unfold array_at, array_len in *. rewrite X2, X3, X4 in *. cbn [lb_u64 large_disk g_device data] in *.
    rewrite R by lia. exact RP2.
Qed.
Print Assumptions C64_stale_table_refuted.
(** Both theorems above have instances. *)
Example C64_cases :
  ready (set_device wide_dev (wide_disk two_parts)) wide_header /\
  backup_at wide_header = last_whole_block Lb512 wide_dev /\
  Forall (fun p => ~ disguised p) (used_in_order two_parts) /\
  ready (large_disk (zeros (N.to_nat 24576))) large_header /\
  range 512 8 (zeros (N.to_nat 24576)) <> efi_part.
Proof.
  split; [|split; [|split; [|split]]].
  - constructor; [reflexivity|left; reflexivity| |apply wide_layout|vm_compute; discriminate|].
    + unfold addressable. cbn [set_device g_device]. rewrite wide_len. reflexivity.
    + repeat constructor; cbn; try reflexivity; unfold char_ok; lia.
  - unfold last_whole_block. rewrite wide_len. reflexivity.
  - repeat constructor; vm_compute; discriminate.
  - apply large_ready. unfold lenN. rewrite zeros_length. reflexivity.
  - vm_compute. discriminate.
Qed.
