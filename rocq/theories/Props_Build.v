(** Props_Build.v - properties C39, C40, C43, C56 and a corollary of C29: building headers, creating
    disks. *)
From Verif Require Import CreateFacts Samples AcceptFacts Props_Header Props_Alloc Props_Write.
Open Scope list_scope.
Open Scope N_scope.

Lemma ablocks_blocks np psz lb : ablocks np psz lb = blocks_for (np * psz) lb.
Proof.
  unfold ablocks, div_ceil, blocks_for. f_equal. pose proof (lb_pos lb). lia.
Qed.
Lemma scratch_lba ss rnd : b_primary_lba (apply_settings ss (builder_new rnd)) = 1.
Proof.
  unfold apply_settings. assert (H : b_primary_lba (builder_new rnd) = 1) by reflexivity.
  revert H. generalize (builder_new rnd). induction ss as [|s ss IH]; intros b H; [exact H|].
  cbn [fold_left]. apply IH. destruct s; exact H.
Qed.

(** C39.  A builder made from nothing: all cases. *)
Theorem C39_build_from_scratch : forall oc lb rnd ss,
  let b := apply_settings ss (builder_new rnd) in
  let t := blocks_for (b_num_parts b * b_part_size b) lb in
  let first := N.max (b_first_usable b) (2 + t) in
  b_num_parts b * b_part_size b < 2 ^ 32 -> b_backup_lba b < 2 ^ 64 -> 
  b_last_usable b = 0 \/ b_last_usable b + t + 1 <= b_backup_lba b ->
  (first + t + 1 <= b_backup_lba b ->
   exists hp hb, build oc (bset_primary true b) lb = Ok hp /\ build oc (bset_primary false b) lb = Ok hb /\
     in_order lb hp hb /\ mirrored hp hb /\ backup_lba hp = b_backup_lba b /\
     first_usable hp = first /\ last_usable hp = b_backup_lba b - t - 1 /\
     disk_guid hp = b_disk_guid b /\ num_parts hp = b_num_parts b /\ part_size hp = b_part_size b) /\
  (b_backup_lba b = 0 -> build oc b lb = Err HMissingBackupLba) /\
  (1 <= b_backup_lba b < first + t + 1 -> build oc b lb = Err HBackupLbaToEarly).
Proof.
  intros oc lb rnd ss b t first N32 B64 LU. assert (P : b_primary_lba b = 1) by apply scratch_lba.
  rewrite <- two32 in N32. rewrite <- two64 in B64.
  assert (T : ablocks (b_num_parts b) (b_part_size b) lb = t) by apply ablocks_blocks.
  split; [|split].
  - intros H. set (lu := b_backup_lba b - t - 1).
    assert (B : forall v, build oc (bset_primary v b) lb =
      Ok (mkHeader EFI_PART 1 0 92 0 0 (if v then 1 else b_backup_lba b) (if v then b_backup_lba b else 1)
            first lu (b_disk_guid b) (if v then 2 else lu + 1) (b_num_parts b) (b_part_size b) 0)).
    { intros v. rewrite build_eq by exact N32. cbn [bset_primary b_backup_lba b_primary_lba b_num_parts b_part_size b_first_usable b_last_usable b_primary b_disk_guid].
      rewrite T, P. replace (b_backup_lba b <? 1) with false by (symmetry; apply N.ltb_ge; lia).
      replace (b_backup_lba b <? t + 1) with false by (symmetry; apply N.ltb_ge; lia). cbn zeta. fold first.
      replace (N.max (b_last_usable b) (b_backup_lba b - (t + 1))) with lu by (unfold lu; lia).
      replace (lu <? first) with false by (symmetry; apply N.ltb_ge; unfold lu; lia).
      destruct v; unfold addw.
      - replace (1 + 1 <? modulus 64) with true by (symmetry; apply N.ltb_lt; rewrite two64; lia). reflexivity.
      - replace (lu + 1 <? modulus 64) with true by (symmetry; apply N.ltb_lt; unfold lu; lia). reflexivity. }
    eexists _, _. split; [apply B|]. split; [apply B|].
    pose proof (ablocks_fit (b_num_parts b) (b_part_size b) lb) as F. rewrite T in F.
    split.
    { assert (M1 : (2 + t) * lb_u64 lb <= first * lb_u64 lb) by (apply N.mul_le_mono_r; unfold first; lia).
      assert (M2 : (lu + 1 + t) * lb_u64 lb <= b_backup_lba b * lb_u64 lb) by (apply N.mul_le_mono_r; unfold lu; lia).
      assert (M3 : first <= lu) by (unfold lu; lia).
      constructor; unfold array_at, array_len;
        cbn [part_start current_lba first_usable last_usable num_parts part_size]; lia. }
    split; [constructor; cbn; auto|]. cbn. do 5 (split; [reflexivity|]). reflexivity.
  - intros Z. rewrite build_eq by exact N32. rewrite P, Z. reflexivity.
  - intros (H1 & H2). rewrite build_eq by exact N32. rewrite P, T.
    replace (b_backup_lba b <? 1) with false by (symmetry; apply N.ltb_ge; lia).
    destruct (N.ltb_spec (b_backup_lba b) (t + 1)) as [L|L]; [reflexivity|]. cbn zeta. fold first.
    replace (N.max (b_last_usable b) (b_backup_lba b - (t + 1)) <? first) with true; [reflexivity|].
    symmetry. apply N.ltb_lt. destruct LU as [->|LU]; [|lia]. assert (2 <= first) by (unfold first; lia). lia.
Qed.
Print Assumptions C39_build_from_scratch.
Example C39_case :
  build true (apply_settings [SetBackup 99; SetNum 200; SetFirst 60] (builder_new sample_guid)) Lb512 = Err HBackupLbaToEarly /\
  match build true (apply_settings [SetBackup 199; SetNum 200; SetFirst 60; SetPrimary false] (builder_new sample_guid)) Lb512 with
  | Ok h => (current_lba h, first_usable h, last_usable h, part_start h, num_parts h) = (199, 60, 148, 149, 200)
  | _ => False
  end.
Proof. split; vm_compute; reflexivity. Qed.

(** C40.  False: a last usable block before the computed one is moved up. *)
Theorem C40_last_usable_refuted : exists h h',
  header_ok h /\ layout_ok Lb512 3584 h /\ current_lba h < backup_lba h /\
  build true (builder_from_header h) Lb512 = Ok h' /\ last_usable h' <> last_usable h.
Proof.
  exists (mkHeader EFI_PART 1 0 92 0 0 1 6 3 3 sample_guid 2 4 128 0). eexists.
  split; [constructor; try reflexivity; repeat split|].
  split; [constructor; try reflexivity; vm_compute; discriminate|]. split; [reflexivity|].
  split; [vm_compute; reflexivity|]. cbn. discriminate.
Qed.
Print Assumptions C40_last_usable_refuted.
(** Everything else stays: rebuilding a header with the computed last usable block and the array right
    behind the header gives it back, directly or by way of the backup header. *)
Theorem C40_rebuild_partial : forall oc lb len h,
  header_ok h -> layout_ok lb len h -> len < 2 ^ 64 -> rev_major h = 1 -> rev_minor h = 0 -> header_size_le h = 92 ->
  current_lba h < backup_lba h -> part_start h = 2 -> last_usable h + array_blocks lb h + 1 = backup_at h ->
  exists h1 h2 h3, build oc (builder_from_header h) lb = Ok h1 /\
    build oc (bset_primary false (builder_from_header h)) lb = Ok h2 /\
    build oc (bset_primary true (builder_from_header h2)) lb = Ok h3 /\
    same_header h h1 /\ h3 = h1 /\ mirrored h h2 /\ crc32_hdr h1 = 0 /\ crc32_parts h1 = 0.
Proof.
  intros oc lb len h HO S H64 R1 R2 R3 C PS LU. rewrite <- two64 in H64. apply sane_of in S.
  rewrite array_blocks_eq, backup_at_eq in LU.
  assert (B : builder_from_header h = bset_primary true (builder_from_header h)).
  { unfold builder_from_header, bset_primary. cbn. replace (current_lba h <? backup_lba h) with true by (symmetry; apply N.ltb_lt; lia).
    reflexivity. }
  assert (SB : blba h = backup_lba h /\ plba h = current_lba h).
  { unfold blba, plba. replace (current_lba h <? backup_lba h) with true by (symmetry; apply N.ltb_lt; lia). auto. }
  destruct SB as (SB & SP).
  assert (E : same_header h (new_primary lb h)).
  { destruct S as [S1 S2 S3 S4 S5 S6 S7 S8]. destruct HO as [O1 O2 O3 O4 O5 O6 O7].
    constructor; cbn; auto; try congruence; lia. }
  assert (P : new_primary lb h = new_primary lb (new_primary lb h)) by (symmetry; apply (new_primary_idem lb len), S).
  exists (new_primary lb h), (new_backup lb h), (new_primary lb h).
  split; [rewrite B; apply (build_primary_sane oc lb len); auto|].
  split.
  { rewrite <- (build_backup_sane oc lb len h S H64). do 2 f_equal. unfold builder_from_header, new_primary. cbn.
    replace (current_lba h <? backup_lba h) with true by (symmetry; apply N.ltb_lt; lia).
    assert (2 <= blba h). { destruct S as [S1 S2 S3 S4 S5 S6 S7 S8]. lia. }
    replace (1 <? blba h) with true by (symmetry; apply N.ltb_lt; lia).
    destruct S as [S1 S2 S3 S4 S5 S6 S7 S8]. f_equal; try congruence; lia. }
  split.
  { rewrite (build_primary_sane oc lb len) by (auto; apply sane_new_backup, S). f_equal.
    apply (new_primary_new_backup lb len), S. }
  split; [exact E|]. split; [reflexivity|]. split; [|split; reflexivity].
  destruct S as [S1 S2 S3 S4 S5 S6 S7 S8]. constructor; cbn; try (split; lia); auto.
Qed.
Print Assumptions C40_rebuild_partial.
(** Without the last two conditions: only part_start and last_usable change, last_usable never down. *)
Theorem C40_what_changes_partial : forall oc lb len h,
  layout_ok lb len h -> len < 2 ^ 64 ->
  exists h1, build oc (bset_primary true (builder_from_header h)) lb = Ok h1 /\
    current_lba h1 = 1 /\ backup_lba h1 = backup_at h /\ first_usable h1 = first_usable h /\
    last_usable h1 = backup_at h - array_blocks lb h - 1 /\ last_usable h <= last_usable h1 /\
    disk_guid h1 = disk_guid h /\ num_parts h1 = num_parts h /\ part_size h1 = part_size h /\ part_start h1 = 2 /\
    layout_ok lb len h1.
Proof.
  intros oc lb len h S H64. rewrite <- two64 in H64. apply sane_of in S. exists (new_primary lb h).
  split; [apply (build_primary_sane oc lb len); auto|]. rewrite array_blocks_eq, backup_at_eq.
  pose proof (sane_new_primary _ _ _ S) as SN. apply layout_ok_iff in SN.
  destruct S as [S1 S2 S3 S4 S5 S6 S7 S8]. cbn. do 4 (split; [reflexivity|]). split; [lia|].
  do 2 (split; [reflexivity|]). split; [congruence|]. split; [reflexivity|exact SN].
Qed.
Print Assumptions C40_what_changes_partial.
Example C40_case : header_ok mini_header /\ layout_ok Lb512 3072 mini_header /\ part_start mini_header = 2 /\
  last_usable mini_header + array_blocks Lb512 mini_header + 1 = backup_at mini_header.
Proof. split; [apply mini_header_ok|]. split; [rewrite <- mini_len; apply mini_layout|]. split; reflexivity. Qed.

(** C43.  Creating a disk. *)
(** Blocks for the array of 128 entries. *)
Definition min_array (lb : lbsize) : N := blocks_for (128 * 128) lb.
Lemma min_array_eq lb : min_array lb = ablocks 128 128 lb.
Proof. symmetry. apply ablocks_blocks. Qed.
Theorem C43_create : forall oc cfg u rnd d,
  fault_free d -> addressable d ->
  let lb := c_lb cfg in
  let id := match u with Some u => u | None => rnd end in
  guid_ok id ->
  let last := last_whole_block lb d in
  (2 * min_array lb + 4 <= lenN (data d) / lb_u64 lb ->
   exists g h, create_from_device oc cfg u rnd d = (Ok g, d) /\ header_of g h /\
     g_device g = d /\ g_partitions g = [] /\ g_guid g = id /\ g_config g = cfg /\ g_sync g = false /\
     layout_ok lb (lenN (data d)) h /\ disk_guid h = id /\ num_parts h = 128 /\
     current_lba h = 1 /\ backup_lba h = last /\ part_start h = 2 /\
     first_usable h = 2 + min_array lb /\ last_usable h = last - min_array lb - 1 /\
     (c_readonly_backup cfg = false -> exists hb, g_backup g = Ok hb /\ mirrored h hb /\
        part_start hb = last - min_array lb)) /\
  (lenN (data d) / lb_u64 lb < 2 * min_array lb + 4 ->
   exists e, create_from_device oc cfg u rnd d = (Err e, d) /\
     (e = GHeader HToSmallForBackup \/ e = GHeader HBackupLbaToEarly)).
Proof.
  intros oc cfg u rnd d HF HA lb id GO last. rewrite addressable_iff in HA.
  set (t := min_array lb). assert (TE := min_array_eq lb). fold t in TE.
  assert (TB : 1 <= t /\ t < modulus 32).
  { rewrite two32. unfold t, lb. destruct (c_lb cfg); split; vm_compute; try reflexivity; discriminate. }
  unfold create_from_device. fold id.
  set (g0 := mkGdisk cfg d id (Err HInvalidGptSignature) (Err HInvalidGptSignature) [] false).
  rewrite (init_headers_eq oc g0) by exact HF. cbn [g0 g_device g_config]. fold lb. unfold dev_len in *.
  pose proof (lb_pos lb) as LP.
  assert (DIV := N.div_mod (lenN (data d)) (lb_u64 lb) ltac:(lia)).
  assert (MOD := N.mod_lt (lenN (data d)) (lb_u64 lb) ltac:(lia)).
  assert (LE : last_block lb d = last) by (symmetry; apply last_whole_block_eq).
  assert (NC : next_count g0 = 128) by reflexivity.
  set (q := lenN (data d) / lb_u64 lb) in *. assert (LQ : last = q - 1) by reflexivity.
  assert (Q64 : q < modulus 64) by nia.
  assert (T32 : 128 * 128 < modulus 32) by (rewrite two32; reflexivity).
  split.
  - intros BIG. replace (lenN (data d) <? lb_u64 lb * 3) with false by (symmetry; apply N.ltb_ge; nia).
    rewrite LE.
    assert (S0 : starts_from g0 0 0) by (split; reflexivity).
    assert (X := init_ok oc g0 last 0 0 S0). cbn zeta in X. rewrite NC in X. cbn [g0 g_config g_guid] in X. fold lb in X.
    rewrite <- TE in X. rewrite two64 in *. rewrite X by lia. clear X.
    replace (N.max 0 (2 + t)) with (2 + t) by lia. replace (N.max 0 (last - (t + 1))) with (last - t - 1) by lia.
    set (hp := built id 128 last (2 + t) (last - t - 1) true).
    assert (LO : layout_ok lb (lenN (data d)) hp).
    { apply layout_ok_iff. constructor; cbn [hp built disk_guid part_size num_parts first_usable last_usable]; auto.
      - unfold plba. cbn. replace (1 <? last) with true by (symmetry; apply N.ltb_lt; lia). reflexivity.
      - rewrite <- TE. lia.
      - rewrite <- TE. unfold blba. cbn. replace (1 <? last) with true by (symmetry; apply N.ltb_lt; lia). lia.
      - rewrite <- TE. unfold blba. cbn. replace (1 <? last) with true by (symmetry; apply N.ltb_lt; lia). lia.
      - unfold blba. cbn. replace (1 <? last) with true by (symmetry; apply N.ltb_lt; lia).
        replace (last + 1) with q by lia. lia. }
    destruct (c_readonly_backup cfg).
    + eexists _, hp. split; [reflexivity|]. split; [left; reflexivity|]. do 5 (split; [reflexivity|]).
      split; [exact LO|]. cbn. do 7 (split; [reflexivity|]). discriminate.
    + eexists _, hp. split; [reflexivity|]. split; [left; reflexivity|]. do 5 (split; [reflexivity|]).
      split; [exact LO|]. cbn. do 7 (split; [reflexivity|]). intros _. eexists. split; [reflexivity|].
      split; [constructor; cbn; auto|]. cbn. lia.
  - intros SMALL. destruct (N.ltb_spec (lenN (data d)) (lb_u64 lb * 3)) as [L|L].
    + eexists. split; [reflexivity|]. auto.
    + rewrite LE. unfold init_with. cbn [g0 g_config]. fold lb.
      assert (3 <= q) by nia.
      rewrite build_eq by (cbn; exact T32).
      cbn [init_builder bset_primary bset_disk_guid bset_backup_lba bset_num_parts builder_from_maybe_header builder_new
           b_num_parts b_part_size b_backup_lba b_primary_lba b_first_usable b_last_usable g0 g_partitions try_header g_primary g_backup or_else omap_err].
      replace (N.max (lenN (@nil (N * partition)) mod modulus 32) MIN_NUM_PARTS) with 128 by reflexivity.
      rewrite <- TE. replace (last <? 1) with false by (symmetry; apply N.ltb_ge; lia).
      destruct (last <? t + 1); [eexists; split; [reflexivity|auto]|]. cbn zeta.
      replace (N.max 0 (last - (t + 1)) <? N.max 0 (2 + t)) with true by (symmetry; apply N.ltb_lt; lia).
      eexists. split; [reflexivity|auto].
Qed.
Print Assumptions C43_create.
(** A created disk is in good order, and stays so under the calls of C29. *)
Theorem C43_created_tidy : forall oc cfg u rnd d g d',
  fault_free d -> addressable d -> guid_ok (match u with Some u => u | None => rnd end) ->
  create_from_device oc cfg u rnd d = (Ok g, d') -> exists h, tidy g h /\ num_parts h = 128.
Proof.
  intros oc cfg u rnd d g d' HF HA GO E. destruct (C43_create oc cfg u rnd d HF HA GO) as (A & B).
  destruct (N.le_gt_cases (2 * min_array (c_lb cfg) + 4) (lenN (data d) / lb_u64 (c_lb cfg))) as [L|L].
  - destruct (A L) as (g1 & h & E1 & H1 & H2 & H3 & H4 & H5 & H6 & H7 & H8 & H9 & Ha & Hb & Hc & Hd & He & _).
    rewrite E in E1. injection E1 as EG ED. subst g1 d'. exists h. split; [|exact H9]. constructor; auto.
    + rewrite H2. exact HA.
    + rewrite H2, H5. exact H7.
    + unfold usable_ok. rewrite Hd, He. unfold last_whole_block. unfold addressable in HA.
      pose proof (lb_pos (c_lb cfg)).
      assert (lenN (data d) / lb_u64 (c_lb cfg) <= lenN (data d)) by (apply N.div_le_upper_bound; nia). lia.
    + rewrite H3. apply arranged_nil.
  - destruct (B L) as (e & E1 & _). congruence.
Qed.
Print Assumptions C43_created_tidy.
Theorem C29_no_overlap_created_partial : forall oc cfg u rnd d g d' ops g',
  fault_free d -> addressable d -> guid_ok (match u with Some u => u | None => rnd end) ->
  c_change_partition_count cfg = false ->
  create_from_device oc cfg u rnd d = (Ok g, d') ->
  Forall (tidy_op oc (c_lb cfg)) ops -> run oc ops g = Some g' ->
  exists h, tidy g' h /\ num_parts h = 128.
Proof.
  intros oc cfg u rnd d g d' ops g' HF HA GO HC E F R.
  destruct (C43_created_tidy oc cfg u rnd d g d' HF HA GO E) as (h & T & N1).
  assert (CF : g_config g = cfg).
  { unfold create_from_device in E. match type of E with context [init_headers oc ?x] => pose proof (mo_init oc x) as (_ & M & _) end.
    destruct (init_headers oc _) as [[[]|e|] g1]; try discriminate. injection E as <- _. exact M. }
  destruct (C29_no_overlap_partial oc ops g h g' T) as (h' & T' & _ & _ & N2); auto; try (rewrite CF; assumption).
  exists h'. split; [exact T'|congruence].
Qed.
Print Assumptions C29_no_overlap_created_partial.
(** Writing a created disk and opening the device gives an empty table with the same GUID. *)
Theorem C43_create_write_open : forall oc oc' cfg u rnd d g d' cfg',
  fault_free d -> addressable d -> guid_ok (match u with Some u => u | None => rnd end) ->
  create_from_device oc cfg u rnd d = (Ok g, d') ->
  c_writable cfg = true -> c_lb cfg' = c_lb cfg -> c_only_valid_headers cfg' = false ->
  exists g' g2, write_inplace oc g = (Ok tt, g') /\ fst (open_from_device oc' cfg' (g_device g')) = Ok g2 /\
    g_guid g2 = match u with Some u => u | None => rnd end /\ g_partitions g2 = [].
Proof.
  intros oc oc' cfg u rnd d g d' cfg' HF HA GO E W C1 C2. destruct (C43_create oc cfg u rnd d HF HA GO) as (A & B).
  destruct (N.le_gt_cases (2 * min_array (c_lb cfg) + 4) (lenN (data d) / lb_u64 (c_lb cfg))) as [L|L].
  - destruct (A L) as (g1 & h & E1 & H1 & H2 & H3 & H4 & H5 & H6 & H7 & H8 & H9 & _).
    rewrite E in E1. injection E1 as EG ED. subst g1 d'.
    destruct (C17_write_then_open_primary oc oc' g h cfg') as (g' & hp & hb & g2 & K1 & K2 & _ & _ & _ & K3 & K4).
    + constructor; rewrite ?H2, ?H5, ?H3; auto; [apply N.le_0_l|constructor].
    + rewrite H2. exact HF.
    + rewrite H5. exact C1.
    + exact C2.
    + exists g', g2. split; [exact K1|]. split; [exact K2|]. split; [congruence|]. rewrite H3 in K4.
      destruct K4 as (qs & -> & K4). inversion K4; subst. reflexivity.
  - destruct (B L) as (e & E1 & _). congruence.
Qed.
Print Assumptions C43_create_write_open.
Example C43_case : 2 * min_array Lb512 + 4 = 68 /\ 2 * min_array Lb4096 + 4 = 12 /\
  fault_free wide_dev /\ addressable wide_dev /\ 2 * min_array Lb512 + 4 <= lenN (data wide_dev) / lb_u64 Lb512.
Proof.
  split; [reflexivity|]. split; [reflexivity|]. split; [reflexivity|]. unfold addressable. rewrite wide_len.
  split; [reflexivity|]. vm_compute. discriminate.
Qed.

(** C56.  write_header. *)
Theorem C56_write_header : forall oc u rnd lb d,
  fault_free d -> addressable d ->
  let id := match u with Some u => u | None => rnd end in
  guid_ok id ->
  let last := last_whole_block lb d in
  (2 * min_array lb + 4 <= lenN (data d) / lb_u64 lb ->
   exists d' r, write_header oc u rnd lb d = (Ok id, d') /\
     changed_only_in (between (lb_u64 lb) (2 * lb_u64 lb)) (data d) (data d') /\
     fst (read_primary_header lb d') = Ok r /\
     disk_guid r = id /\ current_lba r = 1 /\ backup_lba r = last /\ part_start r = 2 /\
     num_parts r = 128 /\ part_size r = 128 /\
     first_usable r = 2 + min_array lb /\ last_usable r = last - min_array lb - 1 /\
     layout_ok lb (lenN (data d)) r /\
     crc32_parts r = crc32 (range (2 * lb_u64 lb) (128 * 128) (data d))) /\
  (lenN (data d) / lb_u64 lb < 2 * min_array lb + 4 ->
   exists e, write_header oc u rnd lb d = (Err e, d) /\ (e = HToSmallForBackup \/ e = HBackupLbaToEarly)).
Proof.
  intros oc u rnd lb d HF HA id GO last.
  set (t := min_array lb). assert (TE := min_array_eq lb). fold t in TE.
  assert (TB : 1 <= t /\ t < modulus 32).
  { rewrite two32. unfold t. destruct lb; split; vm_compute; try reflexivity; discriminate. }
  assert (TL : 128 * 128 = t * lb_u64 lb) by (unfold t; destruct lb; reflexivity).
  pose proof (lb_pos lb) as LP.
  assert (DIV := N.div_mod (lenN (data d)) (lb_u64 lb) ltac:(lia)).
  assert (MOD := N.mod_lt (lenN (data d)) (lb_u64 lb) ltac:(lia)).
  set (q := lenN (data d) / lb_u64 lb) in *. assert (LQ : last = q - 1) by reflexivity.
  assert (Q64 : q < modulus 64). { unfold addressable in HA. rewrite <- two64 in HA. nia. }
  assert (T32 : 128 * 128 < modulus 32) by (rewrite two32; reflexivity).
  set (b := bset_backup_lba last (match u with Some u => bset_disk_guid u (builder_new rnd) | None => builder_new rnd end)).
  assert (BB : b = mkBuilder true id 1 last 0 0 128 128) by (unfold b, id; destruct u; reflexivity).
  assert (WE : write_header oc u rnd lb d =
    if 3 * lb_u64 lb <=? lenN (data d) then
      match build oc b lb with
      | Ok h => match write_primary h lb d with
                | (Ok _, (h', d')) => (Ok (disk_guid h'), d')
                | (Err e, (_, d')) => (Err e, d')
                | (Panic, (_, d')) => (Panic, d')
                end
      | Err e => (Err e, d)
      | Panic => (Panic, d)
      end
    else (Err HToSmallForBackup, d)).
  { unfold write_header, bind. rewrite C41_backup_location by exact HF. fold last.
    destruct (3 * lb_u64 lb <=? lenN (data d)); [|reflexivity]. unfold lift. cbn zeta.
    change (bset_backup_lba last _) with b. destruct (build oc b lb); reflexivity. }
  rewrite WE, BB. clear WE BB b. split.
  - intros BIG. replace (3 * lb_u64 lb <=? lenN (data d)) with true by (symmetry; apply N.leb_le; nia).
    rewrite build_built; cbn [b_primary_lba b_part_size b_num_parts b_backup_lba b_first_usable b_last_usable b_disk_guid b_primary];
      rewrite <- ?TE, ?two64 in *; try solve [auto; lia].
    replace (N.max 0 (2 + t)) with (2 + t) by lia. replace (N.max 0 (last - (t + 1))) with (last - t - 1) by lia.
    set (h := built id 128 last (2 + t) (last - t - 1) true).
    assert (A1 : array_at lb h = 2 * lb_u64 lb) by reflexivity.
    assert (A2 : array_len h = 128 * 128) by reflexivity.
    assert (HO : header_ok h).
    { constructor; cbn; auto; try (split; reflexivity); try reflexivity. repeat split; lia. }
    destruct (C06_primary_round_trip h lb d HF HA HO) as (h' & r & d' & E & W & _ & R).
    + cbn. lia.
    + rewrite A1, A2. nia.
    + cbn. nia.
    + right. rewrite A1. cbn. lia.
    + rewrite E. destruct W as [W1 W2 W3 W4 W5 W6 W7 W8 W9 Wa]. exists d', r.
      assert (G : disk_guid h' = id). { rewrite (sh_guid _ _ W8), (sh_guid _ _ W4). reflexivity. }
      rewrite G. split; [reflexivity|].
      assert (W1' : changed_only_in (between (lb_u64 lb) (2 * lb_u64 lb)) (data d) (data d')).
      { eapply changed_only_in_weaken; [|exact W1]. intros i. unfold between. cbn. lia. }
      split; [exact W1'|]. split; [apply R; reflexivity|].
      rewrite (sh_guid _ _ W4), (sh_current _ _ W4), (sh_backup _ _ W4), (sh_start _ _ W4), (sh_num _ _ W4),
        (sh_psize _ _ W4), (sh_first _ _ W4), (sh_last _ _ W4). cbn [h built disk_guid current_lba backup_lba part_start num_parts part_size first_usable last_usable].
      do 8 (split; [reflexivity|]). split.
      * apply layout_ok_iff. destruct W4 as [X1 X2 X3 X4 X5 X6 X7 X8 X9 Xa Xb Xc].
        assert (PB : plba r = 1 /\ blba r = last).
        { unfold plba, blba. rewrite X5, X6. cbn. replace (1 <? last) with true by (symmetry; apply N.ltb_lt; lia). auto. }
        destruct PB as (PB1 & PB2).
        constructor; rewrite ?PB2, ?X7, ?X8, ?X9, ?Xa, ?Xb, ?Xc; cbn [h built disk_guid part_size num_parts first_usable last_usable]; auto;
          rewrite <- ?TE; try lia.
      * rewrite W6, A1, A2. f_equal. rewrite !range_slice. destruct W1' as (WL & WB). apply slice_eq_byte_at.
        intros i Hi. rewrite <- !byte_no_at. apply WB. unfold between. lia.
  - intros SMALL. destruct (3 * lb_u64 lb <=? lenN (data d)) eqn:E3; [|eexists; split; [reflexivity|auto]].
    apply N.leb_le in E3. assert (3 <= q) by nia.
    rewrite build_eq by exact T32.
    cbn [b_num_parts b_part_size b_backup_lba b_primary_lba b_first_usable b_last_usable]. rewrite <- TE.
    replace (last <? 1) with false by (symmetry; apply N.ltb_ge; lia).
    destruct (last <? t + 1); [eexists; split; [reflexivity|auto]|]. cbn zeta.
    replace (N.max 0 (last - (t + 1)) <? N.max 0 (2 + t)) with true by (symmetry; apply N.ltb_lt; lia).
    eexists. split; [reflexivity|auto].
Qed.
Print Assumptions C56_write_header.

(** Whatever faults cut it short, only block 1 can have changed. *)
Theorem C56_only_block_1 : forall oc u rnd lb d,
  guid_ok (match u with Some u => u | None => rnd end) ->
  changed_only_in (between (lb_u64 lb) (2 * lb_u64 lb)) (data d) (data (snd (write_header oc u rnd lb d))).
Proof.
  intros oc u rnd lb d GO. apply changed_only_in_iff. unfold write_header, bind.
  pose proof (untouched_find_backup_lba lb d) as U.
  destruct (find_backup_lba lb d) as [[n|e|] d1] eqn:F; cbn [snd] in U |- *;
    [|rewrite (proj1 U); apply only_in_refl ..].
  apply find_backup_len in F. unfold lift.
  destruct (build oc _ lb) as [h|e|] eqn:B; cbn [snd]; [|rewrite (proj1 U); apply only_in_refl ..].
  apply build_fields in B. destruct B as (B1 & B2 & B3 & B4 & B5 & B6).
  assert (C1 : current_lba h = 1) by (rewrite B5; destruct u; reflexivity).
  assert (G : wf_uuid (disk_guid h)) by (rewrite B2; destruct u; exact GO).
  pose proof (lb_pos lb) as LP.
  assert (X : only_in (data d) (between (lb_u64 lb) (2 * lb_u64 lb)) (data (snd (snd (write_primary h lb d1))))).
  { apply keeps_write_primary; auto.
    - rewrite B1. reflexivity.
    - rewrite C1, two64. lia.
    - intros k pc l HI. apply only_in_store; auto.
      + intros i. rewrite C1, hdr_block_lenN by (auto; rewrite B1; reflexivity). unfold between. lia.
      + rewrite C1, hdr_block_lenN by (auto; rewrite B1; reflexivity). unfold dev_len in F. lia.
    - rewrite (proj1 U). apply only_in_refl. }
  destruct (write_primary h lb d1) as [[v|e|] [h' d']]; exact X.
Qed.
Print Assumptions C56_only_block_1.
Example C56_case : fault_free wide_dev /\ addressable wide_dev /\ last_whole_block Lb512 wide_dev = 93.
Proof. unfold addressable, last_whole_block. rewrite wide_len. repeat split. Qed.
