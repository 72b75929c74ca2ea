(** Props_Uefi.v - properties C75 to C77: GPTs as the UEFI specification defines them. *)
From Verif Require Import UefiFacts Props_Header Props_Write Props_Build.
Open Scope list_scope.
Open Scope N_scope.

(** C75.  The library accepts a header exactly if UEFI does - for headers of 92 bytes that name the block they
    are in. *)
Theorem C75_acceptance_partial : forall lb d, fault_free d -> addressable d -> 3 * lb_u64 lb <= lenN (data d) ->
  let last := last_whole_block lb d in
  (num_at (lb_u64 lb + 12) 4 (data d) = 92 -> num_at (lb_u64 lb + 24) 8 (data d) = 1 ->
   ((exists h, fst (read_primary_header lb d) = Ok h) <-> uefi_header lb (data d) 1)) /\
  (num_at (last * lb_u64 lb + 12) 4 (data d) = 92 -> num_at (last * lb_u64 lb + 24) 8 (data d) = last ->
   ((exists h, fst (read_backup_header lb d) = Ok h) <-> uefi_header lb (data d) last)).
Proof.
  intros lb d HF HA HL last.
  assert (HB : (last + 1) * lb_u64 lb <= lenN (data d)).
  { unfold last, last_whole_block. pose proof (lb_pos lb).
    assert (1 <= lenN (data d) / lb_u64 lb) by (apply N.div_le_lower_bound; lia).
    pose proof (N.mul_div_le (lenN (data d)) (lb_u64 lb)). nia. }
  assert (X : forall off r, header_at (data d) off r -> ((exists h, r = Ok h) <-> exists h, header_at (data d) off (Ok h))).
  { intros off r H. split; intros (h & E); exists h; [subst; exact H|]. eapply header_at_fun; eassumption. }
  split; intros H1 H2.
  - pose proof (accepted_iff lb (data d) 1) as Y. rewrite N.mul_1_l in Y.
    rewrite (X _ _ (C07_primary_header_acceptance lb d HF)). apply Y; auto. lia.
  - destruct (C07_backup_header_acceptance lb d HF HA) as (C & _).
    rewrite (X _ _ (C HL)). apply accepted_iff; auto.
Qed.
Print Assumptions C75_acceptance_partial.
(** False for others.  A longer header, whose checksum covers more bytes, is rejected ... *)
Definition raw_header (size crc lba : N) (tail : list byte) : list byte :=
  efi_part ++ [x00; x00; x01; x00] ++ le_bytes 4 size ++ le_bytes 4 crc ++ repeat x00 4 ++ le_bytes 8 lba ++
  le_bytes 8 5 ++ le_bytes 8 3 ++ le_bytes 8 3 ++ sample_guid ++ le_bytes 8 2 ++ le_bytes 4 4 ++ le_bytes 4 128 ++
  repeat x00 4 ++ tail.
Definition raw_dev (size lba : N) (tail : list byte) : dev :=
  let crc := crc32 (raw_header size 0 lba tail) in
  mkDev (repeat x00 512 ++ raw_header size crc lba tail ++ repeat x00 (2468 - length tail)) 0 false false [] [].
Theorem C75_long_header_refuted : exists lb d, fault_free d /\ addressable d /\
  uefi_header lb (data d) 1 /\ fst (read_primary_header lb d) = Err HInvalidCRC32Checksum.
Proof.
  exists Lb512, (raw_dev 96 1 [x01; x02; x03; x04]). split; [reflexivity|]. split; [vm_compute; reflexivity|].
  split; [|vm_compute; reflexivity].
  split; [vm_compute; discriminate|]. split; [vm_compute; reflexivity|]. split; [vm_compute; split; discriminate|].
  split; vm_compute; reflexivity.
Qed.
Print Assumptions C75_long_header_refuted.
(** ... and a header that belongs into another block is accepted. *)
Theorem C75_wrong_block_refuted : exists lb d h, fault_free d /\ addressable d /\
  fst (read_primary_header lb d) = Ok h /\ current_lba h = 7 /\ ~ uefi_header lb (data d) 1.
Proof.
  exists Lb512, (raw_dev 92 7 []). eexists. split; [reflexivity|]. split; [vm_compute; reflexivity|].
  split; [vm_compute; reflexivity|]. split; [reflexivity|].
  intros (_ & _ & _ & _ & H). vm_compute in H. discriminate.
Qed.
Print Assumptions C75_wrong_block_refuted.
Example C75_case : let d := raw_dev 92 1 [] in
  num_at (512 + 12) 4 (data d) = 92 /\ num_at (512 + 24) 8 (data d) = 1 /\ uefi_header Lb512 (data d) 1.
Proof.
  split; [vm_compute; reflexivity|]. split; [vm_compute; reflexivity|].
  split; [vm_compute; discriminate|]. split; [vm_compute; reflexivity|]. split; [vm_compute; split; discriminate|].
  split; vm_compute; reflexivity.
Qed.

(** * C76: what is written is a valid GPT *)
(** A write without faults ... *)
Theorem C76_written : forall oc g h, tidy g h -> ready g h -> fault_free (g_device g) ->
  c_readonly_backup (g_config g) = false ->
  let lb := c_lb (g_config g) in backup_at h = last_whole_block lb (g_device g) ->
  exists g', write_inplace oc g = (Ok tt, g') /\ uefi_disk lb (data (g_device g')) (last_whole_block lb (g_device g)).
Proof.
  intros oc g h T R HF RB lb BA. destruct (C19_copies_agree oc g h R HF RB) as (g' & _ & _ & E & _).
  exists g'. split; [exact E|].
  assert (HT := proj1 (header_of_iff g h) (ti_header _ _ T)).
  destruct (ready_sane g h R) as (_ & HA & HS & HU & _).
  destruct (write_inplace_sane oc g h (rd_writable _ _ R) RB HT (conj HF HA) HS HU) as (g1 & E1 & D & _).
  rewrite E in E1. injection E1 as <-. rewrite D. fold lb. rewrite <- BA, backup_at_eq. rewrite <- used_in_order_eq.
  apply image_uefi; auto.
  - apply R.
  - apply R.
  - apply T.
  - rewrite <- backup_at_eq. exact BA.
  - destruct (ti_layout _ _ T) as [_ _ _ _ _ L _ _]. rewrite array_blocks_eq, backup_at_eq in L. fold lb in L. lia.
Qed.
Print Assumptions C76_written.
(** ... and any write that reports success, of a disk that was created and then worked with, whatever failed
    before. *)
Theorem C76_created : forall oc cfg u rnd d g d' fs ops g1 g2,
  fault_free d -> addressable d -> guid_ok (match u with Some u => u | None => rnd end) ->
  c_change_partition_count cfg = false -> c_readonly_backup cfg = false ->
  create_from_device oc cfg u rnd d = (Ok g, d') ->
  Forall (fun o => tidy_op oc (c_lb cfg) o /\ typed_op o) ops ->
  run oc ops (set_device (with_faults fs (g_device g)) g) = Some g1 -> write_inplace oc g1 = (Ok tt, g2) ->
  uefi_disk (c_lb cfg) (data (g_device g2)) (last_whole_block (c_lb cfg) d).
Proof.
  intros oc cfg u rnd d g d' fs ops g1 g2 HF HA GO HC RB E F R W.
  destruct (C43_create oc cfg u rnd d HF HA GO) as (A & B).
  destruct (N.le_gt_cases (2 * min_array (c_lb cfg) + 4) (lenN (data d) / lb_u64 (c_lb cfg))) as [L|L].
  2: { destruct (B L) as (e & E1 & _). congruence. }
  destruct (A L) as (ga & h & E1 & H1 & H2 & H3 & H4 & H5 & H6 & H7 & H8 & H9 & Ha & Hb & Hc & Hd & He & _).
  rewrite E in E1. injection E1 as EG ED. subst ga d'.
  destruct (C43_created_tidy oc cfg u rnd d g d HF HA GO E) as (h' & T & _).
  assert (h' = h) by (eapply header_of_fun; [apply T|exact H1]). subst h'.
  set (g0 := set_device (with_faults fs (g_device g)) g) in *.
  assert (T0 : tidy g0 h) by (destruct T; constructor; auto).
  assert (BA : backup_at h = last_whole_block (c_lb cfg) d).
  { unfold backup_at. rewrite Ha, Hb. unfold last_whole_block. lia. }
  assert (C0 : g_config g0 = cfg) by exact H5.
  destruct (run_tidy oc ops g0 h g1 T0) as (C1 & L1 & TT1 & _ & h1 & T1 & _).
  { rewrite C0. exact HC. } { cbn. rewrite H3. intros k p []. } { rewrite C0. exact F. } { exact R. }
  destruct (place_run oc ops g0 h g1) as (h2 & Q1 & Q2); auto.
  { rewrite C0. exact HC. }
  { rewrite C0. eapply Forall_impl; [|exact F]. intros o X. apply X. }
  assert (h2 = h1) by (eapply header_of_fun; [exact Q1|apply T1]). subst h2.
  rewrite C0 in C1. rewrite <- BA, <- Q2, <- C1. apply (write_uefi oc g1); auto; rewrite C1; [exact RB|].
  rewrite Q2, BA. unfold last_whole_block. cbn [g0 set_device g_device with_faults data] in L1. rewrite L1, H2. reflexivity.
Qed.
Print Assumptions C76_created.

(** Not so with readonly_backup: the backup stays what it was, here nothing. *)
Theorem C76_readonly_backup_refuted : exists oc g h g', tidy g h /\ ready g h /\ fault_free (g_device g) /\
  backup_at h = last_whole_block Lb512 (g_device g) /\ c_readonly_backup (g_config g) = true /\
  c_lb (g_config g) = Lb512 /\ write_inplace oc g = (Ok tt, g') /\
  ~ uefi_disk Lb512 (data (g_device g')) (last_whole_block Lb512 (g_device g)).
Proof.
  set (g := set_config (mkConfig Lb512 true false true false) (mini_disk [(1, sample_part)])).
  assert (R := mini_ready).
  exists true, g, mini_header, (snd (write_inplace true g)).
  split.
  { constructor; [apply mini_addressable|apply mini_header_of|apply mini_layout|unfold usable_ok; cbn; lia|]. constructor.
    - repeat constructor.
    - intros k p [E|[]] _. injection E as <- <-. cbn. lia.
    - intros j p k q [E|[]] [E'|[]] _ _ NE. injection E as <- <-. injection E' as <- <-. congruence. }
  split; [destruct R; constructor; auto|]. split; [reflexivity|]. split; [vm_compute; reflexivity|].
  do 2 (split; [reflexivity|]). split; [vm_compute; reflexivity|].
  intros [_ _ [(_ & X & _) _ _ _ _ _ _ _] _ _ _ _ _ _ _]. vm_compute in X. discriminate.
Qed.
Print Assumptions C76_readonly_backup_refuted.
(** Nor after add_partition_at, which can place a partition outside the usable blocks (compare C30). *)
Lemma add_far dv : add_partition_at true [] 1 80 1 (mkType linux_fs OsLinux) 0 sample_guid (set_device dv (wide_disk [])) =
  (Ok 1, set_partitions [(1, mkPart (mkType linux_fs OsLinux) sample_guid 80 80 0 [])] (set_device dv (wide_disk []))).
Proof. vm_compute. reflexivity. Qed.
Theorem C76_add_at_refuted : exists oc g h ty rnd g1 g', tidy g h /\ fault_free (g_device g) /\
  backup_at h = last_whole_block Lb512 (g_device g) /\ c_readonly_backup (g_config g) = false /\
  c_lb (g_config g) = Lb512 /\
  add_partition_at oc [] 1 80 1 ty 0 rnd g = (Ok 1, g1) /\ write_inplace oc g1 = (Ok tt, g') /\
  ~ uefi_disk Lb512 (data (g_device g')) (last_whole_block Lb512 (g_device g)).
Proof.
  set (p := mkPart (mkType linux_fs OsLinux) sample_guid 80 80 0 []).
  set (g := set_device wide_dev (wide_disk [])). set (g1 := set_partitions [(1, p)] g).
  assert (AD : addressable wide_dev) by (unfold addressable; rewrite wide_len; reflexivity).
  assert (R : ready g1 wide_header).
  { constructor; [reflexivity|left; reflexivity|exact AD|apply wide_layout|vm_compute; discriminate|].
    cbn. repeat constructor. }
  destruct (C17_write_then_open_primary true true g1 wide_header mini_config R) as
    (g' & hp & hb & g2 & W & O & HF & _ & GP & _ & RB); [reflexivity..|].
  destruct (C19_copies_agree true g1 wide_header R) as (gx & hp' & hb' & W2 & H1 & H2 & HF2 & _); [reflexivity..|].
  rewrite W in W2. injection W2 as <-.
  assert (F : fault_free (g_device g') /\ lenN (data (g_device g')) = lenN (data wide_dev)).
  { destruct (ready_sane g1 wide_header R) as (HT & HA & HS & HU & _).
    destruct (write_inplace_sane true g1 wide_header eq_refl eq_refl HT (conj eq_refl HA) HS HU) as
      (gy & E & D & _ & _ & _ & _ & _ & _ & (_ & _ & FF) & _).
    rewrite W in E. injection E as <-. split; [exact FF|]. rewrite D. apply image_len; auto. }
  destruct F as (F & LN).
  exists true, g, wide_header, (mkType linux_fs OsLinux), sample_guid, g1, g'.
  split. { constructor; [exact AD|left; reflexivity|apply wide_layout|apply wide_usable|apply arranged_nil]. }
  split; [reflexivity|].
  assert (LW : last_whole_block Lb512 (g_device g) = 93).
  { change (g_device g) with wide_dev. unfold last_whole_block. rewrite wide_len. reflexivity. }
  split; [rewrite LW; reflexivity|]. do 2 (split; [reflexivity|]). split; [apply add_far|]. split; [exact W|].
  rewrite LW. intros U.
  assert (AD' : addressable (g_device g')) by (unfold addressable; rewrite LN, wide_len; reflexivity).
  inversion H1 as [| | |? L1 _ _ B1]; subst. inversion H2 as [| | |? L2 _ _ B2]; subst.
  destruct (hf_const _ _ _ _ HF2) as (_ & _ & _ & _ & _ & _ & Z1 & Z2 & _).
  destruct (uefi_open true mini_config (g_device g') 93 F AD' U) as (g3 & h & E & T & _ & BA & _ & _ & GD & NP & _).
  - pose proof (hb_size _ _ B1) as X. rewrite num_in in X by lia. rewrite Z1 in X. exact X.
  - pose proof (hb_size _ _ B2) as X. rewrite num_in in X by lia. rewrite Z2 in X. exact X.
  - pose proof (hb_num _ _ B1) as X. rewrite num_in in X by lia. rewrite (proj1 (hf_num _ _ _ _ HF2)) in X.
    unfold entry_count. change (1 * lb_u64 (c_lb mini_config) + 80) with (lb_u64 (c_lb (g_config g1)) + 80). rewrite X. reflexivity.
  - rewrite O in E. injection E as <-.
    assert (h = hp) by (eapply header_of_fun; [apply T|left; exact GP]). subst h.
    destruct RB as (qs & Q1 & Q2).
    assert (UI : used_in_order (g_partitions g1) = [p]) by reflexivity. rewrite UI in Q2.
    inversion Q2 as [|? q ? ? SE Q3]; subst. inversion Q3; subst.
    assert (HQ : has (g_partitions g2) 1 q) by (rewrite Q1; left; reflexivity).
    assert (Hu : used q). { unfold used. rewrite (se_type _ _ SE). discriminate. }
    destruct (ar_range _ _ (ti_arranged _ _ T) 1 q HQ Hu) as (_ & _ & X).
    rewrite (se_last _ _ SE) in X. rewrite (proj1 (hf_last _ _ _ _ HF)) in X. vm_compute in X. apply X. reflexivity.
Qed.
Print Assumptions C76_add_at_refuted.
Example C76_case : exists g', write_inplace true (mini_disk [(1, sample_part)]) = (Ok tt, g') /\
  uefi_disk Lb512 (data (g_device g')) 5.
Proof.
  apply (C76_written true (mini_disk [(1, sample_part)]) mini_header).
  - constructor; [apply mini_addressable|apply mini_header_of|apply mini_layout|unfold usable_ok; cbn; lia|]. constructor.
    + repeat constructor.
    + intros k p [E|[]] _. injection E as <- <-. cbn. lia.
    + intros j p k q [E|[]] [E'|[]] _ _ NE. injection E as <- <-. injection E' as <- <-. congruence.
  - apply mini_ready.
  - reflexivity.
  - reflexivity.
  - vm_compute. reflexivity.
Qed.

(** * C77: valid GPTs are read, and stay valid *)
(** Every valid GPT opens - also if both headers are required - and the table holds its used entries. *)
Theorem C77_opens : forall oc cfg d last, fault_free d -> addressable d -> let lb := c_lb cfg in let l := data d in
  uefi_disk lb l last -> num_at (1 * lb_u64 lb + 12) 4 l = 92 -> num_at (last * lb_u64 lb + 12) 4 l = 92 ->
  entry_count lb l 1 < 2 ^ 25 ->
  exists g h, fst (open_from_device oc cfg d) = Ok g /\ tidy g h /\ backup_at h = last /\
    (forall i, i < entry_count lb l 1 -> let e := array_entry lb l 1 i in entry_used e ->
       exists p, has (g_partitions g) (i + 1) p /\ used p /\ entry_decodes e p) /\
    (forall k p, has (g_partitions g) k p -> 1 <= k <= entry_count lb l 1 /\
       entry_decodes (array_entry lb l 1 (k - 1)) p /\ (used p -> entry_used (array_entry lb l 1 (k - 1)))).
Proof.
  intros oc cfg d last HF HA lb l U S1 S2 HN.
  destruct (uefi_open oc cfg d last HF HA U S1 S2 HN) as (g & h & E & T & TT & BA & LW & GC & GD & NP & TR).
  fold lb l in TR, NP. exists g, h. split; [exact E|]. split; [exact T|]. split; [exact BA|]. split.
  - intros i HI e EU.
    assert (LE : length e = 128%nat).
    { unfold e, array_entry, array_bytes. rewrite !range_slice. pose proof (uc_fit _ _ _ _ (ud_primary _ _ _ U)) as FT.
      fold lb l in FT. rewrite slice_slice by lia. unfold slice. rewrite firstn_length, skipn_length. unfold lenN in FT. lia. }
    destruct (parse_entry_decodes e LE) as (p & _ & D & _). exists p.
    assert (Hu : used p) by (apply (used_entry _ _ D), EU).
    split; [|split; [exact Hu|exact D]]. apply TR. replace (i + 1 - 1) with i by lia. split; [lia|].
    split; [|exact D]. fold e. intros Z. apply EU. unfold all_zero in *. rewrite Forall_forall in *. intros b Hb. apply Z.
    rewrite range_slice in Hb. unfold slice in Hb. cbn [N.to_nat skipn] in Hb.
    rewrite <- (firstn_skipn (N.to_nat 16) e). apply in_or_app. left. exact Hb.
  - intros k p H. apply TR in H as (H1 & _ & H2). split; [exact H1|]. split; [exact H2|]. apply (used_entry _ _ H2).
Qed.
Print Assumptions C77_opens.
(** After any history of additions, removals, changes of GUID and writes, with any I/O faults, a write that
    reports success leaves a valid GPT. *)
Theorem C77_stays_valid : forall oc cfg d last g fs ops g1 g2, fault_free d -> addressable d ->
  let lb := c_lb cfg in let l := data d in
  uefi_disk lb l last -> num_at (1 * lb_u64 lb + 12) 4 l = 92 -> num_at (last * lb_u64 lb + 12) 4 l = 92 ->
  entry_count lb l 1 < 2 ^ 25 -> c_change_partition_count cfg = false -> c_readonly_backup cfg = false ->
  fst (open_from_device oc cfg d) = Ok g ->
  Forall (fun o => tidy_op oc lb o /\ typed_op o) ops ->
  run oc ops (set_device (with_faults fs (g_device g)) g) = Some g1 -> write_inplace oc g1 = (Ok tt, g2) ->
  uefi_disk lb (data (g_device g2)) last.
Proof.
  intros oc cfg d last g fs ops g1 g2 HF HA lb l U S1 S2 HN HC RB E F R W.
  destruct (uefi_open oc cfg d last HF HA U S1 S2 HN) as (ga & h & E1 & T & TT & BA & LW & GC & GD & NP & TR).
  rewrite E in E1. injection E1 as <-. fold lb in LW.
  set (g0 := set_device (with_faults fs (g_device g)) g) in *.
  assert (T0 : tidy g0 h) by (destruct T; constructor; auto).
  assert (C0 : g_config g0 = cfg) by exact GC.
  destruct (run_tidy oc ops g0 h g1 T0) as (C1 & L1 & TT1 & _ & h1 & T1 & _).
  { rewrite C0. exact HC. } { exact TT. } { rewrite C0. exact F. } { exact R. }
  destruct (place_run oc ops g0 h g1) as (h2 & Q1 & Q2); auto.
  { rewrite C0. exact HC. }
  { rewrite C0. eapply Forall_impl; [|exact F]. intros o X. apply X. }
  assert (h2 = h1) by (eapply header_of_fun; [exact Q1|apply T1]). subst h2.
  rewrite C0 in C1. rewrite <- BA, <- Q2. unfold lb. rewrite <- C1. apply (write_uefi oc g1); auto; rewrite C1; [exact RB|].
  rewrite Q2, BA. fold lb. rewrite LW at 1. unfold last_whole_block.
  cbn [g0 set_device g_device with_faults data] in L1. rewrite L1. reflexivity.
Qed.
Print Assumptions C77_stays_valid.
(** The disk of C76_case, opened with both headers required, worked with and written again. *)
Example C77_case : exists g', write_inplace true (mini_disk [(1, sample_part)]) = (Ok tt, g') /\
  uefi_disk Lb512 (data (g_device g')) 5 /\ num_at (1 * 512 + 12) 4 (data (g_device g')) = 92 /\
  num_at (5 * 512 + 12) 4 (data (g_device g')) = 92 /\ entry_count Lb512 (data (g_device g')) 1 = 4 /\
  match fst (open_from_device true (mkConfig Lb512 true true false false) (g_device g')) with
  | Ok g => match run true [OpRemove 1; OpWrite] g with
            | Some g1 => g_partitions g <> [] /\ g_partitions g1 = [] /\ fst (write_inplace true g1) = Ok tt
            | None => False
            end
  | _ => False
  end.
Proof.
  destruct C76_case as (g' & E & U). exists g'. split; [exact E|]. split; [exact U|].
  assert (X : g' = snd (write_inplace true (mini_disk [(1, sample_part)]))) by (rewrite E; reflexivity). subst g'.
  do 3 (split; [vm_compute; reflexivity|]). vm_compute. repeat split; discriminate.
Qed.
