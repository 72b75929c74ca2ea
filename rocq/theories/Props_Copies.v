(** Props_Copies.v - property C97: the two copies of the table while it is being written. *)
From Verif Require Import CopyFacts Props_Write Props_Crc Samples.
Open Scope list_scope.
Open Scope N_scope.

Lemma complete_iff lb l lba : complete lb l lba <-> whole lb l lba.
Proof.
  split; intros (h & H & L & C); exists h.
  - split; [exact (header_at_fun _ _ _ _ (read_header_at_spec _ _) H)|]. split; [exact L|]. apply C78_crc in C. symmetry. exact C.
  - split; [rewrite <- H; apply read_header_at_spec|]. split; [exact L|]. apply C78_crc. symmetry. exact C.
Qed.
Lemma ready_faults g h fs : ready g h -> ready (set_device (with_faults fs (g_device g)) g) h.
Proof. intros []. constructor; auto. Qed.

(** C97.  Opening a disk takes a complete copy, at block 1 or at the last whole block. *)
Theorem C97_opened : forall oc cfg d g, fault_free d -> addressable d -> fst (open_from_device oc cfg d) = Ok g ->
  complete (c_lb cfg) (data d) 1 \/ complete (c_lb cfg) (data d) (last_whole_block (c_lb cfg) d).
Proof.
  intros oc cfg d g F A O. apply addressable_iff in A. rewrite !complete_iff, last_whole_block_eq.
  exact (open_whole oc cfg d g F A O).
Qed.
Print Assumptions C97_opened.

(** False at one moment of every write that changes the table: both arrays are written before either header, so when the
    write stops right then, neither copy is complete, and the disk cannot be opened. *)
Theorem C97_gap_refuted : forall oc g h hp hb, ready g h -> c_readonly_backup (g_config g) = false ->
  let lb := c_lb (g_config g) in let l := data (g_device g) in
  headers_for lb h hp hb -> header_at l (lb_u64 lb) (Ok hp) -> header_at l (backup_at h * lb_u64 lb) (Ok hb) ->
  (forall full, write_inplace oc (repaired_disk g) = (Ok tt, full) -> ~ checksum_of (primary_array lb h (g_device full)) (crc32_parts hp)) ->
  exists fs, let l' := left_by oc g fs in
    ~ complete lb l' 1 /\ ~ complete lb l' (backup_at h) /\
    (backup_at h = last_whole_block lb (g_device g) -> forall oc' cfg d' g', c_lb cfg = lb -> data d' = l' -> fault_free d' ->
       fst (open_from_device oc' cfg d') <> Ok g').
Proof.
  intros oc g h hp hb HR RB lb l HF HP HB NC. assert (HW := rd_writable _ _ HR).
  pose proof (ready_sane _ _ HR) as (HT & HA & HS & HU & _).
  destruct (write_gap oc g h HW RB HT HA HS HU) as (fs & E). exists fs. intros l'.
  set (ps := used_list (g_partitions g)) in *. fold lb in HS. fold l in E.
  pose proof (tables_facts (g_config g) h ps l HS HU) as (F1 & F2 & F3 & F4 & F5). fold lb in F2, F3, F4, F5. specialize (F3 RB).
  fold l' in E. rewrite <- E in F1, F2, F3, F4, F5.
  assert (NT : crc32 (table_image h ps) <> crc32_parts hp).
  { destruct (write_any oc (repaired_disk g) h HW HT (conj eq_refl HA) HS HU) as (full & W & D & _). specialize (NC full W).
    intros Q. apply NC. apply C78_crc. rewrite <- Q. f_equal. unfold primary_array. change range with slice. rewrite D.
    change (g_config (repaired_disk g)) with (g_config g). change (g_partitions (repaired_disk g)) with (g_partitions g). fold ps.
    exact (eq_sym (full_array (g_config g) h ps l HS HA HU RB)). }
  apply (header_at_fun _ _ _ _ (read_header_at_spec _ _)) in HP. apply (header_at_fun _ _ _ _ (read_header_at_spec _ _)) in HB.
  assert (N1 : ~ complete lb l' 1).
  { rewrite complete_iff. intros (x & X & _ & C). rewrite N.mul_1_l in X.
    rewrite (read_header_slice (lb_u64 lb) l' l F1 (slice_92 _ _ _ lb F4)), HP in X. injection X as <-.
    unfold table_crc in C. rewrite (proj2 (proj2 (hf_primary _ _ _ _ HF))), (proj1 (hf_num _ _ _ _ HF)), (proj1 (hf_psize _ _ _ _ HF)) in C.
    rewrite (N.mul_comm (num_parts h) 128), F2 in C. contradiction. }
  assert (N2 : ~ complete lb l' (backup_at h)).
  { rewrite complete_iff. intros (x & X & _ & C). rewrite backup_at_eq in X, HB.
    rewrite (read_header_slice _ l' l F1 (slice_92 _ _ _ lb F5)), HB in X. injection X as <-.
    unfold table_crc in C. rewrite (proj2 (proj2 (hf_backup _ _ _ _ HF))), (proj2 (hf_num _ _ _ _ HF)), (proj2 (hf_psize _ _ _ _ HF)) in C.
    rewrite backup_at_eq, array_blocks_eq, (N.mul_comm (num_parts h) 128), F3, <- (hf_crc _ _ _ _ HF) in C. contradiction. }
  split; [exact N1|]. split; [exact N2|]. intros BL oc' cfg d' g' L D F O.
  assert (A' : addressable d') by (unfold addressable; rewrite D, F1; exact (rd_size _ _ HR)).
  destruct (C97_opened oc' cfg d' g' F A' O) as [Q|Q]; rewrite L, D in Q; [exact (N1 Q)|].
  apply N2. rewrite BL. unfold last_whole_block in *. rewrite D, F1 in Q. exact Q.
Qed.
Print Assumptions C97_gap_refuted.

(** Nothing else can happen: whatever was on the disk and wherever the write stops, the primary header is untouched as long
    as the backup copy is not complete. *)
Theorem C97_backup_first_partial : forall oc g h fs, ready g h -> c_readonly_backup (g_config g) = false ->
  let lb := c_lb (g_config g) in let l' := left_by oc g fs in
  complete lb l' (backup_at h) \/
  range (lb_u64 lb) (lb_u64 lb) l' = range (lb_u64 lb) (lb_u64 lb) (data (g_device g)).
Proof.
  intros oc g h fs HR RB lb l'. assert (HW := rd_writable _ _ HR).
  pose proof (ready_sane _ _ (ready_faults g h fs HR)) as (HT & HA & HS & HU & _).
  pose proof (write_stages oc (set_device (with_faults fs (g_device g)) g) h HW HT HA HS HU) as ST. rewrite complete_iff, backup_at_eq.
  destruct (stage_backup_first (g_config g) h _ _ HS HA HU RB _ ST) as [Q|Q]; [right; exact Q|left; exact Q].
Qed.
Print Assumptions C97_backup_first_partial.
(** A write that leaves the table as it is (a new disk GUID, or the same disk again): true wherever it stops. *)
Theorem C97_same_table_partial : forall oc g h hp fs full, ready g h -> c_readonly_backup (g_config g) = false ->
  let lb := c_lb (g_config g) in let l' := left_by oc g fs in
  header_at (data (g_device g)) (lb_u64 lb) (Ok hp) -> part_start hp = 2 -> num_parts hp = num_parts h -> part_size hp = 128 ->
  complete lb (data (g_device g)) 1 ->
  write_inplace oc (repaired_disk g) = (Ok tt, full) -> primary_array lb h (g_device full) = primary_array lb h (g_device g) ->
  complete lb l' 1 \/ complete lb l' (backup_at h).
Proof.
  intros oc g h hp fs full HR RB lb l' HP P2 PN PS HC W EQ. assert (HW := rd_writable _ _ HR).
  pose proof (ready_sane _ _ (ready_faults g h fs HR)) as (HT & HA & HS & HU & _).
  pose proof (write_stages oc (set_device (with_faults fs (g_device g)) g) h HW HT HA HS HU) as ST.
  set (ps := used_list (g_partitions g)) in *.
  assert (ET : slice (2 * lb_u64 lb) (128 * num_parts h) (data (g_device g)) = table_image h ps).
  { destruct (write_any oc (repaired_disk g) h HW HT (conj eq_refl HA) HS HU) as (full' & W' & D & _). rewrite W' in W. injection W as ->.
    unfold primary_array in EQ. change range with slice in EQ. rewrite <- EQ, D. exact (full_array (g_config g) h ps _ HS HA HU RB). }
  destruct (stage_array (g_config g) h _ _ HS HA HU RB _ ST ET) as (L & E).
  destruct (C97_backup_first_partial oc g h fs HR RB) as [Q|Q]; [right; exact Q|left].
  rewrite complete_iff in *. destruct HC as (x & X & L1 & C). exists x. fold lb l' in Q. change range with slice in Q.
  rewrite N.mul_1_l in *. rewrite (read_header_slice (lb_u64 lb) l' (data (g_device g)) L (slice_92 _ _ _ lb Q)). split; [exact X|].
  apply (header_at_fun _ _ _ _ (read_header_at_spec _ _)) in HP. rewrite HP in X. injection X as <-.
  unfold table_crc in *. rewrite P2, PN, PS, (N.mul_comm (num_parts h) 128) in *. 
  change (slice (2 * lb_u64 lb) (128 * num_parts h) l' = table_image h ps) in E. rewrite E, <- ET. auto.
Qed.
Print Assumptions C97_same_table_partial.
(** With the backup kept as it is: a backup copy that is complete stays so, wherever the write stops. *)
Theorem C97_readonly_partial : forall oc g h hb fs, ready g h -> c_readonly_backup (g_config g) = true ->
  let lb := c_lb (g_config g) in
  header_at (data (g_device g)) (backup_at h * lb_u64 lb) (Ok hb) ->
  part_start hb = backup_at h - array_blocks lb h -> num_parts hb = num_parts h -> part_size hb = 128 ->
  complete lb (data (g_device g)) (backup_at h) -> complete lb (left_by oc g fs) (backup_at h).
Proof.
  intros oc g h hb fs HR RB lb HB PB PN PS HC.
  pose proof (ready_faults g h fs HR) as HR'. set (g1 := set_device (with_faults fs (g_device g)) g) in *.
  pose proof (ready_sane _ _ HR') as (_ & _ & HS & _). change (c_lb (g_config g1)) with lb in HS.
  change (dev_len (g_device g1)) with (lenN (data (g_device g))) in HS.
  pose proof (sane_areas _ _ _ HS) as (A1 & A2 & A3 & A4 & A5 & A6). rewrite <- backup_at_eq, <- array_blocks_eq in *.
  destruct (C24_readonly_backup oc g1 h (rd_header _ _ HR') (rd_size _ _ HR') (rd_layout _ _ HR') RB) as ((L & _) & K).
  change (g_config g1) with (g_config g) in K. change (data (g_device g1)) with (data (g_device g)) in K, L. fold lb in K.
  change (data (g_device (snd (write_inplace oc g1)))) with (left_by oc g fs) in K, L. set (l' := left_by oc g fs) in *.
  assert (SL : forall off n, (forall i, off <= i < off + n -> backup_copy lb h i) -> slice off n l' = slice off n (data (g_device g))).
  { intros off n B. apply byte_at_ext. intros i. rewrite !byte_at_slice. destruct (N.ltb_spec i n); [|reflexivity].
    rewrite <- !byte_no_at. apply K, B. lia. }
  rewrite complete_iff in *. destruct HC as (x & X & L1 & C). exists x.
  apply (header_at_fun _ _ _ _ (read_header_at_spec _ _)) in HB. rewrite HB in X. injection X as <-.
  rewrite (read_header_slice _ l' (data (g_device g)) L); [|apply SL; intros i Hi; left; unfold between; pose proof (lb_pos lb); lia].
  split; [exact HB|]. unfold table_crc in *. rewrite PB, PN, PS in *.
  rewrite SL by (intros i Hi; right; unfold between; lia). auto.
Qed.
Print Assumptions C97_readonly_partial.

(** * Cases *)
(** Which of the two copies of the sample disk are complete, the primary and the backup: *)
Definition completeb (lb : lbsize) (l : list byte) (lba : N) : bool :=
  match read_header_at (lba * lb_u64 lb) l with
  | Ok h => let a := slice (part_start h * lb_u64 lb) (num_parts h * part_size h) l in
            (lenN a =? num_parts h * part_size h) && (crc32 a =? crc32_parts h)
  | _ => false
  end.
Lemma completeb_iff lb l lba : completeb lb l lba = true <-> complete lb l lba.
Proof.
  rewrite complete_iff. unfold completeb, whole. split.
  - destruct (read_header_at _ _) as [h|e|]; try discriminate. intros E. apply andb_prop in E as (E1 & E2).
    apply N.eqb_eq in E1, E2. exists h. auto.
  - intros (h & -> & L & C). apply andb_true_intro. split; apply N.eqb_eq; [exact L|exact C].
Qed.
Definition both_old : gdisk := snd (write_inplace true (mini_disk [(1, sample_part)])).
Definition both_new : gdisk := set_partitions [(1, second_part)] both_old.
Definition copies (g : gdisk) (n : nat) : bool * bool :=
  let l := left_by true g (repeat None n ++ [Some 0%nat]) in (completeb Lb512 l 1, completeb Lb512 l 5).
(** One partition replaced by another, the write stopped at each of its device operations in turn: for some of them no
    copy is complete. *)
Example C97_steps : map (copies both_new) (seq 0 24) =
  repeat (true, true) 5 ++ repeat (false, true) 2 ++ repeat (false, false) 8 ++ repeat (false, true) 4 ++ repeat (true, true) 5.
Proof. vm_compute. reflexivity. Qed.
(** The hypotheses of the theorems are met by these disks. *)
Definition old_primary : header := match read_header_at 512 (data (g_device both_old)) with Ok h => h | _ => mini_header end.
Definition old_backup : header := match read_header_at 2560 (data (g_device both_old)) with Ok h => h | _ => mini_header end.
Lemma both_ready m : lenN (used_in_order m) <= 4 -> Forall partition_ok (used_in_order m) -> ready (set_partitions m both_old) old_primary.
Proof.
  intros L F. constructor; auto.
  - left. vm_compute. reflexivity.
  - vm_compute. reflexivity.
  - constructor; try reflexivity; vm_compute; discriminate.
Qed.
Lemma second_part_ok : partition_ok second_part.
Proof. constructor; vm_compute; auto; try discriminate. Qed.
Example C97_gap_case : exists fs, let l' := left_by true both_new fs in
  ~ complete Lb512 l' 1 /\ ~ complete Lb512 l' (backup_at old_primary) /\
    (backup_at old_primary = last_whole_block Lb512 (g_device both_new) -> forall oc' cfg d' g', c_lb cfg = Lb512 -> data d' = l' -> fault_free d' ->
       fst (open_from_device oc' cfg d') <> Ok g').
Proof.
  apply (C97_gap_refuted true both_new old_primary old_primary old_backup).
  - apply both_ready; [vm_compute; discriminate|]. vm_compute used_in_order. constructor; [apply second_part_ok|constructor].
  - reflexivity.
  - constructor; vm_compute; repeat split; reflexivity.
  - replace (Ok old_primary) with (read_header_at 512 (data (g_device both_old))) by (vm_compute; reflexivity). apply read_header_at_spec.
  - replace (Ok old_backup) with (read_header_at 2560 (data (g_device both_old))) by (vm_compute; reflexivity). apply read_header_at_spec.
  - intros full W. rewrite C78_crc. replace full with (snd (write_inplace true (repaired_disk both_new))) by (rewrite W; reflexivity).
    vm_compute. discriminate.
Qed.
Example C97_same_case : map (copies both_old) (seq 0 24) = repeat (true, true) 24 /\
  primary_array Lb512 old_primary (g_device (snd (write_inplace true (repaired_disk both_old)))) = primary_array Lb512 old_primary (g_device both_old).
Proof. split; vm_compute; reflexivity. Qed.
(** A new disk GUID, the write stopped in each operation after 50 bytes: *)
Definition with_new_guid (h : header) : header :=
  mkHeader (signature h) (rev_major h) (rev_minor h) (header_size_le h) (crc32_hdr h) (reserved h) (current_lba h) (backup_lba h)
    (first_usable h) (last_usable h) other_guid (part_start h) (num_parts h) (part_size h) (crc32_parts h).
Definition new_guid : gdisk := set_primary (Ok (with_new_guid old_primary)) both_old.
Definition torn_copies (n : nat) : bool * bool :=
  let l := left_by true new_guid (repeat None n ++ [Some 50%nat]) in (completeb Lb512 l 1, completeb Lb512 l 5).
Example C97_torn_case : map torn_copies (seq 0 24) =
  repeat (true, true) 14 ++ [(true, false)] ++ repeat (true, true) 3 ++ [(false, true)] ++ repeat (true, true) 5.
Proof. vm_compute. reflexivity. Qed.
Definition kept_backup : gdisk := set_config (mkConfig Lb512 true false true false) both_new.
Example C97_readonly_case : map (copies kept_backup) (seq 0 20) = repeat (true, true) 5 ++ repeat (false, true) 6 ++ repeat (true, true) 9.
Proof. vm_compute. reflexivity. Qed.
