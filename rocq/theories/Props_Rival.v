(** Props_Rival.v - disks whose two copies of the partition table disagree (C87). *)
From Verif Require Import SpecRival RivalFacts Samples Props_Open Props_Write Props_Idle.
Open Scope list_scope.
Open Scope N_scope.

(** C87.  Where the primary header is valid, it and its array alone decide what opening shows: everything else on the
    device, the backup header and its array included, may be different. *)
Theorem C87_primary_decides : forall oc oc' cfg cfg' d d' h g, fault_free d -> fault_free d' -> addressable d ->
  c_lb cfg' = c_lb cfg -> let lb := c_lb cfg in
  header_at (data d) (lb_u64 lb) (Ok h) -> part_size h = 128 -> countable oc h (data d) -> countable oc' h (data d) ->
  changed_only_in (fun i => ~ header_bytes_of lb 1 i /\ ~ array_bytes_of lb h i) (data d) (data d') ->
  fst (open_from_device oc cfg d) = Ok g ->
  (c_only_valid_headers cfg' = false -> exists g', fst (open_from_device oc' cfg' d') = Ok g') /\
  (forall g', fst (open_from_device oc' cfg' d') = Ok g' -> shows_same g g').
Proof.
  intros oc oc' cfg cfg' d d' h g F F' A EL lb H1 P C C' (L & H) E.
  rewrite addressable_iff in A. rewrite countable_iff in C, C'.
  pose proof (header_at_fun _ _ _ _ H1 (read_header_at_spec (lb_u64 lb) (data d))) as R. symmetry in R.
  assert (H' : forall i, header_bytes_of lb 1 i \/ array_bytes_of lb h i -> byte_at (data d') i = byte_at (data d) i).
  { intros i [X|X]; apply H; tauto. }
  assert (R' : read_header_at (lb_u64 (c_lb cfg')) (data d') = Ok h).
  { rewrite EL. fold lb. rewrite <- R. apply read_header_local; [exact L|]. intros i Hi. apply H'. left.
    unfold header_bytes_of, between. lia. }
  assert (T : read_parts_at h lb (data d') = read_parts_at h lb (data d)).
  { apply read_parts_local; [exact L|]. intros i Hi. apply H'. right. exact Hi. }
  assert (A' : dev_len d' < modulus 64) by (unfold dev_len in *; rewrite L; exact A).
  assert (CC : counts oc' h (dev_len d')) by (unfold dev_len in *; rewrite L; exact C').
  destruct (opened_is oc cfg d g h F A R P C E) as (E1 & E2 & E3). fold lb in E1. split.
  - intros V. assert (S : select cfg' (read_header_at (lb_u64 (c_lb cfg')) (data d')) (read_backup_at (c_lb cfg') d') = Ok h).
    { rewrite R'. unfold select. rewrite V. pose proof (read_backup_at_no_panic (c_lb cfg') d').
      destruct (read_backup_at (c_lb cfg') d'); congruence. }
    destruct (open_ok_128 oc' cfg' d' h F' A' S P CC) as (q & X). rewrite X, EL. fold lb. rewrite T, E1. eexists. reflexivity.
  - intros g' E'. destruct (opened_is oc' cfg' d' g' h F' A' R' P CC E') as (X1 & X2 & X3).
    rewrite EL in X1. fold lb in X1. split; [congruence|]. split; [congruence|]. congruence.
Qed.
Print Assumptions C87_primary_decides.

(** A write makes both copies say the same again, to be found by an opening that insists on two valid headers. *)
Theorem C87_write_unites : forall oc oc' g h g' cfg, ready g h -> fault_free (g_device g) ->
  c_readonly_backup (g_config g) = false -> let lb := c_lb (g_config g) in
  backup_at h = last_whole_block lb (g_device g) -> write_inplace oc g = (Ok tt, g') -> c_lb cfg = lb ->
  let l := data (g_device g') in
  exists g2 hp hb, fst (open_from_device oc' cfg (g_device g')) = Ok g2 /\ g_primary g2 = Ok hp /\ g_backup g2 = Ok hb /\
    mirror hp hb /\ array_intact lb hb l /\ table_read lb hp l (g_partitions g2) /\ table_read lb hb l (g_partitions g2).
Proof.
  intros oc oc' g h g' cfg RD F RB lb BA W EL l. pose proof RD as [R1 R2 R3 R4 R5 R6].
  destruct (C19_copies_agree oc g h RD F RB) as (g1 & hp & hb & W1 & A1 & A2 & HF & RA & I1 & I2).
  destruct (C17_write_then_open oc oc' g h cfg RD F RB BA EL) as (g3 & _ & _ & _ & W2 & _).
  rewrite W in W1, W2. injection W1 as <-. clear W2 g3. cbn zeta in *. fold lb l in A1, A2, HF, RA, I1, I2.
  assert (D : exists gx, write_inplace oc g = (Ok tt, gx) /\ fault_free (g_device gx)).
  { apply ready_sane in RD. destruct RD as (HT & HA & HS & HU & HP).
    destruct (write_any oc g h R1 HT (conj F HA) HS HU) as (gx & X & _ & _ & _ & Y). exists gx. auto. }
  destruct D as (gx & X & FF). rewrite W in X. injection X as <-.
  assert (LE : lenN l = lenN (data (g_device g))).
  { pose proof R4 as R4'. apply layout_ok_iff in R4'. apply header_of_iff in R2. apply addressable_iff in R3.
    pose proof (write_inplace_frame oc g h R2 R3 R4') as (Y & _). rewrite W in Y. exact Y. }
  assert (AD : addressable (g_device g')) by (unfold addressable in *; fold l; rewrite LE; exact R3).
  destruct R4 as [L1 L2 L3 L4 L5 L6 L7 L8]. fold lb in L8.
  destruct HF as [(P1 & P2 & P3) (B1 & B2 & B3) (G1 & G2) (N1 & N2) (S1 & S2) (F1 & F2) (Q1 & Q2) CR _].
  assert (B : backup_header_at lb (g_device g') (Ok hb)).
  { split; intros H; fold l in H |- *.
    - replace (last_whole_block lb (g_device g')) with (backup_at h); [exact A2|]. rewrite BA. unfold last_whole_block.
      fold l. rewrite LE. reflexivity.
    - exfalso. rewrite LE in H. pose proof (lb_pos lb). assert (2 <= backup_at h) by lia. nia. }
  pose proof (open_with_header oc' cfg (g_device g') hp (Ok hp) (Ok hb) FF AD) as O. rewrite EL in O.
  specialize (O A1 B eq_refl S1). assert (C : countable oc' hp l) by (right; left; rewrite N1; lia). specialize (O C).
  unfold opened_with in O. rewrite EL in O. fold l in O.
  destruct (fst (open_from_device oc' cfg (g_device g'))) as [g2|[]|]; try contradiction.
  destruct O as (O1 & O2 & O3 & O4 & O5 & O6 & _). exists g2, hp, hb. split; [reflexivity|]. split; [exact O5|]. split; [exact O6|].
  split; [repeat split; congruence|]. split; [exact I2|]. split; [exact O2|].
  destruct O2 as (M & K). split; [exact M|]. intros k p. rewrite K, <- RA, N1, N2. reflexivity.
Qed.
Print Assumptions C87_write_unites.

(** With readonly_backup the backup stays what it was through any session, and so does what is found once the primary
    header is lost. *)
Theorem C87_readonly_fallback : forall oc oc' g h acts g1 cfg d hb, settled g h ->
  let lb := c_lb (g_config g) in up_to_backup lb h -> Forall act_ok acts ->
  (num_parts h <= 128 /\ backup_at h = last_whole_block lb (g_device g)) \/ Forall (fun a => ~ replaces_table a) acts ->
  c_readonly_backup (g_config g) = true -> act_run oc acts g = Some g1 ->
  backup_header_at lb (g_device g) (Ok hb) -> part_size hb = 128 -> countable oc' hb (data (g_device g)) ->
  (forall i, array_bytes_of lb hb i -> ~ primary_copy lb h i) -> array_intact lb hb (data (g_device g)) ->
  fault_free d -> changed_only_in (primary_copy lb h) (data (g_device g1)) (data d) ->
  (forall x, ~ header_at (data d) (lb_u64 lb) (Ok x)) -> c_lb cfg = lb -> c_only_valid_headers cfg = false ->
  exists g2, fst (open_from_device oc' cfg d) = Ok g2 /\ g_backup g2 = Ok hb /\ g_guid g2 = disk_guid hb /\
    table_read lb hb (data (g_device g)) (g_partitions g2).
Proof.
  intros oc oc' g h acts g1 cfg d hb SE lb UP AO HU RO E HB PS C DJ IN F CH NH EL V.
  destruct (readonly_session oc g h acts g1 SE UP AO HU RO E) as (L1 & H1). destruct CH as (L2 & H2). fold lb in H1.
  pose proof SE as [_ _ _ AD _ LO _]. fold lb in LO.
  set (l := data (g_device g)) in *.
  assert (LE : lenN (data d) = lenN l) by congruence.
  assert (H : forall i, ~ primary_copy lb h i -> byte_at (data d) i = byte_at l i).
  { intros i Hi. change byte_at with byte_no. rewrite (H2 i Hi). apply H1, Hi. }
  assert (TR : range (array_at lb hb) (array_len hb) (data d) = range (array_at lb hb) (array_len hb) l).
  { rewrite !range_slice. apply slice_eq_byte_at. intros i Hi. apply H, DJ. exact Hi. }
  destruct LO as [O1 O2 O3 O4 O5 O6 O7 O8].
  assert (LB : backup_at h <= last_whole_block lb (g_device g)).
  { unfold last_whole_block. fold l. pose proof (lb_pos lb).
    assert (backup_at h + 1 <= lenN l / lb_u64 lb) by (apply N.div_le_lower_bound; lia). lia. }
  assert (B : backup_header_at lb d (Ok hb)).
  { rewrite (backup_header_fun _ _ _ _ HB (backup_header_spec lb (g_device g))).
    rewrite (read_backup_local lb (g_device g) d); [apply backup_header_spec|auto|].
    intros i Hi. symmetry. apply H. pose proof (ablocks_fit (num_parts h) 128 lb) as AF. rewrite <- array_blocks_eq in AF.
    unfold header_bytes_of, primary_copy, between in *. pose proof (lb_pos lb).
    set (w := last_whole_block lb (g_device g)) in *. set (t := array_blocks lb h) in *.
    assert ((2 + t) * lb_u64 lb <= w * lb_u64 lb) by (apply N.mul_le_mono_r; lia). lia. }
  pose proof (open_with_header oc' cfg d hb (read_header_at (lb_u64 lb) (data d)) (Ok hb) F) as O. rewrite EL in O.
  assert (AD' : addressable d) by (unfold addressable in *; rewrite LE; exact AD).
  specialize (O AD' (read_header_at_spec _ _) B).
  assert (S : select cfg (read_header_at (lb_u64 lb) (data d)) (Ok hb) = Ok hb).
  { pose proof (read_header_at_spec (lb_u64 lb) (data d)) as X. pose proof (read_header_at_no_panic (lb_u64 lb) (data d)).
    unfold select. rewrite V. destruct (read_header_at (lb_u64 lb) (data d)) as [x|e|]; [destruct (NH x X)|reflexivity|congruence]. }
  specialize (O S PS). assert (C' : countable oc' hb (data d)) by (unfold countable in *; rewrite LE; exact C). specialize (O C').
  assert (I : array_intact lb hb (data d)) by (unfold array_intact in *; rewrite LE, TR; exact IN).
  unfold opened_with in O. rewrite EL in O.
  destruct (fst (open_from_device oc' cfg d)) as [g2|[]|]; try contradiction.
  destruct O as (_ & (M & K) & _ & G & _ & GB & _). exists g2. split; [reflexivity|]. split; [exact GB|]. split; [exact G|].
  split; [exact M|]. intros k p. rewrite K, TR. reflexivity.
Qed.
Print Assumptions C87_readonly_fallback.

(** Two copies that disagree: one partition is written to both, then readonly_backup is set and an empty table under
    another disk GUID is written. *)
Definition rival_config : config := mkConfig Lb512 true true true false.
Definition rival_header : header := mkHeader EFI_PART 1 0 92 0 0 1 5 3 3 other_guid 2 4 128 0.
Definition first_written : dev := g_device (snd (write_inplace true (mini_disk [(1, sample_part)]))).
Definition rival_disk : gdisk :=
  mkGdisk rival_config first_written other_guid (Ok rival_header) (Err HInvalidGptSignature) [] false.
Definition rival_dev : dev := g_device (snd (write_inplace true rival_disk)).
Definition header_or (r : outcome hdr_err header) : header := match r with Ok h => h | _ => mini_header end.
Definition rival_primary : header := header_or (read_header_at 512 (data rival_dev)).
Definition rival_backup : header := header_or (read_backup_at Lb512 rival_dev).
Lemma rival_facts : faults rival_dev = [] /\ lenN (data rival_dev) = 3072 /\
  read_header_at 512 (data rival_dev) = Ok rival_primary /\ read_backup_at Lb512 rival_dev = Ok rival_backup /\
  part_size rival_primary = 128 /\ num_parts rival_primary = 4 /\ part_size rival_backup = 128 /\
  disk_guid rival_primary = other_guid /\ disk_guid rival_backup = sample_guid /\
  read_parts_at rival_primary Lb512 (data rival_dev) = Ok [] /\
  exists p, read_parts_at rival_backup Lb512 (data rival_dev) = Ok [(1, p)].
Proof.
  assert (D : rival_dev = ltac:(let x := eval vm_compute in rival_dev in exact x)) by (vm_compute; reflexivity).
  unfold rival_primary, rival_backup. rewrite D. clear D.
  repeat (split; [vm_compute; reflexivity|]). eexists. vm_compute. reflexivity.
Qed.
Theorem C87_strict_refuted : exists cfg d g hp hb, c_only_valid_headers cfg = true /\ fault_free d /\ addressable d /\
  fst (open_from_device true cfg d) = Ok g /\ g_primary g = Ok hp /\ g_backup g = Ok hb /\ ~ mirror hp hb /\
  disk_guid hp <> disk_guid hb /\ g_partitions g = [] /\
  exists k p, table_read (c_lb cfg) hb (data d) [(k, p)] /\ array_intact (c_lb cfg) hb (data d).
Proof.
  destruct rival_facts as (F & L & R1 & R2 & P1 & N1 & P2 & G1 & G2 & T1 & p & T2).
  assert (L64 : dev_len rival_dev < modulus 64) by (unfold dev_len; rewrite L; reflexivity).
  assert (S : select rival_config (read_header_at (lb_u64 (c_lb rival_config)) (data rival_dev))
                (read_backup_at (c_lb rival_config) rival_dev) = Ok rival_primary).
  { change (lb_u64 (c_lb rival_config)) with 512. change (c_lb rival_config) with Lb512. rewrite R1, R2. reflexivity. }
  destruct (open_ok_128 true rival_config rival_dev rival_primary F L64 S P1) as (q & O).
  { right. left. rewrite N1. reflexivity. }
  change (c_lb rival_config) with Lb512 in O. rewrite T1 in O.
  exists rival_config, rival_dev. eexists. exists rival_primary, rival_backup. rewrite O.
  split; [reflexivity|]. split; [exact F|]. split; [unfold addressable; rewrite L; reflexivity|].
  split; [reflexivity|]. split; [exact R1|]. split; [exact R2|].
  assert (NG : disk_guid rival_primary <> disk_guid rival_backup) by (rewrite G1, G2; discriminate).
  split; [intros (_ & _ & X & _); congruence|]. split; [exact NG|]. split; [reflexivity|].
  exists 1, p. pose proof (read_parts_spec rival_backup Lb512 (data rival_dev) P2 L64) as X. rewrite T2 in X.
  split; apply X.
Qed.
Print Assumptions C87_strict_refuted.
(** What was written last is not what is found when the primary header is lost. *)
Definition blank_dev : dev := set_data rival_dev (store 512 [x00] (data rival_dev)) 0.
Lemma blank_facts : faults blank_dev = [] /\ lenN (data blank_dev) = 3072 /\
  read_header_at 512 (data blank_dev) = Err HInvalidGptSignature /\ read_backup_at Lb512 blank_dev = Ok rival_backup /\
  num_parts rival_backup = 4 /\ exists p, read_parts_at rival_backup Lb512 (data blank_dev) = Ok [(1, p)].
Proof.
  unfold rival_backup, blank_dev.
  assert (D : rival_dev = ltac:(let x := eval vm_compute in rival_dev in exact x)) by (vm_compute; reflexivity).
  rewrite D. clear D. repeat (split; [vm_compute; reflexivity|]). eexists. vm_compute. reflexivity.
Qed.
Lemma first_facts : faults first_written = [] /\ lenN (data first_written) = 3072 /\
  fst (write_inplace true rival_disk) = Ok tt.
Proof.
  unfold rival_disk.
  assert (D : first_written = ltac:(let x := eval vm_compute in first_written in exact x)) by (vm_compute; reflexivity).
  rewrite D. clear D. repeat split; vm_compute; reflexivity.
Qed.
Lemma rival_layout len : len = 3072 -> layout_ok Lb512 len rival_header.
Proof. intros ->. constructor; try reflexivity; vm_compute; discriminate. Qed.
Lemma rival_ready : ready rival_disk rival_header.
Proof.
  destruct first_facts as (F & L & _). constructor; cbn [rival_disk g_device g_config g_partitions rival_config c_lb c_writable].
  - reflexivity.
  - left. reflexivity.
  - unfold addressable. rewrite L. reflexivity.
  - apply rival_layout, L.
  - discriminate.
  - constructor.
Qed.
Theorem C87_found_after_loss_refuted : ~ (forall oc oc' g h g' d cfg g2, ready g h -> fault_free (g_device g) ->
  let lb := c_lb (g_config g) in backup_at h = last_whole_block lb (g_device g) -> write_inplace oc g = (Ok tt, g') ->
  fault_free d -> changed_only_in (between (lb_u64 lb) (2 * lb_u64 lb)) (data (g_device g')) (data d) ->
  c_lb cfg = lb -> fst (open_from_device oc' cfg d) = Ok g2 -> read_back (g_partitions g) (g_partitions g2)).
Proof.
  intros H. destruct first_facts as (F1 & L1 & W). destruct rival_facts as (_ & LR & _ & _ & _ & _ & P2 & _).
  destruct blank_facts as (F & L & R1 & R2 & N2 & p & T).
  assert (L64 : dev_len blank_dev < modulus 64) by (unfold dev_len; rewrite L; reflexivity).
  assert (S : select config_default (read_header_at (lb_u64 (c_lb config_default)) (data blank_dev))
                (read_backup_at (c_lb config_default) blank_dev) = Ok rival_backup).
  { change (lb_u64 (c_lb config_default)) with 512. change (c_lb config_default) with Lb512. rewrite R1, R2. reflexivity. }
  destruct (open_ok_128 true config_default blank_dev rival_backup F L64 S P2) as (q & O).
  { right. left. rewrite N2. reflexivity. }
  change (c_lb config_default) with Lb512 in O. rewrite T in O.
  assert (E : write_inplace true rival_disk = (Ok tt, snd (write_inplace true rival_disk))).
  { destruct (write_inplace true rival_disk) as [r x]. cbn [fst snd] in *. congruence. }
  assert (BA : backup_at rival_header = last_whole_block (c_lb (g_config rival_disk)) (g_device rival_disk)).
  { unfold last_whole_block. cbn [rival_disk g_device g_config c_lb rival_config]. rewrite L1. reflexivity. }
  assert (CH : changed_only_in (between 512 (2 * 512)) (data rival_dev) (data blank_dev)).
  { split; [congruence|]. intros i Hi. unfold blank_dev. cbn [set_data data]. change byte_no with byte_at.
    rewrite byte_at_store_in by (rewrite LR; vm_compute; discriminate). change (lenN [x00]) with 1. unfold between in Hi.
    destruct (N.leb_spec 512 i), (N.ltb_spec i (512 + 1)); cbn [andb]; try reflexivity. lia. }
  pose proof (H true true rival_disk rival_header _ blank_dev config_default _ rival_ready F1 BA E F CH eq_refl (f_equal fst O)) as X.
  clear H. rename X into H. cbn [g_partitions rival_disk] in H.
  destruct H as (qs & EQ & FF). inversion FF; subst qs. discriminate EQ.
Qed.
Print Assumptions C87_found_after_loss_refuted.
(** The disk just used meets what [C87_readonly_fallback] asks for, with a session that saves, fails to save, changes the
    GUID and saves again. *)
Definition rival_session : list act :=
  [Save []; Edit OpTake; Save [None; None; None; None; Some 7%nat]; Edit (OpUpdateGuid (Some sample_guid) other_guid); Save []].
Example C87_readonly_case : settled rival_disk rival_header /\ up_to_backup Lb512 rival_header /\ Forall act_ok rival_session /\
  Forall (fun a => ~ replaces_table a) rival_session /\ c_readonly_backup (g_config rival_disk) = true /\
  exists g1 hb, act_run true rival_session rival_disk = Some g1 /\ backup_header_at Lb512 (g_device rival_disk) (Ok hb) /\
    part_size hb = 128 /\ array_intact Lb512 hb (data (g_device rival_disk)) /\
    (forall i, array_bytes_of Lb512 hb i -> ~ primary_copy Lb512 rival_header i).
Proof.
  destruct first_facts as (F & L & _).
  assert (SE : settled rival_disk rival_header).
  { constructor; cbn [rival_disk g_device g_config rival_config c_lb c_writable c_change_partition_count].
    - reflexivity.
    - reflexivity.
    - left. reflexivity.
    - unfold addressable. rewrite L. reflexivity.
    - exact F.
    - apply rival_layout, L.
    - reflexivity. }
  assert (AO : Forall act_ok rival_session) by repeat constructor.
  assert (NR : Forall (fun a => ~ replaces_table a) rival_session).
  { repeat constructor; intros (pp & X); discriminate X. }
  split; [exact SE|]. split; [reflexivity|]. split; [exact AO|]. split; [exact NR|]. split; [reflexivity|].
  pose proof (C86_saves_leave_no_trace true rival_session rival_disk rival_header SE eq_refl AO (or_intror NR)) as X.
  assert (Y : run true (edits rival_session) rival_disk <> None) by discriminate.
  destruct (act_run true rival_session rival_disk) as [g1|]; [|destruct (run true (edits rival_session) rival_disk); [destruct X|destruct (Y eq_refl)]].
  clear X Y. cbn [rival_disk g_device].
  assert (B : exists hb, read_backup_at Lb512 first_written = Ok hb /\ part_size hb = 128 /\ num_parts hb = 4 /\ part_start hb = 4 /\
            exists m, read_parts_at hb Lb512 (data first_written) = Ok m).
  { assert (D : first_written = ltac:(let x := eval vm_compute in first_written in exact x)) by (vm_compute; reflexivity).
    rewrite D. eexists. split; [vm_compute; reflexivity|]. do 3 (split; [reflexivity|]). eexists. vm_compute. reflexivity. }
  destruct B as (hb & B1 & B2 & B3 & B4 & m & B5). exists g1, hb. split; [reflexivity|].
  split; [rewrite <- B1; apply backup_header_spec|]. split; [exact B2|]. split.
  - pose proof (read_parts_spec hb Lb512 (data first_written) B2) as X. rewrite B5 in X. apply X. rewrite L. reflexivity.
  - intros i. unfold array_bytes_of, primary_copy, between, array_at, array_len. rewrite B2, B3, B4. cbn. lia.
Qed.
(** ... and for [C87_primary_decides]: the disk with two copies, and the same disk with its backup header destroyed. *)
Example C87_decides_case : let d' := set_data rival_dev (store 2560 [x00] (data rival_dev)) 0 in
  header_at (data rival_dev) 512 (Ok rival_primary) /\ part_size rival_primary = 128 /\
  changed_only_in (fun i => ~ header_bytes_of Lb512 1 i /\ ~ array_bytes_of Lb512 rival_primary i) (data rival_dev) (data d') /\
  data d' <> data rival_dev.
Proof.
  destruct rival_facts as (_ & L & R1 & R2 & P1 & N1 & _). cbn zeta.
  assert (X : forall i, byte_at (store 2560 [x00] (data rival_dev)) i = if i =? 2560 then Some x00 else byte_at (data rival_dev) i).
  { intros i. rewrite byte_at_store_in by (rewrite L; vm_compute; discriminate). change (lenN [x00]) with 1.
    destruct (N.leb_spec 2560 i), (N.ltb_spec i (2560 + 1)), (N.eqb_spec i 2560); cbn [andb]; try reflexivity; try lia.
    subst i. reflexivity. }
  assert (PS : part_start rival_primary = 2) by (vm_compute; reflexivity).
  assert (B : byte_at (data rival_dev) 2560 = Some x45) by (vm_compute; reflexivity).
  split; [rewrite <- R1; apply read_header_at_spec|]. split; [exact P1|]. cbn [set_data data]. split.
  - split; [rewrite store_lenN_in; [reflexivity|rewrite L; vm_compute; discriminate]|]. intros i Hi. change byte_no with byte_at. rewrite X.
    destruct (N.eqb_spec i 2560) as [->|_]; [|reflexivity]. exfalso. apply Hi.
    unfold header_bytes_of, array_bytes_of, array_at, array_len, between. rewrite PS, N1, P1. cbn. lia.
  - intros E. pose proof (X 2560) as Y. rewrite E, B in Y. discriminate.
Qed.
