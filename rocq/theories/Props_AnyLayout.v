(** Props_AnyLayout.v - property C104: writing a disk whose header describes any layout. *)
From Verif Require Import SpecAnyLayout PanicFacts CopyFacts Props_Refuse Props_Write Samples.
Open Scope list_scope.
Open Scope N_scope.

(** Outside [R] the bytes are as before, and where there were none there may be zeros. *)
Definition grown (R : N -> Prop) (l0 l : list byte) : Prop :=
  lenN l0 <= lenN l /\ forall i, ~ R i -> byte_at l i = byte_at l0 i \/ lenN l0 <= i /\ byte_at l i = Some x00.
Lemma grown_refl R l : grown R l l.
Proof. split; [lia|auto]. Qed.
Lemma grown_store R l0 l off bs : grown R l0 l -> (forall i, off <= i < off + lenN bs -> R i) -> grown R l0 (store off bs l).
Proof.
  intros (L & H) HR. split; [pose proof (store_lenN_ge off bs l); lia|]. intros i NI. specialize (H i NI).
  destruct bs as [|b bs]; [exact H|]. rewrite byte_at_store by discriminate.
  destruct (N.leb_spec off i) as [A|A], (N.ltb_spec i (off + lenN (b :: bs))) as [B|B]; cbn [andb];
    try (destruct NI; apply HR; lia).
  all: destruct (N.ltb_spec i (lenN l)) as [C|C]; [exact H|].
  all: assert (Z : byte_at l0 i = None) by (apply byte_at_ge; lia).
  all: try (destruct (N.ltb_spec i off); [|lia]).
  all: try (right; split; [lia|reflexivity]).
  all: try (destruct (N.ltb_spec i off); [lia|]; left; rewrite Z; reflexivity).
Qed.
Lemma lenN_firstn_short k (l : list byte) : lenN (firstn k l) <= lenN l.
Proof. unfold lenN. rewrite firstn_length. lia. Qed.
Lemma grown_tables (R : N -> Prop) l0 oc lb ph bh m :
  part_size ph = 128 -> (forall b, bh = Some b -> part_size b = 128) ->
  part_start ph * lb_u64 lb + num_parts ph * 128 < modulus 64 ->
  (forall b, bh = Some b -> part_start b * lb_u64 lb + num_parts b * 128 < modulus 64) ->
  (forall i, in_array lb (part_start ph) (num_parts ph) i -> R i) ->
  (forall b i, bh = Some b -> in_array lb (part_start b) (num_parts b) i -> R i) ->
  keeps (grown R l0) (write_tables oc lb ph bh m).
Proof.
  intros SP SB HP HB RP RB. unfold write_tables, in_array, between in *.
  assert (W : forall x p i d, part_size x = 128 ->
     part_start x * lb_u64 lb + num_parts x * 128 < modulus 64 ->
     (forall i, part_start x * lb_u64 lb <= i < part_start x * lb_u64 lb + num_parts x * 128 -> R i) ->
     i < num_parts x -> grown R l0 (data d) ->
     grown R l0 (data (snd (write_to_device oc p i (part_start x) lb (part_size x) d)))).
  { intros x p i d S1 F1 R1 Hi Hd. rewrite S1.
    destruct (write_to_device_prefix oc p i (part_start x) lb 128 d) as (j & ->); [lia|].
    apply grown_store; [exact Hd|]. intros k Hk. apply R1. pose proof (lenN_firstn_short j (as_bytes p 128)).
    rewrite as_bytes_lenN in H. lia. }
  assert (Z : forall x a b d, part_size x = 128 ->
     part_start x * lb_u64 lb + num_parts x * 128 < modulus 64 ->
     (forall i, part_start x * lb_u64 lb <= i < part_start x * lb_u64 lb + num_parts x * 128 -> R i) ->
     a + b <= num_parts x -> grown R l0 (data d) ->
     grown R l0 (data (snd (write_zero_entries oc a b (part_start x) lb (part_size x) d)))).
  { intros x a b d S1 F1 R1 Hi Hd. rewrite S1.
    destruct (write_zero_entries_prefix oc a b (part_start x) lb 128 d) as (j & ->); [lia|].
    apply grown_store; [exact Hd|]. intros k Hk. apply R1. pose proof (lenN_firstn_short j (zeros (N.to_nat (128 * b)))).
    rewrite lenN_zeros in H. lia. }
  apply keeps_bind.
  { apply keeps_write_entries; intros; apply W; auto. intros; eapply RB; eauto. }
  intros next.
  assert (SU : forall x (k : N -> M dev gpt_err unit),
    (next <= num_parts x -> keeps (grown R l0) (k (num_parts x - next))) ->
    keeps (grown R l0) (let* n := lift (sub_unwrap (num_parts x) next) in k n)).
  { intros x k Hk. unfold sub_unwrap. destruct (N.le_gt_cases next (num_parts x)) as [L|L].
    - rewrite checked_sub64_ok by auto. intros d Hd. unfold bind, lift. apply Hk; auto.
    - rewrite checked_sub64_none by auto. intros d Hd. exact Hd. }
  apply SU. intros L. apply keeps_bind.
  { apply keeps_map_err. intros d Hd. apply Z; auto. lia. }
  intros _. destruct bh as [b|]; [|apply keeps_ret].
  apply SU. intros L2. apply keeps_map_err. intros d Hd. apply Z; auto; try lia.
  intros i Hi. eapply RB; eauto.
Qed.
Lemma grown_rest (R : N -> Prop) l0 oc lb ph bh m s :
  length (signature ph) = 8%nat -> wf_uuid (disk_guid ph) -> part_size ph = 128 ->
  (forall b, bh = Some b -> length (signature b) = 8%nat /\ wf_uuid (disk_guid b) /\ part_size b = 128) ->
  part_start ph * lb_u64 lb + num_parts ph * 128 < modulus 64 -> current_lba ph * lb_u64 lb < modulus 64 ->
  (forall b, bh = Some b -> part_start b * lb_u64 lb + num_parts b * 128 < modulus 64 /\ current_lba b * lb_u64 lb < modulus 64) ->
  (forall i, in_array lb (part_start ph) (num_parts ph) i \/ in_block lb (current_lba ph) i -> R i) ->
  (forall b i, bh = Some b -> in_array lb (part_start b) (num_parts b) i \/ in_block lb (current_lba b) i -> R i) ->
  gkeeps_lb lb (grown R l0) (write_rest oc lb ph bh m s).
Proof.
  intros S1 G1 Z1 HB P1 C1 PB RP RB.
  assert (ST : forall x k pc l, length (signature x) = 8%nat -> wf_uuid (disk_guid x) ->
    (forall i, in_block lb (current_lba x) i -> R i) -> grown R l0 l ->
    grown R l0 (store (current_lba x * lb_u64 lb) (firstn k (hdr_block x pc lb)) l)).
  { intros x k pc l A B C D. apply grown_store; [exact D|]. intros i Hi. apply C. unfold in_block, between.
    pose proof (lenN_firstn_short k (hdr_block x pc lb)) as L. rewrite hdr_block_lenN in L by auto. lia. }
  unfold write_rest. apply gkeeps_lb_bind; [|intros _; apply gkeeps_lb_bind; [|intros _;
    apply gkeeps_lb_bind; [|intros _; apply gkeeps_lb_bind; [|intros _]]]].
  - apply gkeeps_lb_on_device. apply grown_tables; auto.
    + intros b Hb. apply (HB b Hb).
    + intros b Hb. apply (PB b Hb).
    + intros b i Hb Hi. apply (RB b i Hb). auto.
  - destruct bh as [b|]; [|apply gkeeps_lb_ret].
    destruct (HB b eq_refl) as (S2 & G2 & Z2). destruct (PB b eq_refl) as (P2 & C2).
    intros g Hl Hg. unfold write_backup_of. rewrite Hl.
    assert (X : grown R l0 (data (snd (snd (write_backup b lb (g_device g)))))).
    { apply keeps_write_backup; auto. intros k pc l Hi. apply ST; auto. intros i Hj. apply (RB b i); auto. }
    destruct (write_backup b lb (g_device g)) as [r [h' d']]. auto.
  - intros g Hl Hg. unfold write_primary_of. rewrite Hl.
    assert (X : grown R l0 (data (snd (snd (write_primary ph lb (g_device g)))))).
    { apply keeps_write_primary; auto. }
    destruct (write_primary ph lb (g_device g)) as [r [h' d']]. auto.
  - apply gkeeps_lb_on_device, keeps_map_err, untouched_keeps, untouched_flush.
  - destruct s; [|apply gkeeps_lb_ret].
    apply gkeeps_lb_on_device, keeps_map_err. intros d Hd. rewrite untouched_sync; auto.
Qed.
(** The two headers a write would build, or none. *)
Definition front (lb : lbsize) (h : header) : header :=
  mkHeader EFI_PART 1 0 92 0 0 (primary_at h) (backup_at h) (N.max (first_usable h) (2 + array_blocks lb h)) (last_kept lb h)
    (disk_guid h) (primary_at h + 1) (num_parts h) 128 0.
Definition rear (lb : lbsize) (h : header) : header :=
  mkHeader EFI_PART 1 0 92 0 0 (backup_at h) (primary_at h) (N.max (first_usable h) (2 + array_blocks lb h)) (last_kept lb h)
    (disk_guid h) (last_kept lb h + 1) (num_parts h) 128 0.
Lemma room_dec lb h : {no_room lb h} + {~ no_room lb h}.
Proof.
  unfold no_room. destruct (backup_at h <? array_blocks lb h + 1) eqn:A; [left; left; apply N.ltb_lt, A|].
  destruct (last_kept lb h <? N.max (first_usable h) (array_blocks lb h + 2)) eqn:B; [left; right; apply N.ltb_lt, B|].
  apply N.ltb_ge in A, B. right. lia.
Qed.
Lemma array_blocks_128 lb h : ablocks (num_parts h) 128 lb = array_blocks lb h.
Proof. symmetry. apply array_blocks_eq. Qed.
Lemma places_64 lb h : places_fit_64 lb h ->
  primary_at h + 1 < modulus 64 /\ last_kept lb h + 1 < modulus 64 /\ primary_at h <= backup_at h /\
  primary_at h * lb_u64 lb < modulus 64 /\ backup_at h * lb_u64 lb < modulus 64 /\
  (primary_at h + 1) * lb_u64 lb + num_parts h * 128 < modulus 64 /\
  (last_kept lb h + 1) * lb_u64 lb + num_parts h * 128 < modulus 64.
Proof.
  intros (_ & H). rewrite <- two64 in H. pose proof (lb_pos lb). assert (PB : primary_at h <= backup_at h) by (unfold primary_at, backup_at; lia).
  set (X := N.max (backup_at h) (last_kept lb h)) in *. 
  assert (A : (backup_at h + 1) * lb_u64 lb <= (X + 1) * lb_u64 lb) by (apply N.mul_le_mono_r; unfold X; lia).
  assert (B : (last_kept lb h + 1) * lb_u64 lb <= (X + 1) * lb_u64 lb) by (apply N.mul_le_mono_r; unfold X; lia).
  assert (C : (primary_at h + 1) * lb_u64 lb <= (backup_at h + 1) * lb_u64 lb) by (apply N.mul_le_mono_r; lia).
  assert (D : primary_at h + 1 <= (primary_at h + 1) * lb_u64 lb) by nia.
  assert (E : last_kept lb h + 1 <= (last_kept lb h + 1) * lb_u64 lb) by nia.
  repeat split; lia.
Qed.
Lemma build_front oc lb h : part_size h = 128 -> places_fit_64 lb h ->
  build oc (bset_primary true (builder_from_header h)) lb = if room_dec lb h then Err HBackupLbaToEarly else Ok (front lb h).
Proof.
  intros PS F. pose proof (places_64 lb h F) as (A1 & A2 & PB & _). destruct F as (N32 & _).
  assert (E1 : b_backup_lba (builder_from_header h) = backup_at h) by (rewrite backup_at_eq; reflexivity).
  assert (E2 : b_primary_lba (builder_from_header h) = primary_at h) by (rewrite <- plba_at; reflexivity).
  rewrite build_eq by (cbn [bset_primary b_num_parts b_part_size builder_from_header]; rewrite PS, two32; exact N32).
  cbn [bset_primary b_num_parts b_part_size b_primary b_disk_guid b_primary_lba b_backup_lba b_first_usable b_last_usable].
  rewrite E1, E2. cbn [builder_from_header b_num_parts b_part_size b_disk_guid b_first_usable b_last_usable].
  rewrite PS, array_blocks_128. set (t := array_blocks lb h).
  destruct (N.ltb_spec (backup_at h) (primary_at h)); [lia|].
  replace (N.max (last_usable h) (backup_at h - (t + 1))) with (last_kept lb h) by (unfold last_kept; fold t; lia).
  destruct (room_dec lb h) as [R|R]; unfold no_room in R; fold t in R.
  - destruct (N.ltb_spec (backup_at h) (t + 1)); [reflexivity|]. cbn zeta.
    destruct (N.ltb_spec (last_kept lb h) (N.max (first_usable h) (2 + t))); [reflexivity|lia].
  - destruct (N.ltb_spec (backup_at h) (t + 1)); [lia|]. cbn zeta.
    destruct (N.ltb_spec (last_kept lb h) (N.max (first_usable h) (2 + t))); [lia|].
    unfold addw. destruct (N.ltb_spec (primary_at h + 1) (modulus 64)); [|lia]. reflexivity.
Qed.
Lemma build_rear oc lb h : part_size h = 128 -> places_fit_64 lb h -> ~ no_room lb h ->
  build oc (bset_primary false (builder_from_header (front lb h))) lb = Ok (rear lb h).
Proof.
  intros PS F R. pose proof (places_64 lb h F) as (A1 & A2 & PB & _). destruct F as (N32 & _).
  assert (E1 : b_backup_lba (builder_from_header (front lb h)) = backup_at h).
  { cbn. destruct (N.ltb_spec (primary_at h) (backup_at h)); [reflexivity|lia]. }
  assert (E2 : b_primary_lba (builder_from_header (front lb h)) = primary_at h).
  { cbn. destruct (N.ltb_spec (primary_at h) (backup_at h)); [reflexivity|lia]. }
  rewrite build_eq by (cbn [bset_primary b_num_parts b_part_size builder_from_header front num_parts part_size]; rewrite two32; exact N32).
  cbn [bset_primary b_num_parts b_part_size b_primary b_disk_guid b_primary_lba b_backup_lba b_first_usable b_last_usable].
  rewrite E1, E2. cbn [builder_from_header b_num_parts b_part_size b_disk_guid b_first_usable b_last_usable front num_parts part_size disk_guid first_usable last_usable].
  rewrite array_blocks_128. unfold no_room in R. set (t := array_blocks lb h) in *.
  destruct (N.ltb_spec (backup_at h) (primary_at h)); [lia|].
  destruct (N.ltb_spec (backup_at h) (t + 1)); [lia|]. cbn zeta.
  replace (N.max (last_kept lb h) (backup_at h - (t + 1))) with (last_kept lb h) by (unfold last_kept; fold t; lia).
  replace (N.max (N.max (first_usable h) (2 + t)) (2 + t)) with (N.max (first_usable h) (2 + t)) by lia.
  destruct (N.ltb_spec (last_kept lb h) (N.max (first_usable h) (2 + t))); [lia|].
  unfold addw. destruct (N.ltb_spec (last_kept lb h + 1) (modulus 64)); [|lia]. reflexivity.
Qed.

(** C104.  Whatever layout the header describes and whatever faults occur: the bytes a write changes are in the two header
    blocks and in the two arrays; a device that grows may get zeros in between. *)
Theorem C104_places : forall oc g h, header_of g h -> guid_ok (disk_guid h) -> part_size h = 128 ->
  let lb := c_lb (g_config g) in places_fit_64 lb h ->
  let l := data (g_device g) in let l' := data (g_device (snd (write_inplace oc g))) in
  forall i, ~ write_places lb (negb (c_readonly_backup (g_config g))) h i ->
    byte_no l' i = byte_no l i \/ lenN l <= i /\ byte_no l' i = Some x00.
Proof.
  intros oc g h HT HG PS lb F l l' i NI.
  cut (grown (write_places lb (negb (c_readonly_backup (g_config g))) h) l l').
  { intros (_ & G). rewrite !byte_no_at. apply G, NI. }
  clear i NI. rewrite header_of_iff in HT. set (R := write_places _ _ _). unfold l, l'. clear l l'.
  destruct (c_writable (g_config g)) eqn:HW.
  2: { unfold write_inplace. rewrite HW. apply grown_refl. }
  pose proof (build_front oc lb h PS F) as BF. pose proof (places_64 lb h F) as (A1 & A2 & A3 & A4 & A5 & A6 & A7).
  destruct (room_dec lb h) as [NR|NR].
  - unfold write_inplace. rewrite HW. cbn [negb]. fold lb. unfold bind at 1, on_device at 1.
    pose proof (untouched_find_backup_lba lb (g_device g)) as (U & _). unfold map_err.
    destruct (find_backup_lba lb (g_device g)) as [[a|e|] d]; cbn [snd] in *; try (cbn; rewrite U; apply grown_refl).
    unfold bind at 1, lift at 1. change (@the_header gpt_err (set_device d g)) with (@the_header gpt_err g). unfold the_header. rewrite HT.
    unfold bind at 1, lift at 1. rewrite BF. cbn. rewrite U. apply grown_refl.
  - pose proof (build_rear oc lb h PS F NR) as BR.
    set (bh := if c_readonly_backup (g_config g) then None else Some (rear lb h)).
    rewrite (write_inplace_eq oc g h (front lb h) bh); auto.
    2: { unfold bh. destruct (c_readonly_backup (g_config g)); auto. eexists. split; eauto. }
    fold lb.
    match goal with |- grown _ _ (data (g_device (snd (?m g)))) =>
      assert (X : gkeeps_lb lb (grown R (data (g_device g))) m) end.
    2: { apply X; auto. apply grown_refl. }
    apply gkeeps_lb_bind; [apply gkeeps_lb_on_device, keeps_map_err, untouched_keeps, untouched_find_backup_lba|].
    intros _. apply gkeeps_lb_bind; [intros g1 Hl Hg; auto|]. intros _.
    apply gkeeps_lb_bind; [intros g1 Hl Hg; destruct bh; auto|]. intros _.
    apply grown_rest; auto.
    + intros b Hb. unfold bh in Hb. destruct (c_readonly_backup (g_config g)); [discriminate|]. injection Hb as <-. auto.
    + intros b Hb. unfold bh in Hb. destruct (c_readonly_backup (g_config g)); [discriminate|]. injection Hb as <-. auto.
    + intros i Hi. unfold R, write_places. cbn in Hi. tauto.
    + intros b i Hb Hi. unfold bh in Hb. destruct (c_readonly_backup (g_config g)) eqn:RO; [discriminate|]. injection Hb as <-.
      unfold R, write_places. cbn in Hi |- *. tauto.
Qed.
Print Assumptions C104_places.
(** If there is no room for the arrays, nothing is written, whatever faults occur, and nothing changes in memory; without
    faults (and with three blocks) this is the error. *)
Theorem C104_no_room : forall oc g h, header_of g h -> part_size h = 128 ->
  let lb := c_lb (g_config g) in places_fit_64 lb h -> no_room lb h ->
  (exists d, snd (write_inplace oc g) = set_device d g /\ data d = data (g_device g)) /\
  fst (write_inplace oc g) <> Ok tt /\
  (c_writable (g_config g) = true -> fault_free (g_device g) -> addressable (g_device g) ->
   3 * lb_u64 lb <= lenN (data (g_device g)) ->
   fst (write_inplace oc g) = Err (GHeader HBackupLbaToEarly)).
Proof.
  intros oc g h HT PS lb F NR. rewrite header_of_iff in HT.
  assert (G0 : g = set_device (g_device g) g) by (destruct g; reflexivity).
  cut (exists r d, write_inplace oc g = (r, set_device d g) /\ data d = data (g_device g) /\ r <> Ok tt /\
    (c_writable (g_config g) = true -> fault_free (g_device g) -> addressable (g_device g) ->
     3 * lb_u64 lb <= lenN (data (g_device g)) -> r = Err (GHeader HBackupLbaToEarly))).
  { intros (r & d & -> & E1 & E2 & E3). cbn [fst snd]. split; [exists d; auto|auto]. }
  unfold write_inplace.
  destruct (c_writable (g_config g)) eqn:HW; cbn [negb].
  2: { exists (Err GReadOnly), (g_device g). rewrite <- G0. split; [reflexivity|]. split; [reflexivity|]. split; discriminate. }
  pose proof (build_front oc lb h PS F) as BF. destruct (room_dec lb h) as [_|NR']; [|contradiction].
  fold lb. pose proof (untouched_find_backup_lba lb (g_device g)) as (U & _).
  assert (EF : fault_free (g_device g) -> addressable (g_device g) -> 3 * lb_u64 lb <= lenN (data (g_device g)) ->
    exists a d, find_backup_lba lb (g_device g) = (Ok a, d)).
  { intros HF HA L3. rewrite find_backup_lba_ok by (auto; apply HF). unfold dev_len. 
    destruct (N.ltb_spec (lenN (data (g_device g))) (lb_u64 lb * 3)); [lia|]. eauto. }
  unfold bind at 1, on_device at 1, map_err at 1. destruct (find_backup_lba lb (g_device g)) as [[a|e|] d]; cbn [snd fst] in *.
  - exists (Err (GHeader HBackupLbaToEarly)), d. split; [|split; [exact U|split; [discriminate|auto]]].
    unfold bind at 1, lift at 1. change (@the_header gpt_err (set_device d g)) with (@the_header gpt_err g). unfold the_header. rewrite HT.
    unfold bind at 1, lift at 1. rewrite BF. reflexivity.
  - exists (Err (GHeader e)), d. split; [reflexivity|]. split; [exact U|]. split; [discriminate|].
    intros _ HF HA L3. destruct (EF HF HA L3) as (x & y & X). discriminate.
  - exists Panic, d. split; [reflexivity|]. split; [exact U|]. split; [discriminate|].
    intros _ HF HA L3. destruct (EF HF HA L3) as (x & y & X). discriminate.
Qed.
Print Assumptions C104_no_room.

(** The places in bytes. *)
Lemma places_bytes lb h : places_apart lb h -> let L := lb_u64 lb in
  (primary_at h + 1) * L + 128 * num_parts h <= backup_at h * L /\
  (primary_at h + 1) * L + 128 * num_parts h <= (last_kept lb h + 1) * L /\
  ((last_kept lb h + 1) * L + 128 * num_parts h <= backup_at h * L \/ backup_at h * L + L <= (last_kept lb h + 1) * L) /\
  primary_at h * L + L <= (primary_at h + 1) * L /\ 512 <= L.
Proof.
  intros (A1 & A2 & A3 & A4 & A5) L. pose proof (lb_pos lb) as [HL _]. fold L in HL.
  pose proof (ablocks_fit (num_parts h) 128 lb) as HF. rewrite array_blocks_128 in HF. fold L in HF.
  set (t := array_blocks lb h) in *.
  assert (M : forall a b, a <= b -> a * L <= b * L) by (intros; apply N.mul_le_mono_r; auto).
  apply M in A3. apply M in A4. rewrite N.mul_add_distr_r in A3. rewrite (N.mul_add_distr_r _ t) in A4.
  repeat split; try lia.
  destruct A5 as [A5|A5]; [left|right].
  - apply M in A5. rewrite (N.mul_add_distr_r _ t) in A5. lia.
  - apply M in A5. lia.
Qed.
Lemma write_inplace_apart oc g h :
  c_writable (g_config g) = true -> c_readonly_backup (g_config g) = false ->
  try_header g = Ok h -> good_dev (g_device g) -> wf_uuid (disk_guid h) -> part_size h = 128 ->
  let lb := c_lb (g_config g) in let L := lb_u64 lb in
  places_fit_64 lb h -> ~ no_room lb h -> places_apart lb h ->
  (backup_at h + 1) * L <= dev_len (g_device g) ->
  (last_kept lb h + 1) * L + 128 * num_parts h <= dev_len (g_device g) ->
  lenN (used_list (g_partitions g)) <= num_parts h ->
  exists g', write_inplace oc g = (Ok tt, g') /\
    let T := table_bytes (used_list (g_partitions g)) (num_parts h) in
    let l := data (g_device g') in
    lenN l = dev_len (g_device g) /\
    slice (primary_at h * L) L l = hdr_block (front lb h) (crc32 T) lb /\
    slice (backup_at h * L) L l = hdr_block (rear lb h) (crc32 T) lb /\
    slice ((primary_at h + 1) * L) (128 * num_parts h) l = T /\
    slice ((last_kept lb h + 1) * L) (128 * num_parts h) l = T /\
    g_primary g' = Ok (hdr_written (front lb h) (crc32 T)) /\ g_backup g' = Ok (hdr_written (rear lb h) (crc32 T)) /\
    g_config g' = g_config g /\ g_partitions g' = g_partitions g.
Proof.
  intros HW HR HT [Hd H64] Gw PS lb L F NR AP LB LK HU.
  pose proof (places_bytes lb h AP) as (A1 & A2 & A3 & A4 & A5). fold L in A1, A2, A3, A4, A5.
  destruct AP as (Q1 & Q2 & _).
  assert (Q3 : 2 <= last_kept lb h) by (unfold no_room in NR; lia).
  pose proof (build_front oc lb h PS F) as BF. destruct (room_dec lb h) as [|_]; [contradiction|].
  pose proof (build_rear oc lb h PS F NR) as BR.
  set (ps := used_list (g_partitions g)) in *. set (ph := front lb h) in *. set (bh := rear lb h) in *.
  rewrite (write_inplace_eq oc g h ph (Some bh)); auto.
  2: { rewrite HR. eauto. }
  fold lb. unfold bind at 1. unfold on_device at 1. unfold map_err at 1.
  rewrite find_backup_lba_ok by auto.
  assert (LB' : backup_at h * L + L <= dev_len (g_device g)) by lia.
  assert (Hlen : dev_len (g_device g) <? lb_u64 lb * 3 = false).
  { apply N.ltb_ge. fold L. assert (3 * L <= (last_kept lb h + 1) * L) by (apply N.mul_le_mono_r; lia). lia. }
  rewrite Hlen. unfold bind at 1. unfold put_primary at 1. unfold bind at 1. unfold put_backup at 1.
  set (g1 := set_backup _ _). unfold write_rest.
  set (d := g_device g) in *. set (T := table_bytes ps (num_parts h)).
  assert (LT : lenN T = 128 * num_parts h) by (apply table_bytes_lenN; auto).
  destruct (write_tables_ok oc lb ph bh (g_partitions g) d) as (q1 & E1); auto.
  { cbn. lia. }
  cbn [ph bh front rear part_start num_parts] in E1. fold ph bh in E1. fold ps T in E1. fold L in E1.
  unfold bind at 1. unfold on_device at 1. change (g_device g1) with d. 
  change (front lb h) with ph in E1. change (rear lb h) with bh in E1. rewrite E1.
  set (l1 := store ((primary_at h + 1) * L) T (store ((last_kept lb h + 1) * L) T (data d))).
  set (d1 := set_data d l1 q1).
  assert (L0 : lenN (store ((last_kept lb h + 1) * L) T (data d)) = dev_len d).
  { rewrite store_lenN_in; rewrite ?LT; unfold dev_len in *; lia. }
  assert (LL1 : lenN l1 = dev_len d).
  { unfold l1. rewrite store_lenN_in; rewrite ?L0, ?LT; auto. lia. }
  assert (L1 : dev_len d1 = dev_len d) by exact LL1.
  unfold bind at 1. unfold write_backup_of. cbn [g_config set_device g1 set_backup set_primary g_device].
  fold lb. unfold write_backup. cbn [bh rear current_lba backup_lba].
  destruct (N.leb_spec (backup_at h) (primary_at h)); [lia|].
  assert (S1 : slice ((last_kept lb h + 1) * L) (128 * num_parts h) l1 = T).
  { unfold l1. rewrite slice_store_other; [apply slice_store_same; auto|lia|rewrite L0; lia]. }
  assert (CT1 : table_crc bh lb l1 = crc32 T).
  { unfold table_crc. cbn [bh rear part_start num_parts part_size].
    replace (num_parts h * 128) with (128 * num_parts h) by lia. fold L. rewrite S1. reflexivity. }
  fold bh. change (rear lb h) with bh.
  destruct (write_header_step bh (backup_at h) lb d1) as (q2 & E2); auto.
  { rewrite L1; auto. }
  { cbn. fold L. rewrite L1. lia. }
  { fold L. rewrite L1. lia. }
  cbn [d1 data set_data] in E2. rewrite CT1 in E2. fold d1 in E2. rewrite E2. cbn [obind omap_err].
  fold L. set (l2 := store (backup_at h * L) _ l1). set (d2 := set_data d1 l2 q2).
  assert (LHB : lenN (hdr_block bh (crc32 T) lb) = L) by (apply hdr_block_lenN; auto).
  assert (LHP : lenN (hdr_block ph (crc32 T) lb) = L) by (apply hdr_block_lenN; auto).
  assert (LL2 : lenN l2 = dev_len d).
  { unfold l2. rewrite store_lenN_in; rewrite ?LHB, ?LL1; auto; lia. }
  assert (L2 : dev_len d2 = dev_len d) by exact LL2.
  unfold bind at 1. unfold write_primary_of. cbn [g_config set_device set_backup set_primary g_device].
  fold lb. unfold write_primary. cbn [ph front current_lba backup_lba].
  destruct (N.leb_spec (backup_at h) (primary_at h)); [lia|].
  assert (S2 : slice ((primary_at h + 1) * L) (128 * num_parts h) l2 = T).
  { unfold l2. rewrite slice_store_other; [unfold l1; apply slice_store_same; auto|rewrite LHB; lia|rewrite LL1; lia]. }
  assert (CT2 : table_crc ph lb l2 = crc32 T).
  { unfold table_crc. cbn [ph front part_start num_parts part_size].
    replace (num_parts h * 128) with (128 * num_parts h) by lia. fold L. rewrite S2. reflexivity. }
  fold ph. change (front lb h) with ph.
  destruct (write_header_step ph (primary_at h) lb d2) as (q3 & E3); auto.
  { rewrite L2; auto. }
  { cbn. fold L. rewrite L2. lia. }
  { fold L. rewrite L2. lia. }
  cbn [d2 data set_data] in E3. rewrite CT2 in E3. fold d2 in E3. change (c_lb (g_config g1)) with lb. rewrite E3. cbn [obind omap_err].
  fold L. set (l3 := store (primary_at h * L) _ l2). set (d3 := set_data d2 l3 q3).
  assert (Hd3 : healthy d3) by (do 3 apply healthy_set_data; auto).
  assert (FIN : lenN l3 = dev_len d /\ slice (primary_at h * L) L l3 = hdr_block ph (crc32 T) lb /\
    slice (backup_at h * L) L l3 = hdr_block bh (crc32 T) lb /\
    slice ((primary_at h + 1) * L) (128 * num_parts h) l3 = T /\
    slice ((last_kept lb h + 1) * L) (128 * num_parts h) l3 = T).
  { unfold l3. split; [rewrite store_lenN_in; rewrite ?LHP, ?LL2; auto; lia|].
    split; [apply slice_store_same; auto|].
    split; [rewrite slice_store_other by lia; apply slice_store_same; auto|].
    split; [rewrite slice_store_other by lia; exact S2|].
    rewrite slice_store_other by lia. unfold l2. rewrite slice_store_other by lia. exact S1. }
  destruct FIN as (F1 & F2 & F3 & F4 & F5).
  unfold bind at 1. unfold on_device at 1. unfold map_err at 1.
  cbn [g_device set_device set_primary]. rewrite flush_ok by auto.
  destruct (g_sync g) eqn:ES.
  - unfold on_device, map_err, sync_all. cbn [g_device set_device set_primary].
    rewrite tick_healthy by auto.
    eexists. split; [reflexivity|]. cbn. auto 10.
  - eexists. split; [reflexivity|]. cbn. auto 10.
Qed.
Lemma front_wf lb h : wf_uuid (disk_guid h) -> places_fit_64 lb h -> first_usable h <= last_kept lb h ->
  ~ no_room lb h -> wf_header (front lb h) /\ wf_header (rear lb h).
Proof.
  intros G F FU NR. pose proof (places_64 lb h F) as (A1 & A2 & A3 & A4 & A5 & A6 & A7). destruct F as (N32 & F).
  pose proof (lb_pos lb) as [HL _]. assert (B64 : backup_at h < modulus 64) by (assert (backup_at h <= backup_at h * lb_u64 lb) by nia; lia).
  assert (FK : N.max (first_usable h) (2 + array_blocks lb h) <= last_kept lb h) by (unfold no_room in NR; lia).
  assert (M32 : 128 < modulus 32) by (rewrite modulus_32; lia). rewrite <- two32 in N32.
  split; unfold wf_header; cbn [front rear signature rev_major rev_minor header_size_le current_lba backup_lba first_usable last_usable
    disk_guid part_start num_parts part_size]; repeat split; auto; try apply G; try lia.
Qed.
(** Without faults, if the places do not overlap and are on the device, then the write succeeds and leaves two intact copies of
    the table: each header where it says it is, each array where its header says it is. *)
Theorem C104_written : forall oc g h, header_of g h ->
  c_writable (g_config g) = true -> c_readonly_backup (g_config g) = false ->
  fault_free (g_device g) -> addressable (g_device g) -> guid_ok (disk_guid h) -> part_size h = 128 ->
  let lb := c_lb (g_config g) in
  places_fit_64 lb h -> ~ no_room lb h -> places_apart lb h ->
  (backup_at h + 1) * lb_u64 lb <= lenN (data (g_device g)) ->
  (last_kept lb h + 1) * lb_u64 lb + 128 * num_parts h <= lenN (data (g_device g)) ->
  lenN (used_in_order (g_partitions g)) <= num_parts h -> Forall partition_ok (used_in_order (g_partitions g)) ->
  exists g' hp hb m, write_inplace oc g = (Ok tt, g') /\ let l := data (g_device g') in
    lenN l = lenN (data (g_device g)) /\
    header_at l (primary_at h * lb_u64 lb) (Ok hp) /\ header_at l (backup_at h * lb_u64 lb) (Ok hb) /\
    current_lba hp = primary_at h /\ backup_lba hp = backup_at h /\ part_start hp = primary_at h + 1 /\
    current_lba hb = backup_at h /\ backup_lba hb = primary_at h /\ part_start hb = last_kept lb h + 1 /\
    num_parts hp = num_parts h /\ num_parts hb = num_parts h /\ disk_guid hp = disk_guid h /\ disk_guid hb = disk_guid h /\
    last_usable hp = last_kept lb h /\ last_usable hb = last_kept lb h /\
    array_intact lb hp l /\ array_intact lb hb l /\ table_read lb hp l m /\ table_read lb hb l m /\
    read_back (g_partitions g) m.
Proof.
  intros oc g h HT HW HR HF HA HG PS lb F NR AP LB LK HU HP. rewrite header_of_iff in HT. rewrite addressable_iff in HA.
  rewrite used_in_order_eq in HU, HP.
  assert (W : Forall (fun p => wf_part p /\ is_used p = true) (used_list (g_partitions g))).
  { pose proof (used_list_all_used (g_partitions g)) as U. rewrite Forall_forall in *.
    intros p Hp. split; [apply partition_ok_iff; auto|auto]. }
  destruct (write_inplace_apart oc g h) as (g' & E & L1 & S1 & S2 & S3 & S4 & _); auto.
  { split; auto. }
  set (ps := used_list (g_partitions g)) in *. set (T := table_bytes ps (num_parts h)) in *.
  set (l := data (g_device g')) in *. fold lb in S1, S2, S3, S4.
  destruct (front_wf lb h) as (WF & WR); auto. { unfold no_room in NR. lia. }
  pose proof (places_bytes lb h AP) as (A1 & A2 & A3 & A4 & A5). unfold dev_len in *.
  exists g', (hdr_read (front lb h) (crc32 T) (hdr_crc (front lb h) (crc32 T))),
    (hdr_read (rear lb h) (crc32 T) (hdr_crc (rear lb h) (crc32 T))), (number 1 (map normal ps)).
  split; [exact E|]. split; [exact L1|]. fold l.
  assert (R1 : read_header_at (primary_at h * lb_u64 lb) l = Ok (hdr_read (front lb h) (crc32 T) (hdr_crc (front lb h) (crc32 T)))).
  { apply (block_read _ _ _ lb); auto. apply crc32_u32. lia. }
  assert (R2 : read_header_at (backup_at h * lb_u64 lb) l = Ok (hdr_read (rear lb h) (crc32 T) (hdr_crc (rear lb h) (crc32 T)))).
  { apply (block_read _ _ _ lb); auto. apply crc32_u32. lia. }
  split; [rewrite <- R1; apply read_header_at_spec|]. split; [rewrite <- R2; apply read_header_at_spec|].
  do 12 (split; [reflexivity|]).
  assert (RP : forall hd, num_parts hd = num_parts h -> part_size hd = 128 -> crc32_parts hd = crc32 T ->
    part_start hd * lb_u64 lb + 128 * num_parts h <= lenN l -> slice (part_start hd * lb_u64 lb) (128 * num_parts h) l = T ->
    array_intact lb hd l /\ table_read lb hd l (number 1 (map normal ps))).
  { intros hd E1 E2 E3 E4 E5. assert (HL : lenN l < modulus 64) by lia.
    pose proof (read_parts_spec hd lb l E2 HL) as RS.
    assert (RR : read_parts_at hd lb l = Ok (number 1 (map normal ps))).
    { unfold read_parts_at, parts_of, table_of. rewrite E1, E2, E3.
      replace (num_parts h * 128) with (128 * num_parts h) by lia.
      destruct (N.leb_spec (modulus 64) (part_start hd * lb_u64 lb)); [lia|].
      destruct (N.leb_spec (part_start hd * lb_u64 lb + 128 * num_parts h) (lenN l)); [|lia].
      rewrite E5. rewrite N.eqb_refl. f_equal. apply table_parts_table; auto. }
    rewrite RR in RS. exact RS. }
  destruct (RP (hdr_read (front lb h) (crc32 T) (hdr_crc (front lb h) (crc32 T)))) as (I1 & T1); [reflexivity|reflexivity|reflexivity|cbn [hdr_read front part_start]; lia|exact S3|].
  destruct (RP (hdr_read (rear lb h) (crc32 T) (hdr_crc (rear lb h) (crc32 T)))) as (I2 & T2); [reflexivity|reflexivity|reflexivity|cbn [hdr_read rear part_start]; lia|exact S4|].
  split; [exact I1|]. split; [exact I2|]. split; [exact T1|]. split; [exact T2|].
  apply read_back_normal; auto.
Qed.
Print Assumptions C104_written.

(** A header that puts both copies in the same block: no write ever succeeds, whatever faults occur. *)
Theorem C104_one_block : forall oc g h, header_of g h -> part_size h = 128 ->
  let lb := c_lb (g_config g) in places_fit_64 lb h -> current_lba h = backup_lba h ->
  fst (write_inplace oc g) <> Ok tt.
Proof.
  intros oc g h HT PS lb F EQ. destruct (room_dec lb h) as [NR|NR]; [apply (C104_no_room oc g h HT PS F NR)|].
  rewrite header_of_iff in HT.
  destruct (c_writable (g_config g)) eqn:HW.
  2: { unfold write_inplace. rewrite HW. discriminate. }
  assert (PB : backup_at h = primary_at h) by (unfold backup_at, primary_at; lia).
  pose proof (build_front oc lb h PS F) as BF. destruct (room_dec lb h) as [|_]; [contradiction|].
  pose proof (build_rear oc lb h PS F NR) as BR.
  set (bh := if c_readonly_backup (g_config g) then None else Some (rear lb h)).
  rewrite (write_inplace_eq oc g h (front lb h) bh); auto.
  2: { unfold bh. destruct (c_readonly_backup (g_config g)); auto. eauto. }
  fold lb. unfold bind at 1, on_device at 1. destruct (map_err _ _ _) as [[a|e|] d1]; try discriminate.
  unfold bind at 1, put_primary at 1. unfold bind at 1, put_backup at 1. unfold write_rest, bind at 1, on_device at 1.
  destruct (write_tables _ _ _ _ _ _) as [[u|e|] d2]; try discriminate.
  assert (X1 : forall s, fst (write_primary_of (front lb h) s) <> Ok tt).
  { intros s. unfold write_primary_of, write_primary. cbn [front backup_lba current_lba]. rewrite PB, N.leb_refl. discriminate. }
  unfold bh. destruct (c_readonly_backup (g_config g)).
  - unfold bind at 1, ret at 1. unfold bind at 1.
    match goal with |- context[write_primary_of _ ?s] => specialize (X1 s); destruct (write_primary_of (front lb h) s) as [[[]|e|] s']; try discriminate end.
    destruct X1; reflexivity.
  - unfold bind at 1, write_backup_of, write_backup. cbn [rear backup_lba current_lba]. rewrite PB, N.leb_refl. discriminate.
Qed.
Print Assumptions C104_one_block.

(** * Cases *)
(** A table of four entries behind a header in block 2, the second copy with its header in block 6 and its array in block 9. *)
Definition odd_header : header := mkHeader EFI_PART 1 0 92 0 0 2 6 4 8 sample_guid 3 4 128 0.
Definition odd_disk (h : header) (n : N) : gdisk :=
  mkGdisk mini_config (mkDev (zeros (N.to_nat n)) 0 false false [] []) sample_guid (Ok h) (Err HInvalidGptSignature) [(1, part_at 4 4)] false.
Example C104_written_case : let g := odd_disk odd_header 5120 in let h := odd_header in
  header_of g h /\ places_fit_64 Lb512 h /\ ~ no_room Lb512 h /\ places_apart Lb512 h /\ last_kept Lb512 h = 8 /\
  (backup_at h + 1) * 512 <= lenN (data (g_device g)) /\ (last_kept Lb512 h + 1) * 512 + 128 * num_parts h <= lenN (data (g_device g)) /\
  ~ layout_ok Lb512 5120 h.
Proof.
  assert (A : array_blocks Lb512 odd_header = 1) by reflexivity.
  cbv zeta. split; [left; reflexivity|]. unfold places_fit_64, no_room, places_apart, last_kept. rewrite A.
  split; [vm_compute; auto|]. split; [cbn; lia|]. split; [cbn; lia|].
  split; [reflexivity|]. split; [vm_compute; discriminate|]. split; [vm_compute; discriminate|].
  rewrite layout_ok_iff. intros S. destruct S. vm_compute in s_plba. discriminate.
Qed.
Example C104_no_room_case : let h := mkHeader EFI_PART 1 0 92 0 0 1 5 4 3 sample_guid 2 4 128 0 in
  no_room Lb512 h /\ fst (write_inplace true (odd_disk h 5120)) = Err (GHeader HBackupLbaToEarly).
Proof. split; [right; vm_compute; reflexivity|vm_compute; reflexivity]. Qed.
(** A write that fails because both copies are in the same block has overwritten both arrays all the same. *)
Theorem C104_one_block_refuted : exists g h, header_of g h /\ current_lba h = backup_lba h /\ fault_free (g_device g) /\
  fst (write_inplace true g) = Err (GHeader HWritingToWrongLba) /\
  range (4 * 512) 128 (data (g_device (snd (write_inplace true g)))) <> range (4 * 512) 128 (data (g_device g)).
Proof.
  exists (odd_disk (mkHeader EFI_PART 1 0 92 0 0 3 3 2 8 sample_guid 2 4 128 0) 5120). eexists. split; [left; reflexivity|].
  split; [reflexivity|]. split; [reflexivity|]. split; [vm_compute; reflexivity|]. vm_compute. discriminate.
Qed.
Print Assumptions C104_one_block_refuted.
(** A header whose usable blocks reach up to the backup header: the write succeeds, but the backup array lies on the block of the
    backup header, which is no header afterwards. *)
Theorem C104_backup_lost_refuted : exists g h g', header_of g h /\ fault_free (g_device g) /\ current_lba h = 1 /\
  backup_lba h = 5 /\ last_usable h = 4 /\ lenN (data (g_device g)) = 3072 /\ c_readonly_backup (g_config g) = false /\
  write_inplace true g = (Ok tt, g') /\
  forall hb, header_at (data (g_device g')) (5 * 512) (Ok hb) -> ~ array_intact Lb512 hb (data (g_device g')).
Proof.
  exists (odd_disk (mkHeader EFI_PART 1 0 92 0 0 1 5 3 4 sample_guid 2 4 128 0) 3072). eexists. eexists.
  split; [left; reflexivity|]. do 6 (split; [reflexivity|]). split; [vm_compute; reflexivity|].
  intros hb H. apply (header_at_fun _ _ _ _ (read_header_at_spec _ _)) in H. vm_compute in H.
  injection H as <-. intros (_ & _ & C). vm_compute in C. discriminate.
Qed.
Print Assumptions C104_backup_lost_refuted.

(** The same where the backup is not to be touched: the primary copy is complete, wherever the backup is. *)
Lemma write_inplace_front oc g h :
  c_writable (g_config g) = true -> c_readonly_backup (g_config g) = true ->
  try_header g = Ok h -> good_dev (g_device g) -> wf_uuid (disk_guid h) -> part_size h = 128 ->
  let lb := c_lb (g_config g) in let L := lb_u64 lb in
  places_fit_64 lb h -> ~ no_room lb h -> primary_at h < backup_at h ->
  3 * L <= dev_len (g_device g) -> (primary_at h + 1) * L + 128 * num_parts h <= dev_len (g_device g) ->
  lenN (used_list (g_partitions g)) <= num_parts h ->
  exists g', write_inplace oc g = (Ok tt, g') /\
    let T := table_bytes (used_list (g_partitions g)) (num_parts h) in
    let l := data (g_device g') in
    lenN l = dev_len (g_device g) /\
    slice (primary_at h * L) L l = hdr_block (front lb h) (crc32 T) lb /\
    slice ((primary_at h + 1) * L) (128 * num_parts h) l = T /\
    g_primary g' = Ok (hdr_written (front lb h) (crc32 T)) /\ g_backup g' = g_backup g /\
    g_config g' = g_config g /\ g_partitions g' = g_partitions g.
Proof.
  intros HW HR HT [Hd H64] Gw PS lb L F NR Q1 L3 LP HU.
  pose proof (build_front oc lb h PS F) as BF. destruct (room_dec lb h) as [|_]; [contradiction|].
  set (ps := used_list (g_partitions g)) in *. set (ph := front lb h) in *.
  assert (PL : primary_at h * L + L = (primary_at h + 1) * L) by lia.
  rewrite (write_inplace_eq oc g h ph None); auto.
  2: { rewrite HR. reflexivity. }
  fold lb. unfold bind at 1. unfold on_device at 1. unfold map_err at 1.
  rewrite find_backup_lba_ok by auto.
  assert (Hlen : dev_len (g_device g) <? lb_u64 lb * 3 = false) by (apply N.ltb_ge; fold L; lia).
  rewrite Hlen. unfold bind at 1. unfold put_primary at 1. unfold bind at 1. unfold put_backup at 1.
  set (g1 := set_primary _ _). unfold write_rest.
  set (d := g_device g) in *. set (T := table_bytes ps (num_parts h)).
  assert (LT : lenN T = 128 * num_parts h) by (apply table_bytes_lenN; auto).
  destruct (write_tables_ok_1 oc lb ph (g_partitions g) d) as (q1 & E1); auto.
  cbn [ph front part_start num_parts] in E1. fold ph in E1. fold ps T in E1. fold L in E1.
  unfold bind at 1. unfold on_device at 1. change (g_device g1) with d.
  change (front lb h) with ph in E1. rewrite E1.
  set (l1 := store ((primary_at h + 1) * L) T (data d)).
  set (d1 := set_data d l1 q1).
  assert (LL1 : lenN l1 = dev_len d).
  { unfold l1. rewrite store_lenN_in; rewrite ?LT; unfold dev_len in *; lia. }
  assert (L1 : dev_len d1 = dev_len d) by exact LL1.
  unfold bind at 1. unfold ret at 1.
  unfold bind at 1. unfold write_primary_of. cbn [g_config set_device set_backup set_primary g_device].
  fold lb. unfold write_primary. cbn [ph front current_lba backup_lba].
  destruct (N.leb_spec (backup_at h) (primary_at h)); [lia|].
  assert (S2 : slice ((primary_at h + 1) * L) (128 * num_parts h) l1 = T) by (unfold l1; apply slice_store_same; auto).
  assert (CT2 : table_crc ph lb l1 = crc32 T).
  { unfold table_crc. cbn [ph front part_start num_parts part_size].
    replace (num_parts h * 128) with (128 * num_parts h) by lia. fold L. rewrite S2. reflexivity. }
  fold ph. change (front lb h) with ph.
  destruct (write_header_step ph (primary_at h) lb d1) as (q3 & E3); auto.
  { rewrite L1; auto. }
  { cbn. fold L. rewrite L1. lia. }
  { fold L. rewrite L1. lia. }
  cbn [d1 data set_data] in E3. rewrite CT2 in E3. fold d1 in E3. change (c_lb (g_config g1)) with lb. rewrite E3. cbn [obind omap_err].
  assert (LHP : lenN (hdr_block ph (crc32 T) lb) = L) by (apply hdr_block_lenN; auto).
  fold L. set (l3 := store (primary_at h * L) _ l1). set (d3 := set_data d1 l3 q3).
  assert (Hd3 : healthy d3) by (do 2 apply healthy_set_data; auto).
  assert (FIN : lenN l3 = dev_len d /\ slice (primary_at h * L) L l3 = hdr_block ph (crc32 T) lb /\
    slice ((primary_at h + 1) * L) (128 * num_parts h) l3 = T).
  { unfold l3. split; [rewrite store_lenN_in; rewrite ?LHP, ?LL1; auto; lia|].
    split; [apply slice_store_same; auto|].
    rewrite slice_store_other by lia. exact S2. }
  destruct FIN as (F1 & F2 & F3).
  unfold bind at 1. unfold on_device at 1. unfold map_err at 1.
  cbn [g_device set_device set_primary]. rewrite flush_ok by auto.
  destruct (g_sync g) eqn:ES.
  - unfold on_device, map_err, sync_all. cbn [g_device set_device set_primary].
    rewrite tick_healthy by auto.
    eexists. split; [reflexivity|]. cbn. auto 10.
  - eexists. split; [reflexivity|]. cbn. auto 10.
Qed.
Theorem C104_written_readonly : forall oc g h, header_of g h ->
  c_writable (g_config g) = true -> c_readonly_backup (g_config g) = true ->
  fault_free (g_device g) -> addressable (g_device g) -> guid_ok (disk_guid h) -> part_size h = 128 ->
  let lb := c_lb (g_config g) in
  places_fit_64 lb h -> ~ no_room lb h -> primary_at h < backup_at h ->
  3 * lb_u64 lb <= lenN (data (g_device g)) ->
  (primary_at h + 1) * lb_u64 lb + 128 * num_parts h <= lenN (data (g_device g)) ->
  lenN (used_in_order (g_partitions g)) <= num_parts h -> Forall partition_ok (used_in_order (g_partitions g)) ->
  exists g' hp m, write_inplace oc g = (Ok tt, g') /\ let l := data (g_device g') in
    lenN l = lenN (data (g_device g)) /\ header_at l (primary_at h * lb_u64 lb) (Ok hp) /\
    current_lba hp = primary_at h /\ backup_lba hp = backup_at h /\ part_start hp = primary_at h + 1 /\
    num_parts hp = num_parts h /\ disk_guid hp = disk_guid h /\ last_usable hp = last_kept lb h /\
    array_intact lb hp l /\ table_read lb hp l m /\ read_back (g_partitions g) m /\ g_backup g' = g_backup g.
Proof.
  intros oc g h HT HW HR HF HA HG PS lb F NR Q1 L3 LP HU HP. rewrite header_of_iff in HT. rewrite addressable_iff in HA.
  rewrite used_in_order_eq in HU, HP.
  assert (W : Forall (fun p => wf_part p /\ is_used p = true) (used_list (g_partitions g))).
  { pose proof (used_list_all_used (g_partitions g)) as U. rewrite Forall_forall in *.
    intros p Hp. split; [apply partition_ok_iff; auto|auto]. }
  destruct (write_inplace_front oc g h) as (g' & E & L1 & S1 & S3 & _ & GB & _); auto.
  { split; auto. }
  set (ps := used_list (g_partitions g)) in *. set (T := table_bytes ps (num_parts h)) in *.
  set (l := data (g_device g')) in *. fold lb in S1, S3.
  destruct (front_wf lb h) as (WF & _); auto. { unfold no_room in NR. lia. }
  unfold dev_len in *. assert (PL : primary_at h * lb_u64 lb + lb_u64 lb = (primary_at h + 1) * lb_u64 lb) by lia.
  exists g', (hdr_read (front lb h) (crc32 T) (hdr_crc (front lb h) (crc32 T))), (number 1 (map normal ps)).
  split; [exact E|]. split; [exact L1|]. fold l.
  assert (R1 : read_header_at (primary_at h * lb_u64 lb) l = Ok (hdr_read (front lb h) (crc32 T) (hdr_crc (front lb h) (crc32 T)))).
  { apply (block_read _ _ _ lb); auto. apply crc32_u32. lia. }
  split; [rewrite <- R1; apply read_header_at_spec|].
  do 6 (split; [reflexivity|]).
  set (hd := hdr_read (front lb h) (crc32 T) (hdr_crc (front lb h) (crc32 T))).
  assert (HL : lenN l < modulus 64) by lia.
  assert (E2 : part_size hd = 128) by reflexivity. pose proof (read_parts_spec hd lb l E2 HL) as RS.
  assert (RR : read_parts_at hd lb l = Ok (number 1 (map normal ps))).
  { unfold read_parts_at, parts_of, table_of. cbn [hd hdr_read front num_parts part_size part_start crc32_parts].
    replace (num_parts h * 128) with (128 * num_parts h) by lia.
    destruct (N.leb_spec (modulus 64) ((primary_at h + 1) * lb_u64 lb)); [lia|].
    destruct (N.leb_spec ((primary_at h + 1) * lb_u64 lb + 128 * num_parts h) (lenN l)); [|lia].
    rewrite S3. rewrite N.eqb_refl. f_equal. apply table_parts_table; auto. }
  rewrite RR in RS. destruct RS as (I1 & T1). split; [exact I1|]. split; [exact T1|]. split; [|exact GB].
  apply read_back_normal; auto.
Qed.
Print Assumptions C104_written_readonly.
(** A header whose backup would be far outside the device. *)
Example C104_written_readonly_case : let h := mkHeader EFI_PART 1 0 92 0 0 3 1000 5 900 sample_guid 2 4 128 0 in
  let g := set_config (cset_readonly_backup true mini_config) (odd_disk h 5120) in
  header_of g h /\ c_writable (g_config g) = true /\ places_fit_64 Lb512 h /\ ~ no_room Lb512 h /\
  primary_at h = 3 /\ backup_at h = 1000 /\ (primary_at h + 1) * 512 + 128 * num_parts h <= lenN (data (g_device g)) /\
  fst (write_inplace true g) = Ok tt.
Proof.
  cbv zeta. set (h := mkHeader EFI_PART 1 0 92 0 0 3 1000 5 900 sample_guid 2 4 128 0).
  assert (A : array_blocks Lb512 h = 1) by reflexivity.
  split; [left; reflexivity|]. split; [reflexivity|]. unfold places_fit_64, no_room, last_kept. rewrite A.
  split; [vm_compute; auto|]. split; [cbn; lia|]. split; [reflexivity|]. split; [reflexivity|].
  split; [vm_compute; discriminate|]. vm_compute. reflexivity.
Qed.
