(** Props_AddPanic.v - adding a partition does not panic where the table has to grow, unless a number in the header does not fit (C31,
    C54). *)
From Verif Require Import RefineFacts PanicFacts Props_Alloc Samples.
Open Scope list_scope.
Open Scope N_scope.

(** The array for one more partition takes less than 2^32 bytes, and the header's places leave room for the next block. *)
Definition can_grow (g : gdisk) (h : header) : Prop :=
  N.max (lenN (g_partitions g) + 1) 128 * part_size h < 2 ^ 32 /\ primary_at h + 1 < 2 ^ 64 /\ addressable (g_device g).

Lemma insert_len k p m : lenN (pm_insert k p m) <= lenN m + 1.
Proof.
  induction m as [|[k' q] m IH]; cbn [pm_insert]; [discriminate|].
  destruct (k <? k'); [rewrite lenN_cons; lia|]. destruct (k =? k'); rewrite !lenN_cons; [lia|]. lia.
Qed.
Lemma find_backup_small lb d n d1 : addressable d -> find_backup_lba lb d = (Ok n, d1) -> n < modulus 64.
Proof.
  intros A. unfold addressable in A. rewrite <- two64 in A. unfold find_backup_lba, bind, map_err. unfold stream_position at 1.
  destruct (tick d) as [[m|] d'] eqn:T; [discriminate|].
  assert (L : dev_len d' = dev_len d).
  { unfold tick in T. destruct (faults d); injection T; intros; subst; reflexivity. }
  unfold seek_end. destruct (tick d') as [[m|] d2] eqn:T2; [discriminate|].
  assert (L2 : dev_len d2 = dev_len d').
  { unfold tick in T2. destruct (faults d'); injection T2; intros; subst; reflexivity. }
  cbn [omap_err]. destruct (seek_start (pos d') (set_pos d2 (dev_len d2))) as [[x|e|] d3]; cbn [omap_err]; try discriminate.
  destruct (N.ltb_spec (dev_len d2) (lb_u64 lb * 3)) as [H|H]; [discriminate|]. intros E. injection E as <- _.
  apply N.le_lt_trans with (dev_len d2 - lb_u64 lb).
  - apply N.div_le_upper_bound; destruct lb; cbn [lb_u64]; lia.
  - change (dev_len d) with (lenN (data d)) in L. lia.
Qed.
Lemma init_calm oc g h : header_of g h -> usable_ok h ->
  oc = false \/ (N.max (lenN (g_partitions g)) 128 * part_size h < 2 ^ 32 /\ primary_at h + 1 < 2 ^ 64 /\ addressable (g_device g)) ->
  fst (init_headers oc g) <> Panic.
Proof.
  intros HH (_ & _ & HL) HS. rewrite <- two32, <- !two64 in HS. rewrite <- two64 in HL. pose proof HH as HO. rewrite header_of_iff in HO.
  unfold init_headers, bind, on_device, map_err.
  assert (CF : fst (find_backup_lba (c_lb (g_config g)) (g_device g)) <> Panic) by apply calm_find_backup_lba.
  destruct (find_backup_lba (c_lb (g_config g)) (g_device g)) as [[bak|e|] d] eqn:FB; cbn [omap_err fst] in *; try discriminate; try congruence.
  set (gd := set_device d g). change (try_header gd) with (try_header g). rewrite HO. cbn [builder_from_maybe_header].
  set (b := bset_primary true _). set (lb := c_lb (g_config g)).
  destruct (from_header_lbas h) as (P1 & P2).
  assert (N1 : b_num_parts b <= N.max (lenN (g_partitions g)) 128).
  { change (b_num_parts b) with (N.max (lenN (g_partitions g) mod modulus 32) 128).
    pose proof (N.mod_le (lenN (g_partitions g)) (modulus 32) ltac:(rewrite two32; lia)). lia. }
  assert (K : build oc b lb <> Panic).
  { apply build_calm. destruct HS as [HS|(S1 & S2 & S3)]; [auto|right]. split; [|split].
    - eapply N.le_lt_trans; [|exact S1]. apply N.mul_le_mono_r. exact N1.
    - change (b_primary_lba b) with (b_primary_lba (builder_from_header h)). rewrite P1. exact S2.
    - discriminate. }
  destruct (build oc b lb) as [h1|e|] eqn:B1; [|discriminate|congruence].
  apply build_inv in B1. destruct B1 as (_ & G2 & G3 & _ & G4 & _ & G5 & G6 & G7 & G8 & _).
  change (b_primary b) with true in *. cbn iota in G6, G7. change (b_backup_lba b) with bak in *.
  destruct (c_readonly_backup _); [discriminate|].
  set (b' := bset_primary false _).
  assert (K' : build oc b' lb <> Panic).
  { apply build_calm. destruct HS as [HS|(S1 & S2 & S3)]; [auto|right].
    destruct (from_header_lbas h1) as (Q1 & Q2).
    change (b_num_parts b') with (num_parts h1). change (b_part_size b') with (part_size h1).
    change (b_last_usable b') with (last_usable h1).
    change (b_primary_lba b') with (b_primary_lba (builder_from_header h1)).
    change (b_backup_lba b') with (b_backup_lba (builder_from_header h1)). rewrite Q1, Q2. unfold primary_at, backup_at. rewrite G6, G7.
    change (b_primary_lba b) with (b_primary_lba (builder_from_header h)) in *. rewrite P1 in *.
    pose proof (find_backup_small _ _ _ _ S3 FB) as SB.
    change (b_last_usable b) with (last_usable h) in *. change (b_part_size b) with (part_size h) in *.
    split; [|split].
    - rewrite G2, G3. eapply N.le_lt_trans; [|exact S1]. apply N.mul_le_mono_r. exact N1.
    - lia.
    - intros _. split; [|lia]. destruct (N.eq_dec (last_usable h1) (last_usable h)) as [->|NE]; [exact HL|]. specialize (G5 NE). lia. }
  destruct (build oc b' lb) as [h2|e|] eqn:B2; [discriminate|discriminate|congruence].
Qed.
Lemma insert_calm oc id p c g h : header_of g h -> usable_ok h -> oc = false \/ can_grow g h ->
  fst (insert_partition oc id p c g) <> Panic.
Proof.
  intros HH HU HS. unfold insert_partition. unfold bind at 1. set (g1 := set_partitions _ g).
  assert (X : fst ((if c then init_headers oc else ret tt) g1) <> Panic).
  { destruct c; [|discriminate]. apply init_calm with h; [exact HH|exact HU|]. destruct HS as [HS|(S1 & S2 & S3)]; [auto|right].
    split; [|split; assumption]. eapply N.le_lt_trans; [|exact S1]. apply N.mul_le_mono_r.
    pose proof (insert_len id p (g_partitions g)). change (g_partitions g1) with (pm_insert id p (g_partitions g)). lia. }
  unfold bind. destruct ((if c then init_headers oc else ret tt) g1) as [[a|e|] g2]; cbn in *; congruence.
Qed.

(** C31, whether or not the table has to grow. *)
Theorem C31_panics_only : forall oc nm id first n ty fl rnd g h,
  header_of g h -> usable_ok h -> arranged h (g_partitions g) ->
  oc = false \/ can_grow g h \/ c_change_partition_count (g_config g) = false \/ N.max id 128 <= num_parts h ->
  fst (add_partition_at oc nm id first n ty fl rnd g) = Panic ->
  id = 0 \/ n = 0 \/ 2 ^ 64 <= first + n.
Proof.
  intros oc nm id first n ty fl rnd g h HH HU HA HC P.
  assert (C : (oc = false \/ can_grow g h) \/ (c_change_partition_count (g_config g) = false \/ N.max id 128 <= num_parts h)) by tauto.
  clear HC. destruct C as [HC|HC]; [|exact (C31_panics_only_partial oc nm id first n ty fl rnd g h HH HU HA HC P)].
  destruct (N.eq_dec n 0) as [->|N0]; [auto|]. destruct (N.eq_dec id 0) as [->|I0]; [auto|].
  destruct (N.lt_ge_cases (first + n) (2 ^ 64)) as [L|L]; [exfalso|auto].
  assert (NU : ~ is_in_use id (g_partitions g)).
  { intros U. rewrite (C31_id_in_use oc nm id first n ty fl rnd g (ar_map _ _ HA) U) in P by lia. discriminate. }
  destruct (add_at_eq oc nm id first n ty fl rnd g h HH HU HA) as (secs & SF & EQ); [lia|lia|exact NU|].
  rewrite EQ in P. destruct (existsb (takes first n) secs); [|discriminate].
  revert P. rewrite <- two64 in L. unfold finish_at. unfold bind at 1, lift at 1. unfold addw.
  replace (first + n <? modulus 64) with true by (symmetry; apply N.ltb_lt; lia).
  unfold bind at 1, lift at 1. unfold subw. replace (1 <=? first + n) with true by (symmetry; apply N.leb_le; lia).
  unfold bind at 1, check_count. rewrite (the_header_of g h HH). cbn [obind].
  destruct (_ && _); [discriminate|]. apply insert_calm with h; assumption.
Qed.
Print Assumptions C31_panics_only.

(** C54.  The same for [add_partition]; the two builds then agree. *)
Theorem C54_growing : forall oc nm size ty fl al rnd g h,
  header_of g h -> usable_ok h -> arranged h (g_partitions g) -> oc = false \/ can_grow g h ->
  1 <= num_parts h -> num_parts h + 1 < 2 ^ 32 ->
  1 <= size -> 1 <= alignment al -> alignment al + blocks_for size (c_lb (g_config g)) < 2 ^ 64 ->
  fst (add_partition oc nm size ty fl al rnd g) <> Panic /\
  add_partition false nm size ty fl al rnd g = add_partition oc nm size ty fl al rnd g.
Proof.
  intros oc nm size ty fl al rnd g h HH HU HA HC H1 H2 HS A1 A2.
  assert (NP : fst (add_partition oc nm size ty fl al rnd g) <> Panic).
  { destruct (add_partition_choose oc nm size ty fl al rnd g h HH HU HA HS (conj A1 (or_intror A2)))
      as [(start & _ & ->)|[(_ & ->)|(X & _)]]; [|discriminate|lia].
    destruct (@next_id_spec gpt_err g h HH (ar_map _ _ HA) H1) as (r & E & _).
    unfold finish_add. unfold bind at 1. rewrite E.
    assert (T : forall i, fst ((let* changes := check_count i in
        insert_partition oc i (mkPart ty rnd start (start + blocks_for size (c_lb (g_config g)) - 1) fl nm) changes) g) <> Panic).
    { intros i. unfold bind, check_count. rewrite (the_header_of g h HH). cbn [obind].
      destruct (_ && _); [discriminate|]. apply insert_calm with h; assumption. }
    destruct r as [k|]; unfold bind at 1; [apply T|]. rewrite (the_header_of g h HH). cbn [obind].
    rewrite addw_ok by (rewrite two32; exact H2). apply T. }
  split; [exact NP|]. destruct oc; [|reflexivity]. apply al_add, NP.
Qed.
Print Assumptions C54_growing.
(** A table of 128 entries that may grow: id 129 makes it grow, and does so where the disk has the room. *)
Definition growing (entry : N) : gdisk :=
  set_config (cset_change_partition_count true mini_config)
    (set_primary (Ok (mkHeader EFI_PART 1 0 92 0 0 1 93 35 59 sample_guid 2 128 entry 0)) (set_device wide_dev (wide_disk two_parts))).
Example C31_growing_case :
  can_grow (growing 128) (mkHeader EFI_PART 1 0 92 0 0 1 93 35 59 sample_guid 2 128 128 0) /\
  fst (add_partition_at true [120] 129 46 2 (mkType linux_fs OsLinux) 0 sample_guid (growing 128)) = Ok 129.
Proof.
  split; [split; [reflexivity|split; [reflexivity|]]|vm_compute; reflexivity].
  unfold addressable. assert (E : g_device (growing 128) = wide_dev) by (unfold growing; generalize wide_dev; reflexivity).
  rewrite E, wide_len. reflexivity.
Qed.
(** With entries of 2^26 bytes the array for 128 of them has 2^33 bytes, and with overflow checks the call panics. *)
Example C31_growing_panics :
  fst (add_partition_at true [120] 129 46 2 (mkType linux_fs OsLinux) 0 sample_guid (growing (2 ^ 26))) = Panic /\
  ~ can_grow (growing (2 ^ 26)) (mkHeader EFI_PART 1 0 92 0 0 1 93 35 59 sample_guid 2 128 (2 ^ 26) 0).
Proof. split; [vm_compute; reflexivity|]. intros (A & _). discriminate A. Qed.
