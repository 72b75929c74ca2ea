(** WordFacts.v - a [usize] of fewer bits than the length of the array (C96). *)
From Verif Require Export MemoryFacts TableFacts SpecFacts.
From Verif Require Import CrcBits CrcPoly.
Open Scope list_scope.
Open Scope N_scope.

Section Word.
Variable mc : machine.
Hypothesis OK : machine_ok mc.
Lemma same_small_array oc h lb d : num_parts h * part_size h <= m_mem mc -> file_read_partitions_in mc oc h lb d = file_read_partitions oc h lb d.
Proof.
  intros L. unfold file_read_partitions_in, file_read_partitions. apply at_bind. intros pstart d0 _. apply at_bind. intros n d1 _.
  destruct (negb _); [reflexivity|]. apply at_bind. intros parts d2 _. apply at_bind. intros n2 d3 _.
  apply at_bind. intros z d4 E. unfold lift in E. destruct (checked_mul64 (num_parts h) (part_size h)) as [q|] eqn:Q; try discriminate E.
  injection E as <- <-. apply MemoryFacts.checked_mul64_ok in Q. subst q. cbn zeta. rewrite (as_usize_id mc OK _ L). apply same_buffer, L.
Qed.
Lemma same_open_small oc cfg d :
  (forall d1 h, data d1 = data d -> fst (read_primary_header (c_lb cfg) d1) = Ok h \/ fst (read_backup_header (c_lb cfg) d1) = Ok h ->
     num_parts h * part_size h <= m_mem mc) ->
  open_from_device_in mc oc cfg d = open_from_device oc cfg d.
Proof.
  intros L. unfold open_from_device_in, open_from_device.
  apply at_bind. intros h1 d1 E1. pose proof (untouched_attempt (F:=gpt_err) _ (untouched_read_primary_header (c_lb cfg)) d) as U1. rewrite E1 in U1.
  apply at_bind. intros h2 d2 E2. destruct U1 as (U1 & _). cbn [snd] in *.
  assert (L1 : forall h, h1 = Ok h -> num_parts h * part_size h <= m_mem mc).
  { intros h ->. unfold attempt in E1. destruct (read_primary_header (c_lb cfg) d) as [[x|x|] y] eqn:R; try discriminate E1.
    injection E1 as <- _. apply (L d x eq_refl). left. rewrite R. reflexivity. }
  assert (L2 : forall h, h2 = Ok h -> num_parts h * part_size h <= m_mem mc).
  { intros h ->. unfold attempt in E2. destruct (read_backup_header (c_lb cfg) d1) as [[x|x|] y] eqn:R; try discriminate E2.
    injection E2 as <- _. apply (L d1 x U1). right. rewrite R. reflexivity. }
  apply at_bind. intros (a, b) d3 E3.
  assert (D3 : h1 = a /\ h2 = b \/ (exists x y, h1 = Ok x /\ h2 = Ok y /\ a = Ok x /\ b = Ok y)).
  { destruct (c_only_valid_headers cfg).
    - unfold bind, lift, ret in E3. destruct h1, h2; cbn [omap_err] in E3; try discriminate E3. injection E3 as <- <- _. right. eauto 7.
    - unfold throw, ret in E3. destruct h1, h2; try discriminate E3; injection E3 as <- <- _; auto. }
  apply at_bind. intros h d4 E4.
  assert (Q : num_parts h * part_size h <= m_mem mc).
  { unfold ret, panic in E4. destruct (or_else a b) as [x|x|] eqn:O; try discriminate E4. injection E4 as <- _. unfold or_else in O.
    destruct D3 as [(-> & ->)|(x1 & y1 & -> & -> & -> & ->)].
    - destruct a; [apply L1; exact O|apply L2; exact O|apply L2; exact O||discriminate O].
    - apply L1, O. }
  unfold bind. unfold map_err. rewrite same_small_array by exact Q. reflexivity.
Qed.
End Word.

Lemma array_in_device mc oc h lb d : healthy d -> part_size h = 128 -> num_parts h < 2 ^ 31 -> dev_len d < 2 ^ 64 ->
  part_start h * lb_u64 lb + num_parts h * 128 <= dev_len d -> as_usize mc (num_parts h * 128) <= m_mem mc -> m_bits mc <= 64 ->
  fst (file_read_partitions_in mc oc h lb d) =
  if crc32 (slice (part_start h * lb_u64 lb) (as_usize mc (num_parts h * 128)) (data d)) =? crc32_parts h then Ok (parts_of h lb (data d))
  else Err (IoOther "partition table CRC mismatch").
Proof.
  intros Hd HS HN HD L LM LB. unfold file_read_partitions_in. set (P := part_start h * lb_u64 lb) in *.
  change (2 ^ 64) with (modulus 64) in HD. unfold bind at 1. rewrite BaseFacts.checked_mul64_ok by lia. cbn [lift ok_or].
  unfold bind at 1. rewrite seek_start_ok by auto. rewrite HS. change (negb (128 =? 128)) with false. cbv iota. fold P.
  unfold bind at 1. rewrite TableFacts.read_entries_ok; cbn [pos set_pos];
    [|apply healthy_set_pos; auto|unfold dev_len in *; cbn; lia|right; change (modulus 31) with (2 ^ 31); lia|constructor].
  unfold bind at 1. rewrite seek_start_ok by (do 2 apply healthy_set_pos; auto).
  unfold bind at 1. rewrite BaseFacts.checked_mul64_ok by lia. cbn [lift ok_or]. cbn zeta. rewrite same_buffer by exact LM. unfold bind at 1.
  assert (LE : as_usize mc (num_parts h * 128) <= num_parts h * 128).
  { unfold as_usize. apply N.mod_le. apply N.pow_nonzero. discriminate. }
  rewrite DeviceFacts.read_exact_ok; [|repeat apply healthy_set_pos; auto|unfold dev_len in *; cbn; lia].
  unfold parts_of, table_of. rewrite HS. fold P. cbn [pos set_pos data].
  replace (128 * N.of_nat (N.to_nat (num_parts h))) with (num_parts h * 128) by lia.
  destruct (crc32 _ =? _); reflexivity.
Qed.

(** The checksum of 2^32 zeros is that of one. *)
Lemma le_val_zeros n : le_val (zeros n) = 0.
Proof. induction n as [|n IH]; [reflexivity|]. change (zeros (S n)) with (x00 :: zeros n). cbn [le_val]. rewrite IH. reflexivity. Qed.
Lemma crc_zeros p : crc32 (zeros (N.to_nat (Npos p))) = N.lxor (apply_to (power (8 * p)) crc_ones) crc_ones.
Proof.
  unfold crc32. f_equal. rewrite crc_update_steps, le_val_zeros, N.lxor_0_r, zeros_length.
  rewrite power_is. rewrite apply_matrix; [|apply linear_steps|reflexivity]. f_equal. lia.
Qed.
Lemma crc_zeros_4g : crc32 (zeros (N.to_nat (2 ^ 32))) = 0xD202EF8D.
Proof. change (2 ^ 32) with (Npos 4294967296). rewrite crc_zeros. vm_compute. reflexivity. Qed.
