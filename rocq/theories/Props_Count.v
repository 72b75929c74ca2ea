(** Props_Count.v - properties C32 (overwriting), C33-C36: the number of entries, and the GUID. *)
From Verif Require Import Props_Open Props_Write Props_Build CountFacts.
Open Scope list_scope.
Open Scope N_scope.

(** * A disk of 300 blocks *)
Definition big_config (chg : bool) : config := mkConfig Lb512 true false false chg.
Definition big_dev : dev := mkDev (zeros (N.to_nat 153600)) 0 false false [] [].
Definition big_header (n fu lu : N) : header := built sample_guid n 299 fu lu true.
Definition big_disk (chg : bool) (d : dev) (n fu lu : N) (m : pmap) : gdisk :=
  mkGdisk (big_config chg) d sample_guid (Ok (big_header n fu lu)) (Ok (built sample_guid n 299 fu lu false)) m false.
Definition is_big (d : dev) : Prop := fault_free d /\ lenN (data d) = 153600.
Lemma big_dev_ok : is_big big_dev.
Proof. split; [reflexivity|]. cbn [big_dev data]. unfold lenN, zeros. rewrite repeat_length, N2Nat.id. reflexivity. Qed.
Lemma big_good d : is_big d -> good_dev d.
Proof. intros (A & B). split; [exact A|]. unfold dev_len. rewrite B, two64. reflexivity. Qed.
Lemma big_addressable d : is_big d -> addressable d.
Proof. intros (_ & B). unfold addressable. rewrite B. reflexivity. Qed.
Lemma big_last d : is_big d -> last_block Lb512 d = 299.
Proof. intros (_ & B). unfold last_block, dev_len. rewrite B. reflexivity. Qed.
Lemma big_created chg d : is_big d -> create_from_device true (big_config chg) (Some sample_guid) sample_guid d =
  (Ok (big_disk chg d 128 34 266 []), d).
Proof.
  intros B. unfold create_from_device. set (g0 := mkGdisk _ _ _ _ _ _ _).
  assert (I : init_headers true g0 = (Ok tt, big_disk chg d 128 34 266 [])).
  { rewrite (init_headers_eq true g0) by apply B. change (g_device g0) with d. change (c_lb (g_config g0)) with Lb512.
    unfold dev_len. rewrite (proj2 B), (big_last _ B). change (153600 <? lb_u64 Lb512 * 3) with false. cbn iota.
    rewrite (init_ok true g0 299 0 0); rewrite ?two64, ?two32; try (vm_compute; try reflexivity; discriminate).
    split; reflexivity. }
  rewrite I. reflexivity.
Qed.
Lemma create_config oc cfg u rnd d g d' : create_from_device oc cfg u rnd d = (Ok g, d') -> g_config g = cfg.
Proof.
  intros E. unfold create_from_device in E. match type of E with context [init_headers oc ?x] => pose proof (mo_init oc x) as (_ & M & _) end.
  destruct (init_headers oc _) as [[[]|e|] g1]; try discriminate. injection E as <- _. exact M.
Qed.
Lemma big_update oc chg d n0 fu0 lu0 m pp : is_big d ->
  sane Lb512 (dev_len d) (big_header n0 fu0 lu0) -> map_ok pp -> (forall p, ~ has pp 0 p) ->
  let n := N.max (lenN pp) 128 in let t := ablocks n 128 Lb512 in
  n <= n0 \/ chg = true -> n * 128 < modulus 32 -> t + 1 <= 299 ->
  let fu := N.max fu0 (2 + t) in let lu := N.max lu0 (299 - (t + 1)) in fu <= lu ->
  update_partitions oc pp (big_disk chg d n0 fu0 lu0 m) = (Ok tt, big_disk chg d n fu lu pp).
Proof.
  intros B S MO H0 n t HC N32 TB fu lu FL.
  destruct (update_partitions_ok oc pp (big_disk chg d n0 fu0 lu0 m) _ (big_good d B) eq_refl S eq_refl MO H0) as (U & _);
    cbn [big_disk g_config g_device c_lb big_config]; rewrite ?(big_last d B); auto.
  rewrite U. cbn [big_disk g_config g_device c_lb big_config]. rewrite (big_last d B). reflexivity.
Qed.
(** One-block partitions with ids 1, 2, ..., n at the blocks 34, 35, ... *)
Definition singles (n : nat) : pmap :=
  map (fun k => (N.of_nat k, part_at (33 + N.of_nat k) (33 + N.of_nat k))) (seq 1 n).
(** The same with the last one under the next id. *)
Definition gap (n : nat) : pmap :=
  singles n ++ [(N.of_nat n + 2, part_at (34 + N.of_nat n) (34 + N.of_nat n))].
Lemma has_singles n k p : has (singles n) k p -> 1 <= k <= N.of_nat n /\ p = part_at (33 + k) (33 + k).
Proof.
  unfold has, singles. rewrite in_map_iff. intros (i & E & I). apply in_seq in I. injection E as <- <-. split; [lia|reflexivity].
Qed.
Lemma has_gap n k p : has (gap n) k p ->
  (1 <= k <= N.of_nat n /\ p = part_at (33 + k) (33 + k)) \/
  (k = N.of_nat n + 2 /\ p = part_at (34 + N.of_nat n) (34 + N.of_nat n)).
Proof.
  unfold has, gap. rewrite in_app_iff. intros [H|[E|[]]]; [left; apply has_singles, H|right]. injection E as <- <-. auto.
Qed.
Lemma gap_range n k p : has (gap n) k p -> 34 <= first_lba p /\ last_lba p <= 34 + N.of_nat n.
Proof. intros H. apply has_gap in H. destruct H as [(H & ->)|(-> & ->)]; cbn [part_at first_lba last_lba]; lia. Qed.
Lemma sorted_seq n : forall s, StronglySorted N.lt (map N.of_nat (seq s n)).
Proof.
  induction n as [|n IH]; intros s; cbn [seq map]; constructor; [apply IH|].
  apply Forall_map, Forall_forall. intros x I. apply in_seq in I. lia.
Qed.
Lemma singles_ok n : map_ok (singles n).
Proof. unfold map_ok, singles. rewrite map_map. apply sorted_seq. Qed.
Lemma sorted_snoc l x : StronglySorted N.lt l -> Forall (fun y => y < x) l -> StronglySorted N.lt (l ++ [x]).
Proof.
  intros S. induction S as [|y l S IH F]; intros A; cbn [app]; [repeat constructor|]. inversion A; subst.
  constructor; [auto|]. apply Forall_app. auto.
Qed.
Lemma gap_ok n : map_ok (gap n).
Proof.
  unfold map_ok, gap. rewrite map_app. apply sorted_snoc; [apply singles_ok|]. unfold singles. rewrite map_map.
  apply Forall_map, Forall_forall. intros x I. apply in_seq in I. cbn. lia.
Qed.
Lemma part_at_used a b : used (part_at a b).
Proof. discriminate. Qed.
Lemma singles_arranged n h : first_usable h <= 34 -> 33 + N.of_nat n <= last_usable h -> arranged h (singles n).
Proof.
  intros F L. constructor; [apply singles_ok| |].
  - intros k p H _. apply has_singles in H. destruct H as (H & ->). cbn. lia.
  - intros j p k q H1 H2 _ _ NE x. apply has_singles in H1, H2. destruct H1 as (_ & ->), H2 as (_ & ->). unfold covers. cbn. lia.
Qed.
Lemma gap_arranged n h : first_usable h <= 34 -> 34 + N.of_nat n <= last_usable h -> arranged h (gap n).
Proof.
  intros F L. constructor; [apply gap_ok| |].
  - intros k p H _. apply has_gap in H. destruct H as [(H & ->)|(-> & ->)]; cbn; lia.
  - intros j p k q H1 H2 _ _ NE x. apply has_gap in H1, H2.
    destruct H1 as [(H1 & ->)|(-> & ->)], H2 as [(H2 & ->)|(-> & ->)]; unfold covers; cbn; lia.
Qed.
Lemma big_sane d n fu lu : is_big d -> n * 128 < 2 ^ 32 -> 2 + ablocks n 128 Lb512 <= fu -> fu <= lu ->
  lu + ablocks n 128 Lb512 + 1 <= 299 -> sane Lb512 (dev_len d) (big_header n fu lu).
Proof.
  intros (_ & B) H1 H2 H3 H4. rewrite <- two32 in H1.
  assert (F : (299 + 1) * lb_u64 Lb512 <= dev_len d) by (unfold dev_len; rewrite B; vm_compute; discriminate).
  assert (BL : blba (big_header n fu lu) = 299) by reflexivity.
  constructor; rewrite ?BL; cbn [big_header built disk_guid part_size num_parts first_usable last_usable];
    try reflexivity; try assumption. lia.
Qed.
Lemma big_tidy chg d m : is_big d -> arranged (big_header 128 34 266) m ->
  tidy (big_disk chg d 128 34 266 m) (big_header 128 34 266).
Proof.
  intros B A. constructor; auto.
  - apply big_addressable, B.
  - left. reflexivity.
  - apply layout_ok_iff. apply big_sane; auto; vm_compute; try reflexivity; discriminate.
  - split; [cbn; lia|]. split; [cbn; lia|reflexivity].
Qed.

(** C33.  The number of entries.  False as stated: without permission update_partitions reduces it. *)
Theorem C33_count_shrinks_refuted : exists g g' h h',
  tidy g h /\ fault_free (g_device g) /\ c_change_partition_count (g_config g) = false /\
  update_partitions true [] g = (Ok tt, g') /\ header_of g' h' /\ num_parts h = 200 /\ num_parts h' = 128.
Proof.
  assert (S : sane Lb512 (dev_len big_dev) (big_header 200 52 248)).
  { apply big_sane; [apply big_dev_ok|..]; vm_compute; try reflexivity; discriminate. }
  exists (big_disk false big_dev 200 52 248 []), (big_disk false big_dev 128 52 266 []), (big_header 200 52 248), (big_header 128 52 266).
  split.
  { constructor; [apply big_addressable, big_dev_ok|left; reflexivity|apply layout_ok_iff, S|..].
    - split; [cbn; lia|]. split; [cbn; lia|reflexivity].
    - apply arranged_nil. }
  do 2 (split; [reflexivity|]). split; [|split; [left; reflexivity|split; reflexivity]].
  rewrite (big_update true false big_dev 200 52 248 [] [] big_dev_ok S); auto.
  - constructor.
  - left. vm_compute. discriminate.
  - rewrite two32. reflexivity.
  - vm_compute. discriminate.
  - vm_compute. discriminate.
Qed.
Print Assumptions C33_count_shrinks_refuted.
(** In every history, also with I/O faults and replaced devices, it never grows; and it stays the same
    if it was at most 128, or if update_partitions is not called. *)
Theorem C33_count_fixed_partial : forall oc ops g h g',
  header_of g h -> c_change_partition_count (g_config g) = false -> run oc ops g = Some g' ->
  exists h', header_of g' h' /\ num_parts h' <= num_parts h /\
    (num_parts h <= 128 \/ (forall pp, ~ In (OpUpdatePartitions pp) ops) -> num_parts h' = num_parts h).
Proof.
  intros oc ops. induction ops as [|o ops IH]; intros g h g' HH HC R; cbn [run] in R.
  - injection R as <-. exists h. split; [exact HH|]. split; [apply N.le_refl|auto].
  - destruct (step oc o g) as [g1|] eqn:E; [|discriminate].
    destruct (step_count oc o g h g1 HH HC E) as (C1 & h1 & H1 & L1 & Q1 & Q2 & _).
    destruct (IH g1 h1 g' H1 C1 R) as (h' & H' & L' & Q'). exists h'. split; [exact H'|]. split; [lia|].
    intros [L|N1].
    + rewrite Q' by (left; lia). apply Q1, L.
    + rewrite Q' by (right; intros pp I; apply (N1 pp); right; exact I). apply Q2. intros pp ->. apply (N1 pp). left. reflexivity.
Qed.
Print Assumptions C33_count_fixed_partial.
(** On a created disk it therefore stays 128. *)
Theorem C33_created_partial : forall oc cfg u rnd d g d' ops g',
  fault_free d -> addressable d -> guid_ok (match u with Some u => u | None => rnd end) ->
  create_from_device oc cfg u rnd d = (Ok g, d') -> c_change_partition_count cfg = false ->
  run oc ops g = Some g' -> exists h', header_of g' h' /\ num_parts h' = 128.
Proof.
  intros oc cfg u rnd d g d' ops g' HF HA GO E HC R.
  destruct (C43_created_tidy oc cfg u rnd d g d' HF HA GO E) as (h & T & N1).
  assert (CF : g_config g = cfg) by (eapply create_config; exact E).
  destruct (C33_count_fixed_partial oc ops g h g' (ti_header _ _ T)) as (h' & H' & _ & Q); auto; [congruence|].
  exists h'. split; [exact H'|]. rewrite Q by (left; lia). exact N1.
Qed.
Print Assumptions C33_created_partial.
Example C33_case : header_of (big_disk false big_dev 128 34 266 []) (big_header 128 34 266) /\
  create_from_device true (big_config false) (Some sample_guid) sample_guid big_dev =
  (Ok (big_disk false big_dev 128 34 266 []), big_dev).
Proof. split; [left; reflexivity|apply big_created, big_dev_ok]. Qed.

(** C34.  Growing the number of entries.  False: the array grows over an existing partition (block 34),
    and the backup array (blocks 267 to 299) over the backup header (block 299). *)
Theorem C34_growth_overlaps_refuted : exists g0 g h g' h' hb p,
  create_from_device true (big_config true) (Some sample_guid) sample_guid big_dev = (Ok g0, big_dev) /\
  run true [OpUpdatePartitions (singles 128)] g0 = Some g /\ tidy g h /\
  update_partitions true (singles 129) g = (Ok tt, g') /\ arranged h (singles 129) /\
  header_of g' h' /\ g_backup g' = Ok hb /\ num_parts h < num_parts h' /\
  has (g_partitions g) 1 p /\ has (g_partitions g') 1 p /\ used p /\
  first_lba p * 512 < array_at Lb512 h' + array_len h' /\
  current_lba hb * 512 < array_at Lb512 hb + array_len hb.
Proof.
  assert (B := big_dev_ok).
  assert (Z : forall n p, ~ has (singles n) 0 p) by (intros n p H; apply has_singles in H; lia).
  exists (big_disk true big_dev 128 34 266 []), (big_disk true big_dev 128 34 266 (singles 128)), (big_header 128 34 266),
    (big_disk true big_dev 129 35 266 (singles 129)), (big_header 129 35 266), (built sample_guid 129 299 35 266 false), (part_at 34 34).
  assert (S : sane Lb512 (dev_len big_dev) (big_header 128 34 266)).
  { apply big_sane; [exact B|..]; vm_compute; try reflexivity; discriminate. }
  split; [apply big_created, B|].
  split.
  { unfold run, step. rewrite (big_update true true big_dev 128 34 266 [] (singles 128)); auto; try apply singles_ok;
      rewrite ?two32; try (vm_compute; try reflexivity; discriminate). }
  split. { apply big_tidy; [exact B|]. apply singles_arranged; vm_compute; discriminate. }
  split.
  { rewrite (big_update true true big_dev 128 34 266 (singles 128) (singles 129)); auto; try apply singles_ok;
      rewrite ?two32; try (vm_compute; try reflexivity; discriminate). }
  split. { apply singles_arranged; vm_compute; discriminate. }
  split; [left; reflexivity|]. do 2 (split; [reflexivity|]).
  split; [left; reflexivity|]. split; [left; reflexivity|]. split; [apply part_at_used|]. split; reflexivity.
Qed.
Print Assumptions C34_growth_overlaps_refuted.
(** Whenever the array needs more blocks than before and there is no spare room before the backup
    header - so on every disk this library created or wrote - the backup array runs into the backup
    header. *)
Theorem C34_growth_always_overlaps_refuted : forall oc pp g h,
  tidy g h -> fault_free (g_device g) -> guid_ok (g_guid g) ->
  c_readonly_backup (g_config g) = false -> c_change_partition_count (g_config g) = true ->
  let lb := c_lb (g_config g) in
  let last := last_whole_block lb (g_device g) in
  let n := N.max (lenN pp) 128 in
  last_usable h + array_blocks lb h + 1 = last ->
  map_ok pp -> (forall p, ~ has pp 0 p) -> n * 128 < 2 ^ 32 ->
  array_blocks lb h < blocks_for (n * 128) lb -> first_usable h <= last_usable h -> 2 + blocks_for (n * 128) lb <= last_usable h ->
  exists g' hb, update_partitions oc pp g = (Ok tt, g') /\ g_backup g' = Ok hb /\ num_parts hb = n /\
    current_lba hb = last /\ last * lb_u64 lb < array_at lb hb + array_len hb.
Proof.
  intros oc pp g h [T1 T2 T3 T4 T5] HF GO RB CC lb last n LU MO H0 N32 GR FL FU.
  rewrite <- ablocks_blocks, array_blocks_eq in *. rewrite header_of_iff in T2. apply layout_ok_iff in T3.
  rewrite addressable_iff in T1. rewrite <- two32 in N32.
  set (t := ablocks n 128 lb) in *.
  assert (LB : last_block lb (g_device g) = last) by (symmetry; apply last_whole_block_eq).
  destruct (update_partitions_ok oc pp g h (conj HF T1) T2 T3 GO MO H0) as (U & _); auto; fold lb n t; rewrite ?LB; auto; try lia.
  fold lb n t in U. rewrite LB in U. eexists _, _. split; [exact U|].
  replace (N.max (last_usable h) (last - (t + 1))) with (last_usable h) by lia.
  unfold reinit. cbn [set_partitions g_config]. rewrite RB. split; [reflexivity|].
  cbn [built num_parts current_lba]. split; [reflexivity|]. split; [reflexivity|].
  unfold array_at, array_len. cbn [built part_start num_parts part_size].
  assert (X : ~ t <= last - (last_usable h + 1)) by lia.
  destruct (N.lt_ge_cases (last * lb_u64 lb) ((last_usable h + 1) * lb_u64 lb + n * 128)) as [L|L]; [exact L|].
  exfalso. apply X. unfold t, ablocks. apply (div_ceil_spec (n * 128) (lb_u64 lb)); [pose proof (lb_pos lb); lia|]. nia.
Qed.
Print Assumptions C34_growth_always_overlaps_refuted.
(** It is true if there is spare room at both ends. *)
Theorem C34_growth_partial : forall oc pp g h,
  tidy g h -> fault_free (g_device g) -> guid_ok (g_guid g) -> c_change_partition_count (g_config g) = true ->
  let lb := c_lb (g_config g) in
  let last := last_whole_block lb (g_device g) in
  let n := N.max (lenN pp) 128 in let t := blocks_for (n * 128) lb in
  arranged h pp -> (forall p, ~ has pp 0 p) -> n * 128 < 2 ^ 32 ->
  first_usable h <= last_usable h -> last_usable h + t + 1 <= last ->
  2 + t + t + 1 <= last -> (forall k p, has pp k p -> used p -> 2 + t <= first_lba p) ->
  exists g' h', update_partitions oc pp g = (Ok tt, g') /\ header_of g' h' /\ num_parts h' = n /\
    layout_ok lb (lenN (data (g_device g))) h' /\ g_partitions g' = pp /\ arranged h' pp.
Proof.
  intros oc pp g h [T1 T2 T3 T4 T5] HF GO CC lb last n t AR H0 N32 FL L1 L2 PU.
  assert (TE : t = ablocks n 128 lb) by (unfold t; rewrite <- ablocks_blocks; reflexivity).
  rewrite header_of_iff in T2. apply layout_ok_iff in T3. rewrite addressable_iff in T1. rewrite <- two32 in N32.
  assert (LB : last_block lb (g_device g) = last) by (symmetry; apply last_whole_block_eq).
  destruct (update_partitions_ok oc pp g h (conj HF T1) T2 T3 GO (ar_map _ _ AR) H0) as (U & S); auto; fold lb n; rewrite <- ?TE, ?LB; auto; try lia.
  fold lb n in U, S. rewrite <- TE in U, S. rewrite LB in U, S. specialize (S L1). eexists _, _. split; [exact U|].
  split; [apply reinit_header|]. split; [reflexivity|]. split; [apply layout_ok_iff, S|].
  split; [apply reinit_fields|]. destruct AR as [A1 A2 A3]. constructor; auto.
  intros k p HK UP. destruct (A2 k p HK UP) as (B1 & B2 & B3). specialize (PU k p HK UP). cbn [built first_usable last_usable]. lia.
Qed.
Print Assumptions C34_growth_partial.
Example C34_case : arranged (big_header 4 40 200) [(1, part_at 40 41)] /\ blocks_for (128 * 128) Lb512 = 32 /\
  sane Lb512 (dev_len big_dev) (big_header 4 40 200) /\ array_blocks Lb512 (big_header 4 40 200) = 1.
Proof.
  split.
  { constructor; [repeat constructor|..].
    - intros k p [E|[]] _. injection E as <- <-. cbn. lia.
    - intros j p k q [E|[]] [E'|[]] _ _ NE x. injection E as <- <-. injection E' as <- <-. lia. }
  split; [reflexivity|]. split; [|reflexivity].
  apply big_sane; [apply big_dev_ok|..]; vm_compute; try reflexivity; discriminate.
Qed.

(** C35.  Every partition in memory can be written.  False: with ids up to 127 and then 129 a created
    disk takes a 129th partition although its array has 128 entries - no permission is needed - and
    then writing fails. *)
Definition full : pmap := pm_insert 128 (mkPart (mkType linux_fs OsLinux) other_guid 162 162 0 []) (gap 127).
Lemma add_to_gap chg d : let m := full in
  add_partition true [] 512 (mkType linux_fs OsLinux) 0 None other_guid (big_disk chg d 128 34 266 (gap 127)) =
    (Ok 128, big_disk chg d 128 34 266 m) /\ lenN (used_list m) = 129 /\ map_ok m /\
  arranged (big_header 128 34 266) m.
Proof.
  cbn zeta. unfold full. set (p := mkPart (mkType linux_fs OsLinux) other_guid 162 162 0 []).
  assert (MO : map_ok (pm_insert 128 p (gap 127))) by apply map_ok_insert, gap_ok.
  split; [vm_compute; reflexivity|]. split; [vm_compute; reflexivity|]. split; [exact MO|].
  assert (A := gap_arranged 127 (big_header 128 34 266) ltac:(vm_compute; discriminate) ltac:(vm_compute; discriminate)).
  assert (HI : forall k q, has (pm_insert 128 p (gap 127)) k q -> (k = 128 /\ q = p) \/ (k <> 128 /\ has (gap 127) k q)).
  { intros k q H. apply (placed_insert (gap 127) 128 p (gap_ok 127)) in H. exact H. }
  assert (GB : forall k q, has (gap 127) k q -> 34 <= first_lba q /\ last_lba q <= 161).
  { intros k q H. apply gap_range in H. replace (34 + N.of_nat 127) with 161 in H by (vm_compute; reflexivity). exact H. }
  destruct A as [A1 A2 A3]. constructor; [exact MO| |].
  - intros k q H U. destruct (HI k q H) as [(-> & ->)|(_ & H')]; [vm_compute; repeat split; discriminate|apply (A2 k q H' U)].
  - intros j q k r H1 H2 U1 U2 NE x. assert (P1 : first_lba p = 162) by reflexivity. assert (P2 : last_lba p = 162) by reflexivity.
    destruct (HI j q H1) as [(-> & ->)|(_ & H1')], (HI k r H2) as [(-> & ->)|(_ & H2')];
      [congruence|apply GB in H2'|apply GB in H1'|apply (A3 j q k r H1' H2' U1 U2 NE)]; clear - P1 P2 H1' H2' || clear - P1 P2 H2' || clear - P1 P2 H1';
      unfold covers; lia.
Qed.
Definition gap_ops : list op :=
  [OpUpdatePartitions (gap 127); OpAdd [] 512 (mkType linux_fs OsLinux) 0 None other_guid].
Lemma gap_run chg d : is_big d ->
  run true gap_ops (big_disk chg d 128 34 266 []) = Some (big_disk chg d 128 34 266 full).
Proof.
  intros B. assert (S : sane Lb512 (dev_len d) (big_header 128 34 266)).
  { apply big_sane; [exact B|..]; vm_compute; try reflexivity; discriminate. }
  assert (N1 : N.max (lenN (gap 127)) 128 = 128) by (vm_compute; reflexivity).
  assert (A1 : ablocks 128 128 Lb512 = 32) by (vm_compute; reflexivity).
  pose proof (big_update true chg d 128 34 266 [] (gap 127) B S (gap_ok 127)) as U. cbn zeta in U. rewrite N1, A1 in U.
  change (N.max 34 (2 + 32)) with 34 in U. change (N.max 266 (299 - (32 + 1))) with 266 in U.
  cbn [run gap_ops step]. rewrite U; clear U.
  - cbn [kept]. destruct (add_to_gap chg d) as (E & _). rewrite E. reflexivity.
  - intros p H. apply has_gap in H. destruct H as [(H & _)|(H & _)]; lia.
  - left. apply N.le_refl.
  - rewrite two32. reflexivity.
  - discriminate.
  - discriminate.
Qed.
Theorem C35_write_overflow_refuted : exists g0 g h ops,
  create_from_device true (big_config false) (Some sample_guid) sample_guid big_dev = (Ok g0, big_dev) /\
  run true ops g0 = Some g /\ tidy g h /\ fault_free (g_device g) /\ c_change_partition_count (g_config g) = false /\
  fst (write_inplace true g) = Err GOverflowPartitionCount.
Proof.
  assert (B := big_dev_ok). destruct (add_to_gap false big_dev) as (E & L & MO & A).
  assert (S : sane Lb512 (dev_len big_dev) (big_header 128 34 266)).
  { apply big_sane; [exact B|..]; vm_compute; try reflexivity; discriminate. }
  exists (big_disk false big_dev 128 34 266 []), (big_disk false big_dev 128 34 266 full), (big_header 128 34 266),
    gap_ops.
  split; [apply big_created, B|]. split; [apply gap_run, B|].
  split; [apply big_tidy; [exact B|exact A]|]. do 2 (split; [reflexivity|]).
  apply (write_overflow true _ (big_header 128 34 266)); auto; [apply big_good, B|].
  cbn [big_disk g_partitions]. rewrite L. reflexivity.
Qed.
Print Assumptions C35_write_overflow_refuted.
(** It is true for every history, from any disk whose ids fit, in which update_partitions is only given
    tables whose ids are at most their number of elements, or 128. *)
Theorem C35_written_partial : forall oc oc' ops g h g',
  header_of g h -> c_change_partition_count (g_config g) = false -> num_parts h + 1 < 2 ^ 32 ->
  map_ok (g_partitions g) -> (forall k p, has (g_partitions g) k p -> used p -> 1 <= k <= num_parts h) ->
  (forall pp, In (OpUpdatePartitions pp) ops -> map_ok pp /\ lenN pp < 2 ^ 32 /\
     forall k p, has pp k p -> used p -> k <= N.max (lenN pp) 128) ->
  run oc ops g = Some g' ->
  fst (write_inplace oc' g') <> Err GOverflowPartitionCount.
Proof.
  intros oc oc' ops. induction ops as [|o ops IH]; intros g h g' HH HC HN MO IDS FO R; cbn [run] in R.
  - injection R as <-. apply (write_nov oc' g h HH). apply ids_fit_count. split; assumption.
  - destruct (step oc o g) as [g1|] eqn:E; [|discriminate].
    destruct (step_count oc o g h g1 HH HC E) as (C1 & h1 & H1 & L1 & _ & _ & F1).
    assert (FIT : fitting_op o). { destruct o; cbn; auto. apply FO. left. reflexivity. }
    destruct (F1 FIT HN (conj MO IDS)) as (M1 & I1).
    apply (IH g1 h1 g' H1 C1); auto; [lia|]. intros pp I. apply FO. right. exact I.
Qed.
Print Assumptions C35_written_partial.
(** Created and opened disks start like that. *)
Theorem C35_created_partial : forall oc oc' cfg u rnd d g d' ops g',
  fault_free d -> addressable d -> guid_ok (match u with Some u => u | None => rnd end) ->
  create_from_device oc cfg u rnd d = (Ok g, d') -> c_change_partition_count cfg = false ->
  (forall pp, In (OpUpdatePartitions pp) ops -> map_ok pp /\ lenN pp < 2 ^ 32 /\
     forall k p, has pp k p -> used p -> k <= N.max (lenN pp) 128) ->
  run oc ops g = Some g' ->
  fst (write_inplace oc' g') <> Err GOverflowPartitionCount.
Proof.
  intros oc oc' cfg u rnd d g d' ops g' HF HA GO E HC FO R.
  destruct (C43_create oc cfg u rnd d HF HA GO) as (A & B).
  destruct (N.le_gt_cases (2 * min_array (c_lb cfg) + 4) (lenN (data d) / lb_u64 (c_lb cfg))) as [L|L].
  - destruct (A L) as (g1 & h & E1 & H1 & H2 & H3 & H4 & H5 & H6 & H7 & H8 & H9 & _).
    rewrite E in E1. injection E1 as EG ED. subst g1 d'.
    apply (C35_written_partial oc oc' ops g h g'); auto; try congruence.
    + rewrite H9. reflexivity.
    + rewrite H3. constructor.
    + rewrite H3. intros k p [].
  - destruct (B L) as (e & E1 & _). congruence.
Qed.
Print Assumptions C35_created_partial.
Theorem C35_opened_partial : forall oc oc' cfg d r1 r2 h g ops g',
  fault_free d -> addressable d -> c_only_valid_headers cfg = false ->
  header_at (data d) (lb_u64 (c_lb cfg)) r1 -> backup_header_at (c_lb cfg) d r2 ->
  r1 = Ok h \/ (exists e, r1 = Err e) /\ r2 = Ok h -> part_size h = 128 -> countable oc h (data d) ->
  num_parts h + 1 < 2 ^ 32 ->
  fst (open_from_device oc cfg d) = Ok g -> c_change_partition_count cfg = false ->
  (forall pp, In (OpUpdatePartitions pp) ops -> map_ok pp /\ lenN pp < 2 ^ 32 /\
     forall k p, has pp k p -> used p -> k <= N.max (lenN pp) 128) ->
  run oc ops g = Some g' ->
  fst (write_inplace oc' g') <> Err GOverflowPartitionCount.
Proof.
  intros oc oc' cfg d r1 r2 h g ops g' HF HA HV R1 R2 HH PS NP NP1 E HC FO R.
  pose proof (C11_header_used oc cfg d r1 r2 h HF HA HV R1 R2 HH PS NP) as O. rewrite E in O.
  destruct O as (_ & (T1 & T2) & O1 & O2 & O3 & O4 & _).
  apply (C35_written_partial oc oc' ops g h g'); auto; try congruence.
  - destruct HH as [->|((e & ->) & ->)]; [left; congruence|right]. split; [|congruence]. intros h'. rewrite O3. discriminate.
  - intros k p H _. apply T2 in H. apply H.
Qed.
Print Assumptions C35_opened_partial.
Example C35_case : exists m, map_ok m /\ lenN m < 2 ^ 32 /\ lenN m = 129 /\
  forall k p, has m k p -> used p -> k <= N.max (lenN m) 128.
Proof.
  exists (singles 129). split; [apply singles_ok|]. split; [reflexivity|]. split; [reflexivity|].
  intros k p H _. apply has_singles in H. change (N.max (lenN (singles 129)) 128) with 129. lia.
Qed.

(** C32, overwriting.  With permission to change the count, adding twice on that disk replaces the used
    partition 129. *)
Lemma add_at_first oc nm size ty fl rnd g s len rest next :
  1 <= size -> let n := blocks_for size (c_lb (g_config g)) in
  @find_free_sectors gpt_err oc g = Ok ((s, len) :: rest) -> n <= len -> s + len < modulus 64 ->
  @find_next_partition_id gpt_err g = Ok next ->
  add_partition oc nm size ty fl None rnd g =
  (let* id := (match next with
               | Some i => ret i
               | None => fun g => (let? h := the_header g in addw oc 32 (num_parts h) 1, g)
               end) in
   let* changes := check_count id in
   insert_partition oc id (mkPart ty rnd s (s + n - 1) fl nm) changes) g.
Proof.
  intros HS n EF L H64 EN.
  assert (N1 : 1 <= n) by (unfold n; rewrite <- blocks_ceil by exact HS; apply N.le_add_l).
  unfold add_partition. replace (size =? 0) with false by (symmetry; apply N.eqb_neq; lia). cbn zeta.
  rewrite (blocks_ceil size _ HS). fold n. unfold bind at 1. rewrite EF. cbn [add_in_sections].
  unfold bind at 1, lift at 1. unfold bind at 1, lift at 1. rewrite (addw_ok oc 64 0 n) by lia.
  replace (0 + n <=? len) with true by (symmetry; apply N.leb_le; lia).
  unfold bind at 1, lift at 1. rewrite (addw_ok oc 64 s 0) by lia. rewrite N.add_0_r.
  unfold bind at 1. rewrite EN. apply bind_ext. intros id g'.
  unfold bind at 1, lift at 1. rewrite (addw_ok oc 64 s n) by lia.
  unfold bind at 1, lift at 1. rewrite (subw_ok oc 64 (s + n) 1) by lia. reflexivity.
Qed.
Definition last_part : partition := mkPart (mkType linux_fs OsLinux) other_guid 163 163 0 [].
Lemma add_again d m : is_big d ->
  @find_free_sectors gpt_err true (big_disk true d 128 34 266 m) = Ok [(163, 104)] ->
  @find_next_partition_id gpt_err (big_disk true d 128 34 266 m) = Ok None ->
  lenN (pm_insert 129 last_part m) = 129 ->
  add_partition true [] 512 (mkType linux_fs OsLinux) 0 None other_guid (big_disk true d 128 34 266 m) =
  (Ok 129, big_disk true d 129 35 266 (pm_insert 129 last_part m)).
Proof.
  intros B EF EN LM. set (g := big_disk true d 128 34 266 m).
  assert (S : sane Lb512 (dev_len d) (big_header 128 34 266)).
  { apply big_sane; [exact B|..]; vm_compute; try reflexivity; discriminate. }
  pose proof (init_layout true (set_partitions (pm_insert 129 last_part m) g) (big_header 128 34 266) (big_good _ B) eq_refl S eq_refl) as I.
  cbn zeta in I. unfold next_count, g in I. cbn [set_partitions big_disk g_partitions g_config g_device big_config c_lb g_guid] in I. rewrite LM in I.
  replace (N.max (129 mod modulus 32) MIN_NUM_PARTS) with 129 in I by (rewrite two32; reflexivity).
  rewrite (big_last _ B) in I.
  replace (ablocks 129 128 Lb512) with 33 in I by reflexivity.
  destruct I as (I & _); [rewrite two32; reflexivity|discriminate|discriminate|].
  rewrite (add_at_first true [] 512 _ 0 other_guid g 163 104 [] None).
  - unfold bind at 1. change (the_header g) with (@Ok gpt_err header (big_header 128 34 266)). cbn [obind].
    replace (addw true 32 (num_parts (big_header 128 34 266)) 1) with (@Ok gpt_err N 129) by reflexivity.
    unfold bind at 1. replace (check_count 129 g) with (@Ok gpt_err bool true, g) by reflexivity.
    unfold insert_partition. unfold bind at 1. unfold bind at 1.
    change (mkPart (mkType linux_fs OsLinux) other_guid 163 (163 + blocks_for 512 (c_lb (g_config g)) - 1) 0 []) with last_part.
    change (g_partitions g) with m. unfold g. cbn [set_partitions big_disk] in I |- *. rewrite I. reflexivity.
  - discriminate.
  - exact EF.
  - discriminate.
  - rewrite two64. reflexivity.
  - exact EN.
Qed.
Lemma full_free d : @find_free_sectors gpt_err true (big_disk true d 128 34 266 full) = Ok [(163, 104)].
Proof. vm_compute. reflexivity. Qed.
Lemma full_next d : @find_next_partition_id gpt_err (big_disk true d 128 34 266 full) = Ok None.
Proof. vm_compute. reflexivity. Qed.
Lemma full_129 : pm_get 129 full = Some (part_at 161 161) /\ lenN (pm_insert 129 last_part full) = 129 /\
  forallb (fun x => negb (first_lba (snd x) =? 161)) (pm_insert 129 last_part full) = true.
Proof. vm_compute. auto. Qed.
Theorem C32_overwrite_refuted : exists g0 g h g' p ops,
  create_from_device true (big_config true) (Some sample_guid) sample_guid big_dev = (Ok g0, big_dev) /\
  run true ops g0 = Some g /\ tidy g h /\ fault_free (g_device g) /\
  has (g_partitions g) 129 p /\ used p /\
  add_partition true [] 512 (mkType linux_fs OsLinux) 0 None other_guid g = (Ok 129, g') /\
  forall k r, has (g_partitions g') k r -> first_lba r <> first_lba p.
Proof.
  assert (B := big_dev_ok). destruct (add_to_gap true big_dev) as (_ & _ & MO & A). destruct full_129 as (F1 & F2 & F3).
  exists (big_disk true big_dev 128 34 266 []), (big_disk true big_dev 128 34 266 full), (big_header 128 34 266),
    (big_disk true big_dev 129 35 266 (pm_insert 129 last_part full)), (part_at 161 161), gap_ops.
  split; [apply big_created, B|]. split; [apply gap_run, B|].
  split; [apply big_tidy; [exact B|exact A]|]. split; [reflexivity|].
  split; [apply (pm_get_some _ MO), F1|]. split; [apply part_at_used|].
  split; [apply add_again; [exact B|apply full_free|apply full_next|exact F2]|].
  intros k r H. rewrite forallb_forall in F3. apply F3 in H. cbn [snd] in H. apply Bool.negb_true_iff, N.eqb_neq in H. exact H.
Qed.
Print Assumptions C32_overwrite_refuted.

(** C36.  update_guid.  False: writing uses the GUID of the header, which update_guid leaves alone, so
    the old GUID is what a reopened disk reports ... *)
Lemma filter_len {A} (f : A -> bool) l : (length (filter f l) <= length l)%nat.
Proof. induction l as [|a l IH]; cbn; [apply le_n|]. destruct (f a); cbn; lia. Qed.
Lemma ready_update_guid u rnd g h : ready g h -> ready (update_guid u rnd g) h.
Proof. intros [A B C D E F]. constructor; assumption. Qed.
Theorem C36_old_guid_refuted : forall oc oc' g h cfg u rnd,
  ready g h -> fault_free (g_device g) -> c_lb cfg = c_lb (g_config g) -> c_only_valid_headers cfg = false ->
  exists g' g2, write_inplace oc (update_guid u rnd g) = (Ok tt, g') /\
    fst (open_from_device oc' cfg (g_device g')) = Ok g2 /\ g_guid g2 = disk_guid h.
Proof.
  intros oc oc' g h cfg u rnd HR HF C1 C2. apply (ready_update_guid u rnd) in HR.
  destruct (C17_write_then_open_primary oc oc' _ h cfg HR HF C1 C2) as (g' & hp & hb & g2 & E & O & _ & _ & _ & G & _).
  exists g', g2. auto.
Qed.
Print Assumptions C36_old_guid_refuted.
(** ... for instance here. *)
Theorem C36_guid_lost_refuted : exists g h g' g2,
  ready g h /\ fault_free (g_device g) /\ g_guid (update_guid (Some other_guid) sample_guid g) = other_guid /\
  write_inplace true (update_guid (Some other_guid) sample_guid g) = (Ok tt, g') /\
  fst (open_from_device true config_default (g_device g')) = Ok g2 /\ g_guid g2 <> other_guid.
Proof.
  destruct (C36_old_guid_refuted true true (mini_disk [(1, sample_part)]) mini_header config_default (Some other_guid) sample_guid
    mini_ready mini_fault_free eq_refl eq_refl) as (g' & g2 & E & O & G).
  exists (mini_disk [(1, sample_part)]), mini_header, g', g2. split; [apply mini_ready|]. do 2 (split; [reflexivity|]).
  split; [exact E|]. split; [exact O|]. rewrite G. discriminate.
Qed.
Print Assumptions C36_guid_lost_refuted.
(** It is persisted if update_partitions is called in between, here with the partitions the disk has. *)
Theorem C36_persisted_partial : forall oc oc' g h cfg u rnd,
  ready g h -> fault_free (g_device g) -> c_lb cfg = c_lb (g_config g) -> c_only_valid_headers cfg = false ->
  let id := match u with Some u => u | None => rnd end in
  guid_ok id -> map_ok (g_partitions g) -> (forall p, ~ has (g_partitions g) 0 p) ->
  128 <= num_parts h -> lenN (g_partitions g) <= num_parts h -> first_usable h <= last_usable h ->
  exists g1 g' g2, update_partitions oc (g_partitions g) (update_guid u rnd g) = (Ok tt, g1) /\
    write_inplace oc g1 = (Ok tt, g') /\
    fst (open_from_device oc' cfg (g_device g')) = Ok g2 /\ g_guid g2 = id /\
    read_back (g_partitions g) (g_partitions g2).
Proof.
  intros oc oc' g h cfg u rnd HR HF C1 C2 id GO MO H0 N1 N2 FL.
  apply (ready_update_guid u rnd) in HR. set (g0 := update_guid u rnd g) in *.
  assert (G0 : g_guid g0 = id) by reflexivity. assert (P0 : g_partitions g0 = g_partitions g) by reflexivity.
  assert (D0 : g_device g0 = g_device g) by reflexivity. assert (F0 : g_config g0 = g_config g) by reflexivity.
  destruct HR as [R1 R2 R3 R4 R5 R6].
  assert (T2 := R2). rewrite header_of_iff in T2. assert (T4 := R4). apply layout_ok_iff in T4.
  assert (T3 := R3). rewrite addressable_iff in T3.
  destruct (sane_last _ _ _ T4) as (L3 & LB).
  set (lb := c_lb (g_config g0)) in *. set (n := N.max (lenN (g_partitions g)) 128).
  assert (TL := ablocks_mono n (num_parts h) lb ltac:(unfold n; lia)). set (t := ablocks n 128 lb) in *.
  set (bak := last_block lb (g_device g0)) in *.
  pose proof T4 as [S1 S2 S3 S4 S5 S6 S7 S8].
  assert (HG : good_dev (g_device g0)) by (split; [exact HF|exact T3]).
  destruct (update_partitions_ok oc (g_partitions g) g0 h HG T2 T4) as (U & S); auto; fold lb n t bak; try (unfold n in *; lia).
  fold lb n t bak in U, S. specialize (S ltac:(lia)). rewrite G0 in S.
  set (g1 := reinit (set_partitions (g_partitions g) g0) n bak _ _) in U.
  destruct (reinit_fields (set_partitions (g_partitions g) g0) n bak (N.max (first_usable h) (2 + t)) (N.max (last_usable h) (bak - (t + 1)))) as (E1 & E2 & E3 & E4).
  fold g1 in E1, E2, E3, E4. cbn [set_partitions g_config g_device g_partitions] in E1, E2, E4.
  pose proof (reinit_header (set_partitions (g_partitions g) g0) n bak (N.max (first_usable h) (2 + t)) (N.max (last_usable h) (bak - (t + 1)))) as E5.
  fold g1 in E5. cbn [set_partitions g_guid] in E5. rewrite G0 in E5.
  set (h1 := built id n bak _ _ true) in E5, S.
  destruct (C17_write_then_open_primary oc oc' g1 h1 cfg) as (g' & hp & hb & g2 & E & O & _ & _ & _ & G & RB).
  - constructor; rewrite ?E1, ?E2, ?E4.
    + exact R1.
    + exact E5.
    + exact R3.
    + apply layout_ok_iff, S.
    + cbn [h1 built num_parts]. apply N.le_trans with (lenN (g_partitions g)); [|unfold n; lia].
      unfold used_in_order, lenN. pose proof (filter_len used_dec (map snd (g_partitions g0))) as FLE.
      rewrite map_length in FLE. rewrite P0 in *. lia.
    + exact R6.
  - rewrite E2. exact HF.
  - rewrite E1. exact C1.
  - exact C2.
  - exists g1, g', g2. split; [exact U|]. split; [exact E|]. split; [exact O|]. split; [exact G|]. rewrite E4 in RB. exact RB.
Qed.
Print Assumptions C36_persisted_partial.
Example C36_case : ready (set_device wide_dev (wide_disk two_parts)) wide_header /\ map_ok two_parts /\ 128 <= num_parts wide_header.
Proof.
  split; [|split; [apply two_parts_arranged|discriminate]].
  constructor; [reflexivity|left; reflexivity|..].
  - unfold addressable. cbn [set_device g_device]. rewrite wide_len. reflexivity.
  - apply wide_layout.
  - vm_compute. discriminate.
  - repeat constructor; unfold char_ok; cbn; lia.
Qed.
