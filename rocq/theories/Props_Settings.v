(** Props_Settings.v - what each setting of a configuration changes (C98); opening by path (C11, C43). *)
From Verif Require Import SettingsFacts ReopenFacts SpecFacts Samples Props_Write Props_Alloc Props_Clone.
Open Scope list_scope.
Open Scope N_scope.

(** C98.  Settings that permit more change nothing but what is refused for want of permission: until a call is refused - with ReadOnly
    or PartitionCountWouldChange - that the more permissive settings would have let pass, a disk with those settings gives the same replies, does the same to its device and keeps the
    same headers, table and GUID, whatever fails and in both builds.  Whether only valid headers were accepted when opening makes
    no difference to an open disk. *)
Theorem C98_permission : forall oc cs g c',
  looser (g_config g) c' -> Forall (fun r => ~ lifted (g_config g) c' r) (fst (talk oc cs g)) ->
  let '(rs, g1) := talk oc cs g in
  let '(rs', g2) := talk oc cs (set_config c' g) in
  rs' = rs /\ g_device g2 = g_device g1 /\ primary_header g2 = primary_header g1 /\ backup_header g2 = backup_header g1 /\
  g_partitions g2 = g_partitions g1 /\ g_guid g2 = g_guid g1 /\ looser (g_config g1) (g_config g2) /\
  (Forall keeps_device cs -> g_config g2 = c').
Proof.
  intros oc cs g c' L F. destruct (ez_talk oc cs g c' L F) as (c2 & E & L2 & K). rewrite E.
  destruct (talk oc cs g) as [rs g1]. cbn [fst snd] in *. do 6 (split; [reflexivity|]). split; [exact L2|exact K].
Qed.
Print Assumptions C98_permission.
(** A call refused for want of permission has done nothing at all, so that it can be repeated once it is permitted. *)
Theorem C98_refused : forall oc c g, forbids (fst (ask oc c g)) -> snd (ask oc c g) = g.
Proof. exact ask_forbidden. Qed.
Print Assumptions C98_refused.
(** A setting that permits is enough: nothing is refused with ReadOnly on a writable disk, nothing with PartitionCountWouldChange
    if the number of entries may change. *)
Theorem C98_enough : forall oc c g,
  (c_writable (g_config g) = true -> fst (ask oc c g) <> Refused GReadOnly) /\
  (c_change_partition_count (g_config g) = true -> fst (ask oc c g) <> Refused GPartitionCountWouldChange).
Proof.
  intros oc c g. split; intros W H.
  - assert (B := ask_read_only_why oc c g H). congruence.
  - assert (B := ask_count_why oc c g H). congruence.
Qed.
Print Assumptions C98_enough.

(** Opening: only the block size and only_valid_headers are consulted; a device that opens opens the same with every
    other setting, and one that opens strictly opens the same leniently. *)
Theorem C98_open : forall oc c c' d g d',
  c_lb c' = c_lb c -> (c_only_valid_headers c' = true -> c_only_valid_headers c = true) ->
  open_from_device oc c d = (Ok g, d') -> open_from_device oc c' d = (Ok (set_config c' g), d').
Proof.
  intros oc c c' d g d' L V. unfold open_from_device, bind, attempt. rewrite L.
  destruct (read_primary_header (c_lb c) d) as [[h1|e1|] d1]; [| |discriminate];
    (destruct (read_backup_header (c_lb c) d1) as [[h2|e2|] d2]; [| |discriminate]);
    destruct (c_only_valid_headers c), (c_only_valid_headers c'); try discriminate (V eq_refl);
    cbn [lift ret throw panic omap_err or_else]; unfold lift, ret, throw; try discriminate;
    match goal with |- context [map_err GIo ?m ?d] => destruct (map_err GIo m d) as [[t|e|] d3] end; try discriminate;
    intros H; injection H as <- <-; reflexivity.
Qed.
Print Assumptions C98_open.
(** Creating: writable, only_valid_headers and change_partition_count are not consulted. *)
Theorem C98_create : forall oc c c' u rnd d,
  c_lb c' = c_lb c -> c_readonly_backup c' = c_readonly_backup c ->
  create_from_device oc c' u rnd d =
  (match fst (create_from_device oc c u rnd d) with Ok g => Ok (set_config c' g) | Err e => Err e | Panic => Panic end,
   snd (create_from_device oc c u rnd d)).
Proof.
  intros oc c c' u rnd d L R. unfold create_from_device.
  set (g := mkGdisk c d _ _ _ _ _). set (c1 := mkConfig (c_lb c) false false (c_readonly_backup c) false).
  assert (X : forall c2, c_lb c2 = c_lb c -> c_readonly_backup c2 = c_readonly_backup c ->
    init_headers oc (set_config c2 g) = (fst (init_headers oc (set_config c1 g)), set_config c2 (snd (init_headers oc (set_config c1 g))))).
  { intros c2 L2 R2. destruct (ez_init oc (set_config c1 g) c2) as (_ & [F|E]); [repeat split; try assumption; discriminate| |exact E].
    destruct (al_init oc (set_config c1 g)). destruct F as [(F & _)|(F & _)]; [left|right]; exact F. }
  pose proof (X c eq_refl eq_refl) as X1. pose proof (X c' L R) as X2. unfold g in X1, X2. cbn [set_config] in X1, X2. fold g in X1.
  unfold set_config in X2 at 1. cbn [g_device g_guid g_primary g_backup g_partitions g_sync] in X2. rewrite X2.
  replace (set_config c g) with g in X1 by reflexivity. unfold g in *. rewrite X1.
  destruct (init_headers oc _) as [[[]|e|] g2]; reflexivity.
Qed.
Print Assumptions C98_create.

(** readonly_backup: on a disk in good order both settings write the same primary copy; the bytes on the device differ at most
    in the backup copy, which is kept with the setting on. *)
Theorem C98_readonly_backup : forall oc g h,
  ready g h -> fault_free (g_device g) ->
  let lb := c_lb (g_config g) in
  exists g1 g2,
    write_inplace oc (set_config (cset_readonly_backup false (g_config g)) g) = (Ok tt, g1) /\
    write_inplace oc (set_config (cset_readonly_backup true (g_config g)) g) = (Ok tt, g2) /\
    changed_only_in (backup_copy lb h) (data (g_device g1)) (data (g_device g2)) /\
    (forall i, backup_copy lb h i -> byte_no (data (g_device g2)) i = byte_no (data (g_device g)) i) /\
    primary_header g2 = primary_header g1 /\ backup_header g2 = backup_header g /\
    g_partitions g2 = g_partitions g1 /\ g_guid g2 = g_guid g1.
Proof.
  intros oc g h R F lb. assert (W := rd_writable _ _ R). destruct (ready_sane g h R) as (HT & HA & HS & HU & _).
  destruct (write_inplace_sane oc (set_config (cset_readonly_backup false (g_config g)) g) h) as (g1 & E1 & D1 & P1 & B1 & C1 & G1 & M1 & _); auto.
  { split; [exact F|exact HA]. }
  destruct (write_inplace_sane_ro oc (set_config (cset_readonly_backup true (g_config g)) g) h) as (g2 & E2 & D2 & P2 & B2 & C2 & G2 & M2 & _); auto.
  { split; [exact F|exact HA]. }
  exists g1, g2. split; [exact E1|]. split; [exact E2|]. cbn [set_config g_config cset_readonly_backup c_lb g_partitions g_device g_backup g_guid] in *.
  fold lb in D1, D2, P1, P2, HS. set (ps := used_list (g_partitions g)) in *. set (l := data (g_device g)) in *.
  change (dev_len (g_device g)) with (lenN l) in *.
  destruct (image_lens lb h ps l HS HU) as (LT & LP & LB).
  pose proof (sane_areas _ _ _ HS) as (A1 & A2 & A3 & A4 & A5 & A6).
  assert (K : forall i, (lb_u64 lb <= i < 2 * lb_u64 lb -> False) -> (2 * lb_u64 lb <= i < 2 * lb_u64 lb + 128 * num_parts h -> False) ->
    byte_at (final_image_ro lb h ps l) i = byte_at l i).
  { intros i I1 I2. unfold final_image_ro. rewrite byte_at_store_in by (rewrite store_lenN_in; lia). rewrite byte_at_store_in by lia. rewrite LP, LT.
    destruct (N.leb_spec (lb_u64 lb) i), (N.ltb_spec i (lb_u64 lb + lb_u64 lb)); cbn [andb]; try (exfalso; lia);
    destruct (N.leb_spec (2 * lb_u64 lb) i), (N.ltb_spec i (2 * lb_u64 lb + 128 * num_parts h)); cbn [andb]; try (exfalso; lia); reflexivity. }
  assert (LR : lenN (final_image_ro lb h ps l) = lenN l).
  { unfold final_image_ro. rewrite !store_lenN_in; try lia. rewrite store_lenN_in; lia. }
  split; [|split; [|unfold primary_header, backup_header; rewrite P1, P2, B2, M1, M2, G1, G2; auto]].
  - rewrite D1, D2. split; [rewrite LR; symmetry; apply image_len; auto|]. intros i NI. rewrite backup_copy_iff in NI.
    rewrite !byte_no_at. unfold backup_area, in_area in NI. unfold final_image, final_image_ro.
    set (T := table_image h ps) in *. set (t := ablocks (num_parts h) 128 lb) in *.
    set (hp := hdr_block (new_primary lb h) (crc32 T) lb) in *. set (hb := hdr_block (new_backup lb h) (crc32 T) lb) in *.
    set (l1 := store ((blba h - t) * lb_u64 lb) T l).
    assert (L1 : lenN l1 = lenN l) by (apply store_lenN_in; lia).
    set (l2 := store (2 * lb_u64 lb) T l1).
    assert (L2 : lenN l2 = lenN l) by (unfold l2; rewrite store_lenN_in; lia).
    set (l3 := store (blba h * lb_u64 lb) hb l2).
    assert (L3 : lenN l3 = lenN l) by (unfold l3; rewrite store_lenN_in; lia).
    rewrite (byte_at_store_in (lb_u64 lb) hp l3) by lia. rewrite (byte_at_store_in (lb_u64 lb) hp) by (rewrite store_lenN_in; lia).
    destruct ((lb_u64 lb <=? i) && (i <? lb_u64 lb + lenN hp)); [reflexivity|].
    unfold l3. rewrite (byte_at_store_in (blba h * lb_u64 lb)) by lia.
    destruct (N.leb_spec (blba h * lb_u64 lb) i), (N.ltb_spec i (blba h * lb_u64 lb + lenN hb)); cbn [andb]; try (exfalso; lia);
    (unfold l2; rewrite !(byte_at_store_in (2 * lb_u64 lb)) by lia;
     destruct ((2 * lb_u64 lb <=? i) && (i <? 2 * lb_u64 lb + lenN T)); [reflexivity|];
     unfold l1; rewrite byte_at_store_in by lia;
     destruct (N.leb_spec ((blba h - t) * lb_u64 lb) i), (N.ltb_spec i ((blba h - t) * lb_u64 lb + lenN T)); cbn [andb]; try (exfalso; lia); reflexivity).
  - intros i BI. rewrite backup_copy_iff in BI. unfold backup_area, in_area in BI. rewrite D2, !byte_no_at.
    set (t := ablocks (num_parts h) 128 lb) in *. apply K; lia.
Qed.
Print Assumptions C98_readonly_backup.

(** C29 where the number of entries may change, for as long as no call needs that: the partitions stay apart and inside the usable blocks. *)
Theorem C29_count_may_change_partial : forall oc ops g h g',
  tidy g h -> Forall (tidy_op oc (c_lb (g_config g))) ops ->
  (let strict := set_config (cset_change_partition_count false (g_config g)) g in
   ~ In (Refused GPartitionCountWouldChange) (fst (talk oc (map Do ops) strict))) ->
  run oc ops g = Some g' ->
  exists h', tidy g' h' /\ first_usable h' = first_usable h /\ last_usable h <= last_usable h' /\ num_parts h' = num_parts h.
Proof.
  intros oc ops g h g' T F NR R. cbn zeta in NR. set (s := set_config (cset_change_partition_count false (g_config g)) g) in *.
  assert (L : looser (g_config s) (g_config g)) by (repeat split; try discriminate; auto).
  destruct (ez_talk oc (map Do ops) s (g_config g) L) as (c2 & E & (L2 & _) & _).
  { apply Forall_forall. intros r I [(-> & A & B)|(-> & _)]; [cbn in A; congruence|contradiction]. }
  replace (set_config (g_config g) s) with g in E by (destruct g; reflexivity).
  destruct (run_talk oc ops g g' R) as (X & NP). rewrite E in X, NP. cbn [fst snd] in X, NP.
  pose proof (talk_run oc ops s NP) as RS.
  destruct (C29_no_overlap_partial oc ops s h (snd (talk oc (map Do ops) s))) as (h' & T' & K); [|reflexivity|exact F|exact RS|].
  - destruct T as [T1 T2 T3 T4 T5]. constructor; assumption.
  - exists h'. split; [|exact K]. rewrite <- X. set (e := snd (talk oc (map Do ops) s)) in *.
    destruct T' as [T1 T2 T3 T4 T5]. constructor; try assumption. cbn [set_config g_config]. rewrite L2. exact T3.
Qed.
Print Assumptions C29_count_may_change_partial.

(** Opening or creating by path is opening or creating on the file: the same error, or a disk that answers the same. *)
Definition same_answers (g0 g : gdisk) : Prop :=
  primary_header g = primary_header g0 /\ backup_header g = backup_header g0 /\ g_partitions g = g_partitions g0 /\
  g_guid g = g_guid g0 /\ g_config g = g_config g0 /\ g_device g = g_device g0.
Theorem C11_by_path : forall oc cfg d,
  snd (open_path oc cfg d) = snd (open_from_device oc cfg d) /\
  match fst (open_from_device oc cfg d), fst (open_path oc cfg d) with
  | Ok g0, Ok g => same_answers g0 g
  | Err e, Err e' => e' = e
  | Panic, Panic => True
  | _, _ => False
  end.
Proof.
  intros oc cfg d. unfold open_path, with_sync, bind, ret. destruct (open_from_device oc cfg d) as [[g|e|] d']; (split; [reflexivity|]).
  - cbn [fst]. repeat split.
  - reflexivity.
  - exact I.
Qed.
Print Assumptions C11_by_path.
Theorem C43_by_path : forall oc cfg rnd d,
  snd (create_path oc cfg rnd d) = snd (create_from_device oc cfg None rnd d) /\
  match fst (create_from_device oc cfg None rnd d), fst (create_path oc cfg rnd d) with
  | Ok g0, Ok g => same_answers g0 g
  | Err e, Err e' => e' = e
  | Panic, Panic => True
  | _, _ => False
  end.
Proof.
  intros oc cfg rnd d. unfold create_path, with_sync, bind, ret. destruct (create_from_device oc cfg None rnd d) as [[g|e|] d']; (split; [reflexivity|]).
  - cbn [fst]. repeat split.
  - reflexivity.
  - exact I.
Qed.
Print Assumptions C43_by_path.

(** * Cases *)
(** A disk that may neither be written nor get more entries, and one that may: the same until the write, which is refused to the first. *)
Definition strict_mini : gdisk := set_config (mkConfig Lb512 false true false false) (mini_disk [(1, sample_part)]).
Definition free_config : config := mkConfig Lb512 true false false true.
Definition free_calls : list call := [AskFree; Do (OpRemove 1); AskTable; Do (OpUpdateGuid None other_guid); AskPrimary; AskId].
Example C98_case : looser (g_config strict_mini) free_config /\
  Forall (fun r => ~ lifted (g_config strict_mini) free_config r) (fst (talk true free_calls strict_mini)) /\
  lifted (g_config strict_mini) free_config (fst (ask true (Do OpWrite) strict_mini)) /\
  fst (ask true (Do OpWrite) (set_config free_config strict_mini)) = Returned VUnit /\
  lifted (g_config strict_mini) free_config (fst (ask true (Do (OpUpdatePartitions [(2, sample_part)])) strict_mini)).
Proof.
  split; [repeat split; discriminate|]. split.
  { repeat constructor; intros [(H & _)|(H & _)]; discriminate H. }
  split; [left; repeat split|]. split; [vm_compute; reflexivity|]. right. repeat split.
Qed.
