(** Props_Resize.v - a device that grew or shrank. *)
From Verif Require Import Samples SpecResize MapFacts CountFacts SessionFacts Props_Entry Props_Open Props_Write Props_Count Props_Blocks.
Open Scope list_scope.
Open Scope N_scope.

(** * C66: a device that grew *)
Lemma header_at_app l ext off h : header_at l off (Ok h) -> header_at (l ++ ext) off (Ok h).
Proof.
  intros H. inversion H as [| | |x L S C R]; subst; clear H.
  assert (E : forall a n, off <= a -> a + n <= off + 92 -> range a n (l ++ ext) = range a n l)
    by (intros; apply range_app_l; lia).
  constructor; unfold num_at; rewrite ?E; auto; try lia. rewrite lenN_app. lia.
Qed.
Lemma array_intact_app lb h l ext : array_intact lb h l ->
  array_intact lb h (l ++ ext) /\ range (array_at lb h) (array_len h) (l ++ ext) = range (array_at lb h) (array_len h) l.
Proof.
  intros (A & B & C).
  assert (R : range (array_at lb h) (array_len h) (l ++ ext) = range (array_at lb h) (array_len h) l).
  { destruct B as [B|B]; [|apply range_app_l, B]. unfold array_len. rewrite B. reflexivity. }
  split; [|exact R]. split; [exact A|]. rewrite R. split; [|exact C].
  destruct B as [B|B]; [left; exact B|right]. rewrite lenN_app. lia.
Qed.
(** A disk still opens when its device has grown, with the same primary header, GUID and partitions. *)
Theorem C66_opens : forall oc cfg d ext g h,
  fault_free d -> addressable (grown ext d) -> c_only_valid_headers cfg = false ->
  fst (open_from_device oc cfg d) = Ok g -> g_primary g = Ok h -> part_size h = 128 ->
  countable oc h (data d ++ ext) ->
  exists g', fst (open_from_device oc cfg (grown ext d)) = Ok g' /\
    g_primary g' = Ok h /\ g_guid g' = g_guid g /\ g_partitions g' = g_partitions g /\
    g_config g' = g_config g /\ same_medium (grown ext d) (g_device g') /\ fault_free (g_device g').
Proof.
  intros oc cfg d ext g h F A V O P PS CN.
  assert (A0 : addressable d).
  { unfold addressable in *. cbn [grown data] in A. rewrite lenN_app in A. lia. }
  assert (CN0 : countable oc h (data d)).
  { destruct CN as [X|[X|X]]; [left; exact X|right; left; exact X|right; right]. rewrite lenN_app in X. lia. }
  pose proof (read_header_at_spec (lb_u64 (c_lb cfg)) (data d)) as R1.
  pose proof (backup_header_spec (c_lb cfg) d) as R2.
  assert (X1 : read_header_at (lb_u64 (c_lb cfg)) (data d) = Ok h).
  { rewrite (open_ok oc cfg d F ltac:(rewrite addressable_iff in A0; exact A0)) in O. revert O. unfold select. rewrite V.
    destruct (read_header_at (lb_u64 (c_lb cfg)) (data d)) as [a|e|] eqn:E1; destruct (read_backup_at _ _) as [b|e2|] eqn:E2; cbn -[file_read_partitions map_err];
      try discriminate;
      match goal with |- context [map_err GIo ?m ?s] => destruct (map_err GIo m s) as [[t|e0|] d'] end; cbn; intros O; try discriminate;
      injection O as <-; cbn in P; congruence. }
  rewrite X1 in R1.
  pose proof (C11_header_used oc cfg d _ _ h F A0 V R1 R2 (or_introl eq_refl) PS CN0) as W. rewrite O in W.
  destruct W as (W1 & W2 & W3 & W4 & W5 & W6 & W7 & W8).
  destruct (array_intact_app _ _ _ ext W1) as (I1 & I2).
  pose proof (header_at_app _ ext _ _ R1) as R1'.
  pose proof (C11_header_used oc cfg (grown ext d) _ _ h F A V R1' (backup_header_spec _ _) (or_introl eq_refl) PS CN) as Y.
  destruct (fst (open_from_device oc cfg (grown ext d))) as [g'|e|] eqn:OG; cbn [opened_with] in Y; [|destruct e; try contradiction; elim Y; exact I1|contradiction].
  destruct Y as (Y1 & Y2 & Y3 & Y4 & Y5 & Y6 & Y7 & Y8). exists g'. split; [reflexivity|]. split; [exact Y5|].
  assert (FF : fault_free (g_device g')).
  { destruct (open_ok_128 oc cfg (grown ext d) h) as (p & Z).
    - exact F.
    - rewrite addressable_iff in A. exact A.
    - pose proof (header_at_fun _ _ _ _ R1' (read_header_at_spec (lb_u64 (c_lb cfg)) (data (grown ext d)))) as Z1.
      rewrite <- Z1. unfold select. rewrite V. pose proof (read_backup_at_no_panic (c_lb cfg) (grown ext d)) as NP.
      destruct (read_backup_at (c_lb cfg) (grown ext d)); congruence.
    - exact PS.
    - apply countable_iff. exact CN.
    - rewrite Z in OG. cbn [fst] in OG. destruct (read_parts_at _ _ _); try discriminate. injection OG as <-. exact F. }
  split; [congruence|]. split; [|split; [congruence|split; [exact Y7|exact FF]]].
  eapply (C11_table_unique (c_lb cfg) h (data d)); [|exact W2].
  unfold table_read in *. cbn [grown data] in Y2. rewrite I2 in Y2. exact Y2.
Qed.
Print Assumptions C66_opens.
(** After growing, update_partitions with the disk's own partitions and a write put the backup into the last
    block: the disk opens with both headers valid, all the space up to the new backup is usable, the
    partitions are the same, and no byte of block 0 or of the previous usable blocks changed. *)
Theorem C66_moved_partial : forall oc oc' g h cfg,
  ready g h -> fault_free (g_device g) -> c_readonly_backup (g_config g) = false ->
  c_lb cfg = c_lb (g_config g) -> guid_ok (g_guid g) ->
  map_ok (g_partitions g) -> (forall p, ~ has (g_partitions g) 0 p) ->
  128 <= num_parts h -> lenN (g_partitions g) <= num_parts h -> first_usable h <= last_usable h ->
  let lb := c_lb cfg in let last := last_whole_block lb (g_device g) in
  let n := N.max (lenN (g_partitions g)) 128 in
  exists g1 g2 g3 hp hb, update_partitions oc (g_partitions g) g = (Ok tt, g1) /\
    write_inplace oc g1 = (Ok tt, g2) /\ fst (open_from_device oc' cfg (g_device g2)) = Ok g3 /\
    g_primary g3 = Ok hp /\ g_backup g3 = Ok hb /\ g_guid g3 = g_guid g /\ num_parts hp = n /\
    backup_lba hp = last /\ current_lba hb = last /\
    first_usable hp = first_usable h /\ last_usable hp = last - blocks_for (n * 128) lb - 1 /\
    last_usable h <= last_usable hp /\
    read_back (g_partitions g) (g_partitions g3) /\
    forall i, user_byte lb h i -> byte_no (data (g_device g3)) i = byte_no (data (g_device g)) i.
Proof.
  intros oc oc' g h cfg HR HF HO C1 GO MO H0 N1 N2 FL. rewrite C1. cbv zeta.
  destruct HR as [R1 R2 R3 R4 R5 R6].
  assert (T2 := R2). rewrite header_of_iff in T2. assert (T4 := R4). apply layout_ok_iff in T4.
  assert (T3 := R3). rewrite addressable_iff in T3.
  destruct (sane_last _ _ _ T4) as (L3 & LB).
  set (lb := c_lb (g_config g)) in *. set (n := N.max (lenN (g_partitions g)) 128).
  assert (TL := ablocks_mono n (num_parts h) lb ltac:(unfold n; lia)).
  assert (BF : blocks_for (n * 128) lb = ablocks n 128 lb).
  { unfold blocks_for, ablocks, div_ceil. pose proof (lb_pos lb). f_equal. lia. }
  rewrite BF. change (last_whole_block lb (g_device g)) with (last_block lb (g_device g)).
  set (t := ablocks n 128 lb) in *. set (bak := last_block lb (g_device g)) in *.
  pose proof T4 as [S1 S2 S3 S4 S5 S6 S7 S8].
  assert (HG : good_dev (g_device g)) by (split; [exact HF|exact T3]).
  destruct (update_partitions_ok oc (g_partitions g) g h HG T2 T4) as (U & S); auto; fold lb n t bak; try (unfold n in *; lia).
  fold lb n t bak in U, S. specialize (S ltac:(lia)).
  assert (FU : N.max (first_usable h) (2 + t) = first_usable h) by lia.
  assert (LU : N.max (last_usable h) (bak - (t + 1)) = bak - (t + 1)) by lia.
  rewrite FU, LU in U, S.
  set (gs := set_partitions (g_partitions g) g) in *.
  set (g1 := reinit gs n bak _ _) in U.
  destruct (reinit_fields gs n bak (first_usable h) (bak - (t + 1))) as (E1 & E2 & E3 & E4).
  fold g1 in E1, E2, E3, E4. cbn [gs set_partitions g_config g_device g_partitions g_guid] in E1, E2, E3, E4.
  pose proof (reinit_header gs n bak (first_usable h) (bak - (t + 1))) as E5.
  fold g1 in E5. cbn [gs set_partitions g_guid] in E5.
  set (h1 := built (g_guid g) n bak _ _ true) in E5, S.
  assert (B1 : backup_at h1 = bak) by (unfold backup_at; cbn [h1 built current_lba backup_lba]; lia).
  assert (RD : ready g1 h1).
  { constructor; rewrite ?E1, ?E2, ?E4.
    + exact R1.
    + exact E5.
    + exact R3.
    + apply layout_ok_iff, S.
    + cbn [h1 built num_parts]. apply N.le_trans with (lenN (g_partitions g)); [|unfold n; lia].
      unfold used_in_order, lenN. pose proof (filter_len used_dec (map snd (g_partitions g))) as FLE.
      rewrite map_length in FLE. lia.
    + exact R6. }
  destruct (C17_write_then_open oc oc' g1 h1 cfg) as (g2 & hp & hb & g3 & E & O & HH & P1 & P2 & P3 & P4 & G & RB).
  - exact RD.
  - rewrite E2. exact HF.
  - rewrite E1. exact HO.
  - rewrite E1, E2, B1. reflexivity.
  - rewrite E1. exact C1.
  - rewrite E1 in HH. fold lb in HH.
    assert (AB : array_blocks lb h1 = t) by (rewrite array_blocks_eq; reflexivity).
    destruct HH as [Q1 Q2 Q3 Q4 Q5 Q6 Q7 Q8 Q9]. rewrite B1, AB in *.
    exists g1, g2, g3, hp, hb. split; [exact U|]. split; [exact E|]. split; [exact O|]. split; [exact P3|].
    split; [exact P4|]. split; [exact G|]. split; [apply Q4|]. split; [apply Q1|]. split; [apply Q2|].
    split; [apply Q6|]. split; [apply Q7|]. split; [destruct Q7 as (-> & _); lia|].
    split; [rewrite E4 in RB; exact RB|].
    intros i UB. destruct (open_from_device oc' cfg (g_device g2)) as [ro dd] eqn:OE. cbn [fst] in O. subst ro.
    destruct (open_config _ _ _ _ _ OE) as (_ & D1 & (D2 & _)). rewrite D1, D2.
    destruct (C16_usable_area_preserved oc g1 h1 i (rd_header _ _ RD) (rd_size _ _ RD) (rd_layout _ _ RD)) as (X & _).
    { rewrite E1. fold lb. destruct UB as [UB|UB]; [left; exact UB|right; left].
      cbn [h1 built first_usable last_usable]. split; [apply UB|].
      eapply N.lt_le_trans; [apply UB|]. apply N.mul_le_mono_r. lia. }
    rewrite E in X. cbn [snd] in X. rewrite X, E2. reflexivity.
Qed.
Print Assumptions C66_moved_partial.
Lemma used_spec p : used p -> used_dec p = true.
Proof. intros U. unfold used_dec. destruct (list_eq_dec _ _ _); [contradiction|reflexivity]. Qed.
Lemma used_number qs : Forall used qs -> forall i, used_in_order (number i qs) = qs.
Proof.
  unfold used_in_order. induction 1 as [|q qs U F IH]; intros i; [reflexivity|]. cbn [number map snd filter].
  apply used_spec in U. rewrite U, IH. reflexivity.
Qed.
Lemma same_entry_trans p q r : Forall char_ok (name p) -> same_entry p q -> same_entry q r -> same_entry p r.
Proof.
  intros W [A1 A2 A3 A4 A5 A6 A7] [B1 B2 B3 B4 B5 B6 B7]. constructor; try congruence.
  rewrite B7, A7, !kept_36. apply stored_name_idem. apply chars_ok_iff, W.
Qed.
(** What is known of a table that was read back. *)
Lemma read_back_facts m m' : Forall partition_ok (used_in_order m) -> read_back m m' ->
  map_ok m' /\ (forall p, ~ has m' 0 p) /\ lenN m' = lenN (used_in_order m) /\
  lenN (used_in_order m') = lenN (used_in_order m) /\ Forall partition_ok (used_in_order m') /\
  forall m'', read_back m' m'' -> read_back m m''.
Proof.
  intros PO (qs & -> & F). rewrite numbered_eq.
  assert (UQ : Forall used qs).
  { assert (FU : Forall used (used_in_order m)).
    { apply Forall_forall. intros p H. apply used_in_order_in in H. apply H. }
    clear PO. induction F as [|p q ps qs E F IH]; constructor; inversion FU; subst; auto. eapply same_entry_used; eauto. }
  assert (LQ : length qs = length (used_in_order m)) by (clear -F; induction F; cbn; congruence).
  assert (UO := used_number qs UQ 1).
  split; [apply map_ok_number|]. split.
  { intros p H. apply has_number in H. destruct H as (n & _ & H). lia. }
  split.
  { unfold lenN. rewrite <- LQ. f_equal. clear. generalize 1. induction qs as [|q qs IH]; intros i; cbn; [reflexivity|]. rewrite IH. reflexivity. }
  rewrite UO. split; [unfold lenN; rewrite LQ; reflexivity|]. split.
  { clear LQ UO UQ. induction F as [|p q ps qs E F IH]; constructor; inversion PO; subst; auto.
    destruct (same_entry_typed p q) as (X1 & X2 & X3 & X4); auto. destruct E as [A1 A2 A3 A4 A5 A6 A7].
    constructor; auto; [rewrite A4|rewrite A5]; match goal with H : partition_ok p |- _ => apply H end. }
  intros m'' (rs & -> & F2). rewrite UO in F2. exists rs. split; [reflexivity|]. clear LQ UO UQ.
  revert rs F2. induction F as [|p q ps qs E F IH]; intros rs F2; inversion F2; subst; constructor; inversion PO; subst; auto.
  eapply same_entry_trans; eauto. match goal with H : partition_ok p |- _ => apply H end.
Qed.
Lemma byte_no_app_l l ext i : i < lenN l -> byte_no (l ++ ext) i = byte_no l i.
Proof. intros H. unfold byte_no. apply nth_error_app1. unfold lenN in H. lia. Qed.
(** Put together: write a disk, let the device grow, open it, call update_partitions with what was read,
    write, open again. *)
Theorem C66_grown_partial : forall oc g h ext cfg cfg',
  ready g h -> fault_free (g_device g) -> addressable (grown ext (g_device g)) ->
  128 <= num_parts h -> first_usable h <= last_usable h ->
  let lb := c_lb (g_config g) in
  c_lb cfg = lb -> c_writable cfg = true -> c_only_valid_headers cfg = false -> c_readonly_backup cfg = false ->
  c_lb cfg' = lb ->
  exists gw g1 g2 g3 g4 hp hb, write_inplace oc g = (Ok tt, gw) /\
    fst (open_from_device oc cfg (grown ext (g_device gw))) = Ok g1 /\
    update_partitions oc (g_partitions g1) g1 = (Ok tt, g2) /\ write_inplace oc g2 = (Ok tt, g3) /\
    fst (open_from_device oc cfg' (g_device g3)) = Ok g4 /\
    g_primary g4 = Ok hp /\ g_backup g4 = Ok hb /\ g_guid g4 = disk_guid h /\
    current_lba hb = last_whole_block lb (grown ext (g_device g)) /\
    first_usable hp = first_usable h /\ last_usable h <= last_usable hp /\
    last_usable hp + blocks_for (num_parts hp * 128) lb + 1 = last_whole_block lb (grown ext (g_device g)) /\
    read_back (g_partitions g) (g_partitions g4) /\
    forall i, user_byte lb h i -> byte_no (data (g_device g4)) i = byte_no (data (g_device g)) i.
Proof.
  intros oc g h ext cfg cfg' RD HF HA N1 FL lb C1 C2 C3 C4 C5.
  destruct (C17_write_then_open_primary oc oc g h cfg RD HF C1 C3) as (gw & hp & hb0 & gr & E & O & HH & P1 & P2 & G & RB).
  assert (LEN : lenN (data (g_device gw)) = lenN (data (g_device g))).
  { pose proof (C16_write_frame oc g h (rd_header _ _ RD) (rd_size _ _ RD) (rd_layout _ _ RD)) as X. rewrite E in X. apply X. }
  assert (FW : fault_free (g_device gw)).
  { destruct (drf_write oc g tt gw E) as ((fs & X & _) & _). unfold fault_free in *. rewrite HF in X.
    symmetry in X. apply app_eq_nil in X. apply X. }
  pose proof (rd_layout _ _ RD) as [S1 S2 S3 S4 S5 S6 S7 S8]. fold lb in S5, S6, S7, S8, HH.
  destruct HH as [Q1 Q2 Q3 Q4 Q5 Q6 Q7 Q8 Q9].
  assert (HA' : addressable (grown ext (g_device gw))).
  { unfold addressable in *. cbn [grown data] in *. rewrite lenN_app, LEN in *. exact HA. }
  destruct (C66_opens oc cfg (g_device gw) ext gr hp FW HA' C3 O P2) as (g1 & O1 & K1 & K2 & K3 & K4 & K5 & FF).
  { apply Q5. }
  { right; left. destruct Q4 as (-> & _). change (2 ^ 32) with (2 ^ 31 * 2) in S3. lia. }
  destruct (read_back_facts _ _ (rd_parts _ _ RD) RB) as (F1 & F2 & F3 & F4 & F5 & F6).
  rewrite <- K3 in F1, F2, F3, F4, F5.
  assert (D1 : data (g_device g1) = data (g_device gw) ++ ext) by apply K5.
  assert (GC : g_config g1 = cfg).
  { rewrite K4. destruct (open_from_device oc cfg (g_device gw)) as [ro dd] eqn:OE. cbn [fst] in O. subst ro.
    eapply open_config. exact OE. }
  assert (AB : array_blocks lb hp = array_blocks lb h) by (unfold array_blocks; destruct Q4 as (-> & _); reflexivity).
  assert (BA : backup_at hp = backup_at h) by (unfold backup_at at 1; destruct Q1 as (-> & -> & _); lia).
  assert (RD1 : ready g1 hp).
  { constructor; rewrite ?GC.
    - exact C2.
    - left. exact K1.
    - unfold addressable. rewrite D1. exact HA'.
    - rewrite C1, D1. fold lb. constructor; rewrite ?AB, ?BA.
      + destruct Q3 as (-> & _). exact S1.
      + apply Q5.
      + destruct Q4 as (-> & _). exact S3.
      + unfold primary_at. destruct Q1 as (-> & -> & _). lia.
      + destruct Q6 as (-> & _). exact S5.
      + destruct Q7 as (-> & _). lia.
      + destruct Q6 as (-> & _). exact S7.
      + rewrite lenN_app, LEN. lia.
    - rewrite F4. destruct Q4 as (-> & _). apply RD.
    - exact F5. }
  assert (LW : last_whole_block lb (g_device g1) = last_whole_block lb (grown ext (g_device g))).
  { unfold last_whole_block. cbn [grown data]. rewrite D1, !lenN_app, LEN. reflexivity. }
  destruct (C66_moved_partial oc oc g1 hp cfg' RD1 FF) as
    (g2 & g3 & g4 & hp' & hb & A1 & A2 & A3 & A4 & A5 & A6 & A7 & A8 & A9 & A10 & A11 & A12 & A13 & A14); try rewrite GC.
  - exact C4.
  - congruence.
  - rewrite K2, G. exact S1.
  - exact F1.
  - exact F2.
  - destruct Q4 as (-> & _). exact N1.
  - rewrite F3. destruct Q4 as (-> & _). apply RD.
  - destruct Q6 as (-> & _), Q7 as (-> & _). lia.
  - rewrite C5, LW in *. fold lb in A7, A11.
    exists gw, g1, g2, g3, g4, hp', hb. split; [exact E|]. split; [exact O1|]. split; [exact A1|]. split; [exact A2|].
    split; [exact A3|]. split; [exact A4|]. split; [exact A5|]. split; [rewrite A6, K2; exact G|].
    split; [exact A9|]. split; [rewrite A10; apply Q6|].
    split; [eapply N.le_trans; [|exact A12]; destruct Q7 as (-> & _); lia|]. split.
    { rewrite A7 in *. rewrite A11 in *. destruct Q7 as (Q7 & _). rewrite Q7 in A12. lia. }
    split; [apply F6; rewrite <- K3; exact A13|].
    intros i UB. rewrite A14.
    + destruct (C16_usable_area_preserved oc g h i (rd_header _ _ RD) (rd_size _ _ RD) (rd_layout _ _ RD)) as (X & _).
      { fold lb. destruct UB as [UB|UB]; [left; exact UB|right; left; exact UB]. }
      rewrite E in X. cbn [snd] in X. rewrite <- X, D1. apply byte_no_app_l. rewrite LEN.
      eapply N.lt_le_trans; [|exact S8]. assert (LP := lb_pos lb).
      destruct UB as [UB|UB].
      * eapply N.lt_le_trans; [exact UB|]. rewrite <- (N.mul_1_l (lb_u64 lb)) at 1. apply N.mul_le_mono_r. lia.
      * eapply N.lt_le_trans; [apply UB|]. apply N.mul_le_mono_r. lia.
    + eapply user_byte_mono; [|  |exact UB]; [apply Q6|destruct Q7 as (-> & _); lia].
Qed.
Print Assumptions C66_grown_partial.
(** Writing alone does not do it: the backup stays where it was, and the disk does not open when both headers
    are required. *)
Definition spare_dev : dev := grown (zeros 512) mini_one_dev.
Definition strict_config : config := mkConfig Lb512 true true false false.
Definition write_alone (d : dev) : bool :=
  match fst (open_from_device true mini_config d) with
  | Ok g =>
      match write_inplace true g with
      | (Ok tt, g') =>
          match fst (open_from_device true strict_config (g_device g')) with
          | Err (GHeader HInvalidGptSignature) => true
          | _ => false
          end
      | _ => false
      end
  | _ => false
  end.
Lemma write_alone_fails : write_alone spare_dev = true.
Proof. vm_compute. reflexivity. Qed.
Theorem C66_write_alone_refuted : exists d ext g g',
  (exists g0, fst (open_from_device true strict_config d) = Ok g0) /\
  fst (open_from_device true mini_config (grown ext d)) = Ok g /\ write_inplace true g = (Ok tt, g') /\
  fst (open_from_device true strict_config (g_device g')) = Err (GHeader HInvalidGptSignature).
Proof.
  exists mini_one_dev, (zeros 512). pose proof write_alone_fails as H. unfold write_alone, spare_dev in H.
  destruct (fst (open_from_device true mini_config (grown (zeros 512) mini_one_dev))) as [g|e|]; try discriminate.
  destruct (write_inplace true g) as [[[]|e|] g'] eqn:W; try discriminate. exists g, g'. split.
  - destruct (fst (open_from_device true strict_config mini_one_dev)) as [g0|e|] eqn:O; [exists g0; reflexivity| |];
      exfalso; revert O; vm_compute; discriminate.
  - split; [reflexivity|]. split; [exact W|].
    destruct (fst (open_from_device true strict_config (g_device g'))) as [x|e|]; try discriminate.
    destruct e as [e|e| |e| | | | |]; try discriminate; destruct e; try discriminate; reflexivity.
Qed.
Print Assumptions C66_write_alone_refuted.
(** And a disk whose primary header is damaged no longer opens once its device has grown: the backup is no
    longer looked for where it is. *)
Theorem C66_backup_lost_refuted : exists d ext g e,
  fst (open_from_device true mini_config d) = Ok g /\
  fst (open_from_device true mini_config (grown ext d)) = Err (GHeader e).
Proof.
  exists wiped_dev, (zeros 512).
  destruct (fst (open_from_device true mini_config wiped_dev)) as [g|e|] eqn:O; [|exfalso; revert O; vm_compute; discriminate..].
  exists g, HInvalidGptSignature. split; [reflexivity|vm_compute; reflexivity].
Qed.
Print Assumptions C66_backup_lost_refuted.
(** A device that shrank: although all partitions and a backup would fit, the disk cannot be written any more,
    with or without update_partitions; the previous last usable block is kept. *)
Definition cut_disk : gdisk :=
  set_device (mkDev (zeros (N.to_nat 47104)) 0 false false [] []) (wide_disk two_parts).
Definition write_zero (r : outcome gpt_err unit) : bool := match r with Err (GIo IoWriteZero) => true | _ => false end.
Definition shrunk_check (g : gdisk) : bool :=
  (write_zero (fst (write_inplace true g)) &&
   match update_partitions true (g_partitions g) g with
   | (Ok tt, g1) => match g_primary g1 with Ok h1 => last_usable h1 =? 60 | _ => false end
                      && write_zero (fst (write_inplace true g1))
   | _ => false
   end)%bool.
Lemma shrunk_checked : shrunk_check cut_disk = true.
Proof. vm_compute. reflexivity. Qed.
Lemma write_zero_eq r : write_zero r = true -> r = Err (GIo IoWriteZero).
Proof. destruct r as [|e|]; try discriminate. destruct e as [e|e| |e| | | | |]; try discriminate. destruct e; try discriminate; reflexivity. Qed.
Lemma shrunk_meaning g : shrunk_check g = true ->
  fst (write_inplace true g) = Err (GIo IoWriteZero) /\
  exists g1 h1, update_partitions true (g_partitions g) g = (Ok tt, g1) /\ g_primary g1 = Ok h1 /\
    last_usable h1 = 60 /\ fst (write_inplace true g1) = Err (GIo IoWriteZero).
Proof.
  unfold shrunk_check. intros C. apply andb_prop in C. destruct C as (C1 & C2). split; [apply write_zero_eq, C1|].
  destruct (update_partitions true (g_partitions g) g) as [[[]|e|] g1]; try discriminate.
  apply andb_prop in C2. destruct C2 as (C2 & C3). destruct (g_primary g1) as [h1|e|] eqn:P; try discriminate.
  exists g1, h1. split; [reflexivity|]. split; [exact P|]. apply N.eqb_eq in C2. split; [exact C2|apply write_zero_eq, C3].
Qed.
Lemma cut_len : lenN (data (g_device cut_disk)) = 47104.
Proof. cbn [cut_disk set_device g_device data]. unfold lenN, zeros. rewrite repeat_length. reflexivity. Qed.
Theorem C66_shrunk_refuted : exists g h g1,
  fault_free (g_device g) /\ header_of g h /\ arranged h (g_partitions g) /\
  (forall k p, has (g_partitions g) k p -> last_lba p + 32 + 1 < last_whole_block Lb512 (g_device g)) /\
  num_parts h = 128 /\ blocks_for (128 * 128) Lb512 = 32 /\
  fst (write_inplace true g) = Err (GIo IoWriteZero) /\
  update_partitions true (g_partitions g) g = (Ok tt, g1) /\
  (exists h1, header_of g1 h1 /\ last_usable h1 = last_usable h) /\
  fst (write_inplace true g1) = Err (GIo IoWriteZero).
Proof.
  destruct (shrunk_meaning _ shrunk_checked) as (C1 & g1 & h1 & C2 & C3 & C4 & C5).
  exists cut_disk, wide_header, g1. split; [reflexivity|]. split; [left; reflexivity|]. split; [exact two_parts_arranged|].
  split.
  { intros k p H. unfold last_whole_block. rewrite cut_len. destruct H as [E|[E|[]]]; injection E as <- <-; vm_compute; reflexivity. }
  split; [reflexivity|]. split; [reflexivity|]. split; [exact C1|]. split; [exact C2|]. split; [|exact C5].
  exists h1. split; [left; exact C3|exact C4].
Qed.
Print Assumptions C66_shrunk_refuted.
(** The theorems above have instances: a disk with two partitions on a device that grows by ten blocks. *)
Definition wide_on : gdisk := set_device wide_dev (wide_disk two_parts).
Lemma wide_ready : ready wide_on wide_header.
Proof.
  constructor.
  - reflexivity.
  - left. reflexivity.
  - unfold addressable. cbn [wide_on set_device g_device]. rewrite wide_len. reflexivity.
  - exact wide_layout.
  - vm_compute. discriminate.
  - cbn [used_in_order]. repeat constructor; vm_compute; try reflexivity; left; reflexivity.
Qed.
Example C66_case : exists gw g1 g2 g3 g4 hp hb, write_inplace true wide_on = (Ok tt, gw) /\
    fst (open_from_device true mini_config (grown (zeros (N.to_nat 5120)) (g_device gw))) = Ok g1 /\
    update_partitions true (g_partitions g1) g1 = (Ok tt, g2) /\ write_inplace true g2 = (Ok tt, g3) /\
    fst (open_from_device true strict_config (g_device g3)) = Ok g4 /\
    g_primary g4 = Ok hp /\ g_backup g4 = Ok hb /\
    current_lba hb = 103 /\ first_usable hp = 34 /\ 60 <= last_usable hp /\
    read_back two_parts (g_partitions g4).
Proof.
  assert (LG : lenN (data (grown (zeros (N.to_nat 5120)) wide_dev)) = 53248).
  { cbn [grown data]. rewrite lenN_app, wide_len. unfold lenN, zeros. rewrite repeat_length. reflexivity. }
  destruct (C66_grown_partial true wide_on wide_header (zeros (N.to_nat 5120)) mini_config strict_config wide_ready)
    as (gw & g1 & g2 & g3 & g4 & hp & hb & A1 & A2 & A3 & A4 & A5 & A6 & A7 & A8 & A9 & A10 & A11 & A12 & A13 & _).
  { reflexivity. }
  { unfold addressable. change (g_device wide_on) with wide_dev. rewrite LG. reflexivity. }
  { cbn. lia. } { cbn. lia. } { reflexivity. } { reflexivity. } { reflexivity. } { reflexivity. } { reflexivity. }
  - exists gw, g1, g2, g3, g4, hp, hb. split; [exact A1|]. split; [exact A2|]. split; [exact A3|].
    split; [exact A4|]. split; [exact A5|]. split; [exact A6|]. split; [exact A7|]. split.
    + rewrite A9. unfold last_whole_block. change (g_device wide_on) with wide_dev. rewrite LG. reflexivity.
    + split; [exact A10|]. split; [exact A11|exact A13].
Qed.
