(** Props_Moved.v - one table on several devices, in histories with every call. *)
From Verif Require Import Samples MovedFacts Props_Write Props_Careful Props_Rebuilt.
Open Scope list_scope.
Open Scope N_scope.

(** * C109 *)
(** A history of careful calls during which the device is exchanged any number of times, each time for one with room
    for what the header in use describes, leaves the disk in good order; and every device it used has the length and
    the user data it came with, whatever operations failed on any of them. *)
Theorem C109_history : forall oc g h l d1 g',
  moved_run oc (g_device g) g l d1 g' -> tidy g h -> guid_ok (g_guid g) -> typed_table (g_partitions g) ->
  c_change_partition_count (g_config g) = false ->
  Forall (fun s => same_user_data (c_lb (g_config g)) h (fst s) (snd s)) l /\
  same_user_data (c_lb (g_config g)) h d1 (g_device g') /\ typed_table (g_partitions g') /\
  exists h', tidy g' h' /\ first_usable h' = first_usable h /\ last_usable h <= last_usable h' /\
    N.min 128 (num_parts h) <= num_parts h' <= num_parts h.
Proof.
  intros oc g h l d1 g' R T G TT HC.
  destruct (moved_keeps oc _ g l d1 g' R (c_lb (g_config g)) h h eq_refl HC T G TT eq_refl (N.le_refl _)
    (conj eq_refl (fun i _ => eq_refl))) as (A1 & A2 & A3 & A4 & A5 & A6 & A7).
  split; [exact A1|]. split; [exact A2|]. split; [exact A6|exact A7].
Qed.
Print Assumptions C109_history.
(** A write that reports success puts the table on the device in use at that time: opened again, the device has the
    partitions the disk had in memory, and still the user data it came with. *)
Theorem C109_saved : forall oc cfg g h l d1 g' gw g2,
  moved_run oc (g_device g) g l d1 g' -> tidy g h -> guid_ok (g_guid g) -> typed_table (g_partitions g) ->
  c_change_partition_count (g_config g) = false -> c_lb cfg = c_lb (g_config g) ->
  write_inplace oc g' = (Ok tt, gw) -> fst (open_from_device oc cfg (repaired (g_device gw))) = Ok g2 ->
  read_back (g_partitions g') (g_partitions g2) /\ same_user_data (c_lb cfg) h d1 (g_device g2) /\
  exists h2, tidy g2 h2 /\ first_usable h2 = first_usable h /\ last_usable h <= last_usable h2 /\
    N.min 128 (num_parts h) <= num_parts h2 <= num_parts h.
Proof.
  intros oc cfg g h l d1 g' gw g2 R T G TT HC LB W O.
  destruct (moved_keeps oc _ g l d1 g' R (c_lb (g_config g)) h h eq_refl HC T G TT eq_refl (N.le_refl _)
    (conj eq_refl (fun i _ => eq_refl))) as (A1 & A2 & A3 & A4 & A5 & A6 & h1 & A7 & A8 & A9 & Aa).
  assert (S : careful_session oc cfg (faults (g_device g')) g' (g_partitions g') g2).
  { exists [], g', gw. split; [|split; [reflexivity|split; [exact W|exact O]]].
    destruct g' as [? [] ? ? ? ? ?]. constructor. }
  destruct (careful_session_keeps oc cfg _ g' _ g2 h1 S (eq_trans LB (eq_sym A3)) A4 A7 A5 A6) as
    (B1 & B2 & B3 & B4 & B5 & B6 & h2 & B7 & B8 & B9 & Ba).
  split; [exact B5|]. split.
  - rewrite LB in *. eapply same_user_trans; [exact A2|]. split; [exact B4|]. intros i U. apply B6.
    eapply user_byte_mono; eauto.
  - exists h2. split; [exact B7|]. split; [congruence|]. split; lia.
Qed.
Print Assumptions C109_saved.
(** Such a write does succeed, and the device then opens, if the device does not fail, the disk was last told that it
    may write, and the used partitions have entries. *)
Theorem C109_writes : forall oc oc' cfg g h l d1 g',
  moved_run oc (g_device g) g l d1 g' -> tidy g h -> guid_ok (g_guid g) -> typed_table (g_partitions g) ->
  c_change_partition_count (g_config g) = false -> c_lb cfg = c_lb (g_config g) -> c_only_valid_headers cfg = false ->
  fault_free (g_device g') -> c_writable (g_config g') = true ->
  lenN (used_in_order (g_partitions g')) <= N.min 128 (num_parts h) ->
  exists gw g2, write_inplace oc g' = (Ok tt, gw) /\ fst (open_from_device oc' cfg (g_device gw)) = Ok g2 /\
    read_back (g_partitions g') (g_partitions g2).
Proof.
  intros oc oc' cfg g h l d1 g' R T G TT HC LB HV HF HW N1.
  destruct (moved_keeps oc _ g l d1 g' R (c_lb (g_config g)) h h eq_refl HC T G TT eq_refl (N.le_refl _)
    (conj eq_refl (fun i _ => eq_refl))) as (A1 & A2 & A3 & A4 & A5 & A6 & h1 & A7 & A8 & A9 & Aa).
  destruct A7 as [T1 T2 T3 T4 T5].
  assert (RD : ready g' h1).
  { constructor; auto; [lia|]. apply Forall_forall. intros p P. apply used_in_order_in in P. destruct P as (U & k & P).
    eapply typed_ok; eauto. }
  destruct (C17_write_then_open_primary oc oc' g' h1 cfg RD HF (eq_trans LB (eq_sym A3)) HV) as
    (gw & hp & hb & g2 & E & O & _ & _ & _ & _ & B).
  exists gw, g2. auto.
Qed.
Print Assumptions C109_writes.
(** From one device to a longer one, where making the headers anew gives the table the blocks at the new end. *)
Definition long_dev : dev := mkDev (repeat x2a (N.to_nat 96256)) 0 false false [] [].
Lemma long_len : lenN (data long_dev) = 96256.
Proof. cbn [long_dev data]. unfold lenN. rewrite repeat_length. reflexivity. Qed.
Definition long_start : gdisk := snd (update_disk_device long_dev true careful_start).
Example C109_case : tidy careful_start wide_header /\ exists g',
  moved_run true wide_dev careful_start [(wide_dev, wide_dev)] long_dev g' /\
  data (g_device g') = data long_dev /\ g_partitions g' = careful_table /\ exists h', header_of g' h' /\ last_usable h' = 154.
Proof.
  destruct C107_case as (T & _ & _). split; [exact T|].
  assert (R : room_on careful_start long_dev).
  { split; [unfold addressable; rewrite long_len; reflexivity|]. intros h H. rewrite long_len.
    assert (h = wide_header) by (eapply header_of_fun; [exact H|left; reflexivity]). subst h. vm_compute. discriminate. }
  assert (T1 : tidy long_start wide_header) by (apply (tidy_on careful_start wide_header long_dev); auto).
  assert (AR : arranged wide_header careful_table).
  { constructor.
    - repeat constructor.
    - intros k p [E|[E|[]]] _; injection E as <- <-; cbn; lia.
    - intros j p k q [E|[E|[]]] [E'|[E'|[]]] _ _ NE x; injection E as <- <-; injection E' as <- <-;
        unfold covers; cbn; lia. }
  assert (X : fst (update_partitions true careful_table long_start) = Ok tt).
  { apply (C107_update_accepted true careful_table long_start wide_header T1).
    - reflexivity.
    - apply AR.
    - intros p [E|[E|[]]]; discriminate.
    - vm_compute. discriminate.
    - vm_compute. discriminate.
    - vm_compute. discriminate. }
  exists (snd (update_partitions true careful_table long_start)).
  split; [|].
  - apply mr_move with long_dev true long_start; [exact R|reflexivity|].
    apply mr_call with (OpUpdatePartitions careful_table) (snd (update_partitions true careful_table long_start)).
    + intros h HH. assert (h = wide_header) by (eapply header_of_fun; [exact HH|left; reflexivity]). subst h. exact AR.
    + intros k p [E|[E|[]]]; injection E as <- <-; repeat split; repeat constructor; unfold char_ok; lia.
    + cbn [step]. destruct (update_partitions true careful_table long_start) as [r g2]. cbn [fst snd] in *. rewrite X. reflexivity.
    + constructor.
  - destruct (update_partitions true careful_table long_start) as [r g2] eqn:E. cbn [fst snd] in *. subst r.
    assert (ZE : last_whole_block Lb512 long_dev = 187).
    { unfold last_whole_block. rewrite long_len. reflexivity. }
    pose proof (C108_update true careful_table long_start wide_header g2 (ti_header _ _ T1) (ti_size _ _ T1) (ar_map _ _ AR))
      as Q. cbn zeta in Q. change (g_device long_start) with long_dev in Q. change (c_lb (g_config long_start)) with Lb512 in Q.
    rewrite ZE in Q. destruct Q as [Q1 Q2 (hp & Q3 & Q4 & _)]; [reflexivity|vm_compute; auto|exact E|].
    split. { destruct Q2 as (_ & _ & _ & (D & _)). first [exact D|symmetry; exact D]. } split; [exact Q1|]. exists hp. split; [left; exact Q3|].
    rewrite (ao_last _ _ _ Q4). reflexivity.
Qed.
