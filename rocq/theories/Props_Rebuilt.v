(** Props_Rebuilt.v - which headers a disk has after they were made anew, for any header it had (C108). *)
From Verif Require Import Samples RebuiltFacts Props_Refuse.
Open Scope list_scope.
Open Scope N_scope.

(** An order that was met was not unmet. *)
Lemma met o t h e : as_ordered o t h -> ~ unmet o t e.
Proof.
  intros [A1 A2 A3 A4 A5 A6 A7 (A8 & A9 & A10)] [(_ & X)|(_ & _ & [X|X])]; lia.
Qed.
Lemma update_tail oc pp g h : header_of g h -> map_ok pp -> lenN pp < 2 ^ 32 -> (forall p, ~ has pp 0 p) ->
  c_change_partition_count (g_config g) = true \/ N.max (lenN pp) 128 <= num_parts h ->
  update_partitions oc pp g = init_headers oc (set_partitions pp g).
Proof.
  intros HH MO L Z C. apply (pm_get_none pp MO) in Z. unfold update_partitions. unfold bind at 1. rewrite Z. cbn [ret].
  unfold bind at 1, check_count. rewrite (the_header_of g h HH). cbn [obind]. rewrite N.mod_small by (rewrite two32; exact L).
  destruct (num_parts_would_change h (lenN pp)) eqn:W; [|reflexivity]. apply would_change_iff in W.
  destruct C as [C|C]; [|lia]. rewrite C. reflexivity.
Qed.
Lemma count_of pp g : lenN pp < 2 ^ 32 -> next_count (set_partitions pp g) = N.max (lenN pp) 128.
Proof. intros L. unfold next_count. cbn [set_partitions g_partitions]. rewrite N.mod_small by (rewrite two32; exact L). reflexivity. Qed.

Lemma rebuilt_base o t m pp g g' : rebuilt o t m (set_partitions pp g) g' -> rebuilt o t m g g'.
Proof. intros [A B C]. constructor; assumption. Qed.

(** * C108 *)
(** update_partitions that succeeds, whatever the header in use says and whatever the device does: the headers are
    exactly those of the order made of the header in use, the disk's GUID, the number of partitions but at least
    128 entries, and the last block of the device. *)
Theorem C108_update : forall oc pp g h g',
  header_of g h -> addressable (g_device g) -> map_ok pp -> lenN pp < 2 ^ 32 ->
  let lb := c_lb (g_config g) in
  let o := order_for g h (N.max (lenN pp) 128) (last_whole_block lb (g_device g)) in
  let t := blocks_for (o_num o * o_size o) lb in
  within_words o -> update_partitions oc pp g = (Ok tt, g') -> rebuilt o t pp g g'.
Proof.
  intros oc pp g h g' HH AD MO L lb o t WW E.
  destruct (C73_accepted oc pp g h g' HH MO L E) as (Z & C & _).
  rewrite (update_tail oc pp g h HH MO L Z C) in E.
  destruct (init_ordered oc (set_partitions pp g) h HH AD _ eq_refl) as (X & _); [rewrite count_of by exact L; exact WW|].
  specialize (X g' E). rewrite count_of in X by exact L. apply rebuilt_base in X. exact X.
Qed.
Print Assumptions C108_update.
(** Without faults, for a table that is not refused, it succeeds exactly if the order can be met; if not, it says why,
    and the table has been changed all the same. *)
Theorem C108_update_result : forall oc pp g h,
  header_of g h -> addressable (g_device g) -> fault_free (g_device g) -> map_ok pp -> lenN pp < 2 ^ 32 ->
  (forall p, ~ has pp 0 p) ->
  c_change_partition_count (g_config g) = true \/ N.max (lenN pp) 128 <= num_parts h ->
  let lb := c_lb (g_config g) in
  3 * lb_u64 lb <= lenN (data (g_device g)) ->
  let o := order_for g h (N.max (lenN pp) 128) (last_whole_block lb (g_device g)) in
  let t := blocks_for (o_num o * o_size o) lb in
  within_words o ->
  (forall e, unmet o t e -> update_partitions oc pp g = (Err (GHeader e), set_partitions pp g)) /\
  ((forall e, ~ unmet o t e) -> fst (update_partitions oc pp g) = Ok tt).
Proof.
  intros oc pp g h HH AD HF MO L Z C lb L3 o t WW.
  rewrite (update_tail oc pp g h HH MO L Z C).
  destruct (init_ordered oc (set_partitions pp g) h HH AD _ eq_refl) as (X & Y); [rewrite count_of by exact L; exact WW|].
  specialize (Y HF L3). rewrite count_of in X, Y by exact L. change (order_for (set_partitions pp g)) with (order_for g) in X, Y.
  change (g_config (set_partitions pp g)) with (g_config g) in X, Y.
  change (g_device (set_partitions pp g)) with (g_device g) in X, Y. fold lb in X, Y. fold o in X, Y. fold t in X, Y.
  destruct (init_headers oc (set_partitions pp g)) as [[[]|e|] g'].
  - destruct (X g' eq_refl) as [_ _ (hp & _ & X2 & _)]. split; [|reflexivity].
    intros e U. destruct (met o t hp e X2 U).
  - destruct Y as (-> & e' & -> & U). split.
    + intros e2 U2. assert (e2 = e').
      { destruct U as [(-> & U)|(-> & U)], U2 as [(-> & U2)|(-> & U2)]; auto; lia. }
      subst e2. reflexivity.
    + intros N. destruct (N e' U).
  - destruct Y.
Qed.
Print Assumptions C108_update_result.
(** The same for an addition that needs more entries than the header has. *)
Theorem C108_add : forall oc nm size ty fl al rnd g h id g',
  header_of g h -> addressable (g_device g) -> lenN (g_partitions g') < 2 ^ 32 ->
  let lb := c_lb (g_config g) in
  let o := order_for g h (N.max (lenN (g_partitions g')) 128) (last_whole_block lb (g_device g)) in
  let t := blocks_for (o_num o * o_size o) lb in
  within_words o -> num_parts h < N.max id 128 ->
  add_partition oc nm size ty fl al rnd g = (Ok id, g') -> rebuilt o t (g_partitions g') g g'.
Proof.
  intros oc nm size ty fl al rnd g h id g' HH AD L lb o t WW NP E.
  destruct (add_grew _ _ _ _ _ _ _ _ _ _ E) as (p & G). specialize (G h HH NP).
  set (m := pm_insert id p (g_partitions g)) in *.
  assert (EM : g_partitions g' = m) by (pose proof (init_headers_partitions oc (set_partitions m g)) as X; rewrite G in X; exact X).
  unfold t, o in *. clear t o. rewrite EM in *.
  destruct (init_ordered oc (set_partitions m g) h HH AD _ eq_refl) as (X & _); [rewrite count_of by exact L; exact WW|].
  specialize (X g' G). rewrite count_of in X by exact L. apply rebuilt_base in X. exact X.
Qed.
Print Assumptions C108_add.
Theorem C108_add_at : forall oc nm id first n ty fl rnd g h k g',
  header_of g h -> addressable (g_device g) -> lenN (g_partitions g') < 2 ^ 32 ->
  let lb := c_lb (g_config g) in
  let o := order_for g h (N.max (lenN (g_partitions g')) 128) (last_whole_block lb (g_device g)) in
  let t := blocks_for (o_num o * o_size o) lb in
  within_words o -> num_parts h < N.max id 128 ->
  add_partition_at oc nm id first n ty fl rnd g = (Ok k, g') -> rebuilt o t (g_partitions g') g g'.
Proof.
  intros oc nm id first n ty fl rnd g h k g' HH AD L lb o t WW NP E.
  destruct (add_at_grew _ _ _ _ _ _ _ _ _ _ _ E) as (_ & p & G). specialize (G h HH NP).
  set (m := pm_insert id p (g_partitions g)) in *.
  assert (EM : g_partitions g' = m) by (pose proof (init_headers_partitions oc (set_partitions m g)) as X; rewrite G in X; exact X).
  unfold t, o in *. clear t o. rewrite EM in *.
  destruct (init_ordered oc (set_partitions m g) h HH AD _ eq_refl) as (X & _); [rewrite count_of by exact L; exact WW|].
  specialize (X g' G). rewrite count_of in X by exact L. apply rebuilt_base in X. exact X.
Qed.
Print Assumptions C108_add_at.
(** A header with its own idea of everything, taken for a backup header as it says it lies in block 50: with entries of
    64 bytes the backup goes into block 93 and the usable blocks grow; entries of 256 bytes do not fit. *)
Definition odd_header (size : N) : header := mkHeader EFI_PART 1 0 92 0 0 50 5 20 21 sample_guid 2 128 size 0.
Definition odd_disk (size : N) : gdisk :=
  mkGdisk mini_config wide_dev other_guid (Ok (odd_header size)) (Err HInvalidGptSignature) [] false.
Definition seen (h : header) := (current_lba h, backup_lba h, first_usable h, last_usable h, part_start h, num_parts h, part_size h).
Example C108_case :
  within_words (order_for (odd_disk 64) (odd_header 64) 128 93) /\ unmet (order_for (odd_disk 256) (odd_header 256) 128 93) 64 HBackupLbaToEarly /\
  (let r := update_partitions true [(3, sample_part)] (odd_disk 64) in
   match g_primary (snd r), g_backup (snd r) with
   | Ok hp, Ok hb => seen hp = (5, 93, 20, 76, 6, 128, 64) /\ seen hb = (93, 5, 20, 76, 77, 128, 64) /\ disk_guid hp = other_guid
   | _, _ => False
   end) /\
  fst (update_partitions true [(3, sample_part)] (odd_disk 256)) = Err (GHeader HBackupLbaToEarly).
Proof.
  split; [vm_compute; auto|]. split; [right; split; [reflexivity|]; split; [vm_compute; discriminate|right; reflexivity]|].
  split; vm_compute; auto.
Qed.
