(** Props_Careful.v - histories with every call, each sensible where it is made. *)
From Verif Require Import Samples CarefulFacts Props_Build Props_Refuse.
Open Scope list_scope.
Open Scope N_scope.

(** * C107 *)
(** A history in which add_partition_at is only given free blocks and update_partitions only a table that lies in
    the usable blocks without overlap leaves the disk in good order, whatever the device does; the number of
    entries may go down, but not below 128. *)
Theorem C107_history : forall oc ops g h g',
  careful_run oc ops g g' -> tidy g h -> guid_ok (g_guid g) -> typed_table (g_partitions g) ->
  c_change_partition_count (g_config g) = false ->
  g_config g' = g_config g /\ lenN (data (g_device g')) = lenN (data (g_device g)) /\
  typed_table (g_partitions g') /\
  (forall i, user_byte (c_lb (g_config g)) h i -> byte_no (data (g_device g')) i = byte_no (data (g_device g)) i) /\
  exists h', tidy g' h' /\ first_usable h' = first_usable h /\ last_usable h <= last_usable h' /\
    N.min 128 (num_parts h) <= num_parts h' <= num_parts h.
Proof.
  intros oc ops g h g' R T G TT HC.
  destruct (careful_keeps oc ops g g' R h HC T G TT) as (A1 & A2 & A3 & A4 & A5 & A6).
  split; [exact A1|]. split; [exact A2|]. split; [exact A4|]. split; [exact A5|exact A6].
Qed.
Print Assumptions C107_history.
(** The calls are not refused: a table that fits is accepted ... *)
Theorem C107_update_accepted : forall oc pp g h, tidy g h -> fault_free (g_device g) -> map_ok pp ->
  (forall p, ~ has pp 0 p) -> lenN pp <= num_parts h -> 128 <= num_parts h -> first_usable h <= last_usable h ->
  fst (update_partitions oc pp g) = Ok tt.
Proof. exact careful_update_ok. Qed.
Print Assumptions C107_update_accepted.
(** ... (for add_partition_at see C31_legal_accepted_partial).  One session with such a history. *)
Theorem C107_session : forall oc cfg fs g h m g2,
  careful_session oc cfg fs g m g2 -> tidy g h -> guid_ok (g_guid g) -> typed_table (g_partitions g) ->
  c_change_partition_count (g_config g) = false -> c_lb cfg = c_lb (g_config g) ->
  read_back m (g_partitions g2) /\ lenN (data (g_device g2)) = lenN (data (g_device g)) /\
  (forall i, user_byte (c_lb cfg) h i -> byte_no (data (g_device g2)) i = byte_no (data (g_device g)) i) /\
  exists h2, tidy g2 h2 /\ first_usable h2 = first_usable h /\ last_usable h <= last_usable h2 /\
    N.min 128 (num_parts h) <= num_parts h2 <= num_parts h.
Proof.
  intros oc cfg fs g h m g2 S T G TT HC LB.
  destruct (careful_session_keeps oc cfg fs g m g2 h S LB HC T G TT) as (A1 & A2 & A3 & A4 & A5 & A6 & A7).
  split; [exact A5|]. split; [exact A4|]. split; [exact A6|exact A7].
Qed.
Print Assumptions C107_session.
(** Any number of sessions. *)
Theorem C107_sessions : forall oc lb g g2, careful_sessions oc lb g g2 -> forall h,
  tidy g h -> guid_ok (g_guid g) -> typed_table (g_partitions g) -> c_change_partition_count (g_config g) = false ->
  c_lb (g_config g) = lb ->
  lenN (data (g_device g2)) = lenN (data (g_device g)) /\
  (forall i, user_byte lb h i -> byte_no (data (g_device g2)) i = byte_no (data (g_device g)) i) /\
  exists h2, tidy g2 h2 /\ first_usable h2 = first_usable h /\ last_usable h <= last_usable h2 /\
    N.min 128 (num_parts h) <= num_parts h2 <= num_parts h.
Proof.
  intros oc lb g g2 S. induction S as [g|cfg fs m g ga gb C1 C2 S SS IH]; intros h T G TT HC L.
  - split; [reflexivity|]. split; [reflexivity|]. exists h. split; [exact T|]. split; [reflexivity|]. lia.
  - destruct (careful_session_keeps oc cfg fs g m ga h S (eq_trans C1 (eq_sym L)) HC T G TT) as
      (A1 & A2 & A3 & A4 & A5 & A6 & h2 & A7 & A8 & A9 & Aa).
    rewrite C1 in A6.
    destruct (IH h2 A7 A2 A3) as (B1 & B2 & h3 & B3 & B4 & B5 & B6); [congruence|congruence|].
    split; [congruence|]. split.
    + intros i U. rewrite B2, A6; auto. eapply user_byte_mono; eauto.
    + exists h3. split; [exact B3|]. split; [congruence|]. split; lia.
Qed.
Print Assumptions C107_sessions.
(** In particular for a disk the library created: it keeps its 128 entries. *)
Theorem C107_created : forall oc cfg u rnd d g d' g2,
  fault_free d -> addressable d -> guid_ok (match u with Some u => u | None => rnd end) ->
  c_change_partition_count cfg = false -> create_from_device oc cfg u rnd d = (Ok g, d') ->
  careful_sessions oc (c_lb cfg) g g2 ->
  (exists h2, tidy g2 h2 /\ first_usable h2 = 2 + min_array (c_lb cfg) /\ num_parts h2 = 128 /\
     last_whole_block (c_lb cfg) d - min_array (c_lb cfg) - 1 <= last_usable h2) /\
  forall i, i < lb_u64 (c_lb cfg) \/ (2 + min_array (c_lb cfg)) * lb_u64 (c_lb cfg) <= i <
      (last_whole_block (c_lb cfg) d - min_array (c_lb cfg)) * lb_u64 (c_lb cfg) ->
    byte_no (data (g_device g2)) i = byte_no (data d) i.
Proof.
  intros oc cfg u rnd d g d' g2 HF HA GO HC E S.
  destruct (C43_create oc cfg u rnd d HF HA GO) as (A & B).
  destruct (N.le_gt_cases (2 * min_array (c_lb cfg) + 4) (lenN (data d) / lb_u64 (c_lb cfg))) as [L|L].
  - destruct (A L) as (g1 & h & E1 & H1 & H2 & H3 & H4 & H5 & H6 & H7 & H8 & H9 & Ha & Hb & Hc & Hd & He & _).
    rewrite E in E1. injection E1 as EG ED. subst g1 d'.
    destruct (C43_created_tidy oc cfg u rnd d g d HF HA GO E) as (h' & T & _).
    assert (h' = h) by (eapply header_of_fun; [apply T|exact H1]). subst h'.
    destruct (C107_sessions oc (c_lb cfg) g g2 S h T) as (_ & B2 & h2 & B3 & B4 & B5 & B6).
    + congruence.
    + rewrite H3. intros k p [].
    + congruence.
    + congruence.
    + split; [exists h2; split; [exact B3|]; split; [congruence|]; split; [lia|lia]|].
      intros i I. rewrite <- H2. apply B2. unfold user_byte. rewrite Hd, He.
      destruct I as [I|I]; [left; exact I|right].
      replace (last_whole_block (c_lb cfg) d - min_array (c_lb cfg) - 1 + 1) with
        (last_whole_block (c_lb cfg) d - min_array (c_lb cfg)); [exact I|].
      unfold last_whole_block. lia.
  - destruct (B L) as (e & E1 & _). congruence.
Qed.
Print Assumptions C107_created.
(** A partition put into the gap after two others, then a table given whole. *)
Definition careful_start : gdisk := set_device wide_dev (wide_disk two_parts).
Definition careful_added : gdisk :=
  set_partitions (pm_insert 4 (mkPart (mkType linux_fs OsLinux) sample_guid 52 54 0 [120]) two_parts) careful_start.
Definition careful_table : pmap := [(2, part_at 40 44); (7, part_at 45 60)].
Example C107_case : tidy careful_start wide_header /\ typed_table two_parts /\
  exists g', careful_run true
      [OpAddAt [120] 4 52 3 (mkType linux_fs OsLinux) 0 sample_guid; OpUpdatePartitions careful_table] careful_start g' /\
    g_partitions careful_added <> two_parts /\ g_partitions g' = careful_table.
Proof.
  assert (T : tidy careful_start wide_header).
  { constructor; [unfold addressable; cbn [careful_start set_device g_device]; rewrite wide_len; reflexivity
      |left; reflexivity|apply wide_layout|apply wide_usable|apply two_parts_arranged]. }
  assert (TT : typed_table two_parts).
  { intros k p [E|[E|[]]]; injection E as <- <-; repeat split; repeat constructor; unfold char_ok; lia. }
  assert (AR : arranged wide_header careful_table).
  { constructor.
    - repeat constructor.
    - intros k p [E|[E|[]]] _; injection E as <- <-; cbn; lia.
    - intros j p k q [E|[E|[]]] [E'|[E'|[]]] _ _ NE x; injection E as <- <-; injection E' as <- <-;
        unfold covers; cbn; lia. }
  assert (H1 : forall h, header_of careful_added h -> h = wide_header).
  { intros h X. eapply header_of_fun; [exact X|left; reflexivity]. }
  assert (S1 : step true (OpAddAt [120] 4 52 3 (mkType linux_fs OsLinux) 0 sample_guid) careful_start = Some careful_added).
  { unfold careful_added, careful_start. generalize wide_dev. intros d. vm_compute. reflexivity. }
  assert (T1 : tidy careful_added wide_header).
  { destruct T as [A1 A2 A3 A4 A5]. constructor; auto. apply arranged_insert; [exact two_parts_arranged|].
    intros _. split; [cbn; lia|]. intros x X. unfold covers in X. cbn in X. split; [cbn; lia|].
    intros k p [E|[E|[]]] _; injection E as <- <-; unfold covers; cbn; lia. }
  split; [exact T|]. split; [exact TT|].
  exists (snd (update_partitions true careful_table careful_added)). split; [|split].
  - apply cr_call with careful_added.
    + intros h HH. apply H1 in HH. subst h. intros x X. split; [cbn; lia|].
      intros k p [E|[E|[]]] _; injection E as <- <-; unfold covers; cbn; lia.
    + repeat split; repeat constructor; unfold char_ok; lia.
    + exact S1.
    + apply cr_call with (snd (update_partitions true careful_table careful_added)).
      * intros h HH. apply H1 in HH. subst h. exact AR.
      * intros k p [E|[E|[]]]; injection E as <- <-; repeat split; repeat constructor; unfold char_ok; lia.
      * cbn [step]. pose proof (C107_update_accepted true careful_table careful_added wide_header T1) as X.
        destruct (update_partitions true careful_table careful_added) as [r g2]. cbn [fst snd] in *. rewrite X; try reflexivity.
        -- apply AR.
        -- intros p [E|[E|[]]]; discriminate.
        -- vm_compute. discriminate.
        -- vm_compute. discriminate.
      * constructor.
  - discriminate.
  - assert (X : g_partitions (snd (update_partitions true careful_table careful_added)) = careful_table); [|exact X].
    pose proof (C107_update_accepted true careful_table careful_added wide_header T1) as X.
    destruct (update_partitions true careful_table careful_added) as [r g2] eqn:E. cbn [fst snd] in *.
    rewrite X in E; try reflexivity.
    + apply (C73_accepted true careful_table careful_added wide_header g2 (ti_header _ _ T1) (ar_map _ _ AR)) in E;
        [|reflexivity]. apply E.
    + apply AR.
    + intros p [E'|[E'|[]]]; discriminate.
    + vm_compute. discriminate.
    + vm_compute. discriminate.
Qed.
