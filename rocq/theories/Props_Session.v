(** Props_Session.v - working with a disk in several sessions. *)
From Verif Require Import Samples SessionFacts Props_Alloc Props_Build.
Open Scope list_scope.
Open Scope N_scope.

(** * C63: what one session leaves is a good start for the next *)
(** Device operations may fail at any point of a session; only the last write has to report success. *)
Theorem C63_session : forall oc cfg ops fs g h m g2,
  tidy g h -> typed_table (g_partitions g) -> c_change_partition_count (g_config g) = false ->
  c_lb cfg = c_lb (g_config g) -> Forall (fun o => tidy_op oc (c_lb cfg) o /\ typed_op o) ops ->
  session oc cfg ops fs g m g2 ->
  read_back m (g_partitions g2) /\ lenN (data (g_device g2)) = lenN (data (g_device g)) /\
  (forall i, user_byte (c_lb cfg) h i -> byte_no (data (g_device g2)) i = byte_no (data (g_device g)) i) /\
  g_config g2 = cfg /\ typed_table (g_partitions g2) /\
  exists h2, tidy g2 h2 /\ first_usable h2 = first_usable h /\ last_usable h <= last_usable h2 /\
    num_parts h2 = num_parts h.
Proof.
  intros oc cfg ops fs g h m g2 T TT HC GC F S.
  destruct (session_tidy oc cfg ops fs g h m g2 T GC TT HC F S) as (A1 & A2 & A3 & A4 & A5 & A6).
  split; [exact A4|]. split; [exact A3|]. split; [exact A5|]. split; [exact A1|]. split; [exact A2|exact A6].
Qed.
Print Assumptions C63_session.
(** Any number of sessions: partitions stay apart and inside the usable blocks, and no byte of block 0 or of
    the usable blocks changes. *)
Theorem C63_sessions : forall oc lb g h g2,
  sessions oc lb (fun o => tidy_op oc lb o /\ typed_op o) g g2 ->
  tidy g h -> typed_table (g_partitions g) -> c_change_partition_count (g_config g) = false ->
  c_lb (g_config g) = lb ->
  lenN (data (g_device g2)) = lenN (data (g_device g)) /\
  (forall i, user_byte lb h i -> byte_no (data (g_device g2)) i = byte_no (data (g_device g)) i) /\
  exists h2, tidy g2 h2 /\ first_usable h2 = first_usable h /\ last_usable h <= last_usable h2 /\
    num_parts h2 = num_parts h.
Proof.
  intros oc lb g h g2 S. revert h. induction S as [g|cfg ops fs m g ga gb C1 C2 F S SS IH]; intros h T TT HC L.
  - split; [reflexivity|]. split; [reflexivity|]. exists h. split; [exact T|]. split; [reflexivity|].
    split; [apply N.le_refl|reflexivity].
  - rewrite <- C1 in F.
    destruct (C63_session oc cfg ops fs g h m ga T TT HC (eq_trans C1 (eq_sym L)) F S) as
      (A1 & A2 & A3 & A4 & A5 & h2 & A6 & A7 & A8 & A9).
    rewrite C1 in A3.
    destruct (IH h2 A6 A5) as (B1 & B2 & h3 & B3 & B4 & B5 & B6); [congruence|congruence|].
    split; [congruence|]. split.
    + intros i U. rewrite B2, A3; auto. eapply user_byte_mono; eauto.
    + exists h3. split; [exact B3|]. split; [congruence|]. split; [lia|congruence].
Qed.
Print Assumptions C63_sessions.
(** In particular for a disk the library created. *)
Theorem C63_created : forall oc cfg u rnd d g d' g2,
  fault_free d -> addressable d -> guid_ok (match u with Some u => u | None => rnd end) ->
  c_change_partition_count cfg = false ->
  create_from_device oc cfg u rnd d = (Ok g, d') ->
  sessions oc (c_lb cfg) (fun o => tidy_op oc (c_lb cfg) o /\ typed_op o) g g2 ->
  (exists h2, tidy g2 h2 /\ num_parts h2 = 128 /\ first_usable h2 = 2 + min_array (c_lb cfg) /\
     last_whole_block (c_lb cfg) d - min_array (c_lb cfg) - 1 <= last_usable h2) /\
  forall i, i < lb_u64 (c_lb cfg) \/ (2 + min_array (c_lb cfg)) * lb_u64 (c_lb cfg) <= i <
      (last_whole_block (c_lb cfg) d - min_array (c_lb cfg)) * lb_u64 (c_lb cfg) ->
    byte_no (data (g_device g2)) i = byte_no (data d) i.
Proof.
  intros oc cfg u rnd d g d' g2 HF HA GO HC E S.
  destruct (C43_create oc cfg u rnd d HF HA GO) as (A & B).
  destruct (N.le_gt_cases (2 * min_array (c_lb cfg) + 4) (lenN (data d) / lb_u64 (c_lb cfg))) as [L|L].
  - destruct (A L) as (g1 & h & E1 & H1 & H2 & H3 & H4 & H5 & H6 & H7 & H8 & H9 & Ha & Hb & Hc & Hd & He & _).
    rewrite E in E1. injection E1 as EG ED. subst g1 d'.
    destruct (C43_created_tidy oc cfg u rnd d g d HF HA GO E) as (h' & T & _).
    assert (h' = h) by (eapply header_of_fun; [apply T|exact H1]). subst h'.
    destruct (C63_sessions oc (c_lb cfg) g h g2 S T) as (_ & B2 & h2 & B3 & B4 & B5 & B6).
    + rewrite H3. intros k p [].
    + congruence.
    + congruence.
    + split; [exists h2; split; [exact B3|]; split; [congruence|]; split; [congruence|lia]|].
      intros i I. rewrite <- H2. apply B2. unfold user_byte. rewrite Hd, He.
      destruct I as [I|I]; [left; exact I|right].
      replace (last_whole_block (c_lb cfg) d - min_array (c_lb cfg) - 1 + 1) with
        (last_whole_block (c_lb cfg) d - min_array (c_lb cfg)); [exact I|].
      unfold last_whole_block. lia.
  - destruct (B L) as (e & E1 & _). congruence.
Qed.
Print Assumptions C63_created.
(** A session in which the first write fails half way, and one that removes the partition. *)
Definition one_part : gdisk := mini_disk [(1, sample_part)].
Example C63_faulty_case : exists g2 g3 m,
  tidy one_part mini_header /\ typed_table (g_partitions one_part) /\
  session true mini_config [OpWrite] [None; None; None; Some 3%nat] one_part (g_partitions one_part) g2 /\
  fst (write_inplace true (set_device (with_faults [None; None; None; Some 3%nat] mini_dev) one_part)) <> Ok tt /\
  session true config_default [OpRemove 1] [] (set_config mini_config g2) m g3 /\
  map fst (g_partitions g2) = [1] /\ g_partitions g3 = [].
Proof.
  do 3 eexists. split; [|split; [|split; [|split; [|split; [|split]]]]].
  - constructor; [apply mini_addressable|apply mini_header_of|apply mini_layout|unfold usable_ok; cbn; lia|].
    constructor.
    + repeat constructor.
    + intros k p [E|[]] _. injection E as <- <-. cbn. lia.
    + intros j p k q [E|[]] [E'|[]] _ _ NE. injection E as <- <-. injection E' as <- <-. congruence.
  - intros k p [E|[]]. injection E as <- <-. destruct sample_part_ok. repeat split; auto.
  - do 2 eexists. split; [vm_compute; reflexivity|]. split; [vm_compute; reflexivity|].
    split; [vm_compute; reflexivity|]. vm_compute; reflexivity.
  - vm_compute. discriminate.
  - do 2 eexists. split; [vm_compute; reflexivity|]. split; [vm_compute; reflexivity|].
    split; [vm_compute; reflexivity|]. vm_compute; reflexivity.
  - vm_compute. reflexivity.
  - vm_compute. reflexivity.
Qed.
(** A session that adds a partition to two others. *)
Example C63_adding_case : let g := set_device wide_dev (wide_disk two_parts) in
  exists m g2, session true mini_config [OpAdd [120] 1025 (mkType linux_fs OsLinux) 0 (Some 8) sample_guid] [] g m g2 /\
    map (fun x => (fst x, first_lba (snd x), last_lba (snd x))) m = [(1, 40, 44); (2, 56, 58); (3, 50, 50)] /\
    typed_table two_parts.
Proof.
  intros g.
  assert (X : exists m', run true [OpAdd [120] 1025 (mkType linux_fs OsLinux) 0 (Some 8) sample_guid] g =
     Some (set_partitions m' g) /\ m' = [(1, part_at 40 44); (2, mkPart (mkType linux_fs OsLinux) sample_guid 56 58 0 [120]); (3, part_at 50 50)]).
  { eexists. split; [|reflexivity]. unfold g. cbn [set_device]. lazy -[wide_dev wide_header]. reflexivity. }
  destruct X as (m' & X1 & X2). exists m'.
  assert (RD : ready (set_partitions m' g) wide_header).
  { constructor; [reflexivity|left; reflexivity| |apply wide_layout| |].
    - unfold addressable. cbn [set_partitions g set_device g_device]. rewrite wide_len. reflexivity.
    - cbn [set_partitions g_partitions]. rewrite X2. vm_compute. discriminate.
    - cbn [set_partitions g_partitions]. rewrite X2. cbn. repeat constructor; cbn; try reflexivity; unfold char_ok; lia. }
  destruct (C17_write_then_open_primary true true _ _ mini_config RD) as (gw & hp & hb & g2 & K1 & K2 & _);
    [reflexivity|reflexivity|reflexivity|].
  exists g2. split; [|split].
  - exists (set_partitions m' g), gw. split; [exact X1|]. split; [reflexivity|]. split; [exact K1|].
    destruct (drf_write true _ _ _ K1) as (_ & W). change (repaired_disk (set_partitions m' g)) with (set_partitions m' g) in W.
    rewrite K1 in W. injection W as W. rewrite W in K2. exact K2.
  - rewrite X2. reflexivity.
  - intros k p [E|[E|[]]]; injection E as <- <-; repeat split; repeat constructor; unfold char_ok; lia.
Qed.
