(** SessionFacts.v - lemmas about sessions. *)
From Verif Require Export SpecSession FaultFacts CountFacts Props_Alloc Props_Write.
Open Scope list_scope.
Open Scope N_scope.

Lemma typed_ok h m k p : usable_ok h -> arranged h m -> typed_table m -> has m k p -> used p -> partition_ok p.
Proof.
  intros (_ & _ & U) A T H Hu. destruct (ar_range _ _ A k p H Hu) as (A1 & A2 & A3).
  destruct (T k p H) as (T1 & T2 & T3 & T4). constructor; auto; lia.
Qed.
Lemma used_in_order_in m p : In p (used_in_order m) -> used p /\ exists k, has m k p.
Proof.
  unfold used_in_order. intros H. apply filter_In in H. destruct H as (H & U). split.
  - rewrite used_iff. unfold used_dec in U. unfold is_used. 
    destruct (list_eq_dec _ _ _) as [E|E]; [discriminate|]. apply negb_true_iff. apply bytes_eqb_neq. exact E.
  - apply in_map_iff in H. destruct H as ((k, q) & <- & H). exists k. exact H.
Qed.
(** * Types *)
Lemma typed_insert m k p : map_ok m -> typed_table m -> typed p -> typed_table (pm_insert k p m).
Proof.
  intros M T P j q H. destruct (placed_insert m k p M) as (_ & X). apply X in H.
  destruct H as [(_ & ->)|(_ & H)]; [exact P|eapply T, H].
Qed.
Lemma typed_remove m k : map_ok m -> typed_table m -> typed_table (pm_remove k m).
Proof. intros M T j q H. apply (has_remove m M) in H. eapply T, H. Qed.
Lemma typed_step oc o g h g' : c_change_partition_count (g_config g) = false ->
  tidy_op oc (c_lb (g_config g)) o -> typed_op o -> tidy g h -> typed_table (g_partitions g) ->
  step oc o g = Some g' -> typed_table (g_partitions g').
Proof.
  intros HC TO TY [T1 T2 T3 T4 T5] TT E. assert (M := ar_map _ _ T5).
  destruct o; cbn [tidy_op typed_op] in TO, TY; try contradiction; cbn [step] in E.
  - assert (S1 : 1 <= size).
    { destruct (N.eq_dec size 0) as [->|NE]; [|lia]. unfold add_partition in E. cbn in E. discriminate. }
    assert (NP : fst (add_partition oc nm size ty fl al rnd g) <> Panic).
    { destruct (add_partition oc nm size ty fl al rnd g) as [[]]; cbn in E |- *; discriminate. }
    apply kept_some in E.
    destruct (add_partition_choose oc nm size ty fl al rnd g h T2 T4 T5 S1 TO) as [(start & _ & EQ)|[(_ & EQ)|(_ & EQ)]].
    + rewrite EQ in E. destruct (finish_add_cases oc nm (blocks_for size (c_lb (g_config g))) ty fl rnd start g h T2 HC) as [X|(id & X)].
      * rewrite X in E. subst g'. exact TT.
      * rewrite X in E. subst g'. cbn [snd set_partitions g_partitions]. apply typed_insert; auto.
    + rewrite EQ in E. subst g'. exact TT.
    + rewrite EQ in NP. destruct NP. reflexivity.
  - injection E as <-. unfold remove_partition. destruct (pm_get _ _); [|exact TT]. apply typed_remove; auto.
  - injection E as <-. unfold remove_partition_by_guid. destruct (find _ _) as [[k p]|]; [|exact TT]. apply typed_remove; auto.
  - injection E as <-. intros k p [].
  - injection E as <-. exact TT.
  - apply kept_some in E. destruct (wo_write oc g) as (_ & _ & C3 & _). rewrite E in C3. rewrite C3. exact TT.
Qed.
Lemma user_byte_mono lb h h' i : first_usable h' = first_usable h -> last_usable h <= last_usable h' ->
  user_byte lb h i -> user_byte lb h' i.
Proof.
  unfold user_byte. intros -> L [H|H]; [left; exact H|right].
  assert ((last_usable h + 1) * lb_u64 lb <= (last_usable h' + 1) * lb_u64 lb) by (apply N.mul_le_mono_r; lia). lia.
Qed.
Lemma user_step oc o g h g' i : tidy_op oc (c_lb (g_config g)) o -> tidy g h ->
  user_byte (c_lb (g_config g)) h i -> step oc o g = Some g' ->
  byte_no (data (g_device g')) i = byte_no (data (g_device g)) i.
Proof.
  intros TO T U E. destruct (C15_calls_do_not_write oc g) as (A1 & A2 & A3 & A4 & A5 & A6 & A7).
  destruct o; cbn [tidy_op] in TO; try contradiction; cbn [step] in E.
  - apply kept_some in E. specialize (A1 nm size ty fl al rnd). rewrite E in A1. destruct A1 as (-> & _). reflexivity.
  - injection E as <-. rewrite A4. reflexivity.
  - injection E as <-. rewrite A5. reflexivity.
  - injection E as <-. reflexivity.
  - injection E as <-. reflexivity.
  - apply kept_some in E. rewrite <- E. apply (C16_usable_area_preserved oc g h i (ti_header _ _ T) (ti_size _ _ T) (ti_layout _ _ T)).
    unfold user_byte in U. tauto.
Qed.
(** * A history in one session *)
Lemma run_tidy oc ops : forall g h g', tidy g h -> c_change_partition_count (g_config g) = false ->
  typed_table (g_partitions g) ->
  Forall (fun o => tidy_op oc (c_lb (g_config g)) o /\ typed_op o) ops -> run oc ops g = Some g' ->
  g_config g' = g_config g /\ lenN (data (g_device g')) = lenN (data (g_device g)) /\
  typed_table (g_partitions g') /\
  (forall i, user_byte (c_lb (g_config g)) h i -> byte_no (data (g_device g')) i = byte_no (data (g_device g)) i) /\
  exists h', tidy g' h' /\ first_usable h' = first_usable h /\ last_usable h <= last_usable h' /\
    num_parts h' = num_parts h.
Proof.
  induction ops as [|o ops IH]; intros g h g' T HC TT F; cbn [run].
  - intros E. injection E as <-. do 4 (split; [auto|]). exists h. split; [exact T|]. split; [reflexivity|].
    split; [apply N.le_refl|reflexivity].
  - destruct (step oc o g) as [g1|] eqn:E; [|discriminate]. intros R. inversion F as [|a l (F1 & F1') F2]; subst.
    assert (TT1 := typed_step oc o g h g1 HC F1 F1' T TT E).
    assert (US := fun i U => user_step oc o g h g1 i F1 T U E).
    destruct T as [T1 T2 T3 T4 T5].
    destruct (tidy_step oc o g h g1 HC F1 T1 T2 T3 T4 T5 E) as (C & L & h1 & A1 & A2 & A3 & A4 & A5 & A6 & A7).
    destruct (IH g1 h1 g') as (B1 & B2 & B3 & B4 & h2 & B5 & B6 & B7 & B8); auto.
    + constructor; auto; [unfold addressable; rewrite L; exact T1|rewrite C, L; exact A2].
    + rewrite C. exact HC.
    + rewrite C. exact F2.
    + split; [congruence|]. split; [congruence|]. split; [exact B3|]. split.
      * intros i U. rewrite B4; [apply US, U|]. rewrite C. eapply user_byte_mono; eauto.
      * exists h2. split; [exact B5|]. split; [congruence|]. split; [lia|congruence].
Qed.
(** * The table read back *)
Lemma same_entry_used p q : same_entry p q -> used p -> used q.
Proof. intros S. unfold used. rewrite (se_type _ _ S). auto. Qed.
Lemma same_entry_typed p q : partition_ok p -> same_entry p q -> typed q.
Proof.
  intros P S. rewrite partition_ok_iff in P.
  destruct (parse_entry_total (as_bytes p 128)) as (r & E & W & _).
  { pose proof (as_bytes_lenN p 128) as X. unfold lenN in X. lia. }
  rewrite parse_entry_as_bytes in E by exact P. injection E as <-.
  rewrite <- partition_ok_iff in W. destruct W as [W1 W2 W3 W4 W5 W6].
  rewrite <- partition_ok_iff in P. destruct P as [P1 P2 P3 P4 P5 P6].
  unfold typed. rewrite (se_type _ _ S), (se_guid _ _ S), (se_flags _ _ S), (se_name _ _ S).
  repeat split; auto. rewrite kept_36. exact W6.
Qed.
Lemma has_number ps : forall i k p, has (number i ps) k p -> exists n, nth_error ps n = Some p /\ k = i + N.of_nat n.
Proof.
  induction ps as [|q ps IH]; intros i k p H; cbn [number] in H; [destruct H|].
  destruct H as [H|H].
  - injection H as <- <-. exists 0%nat. split; [reflexivity|lia].
  - destruct (IH _ _ _ H) as (n & A & B). exists (S n). split; [exact A|lia].
Qed.
Lemma map_ok_number ps : forall i, map_ok (number i ps).
Proof.
  induction ps as [|q ps IH]; intros i; cbn [number]; [constructor|]. apply map_ok_cons. split; [apply IH|].
  apply Forall_forall. intros (k, p) H. destruct (has_number _ _ _ _ H) as (n & _ & ->). cbn [fst]. lia.
Qed.
Lemma Forall2_nth {A B} (R : A -> B -> Prop) l l' : Forall2 R l l' -> forall n b, nth_error l' n = Some b ->
  exists a, nth_error l n = Some a /\ R a b.
Proof.
  induction 1 as [|x y l l' H F IH]; intros n b E; destruct n; cbn in *; try discriminate.
  - injection E as <-. eauto.
  - apply IH, E.
Qed.
(** Used partitions at different places in the order come from different ids. *)
Lemma used_order_ids m : map_ok m -> forall i j p q, nth_error (used_in_order m) i = Some p ->
  nth_error (used_in_order m) j = Some q -> i <> j -> exists k l, k <> l /\ has m k p /\ has m l q.
Proof.
  induction m as [|(k, r) m IH]; intros M i j p q A B NE.
  - destruct i; discriminate.
  - apply map_ok_cons in M. destruct M as (M & F). unfold used_in_order in A, B. cbn [map snd filter] in A, B.
    assert (X : forall n x, nth_error (used_in_order m) n = Some x -> exists l, k <> l /\ has m l x).
    { intros n x N. apply nth_error_In, used_in_order_in in N. destruct N as (_ & l & N). exists l. split; [|exact N].
      rewrite Forall_forall in F. specialize (F _ N). cbn in F. lia. }
    assert (Y : forall i j, nth_error (used_in_order m) i = Some p -> nth_error (used_in_order m) j = Some q -> i <> j ->
      exists a l, a <> l /\ has ((k, r) :: m) a p /\ has ((k, r) :: m) l q).
    { intros i' j' A' B' N'. destruct (IH M i' j' p q A' B' N') as (a & l & N & H1 & H2).
      exists a, l. split; [exact N|]. split; right; assumption. }
    destruct (used_dec r); [|apply (Y i j); assumption].
    destruct i as [|i], j as [|j]; cbn [nth_error] in A, B; [congruence| | |].
    + injection A as <-. destruct (X j q B) as (l & N & H). exists k, l. split; [exact N|]. split; [left; reflexivity|right; exact H].
    + injection B as <-. destruct (X i p A) as (l & N & H). exists l, k. split; [auto|]. split; [right; exact H|left; reflexivity].
    + apply (Y i j); auto.
Qed.
Lemma read_back_arranged h m m' : arranged h m -> read_back m m' -> arranged h m'.
Proof.
  intros A (qs & -> & F). rewrite numbered_eq.
  assert (X : forall k q, has (number 1 qs) k q -> exists n p, k = 1 + N.of_nat n /\ nth_error (used_in_order m) n = Some p /\
     same_entry p q /\ used p /\ exists j, has m j p).
  { intros k q H. destruct (has_number _ _ _ _ H) as (n & N & E). destruct (Forall2_nth _ _ _ F _ _ N) as (p & P & S).
    exists n, p. split; [exact E|]. split; [exact P|]. split; [exact S|]. apply nth_error_In, used_in_order_in in P. exact P. }
  constructor.
  - apply map_ok_number.
  - intros k q H U. destruct (X k q H) as (n & p & _ & _ & S & U' & j & J).
    rewrite (se_first _ _ S), (se_last _ _ S). eapply ar_range; eauto.
  - intros j p k q H1 H2 U1 U2 NE x (C1 & C2).
    destruct (X j p H1) as (n & p' & E1 & N1 & S1 & V1 & _). destruct (X k q H2) as (n' & q' & E2 & N2 & S2 & V2 & _).
    destruct (used_order_ids m (ar_map _ _ A) n n' p' q' N1 N2) as (a & b & NE' & P1 & P2); [lia|].
    apply (ar_apart _ _ A a p' b q' P1 P2 V1 V2 NE' x). unfold covers in *.
    rewrite (se_first _ _ S1), (se_last _ _ S1) in C1. rewrite (se_first _ _ S2), (se_last _ _ S2) in C2. auto.
Qed.
Lemma read_back_typed m m' : (forall p, In p (used_in_order m) -> partition_ok p) -> read_back m m' -> typed_table m'.
Proof.
  intros A (qs & -> & F) k q H. rewrite numbered_eq in H. destruct (has_number _ _ _ _ H) as (n & N & _).
  destruct (Forall2_nth _ _ _ F _ _ N) as (p & P & S). apply nth_error_In in P. eapply same_entry_typed; eauto.
Qed.
Lemma open_config oc cfg d g d' : open_from_device oc cfg d = (Ok g, d') ->
  g_config g = cfg /\ g_device g = d' /\ same_medium d d'.
Proof.
  intros H. assert (U := untouched_open oc cfg d). rewrite H in U. cbn [snd] in U. unfold open_from_device in H.
  apply bind_inv in H. destruct H as (r1 & d1 & _ & H). apply bind_inv in H. destruct H as (r2 & d2 & _ & H).
  apply bind_inv in H. destruct H as ((a, b) & d3 & _ & H). apply bind_inv in H. destruct H as (h & d4 & _ & H).
  apply bind_inv in H. destruct H as (t & d5 & _ & H). injection H as <- <-. split; [reflexivity|]. split; [reflexivity|exact U].
Qed.
(** Opening with [only_valid_headers] finds what opening without it finds. *)
Definition relaxed (cfg : config) : config :=
  mkConfig (c_lb cfg) (c_writable cfg) false (c_readonly_backup cfg) (c_change_partition_count cfg).
Lemma open_relax oc cfg d g d' : open_from_device oc cfg d = (Ok g, d') ->
  open_from_device oc (relaxed cfg) d = (Ok (set_config (relaxed cfg) g), d').
Proof.
  unfold open_from_device, relaxed. cbn [c_lb c_only_valid_headers]. unfold bind.
  destruct (attempt (read_primary_header (c_lb cfg)) d) as [[h1|e|] d1]; try discriminate.
  destruct (attempt (read_backup_header (c_lb cfg)) d1) as [[h2|e|] d2]; try discriminate.
  intros H.
  assert (X : exists h, or_else h1 h2 = Ok h /\ exists t, map_err GIo (file_read_partitions oc h (c_lb cfg)) d2 = (Ok t, d') /\
    g = mkGdisk cfg d' (disk_guid h) h1 h2 t false).
  { destruct (c_only_valid_headers cfg).
    - destruct h1 as [a|e|]; try discriminate. destruct h2 as [b|e|]; try discriminate.
      cbn -[file_read_partitions map_err] in H. exists a. split; [reflexivity|].
      destruct (map_err GIo (file_read_partitions oc a (c_lb cfg)) d2) as [[t|e|] d3]; try discriminate.
      injection H as <- <-. exists t. split; reflexivity.
    - assert (Y : exists h, or_else h1 h2 = Ok h /\
        match map_err GIo (file_read_partitions oc h (c_lb cfg)) d2 with
        | (Ok t, s') => (Ok (mkGdisk cfg s' (disk_guid h) h1 h2 t false), s')
        | (Err e, s') => (Err e, s') | (Panic, s') => (Panic, s') end = (Ok g, d')).
      { destruct h1 as [a|e|], h2 as [b|e'|]; try discriminate; eexists; (split; [reflexivity|exact H]). }
      destruct Y as (h & Y1 & Y2). exists h. split; [exact Y1|].
      destruct (map_err GIo (file_read_partitions oc h (c_lb cfg)) d2) as [[t|e|] d3]; try discriminate.
      injection Y2 as <- <-. exists t. split; reflexivity. }
  destruct X as (h & X1 & t & X2 & ->).
  destruct h1 as [a|e|], h2 as [b|e'|]; try discriminate; cbn in X1; try discriminate; injection X1 as ->;
    cbn -[file_read_partitions map_err]; rewrite X2; reflexivity.
Qed.
(** * One session *)
Lemma session_tidy oc cfg ops fs g h m g2 : tidy g h -> c_lb cfg = c_lb (g_config g) -> typed_table (g_partitions g) ->
  c_change_partition_count (g_config g) = false ->
  Forall (fun o => tidy_op oc (c_lb cfg) o /\ typed_op o) ops ->
  session oc cfg ops fs g m g2 ->
  g_config g2 = cfg /\ typed_table (g_partitions g2) /\ lenN (data (g_device g2)) = lenN (data (g_device g)) /\
  read_back m (g_partitions g2) /\
  (forall i, user_byte (c_lb cfg) h i -> byte_no (data (g_device g2)) i = byte_no (data (g_device g)) i) /\
  exists h2, tidy g2 h2 /\ first_usable h2 = first_usable h /\ last_usable h <= last_usable h2 /\ num_parts h2 = num_parts h.
Proof.
  intros T GC TT HC F (g1 & gw & R & -> & W & O).
  set (g0 := set_device (with_faults fs (g_device g)) g) in *.
  assert (T0 : tidy g0 h) by (destruct T; constructor; auto).
  destruct (run_tidy oc ops g0 h g1 T0) as (C1 & L1 & TT1 & U1 & h1 & T1 & FU & LU & NP).
  { exact HC. } { exact TT. } { cbn. rewrite <- GC. exact F. } { exact R. }
  cbn [g0 set_device g_config g_device with_faults data] in C1, L1, U1. rewrite <- GC in U1.
  destruct (drf_write oc g1 tt gw W) as (_ & W').
  set (gr := repaired_disk g1) in *.
  assert (Tr : tidy gr h1) by (destruct T1; constructor; auto).
  assert (WR : c_writable (g_config g1) = true).
  { destruct (c_writable (g_config g1)) eqn:E; [reflexivity|].
    destruct (C14_read_only oc g1 E) as (X & _). rewrite X in W. discriminate. }
  assert (CNT : lenN (used_in_order (g_partitions gr)) <= num_parts h1).
  { destruct (N.le_gt_cases (lenN (used_in_order (g_partitions gr))) (num_parts h1)) as [X|X]; [exact X|exfalso].
    assert (Z : fst (write_inplace oc gr) = Err GOverflowPartitionCount).
    { apply (write_overflow oc gr h1); auto.
      - apply header_of_iff, Tr.
      - split; [reflexivity|]. pose proof (ti_size _ _ Tr) as AD. rewrite addressable_iff in AD. exact AD.
      - apply sane_of, (ti_layout _ _ Tr).
      - rewrite <- used_in_order_eq. exact X. }
    rewrite W' in Z. discriminate. }
  assert (PO : forall p, In p (used_in_order (g_partitions g1)) -> partition_ok p).
  { intros p H. apply used_in_order_in in H. destruct H as (U & k & H).
    eapply typed_ok; [apply (ti_usable _ _ T1)|apply (ti_arranged _ _ T1)|exact TT1|exact H|exact U]. }
  assert (RD : ready gr h1).
  { constructor; [exact WR|apply Tr|apply Tr|apply Tr|exact CNT|]. apply Forall_forall. exact PO. }
  destruct (C17_write_then_open_primary oc oc gr h1 (relaxed cfg) RD) as (g' & hp & hb & g3 & K1 & K2 & K3 & K4 & K5 & K6 & K7).
  { reflexivity. } { cbn. rewrite C1. exact GC. } { reflexivity. }
  rewrite W' in K1. injection K1 as <-. cbn [repaired_disk set_device g_device] in K2.
  destruct (open_from_device oc cfg (repaired (g_device gw))) as [ro dd] eqn:OE. cbn [fst] in O. subst ro.
  rewrite (open_relax _ _ _ _ _ OE) in K2. injection K2 as <-. cbn [set_config g_primary g_partitions] in K5, K7.
  destruct (open_config _ _ _ _ _ OE) as (G1 & G2 & (D & _)).
  destruct Tr as [Q1 Q2 Q3 Q4 Q5].
  assert (ST : step oc OpWrite gr = Some (repaired_disk gw)) by (cbn [step]; rewrite W'; reflexivity).
  destruct (tidy_step oc OpWrite gr h1 (repaired_disk gw)) as (V1 & V2 & hx & V3 & V4 & V5 & V6 & V7 & V8 & V9); auto.
  { cbn. rewrite C1. exact HC. } { exact I. }
  assert (hx = hp) by (eapply header_of_fun; [exact V3|left; exact K4]). subst hx.
  cbn [repaired_disk set_device g_device repaired with_faults data gr g_config g_partitions] in *.
  assert (LEN : lenN (data (g_device g2)) = lenN (data (g_device g))) by (rewrite G2, D; congruence).
  split; [exact G1|]. split; [eapply read_back_typed; [exact PO|exact K7]|]. split; [exact LEN|]. split; [exact K7|]. split.
  - intros i U. rewrite G2, D. cbn [repaired with_faults data].
    rewrite <- (U1 i U).
    assert (QT : tidy gr h1) by (constructor; assumption). apply (user_step oc OpWrite gr h1 (repaired_disk gw) i I QT); [|exact ST].
    cbn. rewrite C1, <- GC. eapply user_byte_mono; eauto.
  - exists hp. split; [|split; [congruence|split; [lia|congruence]]].
    constructor.
    + unfold addressable. rewrite LEN. apply T.
    + left. exact K5.
    + rewrite G1, LEN. rewrite C1, L1, <- GC in V4. exact V4.
    + exact V5.
    + eapply read_back_arranged; [|exact K7]. destruct (wo_write oc gr) as (_ & _ & W3 & _).
      rewrite W' in W3. cbn in W3. eapply arranged_mono; [exact V6|exact V7|exact Q5].
Qed.
