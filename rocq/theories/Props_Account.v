(** Props_Account.v - property C103: free and used blocks add up. *)
From Verif Require Import SpecAccount SessionFacts UndoFacts Props_Alloc Samples.
From Coq Require Import Permutation.
Open Scope list_scope.
Open Scope N_scope.

Definition row (s n : N) : list N := map (fun i => s + N.of_nat i) (seq 0 (N.to_nat n)).
Lemma in_row s n x : In x (row s n) <-> s <= x < s + n.
Proof.
  unfold row. rewrite in_map_iff. split.
  - intros (i & <- & H). apply in_seq in H. lia.
  - intros H. exists (N.to_nat (x - s)). split; [lia|]. apply in_seq. lia.
Qed.
Lemma row_length s n : N.of_nat (length (row s n)) = n.
Proof. unfold row. rewrite map_length, seq_length. lia. Qed.
Lemma NoDup_row s n : NoDup (row s n).
Proof. unfold row. apply FinFun.Injective_map_NoDup; [intros i j; lia|apply seq_NoDup]. Qed.
Lemma NoDup_join {A} (a b : list A) : NoDup a -> NoDup b -> (forall x, In x a -> ~ In x b) -> NoDup (a ++ b).
Proof.
  induction a as [|x a IH]; cbn [app]; intros NA NB D; [exact NB|]. inversion NA as [|y l NI N']; subst. constructor.
  - rewrite in_app_iff. intros [H|H]; [auto|apply (D x); [left; reflexivity|exact H]].
  - apply IH; auto. intros y Hy. apply D. right. exact Hy.
Qed.
Definition rows (secs : list (N * N)) : list N := flat_map (fun s => row (fst s) (snd s)) secs.
Definition partition_rows (ps : list partition) : list N := flat_map (fun p => row (first_lba p) (extent p)) ps.
Lemma rows_length secs : N.of_nat (length (rows secs)) = total secs.
Proof.
  induction secs as [|s secs IH]; [reflexivity|]. cbn [rows flat_map total fold_right]. fold (rows secs). fold (total secs).
  rewrite app_length, Nat2N.inj_add, row_length, IH. reflexivity.
Qed.
Lemma partition_rows_length ps : N.of_nat (length (partition_rows ps)) = fold_right (fun p n => extent p + n) 0 ps.
Proof.
  induction ps as [|p ps IH]; [reflexivity|]. cbn [partition_rows flat_map fold_right]. fold (partition_rows ps).
  rewrite app_length, Nat2N.inj_add, row_length, IH. reflexivity.
Qed.
Lemma in_rows secs x : In x (rows secs) <-> exists s, In s secs /\ fst s <= x < fst s + snd s.
Proof. unfold rows. rewrite in_flat_map. split; intros (s & H1 & H2); exists s; (split; [exact H1|]); apply in_row; exact H2. Qed.
Lemma rows_NoDup secs : StronglySorted (fun s t => fst s + snd s < fst t) secs -> NoDup (rows secs).
Proof.
  induction 1 as [|s secs SS IH F]; [constructor|]. cbn [rows flat_map]. apply NoDup_join; [apply NoDup_row|exact IH|].
  intros x H1 H2. apply in_row in H1. apply in_rows in H2. destruct H2 as (t & Ht & H2). rewrite Forall_forall in F. specialize (F t Ht). cbn in F. lia.
Qed.
Lemma in_used_iff m p : In p (used_in_order m) <-> used p /\ exists k, has m k p.
Proof.
  split; [apply used_in_order_in|]. intros (U & k & H). unfold used_in_order. apply filter_In. split; [apply in_map_iff; exists (k, p); auto|].
  unfold used_dec. destruct (list_eq_dec _ _ _) as [E|E]; [destruct (U E)|reflexivity].
Qed.
Lemma partition_rows_NoDup h m : arranged h m -> NoDup (partition_rows (used_in_order m)).
Proof.
  intros [M R A]. induction m as [|(k, p) m IH]; [constructor|].
  apply map_ok_cons in M. destruct M as (M & F).
  assert (IH' : NoDup (partition_rows (used_in_order m))).
  { apply IH; [exact M| |].
    - intros j q H. apply (R j). right. exact H.
    - intros j q j' q' H H'. apply (A j q j' q'); right; assumption. }
  unfold used_in_order. cbn [map snd filter]. destruct (used_dec p) eqn:UD; [|exact IH'].
  change (NoDup (row (first_lba p) (extent p) ++ partition_rows (used_in_order m))).
  apply NoDup_join; [apply NoDup_row|exact IH'|]. intros x H1 H2. apply in_row in H1.
  unfold partition_rows in H2. apply in_flat_map in H2. destruct H2 as (q & Hq & H2). apply in_row in H2.
  apply in_used_iff in Hq. destruct Hq as (Uq & j & Hj).
  assert (Up : used p). { intros E. unfold used_dec in UD. destruct (list_eq_dec _ _ _) as [Y|Y]; [discriminate|apply Y, E]. }
  assert (NE : k <> j). { rewrite Forall_forall in F. specialize (F _ Hj). cbn in F. lia. }
  assert (HP : has ((k, p) :: m) k p) by (left; reflexivity). assert (HQ : has ((k, p) :: m) j q) by (right; exact Hj).
  pose proof (R _ _ HP Up). pose proof (R _ _ HQ Uq). unfold extent in *.
  apply (A k p j q HP HQ Up Uq NE x). unfold covers. lia.
Qed.
Lemma sections_total h m secs : usable_ok h -> arranged h m -> sections_of (free_lba h m) secs ->
  total secs + taken m = usable_blocks h.
Proof.
  intros U A S.
  assert (P : Permutation (rows secs ++ partition_rows (used_in_order m)) (row (first_usable h) (usable_blocks h))).
  { apply NoDup_Permutation; [|apply NoDup_row|].
    - apply NoDup_join; [apply rows_NoDup, S|apply (partition_rows_NoDup h m A)|].
      intros x H1 H2. apply in_rows in H1. apply (sc_exact _ _ S) in H1. destruct H1 as (_ & H1).
      unfold partition_rows in H2. apply in_flat_map in H2. destruct H2 as (q & Hq & H2). apply in_row in H2.
      apply in_used_iff in Hq. destruct Hq as (Uq & j & Hj). apply (H1 j q Hj Uq). pose proof (ar_range _ _ A _ _ Hj Uq).
      unfold covers, extent in *. lia.
    - intros x. rewrite in_app_iff, in_rows, (sc_exact _ _ S x), in_row. unfold usable_blocks. destruct U as (U1 & U2 & U3). split.
      + intros [(H & _)|H]; [lia|]. unfold partition_rows in H. apply in_flat_map in H. destruct H as (q & Hq & H2). apply in_row in H2.
        apply in_used_iff in Hq. destruct Hq as (Uq & j & Hj). pose proof (ar_range _ _ A _ _ Hj Uq). unfold extent in *. lia.
      + intros H.
        assert (D : (exists p, In p (used_in_order m) /\ covers p x) \/ ~ exists p, In p (used_in_order m) /\ covers p x).
        { induction (used_in_order m) as [|p ps IH]; [right; intros (p & [] & _)|].
          destruct IH as [(q & Hq & C)|N]; [left; exists q; split; [right; exact Hq|exact C]|].
          destruct (N.le_gt_cases (first_lba p) x) as [L|L], (N.le_gt_cases x (last_lba p)) as [L'|L'];
            try (left; exists p; split; [left; reflexivity|split; assumption]);
            right; intros (q & [<-|Hq] & C); unfold covers in *; try lia; apply N; exists q; auto. }
        destruct D as [(p & Hp & C)|N].
        * right. unfold partition_rows. apply in_flat_map. exists p. split; [exact Hp|]. apply in_row. unfold covers, extent in *. lia.
        * left. split; [lia|]. intros k p Hp Up C. apply N. exists p. split; [apply in_used_iff; eauto|exact C]. }
  apply Permutation_length in P. rewrite app_length in P. apply (f_equal N.of_nat) in P.
  rewrite Nat2N.inj_add, rows_length, partition_rows_length, row_length in P. exact P.
Qed.
(** Free blocks and used blocks together are the usable blocks: none is lost, none is counted twice. *)
Theorem C103_balance : forall oc g h, header_of g h -> usable_ok h -> arranged h (g_partitions g) ->
  exists secs, @find_free_sectors gpt_err oc g = Ok secs /\ total secs + taken (g_partitions g) = usable_blocks h.
Proof.
  intros oc g h H U A. destruct (C25_free_space_partial oc g h H U A) as (secs & E & S).
  exists secs. split; [exact E|]. apply sections_total; auto.
Qed.
Print Assumptions C103_balance.

(** Adding takes exactly the blocks asked for, removing gives back exactly the blocks of the partition. *)
Definition worth (p : partition) : N := if used_dec p then extent p else 0.
Lemma taken_cons k p m : taken ((k, p) :: m) = worth p + taken m.
Proof. unfold taken, used_in_order, worth. cbn [map snd filter]. destruct (used_dec p); [reflexivity|]. rewrite N.add_0_l. reflexivity. Qed.
Lemma taken_app a b : taken (a ++ b) = taken a + taken b.
Proof. induction a as [|(k, p) a IH]; [reflexivity|]. cbn [app]. rewrite !taken_cons, IH. lia. Qed.
Definition worth_at (k : N) (m : pmap) : N := match pm_get k m with Some p => worth p | None => 0 end.
Lemma taken_remove k m : map_ok m -> taken (pm_remove k m) + worth_at k m = taken m.
Proof.
  unfold worth_at. induction m as [|(j, q) m IH]; intros M; [reflexivity|]. apply map_ok_cons in M. destruct M as (M & F).
  cbn [pm_remove pm_get]. destruct (N.eqb_spec k j) as [->|NE].
  - rewrite taken_cons. lia.
  - rewrite !taken_cons. specialize (IH M). lia.
Qed.
Lemma taken_insert k p m : map_ok m -> taken (pm_insert k p m) + worth_at k m = worth p + taken m.
Proof.
  intros M. pose proof (taken_remove k (pm_insert k p m) (map_ok_insert m M k p)) as A. rewrite remove_insert in A by exact M.
  pose proof (taken_remove k m M) as B. unfold worth_at in A at 1.
  assert (G : pm_get k (pm_insert k p m) = Some p).
  { apply (pm_get_some _ (map_ok_insert m M k p)). apply (placed_insert m k p M). left. auto. }
  rewrite G in A. lia.
Qed.
Lemma worth_used p : used p -> worth p = extent p.
Proof. intros U. unfold worth, used_dec. destruct (list_eq_dec _ _ _) as [E|E]; [destruct (U E)|reflexivity]. Qed.
Lemma worth_unused p : ~ used p -> worth p = 0.
Proof. intros U. unfold worth, used_dec. destruct (list_eq_dec _ _ _) as [E|E]; [reflexivity|destruct U; exact E]. Qed.
Theorem C103_add : forall oc nm size ty fl al rnd g h id g',
  header_of g h -> usable_ok h -> arranged h (g_partitions g) -> num_parts h + 1 < 2 ^ 32 ->
  c_change_partition_count (g_config g) = false -> guid ty <> repeat x00 16 ->
  sensible oc al (blocks_for size (c_lb (g_config g))) ->
  add_partition oc nm size ty fl al rnd g = (Ok id, g') ->
  exists before after, @find_free_sectors gpt_err oc g = Ok before /\ @find_free_sectors gpt_err oc g' = Ok after /\
    total after + blocks_for size (c_lb (g_config g)) = total before.
Proof.
  intros oc nm size ty fl al rnd g h id g' HH HU HA N32 HC TY SE E.
  destruct (C32_no_overwrite_partial oc nm size ty fl al rnd g h id g' HH HU HA SE HC N32 E) as (((L1 & L2) & NU) & _).
  destruct (C27_lowest_position_partial oc nm size ty fl al rnd g h id g' HH HU HA SE E) as (st & SM & PL).
  assert (S1 : 1 <= size).
  { destruct (N.eq_dec size 0) as [->|NE]; [|lia]. unfold add_partition in E. cbn in E. discriminate. }
  set (n := blocks_for size (c_lb (g_config g))) in *.
  assert (N1 : 1 <= n) by (unfold n; rewrite <- blocks_ceil by exact S1; apply N.le_add_l).
  assert (EX : exists p, p = mkPart ty rnd st (st + n - 1) fl nm) by eauto. destruct EX as (p & EP). rewrite <- EP in PL.
  assert (MO := ar_map _ _ HA).
  assert (G' : g' = set_partitions (pm_insert id p (g_partitions g)) g).
  { destruct (add_partition_choose oc nm size ty fl al rnd g h HH HU HA S1 SE) as [(start & SM' & EQ)|[(_ & EQ)|(_ & EQ)]];
      rewrite E in EQ; try discriminate. symmetry in EQ. apply (finish_add_ok _ _ _ _ _ _ _ _ h) in EQ; [|exact HH].
    assert (ST : start = st) by (apply N.le_antisymm; [apply SM', SM|apply SM, SM']).
    destruct EQ as (next & _ & _ & LC & _ & EQ). fold n in EQ. rewrite ST, <- EP in EQ. apply EQ.
    apply N.nlt_ge. intros L. specialize (LC L). congruence. }
  assert (H' : header_of g' h) by (rewrite G'; exact HH).
  assert (GP : g_partitions g' = pm_insert id p (g_partitions g)) by (rewrite G'; reflexivity).
  assert (A' : arranged h (g_partitions g')).
  { rewrite GP. apply arranged_insert; [exact HA|]. intros _. rewrite EP. cbn [first_lba last_lba]. split; [lia|].
    intros x Hx. unfold covers in Hx. cbn [first_lba last_lba] in Hx. apply SM. lia. }
  destruct (C103_balance oc g h HH HU HA) as (b & E1 & B1). destruct (C103_balance oc g' h H' HU A') as (a & E2 & B2).
  exists b, a. split; [exact E1|]. split; [exact E2|].
  assert (WP : worth p = n).
  { rewrite worth_used by (rewrite EP; exact TY). rewrite EP. unfold extent. cbn [first_lba last_lba]. lia. }
  assert (WA : worth_at id (g_partitions g) = 0).
  { unfold worth_at. destruct (pm_get id (g_partitions g)) as [q|] eqn:Q; [|reflexivity]. apply worth_unused. intros U.
    apply NU. exists q. split; [apply (pm_get_some _ MO), Q|exact U]. }
  pose proof (taken_insert id p (g_partitions g) MO) as T. rewrite <- GP in T. lia.
Qed.
Print Assumptions C103_add.
Theorem C103_remove : forall oc g h k p, header_of g h -> usable_ok h -> arranged h (g_partitions g) -> has (g_partitions g) k p ->
  exists g' before after, remove_partition k g = (Some k, g') /\
    @find_free_sectors gpt_err oc g = Ok before /\ @find_free_sectors gpt_err oc g' = Ok after /\
    (used p -> total after = total before + extent p) /\ (~ used p -> after = before).
Proof.
  intros oc g h k p HH HU HA HK. assert (MO := ar_map _ _ HA).
  assert (E : remove_partition k g = (Some k, set_partitions (pm_remove k (g_partitions g)) g)).
  { unfold remove_partition. apply (pm_get_some _ MO) in HK. rewrite HK. reflexivity. }
  set (g' := set_partitions (pm_remove k (g_partitions g)) g) in *.
  assert (A' : arranged h (g_partitions g')) by (apply arranged_remove, HA).
  destruct (C25_free_space_partial oc g h HH HU HA) as (b & E1 & B1). destruct (C25_free_space_partial oc g' h HH HU A') as (a & E2 & B2).
  exists g', b, a. split; [exact E|]. split; [exact E1|]. split; [exact E2|].
  pose proof (sections_total _ _ _ HU HA B1) as S1. pose proof (sections_total _ _ _ HU A' B2) as S2.
  pose proof (taken_remove k (g_partitions g) MO) as T. unfold worth_at in T. assert (GK := HK). apply (pm_get_some _ MO) in GK. rewrite GK in T.
  change (pm_remove k (g_partitions g)) with (g_partitions g') in T. split; intros U.
  - rewrite (worth_used p U) in T. lia.
  - apply (C25_sections_unique (free_lba h (g_partitions g))); [|exact B1].
    destruct B2 as [C1 C2 C3]. constructor; auto. intros x. rewrite C3. unfold free_lba. split; intros (R & X); (split; [exact R|]); intros j q Hq Uq.
    + apply (X j q); [|exact Uq]. apply (has_remove _ MO). split; [|exact Hq]. intros ->.
      apply (pm_get_some _ MO) in Hq. apply U. replace p with q by congruence. exact Uq.
    + apply (X j q); [|exact Uq]. apply (has_remove _ MO) in Hq. apply Hq.
Qed.
Print Assumptions C103_remove.
Lemma sorted_apart secs : StronglySorted (fun s t : N * N => fst s + snd s < fst t) secs -> forall s t, In s secs -> In t secs ->
  s = t \/ fst s + snd s < fst t \/ fst t + snd t < fst s.
Proof.
  induction 1 as [|x l SS IH F]; [intros s t []|]. rewrite Forall_forall in F. intros s t [<-|Hs] [<-|Ht]; auto.
Qed.
(** What the report of free space says about additions: without alignment, there is room for [n] blocks if and only if
    one section has [n] blocks. *)
Theorem C103_largest : forall oc nm size ty fl rnd g h secs,
  header_of g h -> usable_ok h -> arranged h (g_partitions g) -> 1 <= size ->
  let n := blocks_for size (c_lb (g_config g)) in 1 + n < 2 ^ 64 ->
  @find_free_sectors gpt_err oc g = Ok secs ->
  (fst (add_partition oc nm size ty fl None rnd g) = Err GNotEnoughSpace <-> Forall (fun s => snd s < n) secs).
Proof.
  intros oc nm size ty fl rnd g h secs HH HU HA S1 n LN E.
  destruct (C25_free_space_partial oc g h HH HU HA) as (s & E' & S). rewrite E in E'. injection E' as <-.
  assert (N1 : 1 <= n) by (unfold n; rewrite <- blocks_ceil by exact S1; apply N.le_add_l).
  assert (X := C28_not_enough_space_partial oc nm size ty fl None rnd g h HH HU HA S1). cbn [alignment] in X. specialize (X ltac:(lia) LN). fold n in X.
  rewrite (proj1 X). clear X. split.
  - intros X. apply Forall_forall. intros (a, l) H. cbn [snd]. apply N.nle_gt. intros L.
    apply (X a). split; [apply N.mod_1_r|]. intros x Hx. apply (sc_exact _ _ S). exists (a, l). split; [exact H|]. cbn. lia.
  - intros F st (_ & R).
    assert (R0 := R st ltac:(lia)). apply (sc_exact _ _ S) in R0. destruct R0 as ((a, l) & IS & L0). cbn in L0.
    assert (ALL : forall i : nat, N.of_nat i < n -> a <= st + N.of_nat i < a + l).
    { induction i as [|i IH]; intros Li; [cbn; lia|]. specialize (IH ltac:(lia)).
      assert (Ri := R (st + N.of_nat (Datatypes.S i)) ltac:(lia)). apply (sc_exact _ _ S) in Ri. destruct Ri as ((a', l') & IS' & L'). cbn in L'.
      destruct (N.eq_dec a a') as [->|NE].
      - assert (l = l' \/ l <> l') as [->|NE'] by (destruct (N.eq_dec l l'); auto); [lia|]. exfalso.
        destruct (sorted_apart _ (sc_apart _ _ S) _ _ IS IS') as [Y|[Y|Y]]; [congruence| |]; cbn in Y; lia.
      - exfalso. destruct (sorted_apart _ (sc_apart _ _ S) _ _ IS IS') as [Y|[Y|Y]]; [congruence| |]; cbn in Y; lia. }
    rewrite Forall_forall in F. specialize (F _ IS). cbn in F. specialize (ALL (N.to_nat (n - 1)) ltac:(lia)). lia.
Qed.
Print Assumptions C103_largest.
(** No section is left if and only if every usable block is taken. *)
Theorem C103_full : forall oc g h, header_of g h -> usable_ok h -> arranged h (g_partitions g) ->
  (@find_free_sectors gpt_err oc g = Ok [] <-> taken (g_partitions g) = usable_blocks h).
Proof.
  intros oc g h HH HU HA. destruct (C25_free_space_partial oc g h HH HU HA) as (s & E & S).
  pose proof (sections_total _ _ _ HU HA S) as T. rewrite E. split.
  - intros X. injection X as ->. cbn in T. lia.
  - intros X. f_equal. destruct s as [|a s]; [reflexivity|]. pose proof (sc_nonempty _ _ S) as F. inversion F; subst.
    unfold total in T. cbn [fold_right] in T. lia.
Qed.
Print Assumptions C103_full.
(** Writing and opening again keeps the account of the used blocks. *)
Theorem C103_read_back : forall m m', read_back m m' -> taken m' = taken m.
Proof.
  intros m m' (qs & -> & F). unfold taken.
  assert (U : used_in_order (numbered qs) = qs).
  { assert (FU : Forall used qs).
    { apply Forall_forall. intros q H. apply In_nth_error in H. destruct H as (n & H). destruct (Forall2_nth _ _ _ F _ _ H) as (p & P & S).
      apply nth_error_In, used_in_order_in in P. eapply same_entry_used; [exact S|apply P]. }
    rewrite numbered_eq. unfold used_in_order. clear F. generalize 1. induction FU as [|q qs UQ FU IH]; intros i; [reflexivity|].
    cbn [number map snd filter]. unfold used_dec at 1. destruct (list_eq_dec _ _ _) as [E|E]; [destruct (UQ E)|]. cbn [negb]. rewrite IH. reflexivity. }
  rewrite U. clear U. induction F as [|p q l l' S F IH]; [reflexivity|]. cbn [fold_right]. rewrite IH. f_equal.
  unfold extent. rewrite (se_first _ _ S), (se_last _ _ S). reflexivity.
Qed.
Print Assumptions C103_read_back.
(** A concrete case: 27 usable blocks, 6 of them taken; 2 more blocks; then the first partition goes. *)
Example C103_case : arranged wide_header two_parts /\ usable_blocks wide_header = 27 /\ taken two_parts = 6 /\
  @find_free_sectors gpt_err true (wide_disk two_parts) = Ok [(34, 6); (45, 5); (51, 10)] /\ total [(34, 6); (45, 5); (51, 10)] = 21 /\
  (let (r, g) := add_partition true [120] 1000 (mkType linux_fs OsLinux) 0 (Some 4) sample_guid (wide_disk two_parts) in
   r = Ok 2 /\ @find_free_sectors gpt_err true g = Ok [(34, 2); (38, 2); (45, 5); (51, 10)] /\
   @find_free_sectors gpt_err true (snd (remove_partition 1 g)) = Ok [(34, 2); (38, 12); (51, 10)]) /\
  fst (add_partition true [120] 5632 (mkType linux_fs OsLinux) 0 None sample_guid (wide_disk two_parts)) = Err GNotEnoughSpace /\
  fst (add_partition true [120] 5120 (mkType linux_fs OsLinux) 0 None sample_guid (wide_disk two_parts)) = Ok 2.
Proof. split; [apply two_parts_arranged|]. vm_compute. repeat split. Qed.
