(** CarefulFacts.v - lemmas about histories of careful calls. *)
From Verif Require Export SpecCareful SessionFacts RefuseFacts.
Open Scope list_scope.
Open Scope N_scope.

(** What a step keeps. *)
Definition step_keeps (g : gdisk) (h : header) (g' : gdisk) : Prop :=
  g_config g' = g_config g /\ lenN (data (g_device g')) = lenN (data (g_device g)) /\
  guid_ok (g_guid g') /\ typed_table (g_partitions g') /\
  (forall i, user_byte (c_lb (g_config g)) h i -> byte_no (data (g_device g')) i = byte_no (data (g_device g)) i) /\
  exists h', tidy g' h' /\ first_usable h' = first_usable h /\ last_usable h <= last_usable h' /\
    N.min 128 (num_parts h) <= num_parts h' <= num_parts h.
Lemma keeps_table g h m g' : tidy g h -> guid_ok (g_guid g) -> typed_table m -> arranged h m -> g' = set_partitions m g ->
  step_keeps g h g'.
Proof.
  intros [T1 T2 T3 T4 T5] G TT A ->. do 4 (split; [auto|]). split; [reflexivity|]. exists h.
  split; [constructor; auto|]. split; [reflexivity|]. lia.
Qed.
Lemma keeps_table_dev g h m d g' : tidy g h -> guid_ok (g_guid g) -> typed_table m -> arranged h m ->
  same_media (g_device g) d -> g' = set_device d (set_partitions m g) -> step_keeps g h g'.
Proof.
  intros [T1 T2 T3 T4 T5] G TT A (D & _) ->. split; [reflexivity|]. cbn. rewrite D. do 3 (split; [auto|]).
  split; [reflexivity|]. exists h.
  split; [constructor; auto|].
  - unfold addressable. cbn. rewrite D. exact T1.
  - cbn. rewrite D. exact T3.
  - split; [reflexivity|]. lia.
Qed.
Lemma careful_update oc pp g h g' : c_change_partition_count (g_config g) = false -> tidy g h -> guid_ok (g_guid g) ->
  typed_table pp -> arranged h pp -> typed_table (g_partitions g) -> step oc (OpUpdatePartitions pp) g = Some g' ->
  step_keeps g h g'.
Proof.
  intros HC T G TT A T0. cbn [step]. unfold update_partitions. unfold bind at 1.
  destruct (pm_get 0 pp); [discriminate|]. cbn [ret]. unfold bind at 1, check_count.
  rewrite (the_header_of g h (ti_header _ _ T)). cbn [obind]. rewrite HC.
  destruct (num_parts_would_change h (lenN pp mod modulus 32)) eqn:W; cbn [andb negb].
  { cbn [kept]. intros E. injection E as <-. apply (keeps_table g h (g_partitions g) g T G T0 (ti_arranged _ _ T)). destruct g; reflexivity. }
  unfold bind at 1. set (gp := set_partitions pp g).
  unfold init_headers. unfold bind at 1, on_device, map_err.
  pose proof (untouched_find_backup_lba (c_lb (g_config gp)) (g_device gp)) as U.
  destruct (find_backup_lba (c_lb (g_config gp)) (g_device gp)) as [[n|x|] d] eqn:F; cbn [omap_err snd] in *; try discriminate.
  2: { cbn [kept]. intros E. injection E as <-. apply (keeps_table_dev g h pp d); auto. }
  apply find_backup_value in F. cbn zeta. set (g1 := set_device d gp).
  match goal with |- kept ?x = _ -> _ => change x with (init_with oc g1 n) end.
  set (lb := c_lb (g_config g)) in *.
  assert (TH : try_header g1 = Ok h).
  { pose proof (@the_header_of gpt_err g h (ti_header _ _ T)) as X. unfold the_header in X.
    change (try_header g1) with (try_header g). destruct (try_header g); congruence. }
  destruct T as [T1 T2 T3 T4 T5]. assert (SA := sane_of _ _ _ T3). destruct SA as [S1 S2 S3 S4 S5 S6 S7 S8].
  fold lb in S1, S2, S3, S4, S5, S6, S7, S8.
  assert (NC : next_count g1 <= num_parts h).
  { apply N.nlt_ge. intros X. change (next_count g1) with (N.max (lenN pp mod modulus 32) 128) in X.
    apply would_change_iff in X. congruence. }
  assert (AM := ablocks_mono _ _ lb NC). set (t' := ablocks (next_count g1) 128 lb) in *.
  set (t := ablocks (num_parts h) 128 lb) in *.
  assert (LP := lb_pos lb).
  assert (BN : blba h <= n /\ (n + 1) * lb_u64 lb <= lenN (data (g_device g)) /\ n < modulus 64).
  { change (g_config gp) with (g_config g) in F. change (g_device gp) with (g_device g) in F. fold lb in F.
    unfold last_block, dev_len in F. change (addressable (g_device g)) in T1. rewrite addressable_iff in T1.
    unfold dev_len in *. set (len := lenN (data (g_device g))) in *.
    assert (Q : blba h + 1 <= len / lb_u64 lb) by (apply N.div_le_lower_bound; lia).
    assert (Q2 := N.mul_div_le len (lb_u64 lb)). assert (Q3 : len / lb_u64 lb <= len) by (apply N.div_le_upper_bound; nia).
    subst n. replace (len / lb_u64 lb - 1 + 1) with (len / lb_u64 lb) by lia. split; [lia|]. split; [lia|]. lia. }
  destruct BN as (BN1 & BN2 & BN3).
  assert (US : last_usable h + 1 < modulus 64) by (rewrite two64; apply T4).
  set (fu := N.max (first_usable h) (2 + t')). set (lu := N.max (last_usable h) (n - (t' + 1))).
  assert (FU : fu = first_usable h) by (unfold fu; lia).
  destruct (N.le_gt_cases fu lu) as [L|L].
  - rewrite (init_ok oc g1 n (first_usable h) (last_usable h)).
    2:{ unfold starts_from. rewrite TH. auto. }
    2:{ apply N.le_lt_trans with (num_parts h * 128); [nia|exact S3]. }
    2,3: assumption. 2:lia. 2:{ fold lb. change (c_lb (g_config g1)) with lb. fold t'. lia. } 2: exact L.
    change (c_lb (g_config g1)) with lb. fold t' fu lu.
    set (hp := built (g_guid g1) (next_count g1) n fu lu true).
    assert (LU : last_usable h <= lu) by (unfold lu; lia).
    assert (LO : layout_ok lb (lenN (data (g_device g))) hp).
    { apply layout_ok_iff. constructor.
      - exact G.
      - reflexivity.
      - apply N.le_lt_trans with (num_parts h * 128); [cbn; nia|exact S3].
      - unfold plba, hp, built. cbn. replace (1 <? n) with true by (symmetry; apply N.ltb_lt; lia). reflexivity.
      - cbn. fold t'. unfold fu. lia.
      - unfold blba, hp, built. cbn. replace (1 <? n) with true by (symmetry; apply N.ltb_lt; lia). fold t'. unfold lu. lia.
      - unfold blba, hp, built. cbn. replace (1 <? n) with true by (symmetry; apply N.ltb_lt; lia). fold t'. rewrite FU. lia.
      - unfold blba, hp, built. cbn. replace (1 <? n) with true by (symmetry; apply N.ltb_lt; lia). exact BN2. }
    assert (R : forall g2, g_primary g2 = Ok hp -> g_partitions g2 = pp -> g_config g2 = g_config g -> g_guid g2 = g_guid g ->
      g_device g2 = d -> step_keeps g h g2).
    { intros g2 E1 E2 E3 E4 E5. destruct U as (D & _). change (g_device gp) with (g_device g) in D.
      split; [exact E3|]. rewrite E5, D. split; [reflexivity|]. split; [rewrite E4; exact G|].
      split; [rewrite E2; exact TT|]. split; [reflexivity|].
      exists hp. split; [|split; [exact FU|split; [exact LU|split; [|exact NC]]]].
      2:{ apply N.le_trans with 128; [apply N.le_min_l|apply N.le_max_r]. }
      constructor.
      - unfold addressable. rewrite E5, D. exact T1.
      - left. exact E1.
      - rewrite E3, E5, D. exact LO.
      - destruct T4 as (V1 & V2 & V3). unfold usable_ok. cbn. rewrite FU. split; [exact V1|]. split; [lia|].
        rewrite <- two64. unfold lu. lia.
      - rewrite E2. eapply arranged_mono; [exact FU|exact LU|exact A]. }
    intros E. cbn [kept] in E. destruct (c_readonly_backup (g_config g1)); injection E as <-; apply R; reflexivity.
  - assert (X : exists e, init_with oc g1 n = (Err e, g1)).
    { unfold init_with. change (c_lb (g_config g1)) with lb. rewrite build_eq.
      - cbn zeta. change (b_num_parts (init_builder g1 n)) with (next_count g1).
        unfold init_builder. rewrite TH. cbn -[plba ablocks next_count modulus g1 addw N.ltb N.max N.add N.sub].
        rewrite S2. fold t'. match goal with |- context [if ?c then Err _ else _] => destruct c end; [eexists; reflexivity|].
        match goal with |- context [if ?c then Err _ else _] => destruct c end; [eexists; reflexivity|].
        fold fu lu. replace (lu <? fu) with true by (symmetry; apply N.ltb_lt; lia). eexists; reflexivity.
      - change (b_num_parts (init_builder g1 n)) with (next_count g1).
        replace (b_part_size (init_builder g1 n)) with 128 by (unfold init_builder; rewrite TH; cbn; congruence).
        apply N.le_lt_trans with (num_parts h * 128); [nia|exact S3]. }
    destruct X as (e & X). rewrite X. cbn [kept]. intros E. injection E as <-.
    apply (keeps_table_dev g h pp d); auto. constructor; auto.
Qed.
Lemma careful_at oc nm id first n ty fl rnd g h g' : c_change_partition_count (g_config g) = false -> tidy g h ->
  guid_ok (g_guid g) -> typed_table (g_partitions g) -> free_run h (g_partitions g) first n ->
  typed_call (OpAddAt nm id first n ty fl rnd) -> step oc (OpAddAt nm id first n ty fl rnd) g = Some g' ->
  step_keeps g h g'.
Proof.
  intros HC T G TT FR TY. cbn [step typed_call] in *.
  assert (SAME : g' = g -> step_keeps g h g').
  { intros ->. apply (keeps_table g h (g_partitions g) g T G TT (ti_arranged _ _ T)). destruct g; reflexivity. }
  assert (A := ti_arranged _ _ T). assert (MO := ar_map _ _ A).
  destruct (N.eq_dec n 0) as [->|N0]; [unfold add_partition_at; discriminate|].
  destruct (N.eq_dec id 0) as [->|I0]; [unfold add_partition_at; destruct (n =? 0); discriminate|].
  destruct (match pm_get id (g_partitions g) with Some p => is_used p | None => false end) eqn:IU.
  { unfold add_partition_at. rewrite IU. destruct (n =? 0); [discriminate|]. destruct (id =? 0); [discriminate|].
    cbn [kept]. intros E. injection E as <-. apply SAME. reflexivity. }
  assert (NU : ~ is_in_use id (g_partitions g)).
  { intros X. apply (in_use_get _ _ MO) in X. congruence. }
  destruct (add_at_eq oc nm id first n ty fl rnd g h (ti_header _ _ T) (ti_usable _ _ T) A) as (secs & SF & EQ);
    [lia|lia|exact NU|].
  rewrite EQ. destruct (existsb (takes first n) secs).
  2:{ cbn [kept]. intros E. injection E as <-. apply SAME. reflexivity. }
  unfold finish_at. destruct (ti_usable _ _ T) as (U1 & U2 & U3). rewrite <- two64 in U3.
  destruct (FR (first + n - 1)) as ((_ & FL) & _); [lia|].
  unfold bind at 1, lift at 1. unfold addw. replace (first + n <? modulus 64) with true by (symmetry; apply N.ltb_lt; lia).
  unfold bind at 1, lift at 1. unfold subw. replace (1 <=? first + n) with true by (symmetry; apply N.leb_le; lia).
  set (p := mkPart ty rnd first (first + n - 1) fl nm).
  intros E. destruct (check_insert oc id p g (fun _ _ => True) HC) as [X|(id' & p' & h' & _ & _ & _ & X)]; [auto| |].
  - apply SAME. apply kept_some in E. congruence.
  - unfold bind at 1 in E. unfold bind at 1 in X. destruct (check_count id g) as [[c|e|] gc] eqn:CC; try discriminate.
    assert (gc = g) by (unfold check_count in CC; injection CC; auto). subst gc.
    destruct c.
    { exfalso. unfold check_count in CC. rewrite (the_header_of g h (ti_header _ _ T)) in CC. cbn [obind] in CC.
      rewrite HC in CC. destruct (num_parts_would_change h id); cbn in CC; discriminate. }
    assert (X' : insert_partition oc id p false g = (Ok id, set_partitions (pm_insert id p (g_partitions g)) g)) by reflexivity.
    rewrite X' in E. cbn [kept] in E. injection E as <-.
    apply (keeps_table g h (pm_insert id p (g_partitions g)) _ T G).
    + apply typed_insert; auto.
    + apply arranged_insert; [exact A|]. intros _. cbn [first_lba last_lba p]. split; [lia|].
      intros x Hx. unfold covers in Hx. cbn [first_lba last_lba p] in Hx. apply FR. lia.
    + reflexivity.
Qed.
Lemma careful_tidy_op oc o g h g' : c_change_partition_count (g_config g) = false -> tidy g h ->
  guid_ok (g_guid g) -> typed_table (g_partitions g) -> tidy_op oc (c_lb (g_config g)) o -> typed_call o ->
  step oc o g = Some g' -> step_keeps g h g'.
Proof.
  intros HC T G TT TO TY E.
  assert (TY' : typed_op o) by (destruct o; exact I || exact TY).
  assert (TT1 := typed_step oc o g h g' HC TO TY' T TT E).
  assert (US := fun i U => user_step oc o g h g' i TO T U E).
  assert (GG : guid_ok (g_guid g')).
  { destruct o; cbn [tidy_op] in TO; try contradiction; cbn [step] in E.
    - apply kept_some in E. destruct (add_fixed oc nm size ty fl al rnd g HC) as [X|(i & p & h' & _ & _ & _ & X)].
      + rewrite <- E, X. exact G.
      + rewrite <- E, X. exact G.
    - injection E as <-. unfold remove_partition. destruct (pm_get _ _); exact G.
    - injection E as <-. unfold remove_partition_by_guid. destruct (find _ _) as [[k p]|]; exact G.
    - injection E as <-. exact G.
    - injection E as <-. exact TY.
    - apply kept_some in E. destruct (wo_write oc g) as (_ & C2 & _). rewrite E in C2. rewrite C2. exact G. }
  destruct T as [T1 T2 T3 T4 T5].
  destruct (tidy_step oc o g h g' HC TO T1 T2 T3 T4 T5 E) as (C & L & h1 & A1 & A2 & A3 & A4 & A5 & A6 & A7).
  split; [exact C|]. split; [exact L|]. split; [exact GG|]. split; [exact TT1|]. split; [exact US|].
  exists h1. split; [|split; [exact A4|split; [exact A5|rewrite A6; lia]]].
  constructor; auto; [unfold addressable; rewrite L; exact T1|rewrite C, L; exact A2].
Qed.
Lemma careful_step oc o g h g' : c_change_partition_count (g_config g) = false -> tidy g h ->
  guid_ok (g_guid g) -> typed_table (g_partitions g) -> careful oc g o -> typed_call o ->
  step oc o g = Some g' -> step_keeps g h g'.
Proof.
  intros HC T G TT CO TY E. assert (HH := ti_header _ _ T).
  destruct o; try exact (careful_tidy_op oc _ g h g' HC T G TT CO TY E).
  - exact (careful_at oc _ _ _ _ _ _ _ g h g' HC T G TT (CO h HH) TY E).
  - exact (careful_update oc _ g h g' HC T G TY (CO h HH) TT E).
Qed.
Lemma careful_keeps oc ops g g' : careful_run oc ops g g' -> forall h, c_change_partition_count (g_config g) = false ->
  tidy g h -> guid_ok (g_guid g) -> typed_table (g_partitions g) -> step_keeps g h g'.
Proof.
  induction 1 as [g|o ops g g1 g' CO TY E R IH]; intros h HC T G TT.
  - apply (keeps_table g h (g_partitions g) g T G TT (ti_arranged _ _ T)). destruct g; reflexivity.
  - destruct (careful_step oc o g h g1 HC T G TT CO TY E) as (A1 & A2 & A3 & A4 & A5 & h1 & A6 & A7 & A8 & A9).
    destruct (IH h1) as (B1 & B2 & B3 & B4 & B5 & h2 & B6 & B7 & B8 & B9); [rewrite A1; exact HC|exact A6|exact A3|exact A4|].
    split; [congruence|]. split; [congruence|]. split; [exact B3|]. split; [exact B4|]. split.
    + intros i U. rewrite B5; [apply A5, U|]. rewrite A1. eapply user_byte_mono; eauto.
    + exists h2. split; [exact B6|]. split; [congruence|]. split; lia.
Qed.
Lemma open_guid oc cfg d g d' h : open_from_device oc cfg d = (Ok g, d') -> header_of g h -> g_guid g = disk_guid h.
Proof.
  intros H HH. apply header_of_iff in HH. unfold open_from_device in H.
  apply bind_inv in H. destruct H as (r1 & d1 & _ & H). apply bind_inv in H. destruct H as (r2 & d2 & _ & H).
  apply bind_inv in H. destruct H as ((a, b) & d3 & _ & H). apply bind_inv in H. destruct H as (h0 & d4 & H0 & H).
  apply bind_inv in H. destruct H as (t & d5 & _ & H). injection H as <- <-. unfold try_header in HH. cbn in HH |- *.
  destruct a as [a|e|], b as [b|e'|]; cbn in *; try discriminate; unfold ret, panic in *; congruence.
Qed.
Lemma careful_session_keeps oc cfg fs g m g2 h : careful_session oc cfg fs g m g2 -> c_lb cfg = c_lb (g_config g) ->
  c_change_partition_count (g_config g) = false -> tidy g h -> guid_ok (g_guid g) -> typed_table (g_partitions g) ->
  g_config g2 = cfg /\ guid_ok (g_guid g2) /\ typed_table (g_partitions g2) /\
  lenN (data (g_device g2)) = lenN (data (g_device g)) /\ read_back m (g_partitions g2) /\
  (forall i, user_byte (c_lb cfg) h i -> byte_no (data (g_device g2)) i = byte_no (data (g_device g)) i) /\
  exists h2, tidy g2 h2 /\ first_usable h2 = first_usable h /\ last_usable h <= last_usable h2 /\
    N.min 128 (num_parts h) <= num_parts h2 <= num_parts h.
Proof.
  intros (ops & g1 & gw & R & M & W & O) LB HC T G TT.
  set (g0 := set_device (with_faults fs (g_device g)) g) in *.
  assert (T0 : tidy g0 h) by (destruct T; constructor; auto).
  destruct (careful_keeps oc ops g0 g1 R h HC T0 G TT) as (A1 & A2 & A3 & A4 & A5 & h1 & A6 & A7 & A8 & A9).
  change (g_config g0) with (g_config g) in A1, A5. change (data (g_device g0)) with (data (g_device g)) in A2, A5.
  assert (S : session oc cfg [] (faults (g_device g1)) g1 m g2).
  { exists g1, gw. split; [|split; [exact M|split; [exact W|exact O]]]. cbn [run]. f_equal.
    destruct g1 as [? [] ? ? ? ? ?]. reflexivity. }
  destruct (session_tidy oc cfg [] (faults (g_device g1)) g1 h1 m g2 A6) as (B1 & B2 & B3 & B4 & B5 & h2 & B6 & B7 & B8 & B9);
    [congruence|exact A4|congruence|constructor|exact S|].
  split; [exact B1|]. split.
  { destruct (open_from_device oc cfg (repaired (g_device gw))) as [ro dd] eqn:OE. cbn [fst] in O. subst ro.
    rewrite (open_guid _ _ _ _ _ h2 OE (ti_header _ _ B6)). apply (ti_layout _ _ B6). }
  split; [exact B2|]. split; [congruence|]. split; [exact B4|]. split.
  - intros i U. rewrite B5; [apply A5; rewrite <- LB; exact U|]. eapply user_byte_mono; eauto.
  - exists h2. split; [exact B6|]. split; [congruence|]. split; lia.
Qed.
(** A table that fits is accepted when the device does not fail. *)
Lemma careful_update_ok oc pp g h : tidy g h -> fault_free (g_device g) -> map_ok pp -> (forall p, ~ has pp 0 p) ->
  lenN pp <= num_parts h -> 128 <= num_parts h -> first_usable h <= last_usable h ->
  fst (update_partitions oc pp g) = Ok tt.
Proof.
  intros [T1 T2 T3 T4 T5] HF MO Z L N1 FL. apply (pm_get_none pp MO) in Z. unfold update_partitions.
  unfold bind at 1. rewrite Z. cbn [ret]. unfold bind at 1, check_count. rewrite (the_header_of g h T2). cbn [obind].
  assert (SA := sane_of _ _ _ T3). destruct SA as [S1 S2 S3 S4 S5 S6 S7 S8].
  assert (L32 : lenN pp < modulus 32) by lia. rewrite N.mod_small by exact L32.
  destruct (num_parts_would_change h (lenN pp)) eqn:W; [apply would_change_iff in W; lia|]. cbn [andb].
  unfold bind at 1. set (gp := set_partitions pp g). assert (LP := lb_pos (c_lb (g_config g))).
  rewrite addressable_iff in T1.
  assert (HT : healthy (g_device gp)) by exact HF. rewrite (init_headers_eq oc gp HT). change (g_device gp) with (g_device g).
  change (g_config gp) with (g_config g). set (lb := c_lb (g_config g)) in *.
  assert (NC : next_count gp <= num_parts h).
  { unfold next_count. change (g_partitions gp) with pp. rewrite N.mod_small by exact L32. change MIN_NUM_PARTS with 128. lia. }
  assert (AM := ablocks_mono _ _ lb NC). unfold dev_len in *. set (len := lenN (data (g_device g))) in *.
  assert (Q : blba h + 1 <= len / lb_u64 lb) by (apply N.div_le_lower_bound; lia).
  assert (Q3 : len / lb_u64 lb <= len) by (apply N.div_le_upper_bound; nia).
  replace (len <? lb_u64 lb * 3) with false by (symmetry; apply N.ltb_ge; nia).
  change (last_block lb (g_device g)) with (len / lb_u64 lb - 1).
  assert (TH : try_header gp = Ok h) by (apply header_of_iff, T2).
  rewrite (init_ok oc gp (len / lb_u64 lb - 1) (first_usable h) (last_usable h)); [reflexivity|..].
  - unfold starts_from. rewrite TH. auto.
  - apply N.le_lt_trans with (num_parts h * 128); [nia|exact S3].
  - rewrite two64. apply T4.
  - lia.
  - lia.
  - change (c_lb (g_config gp)) with lb. lia.
  - change (c_lb (g_config gp)) with lb. lia.
Qed.
