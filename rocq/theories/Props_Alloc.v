(** Props_Alloc.v - properties C25-C32, C37, C38: free space, placing and removing partitions. *)
From Coq Require Import Sorting.Permutation.
From Verif Require Import AllocFacts.
Open Scope list_scope.
Open Scope N_scope.

(** C25.  find_free_sectors reports exactly the usable blocks in no used partition, as maximal runs in
    ascending order; it cannot panic. *)
Theorem C25_free_space_partial : forall oc g h,
  header_of g h -> usable_ok h -> arranged h (g_partitions g) ->
  exists secs, @find_free_sectors gpt_err oc g = Ok secs /\ sections_of (free_lba h (g_partitions g)) secs.
Proof. intros oc g h. apply find_free_spec. Qed.
Print Assumptions C25_free_space_partial.
(** The description leaves no choice about the list. *)
Theorem C25_sections_unique : forall F s1 s2, sections_of F s1 -> sections_of F s2 -> s1 = s2.
Proof. intros F s1 s2. apply sections_unique. Qed.
Print Assumptions C25_sections_unique.
Example C25_case : arranged wide_header two_parts /\ usable_ok wide_header /\
  @find_free_sectors gpt_err true (wide_disk two_parts) = Ok [(34, 6); (45, 5); (51, 10)].
Proof. split; [apply two_parts_arranged|]. split; [apply wide_usable|reflexivity]. Qed.

(** C26.  Only the spans of the used partitions matter, not their order - on any disk, also where it
    panics or the partitions overlap. *)
Theorem C26_order_irrelevant : forall oc g g',
  (forall h, header_of g h <-> header_of g' h) -> Permutation (spans (g_partitions g)) (spans (g_partitions g')) ->
  @find_free_sectors gpt_err oc g = @find_free_sectors gpt_err oc g'.
Proof.
  intros oc g g' HH P. unfold find_free_sectors.
  assert (E : @the_header gpt_err g = the_header g').
  { unfold the_header. destruct (try_header g) as [h|e|] eqn:A.
    - apply header_of_iff in A. apply HH in A. rewrite header_of_iff in A. rewrite A. reflexivity.
    - destruct (try_header g') as [h|e'|] eqn:B; auto. apply header_of_iff in B. apply HH in B.
      rewrite header_of_iff in B. congruence.
    - destruct (try_header g') as [h|e'|] eqn:B; auto. apply header_of_iff in B. apply HH in B.
      rewrite header_of_iff in B. congruence. }
  rewrite E. destruct (the_header g') as [h|e|]; auto. cbn [obind].
  destruct (subw oc 64 (first_usable h) 1) as [a|e|]; auto. cbn [obind].
  destruct (addw oc 64 (last_usable h) 1) as [b|e|]; auto. cbn [obind].
  rewrite !positions. f_equal. apply sort_permuted. constructor. apply Permutation_app; [|reflexivity].
  apply flat_perm, P.
Qed.
Print Assumptions C26_order_irrelevant.
Example C26_case : Permutation (spans two_parts)
  (spans [(2, part_at 50 50); (5, mkPart (mkType uuid_nil OsNone) other_guid 1 100 0 []); (9, part_at 40 44)]).
Proof. vm_compute. apply perm_swap. Qed.

(** C27.  A partition is put at the lowest place that is aligned and free, and nothing else changes. *)
Theorem C27_lowest_position_partial : forall oc nm size ty fl al rnd g h id g',
  header_of g h -> usable_ok h -> arranged h (g_partitions g) ->
  let n := blocks_for size (c_lb (g_config g)) in
  sensible oc al n ->
  add_partition oc nm size ty fl al rnd g = (Ok id, g') ->
  exists start, smallest (fits_at h (g_partitions g) n (alignment al)) start /\
    placed (g_partitions g) id (mkPart ty rnd start (start + n - 1) fl nm) (g_partitions g').
Proof.
  intros oc nm size ty fl al rnd g h id g' HH HU HA n HS E.
  assert (S1 : 1 <= size).
  { destruct (N.eq_dec size 0) as [->|NE]; [|lia]. unfold add_partition in E. cbn in E. discriminate. }
  destruct (add_partition_choose oc nm size ty fl al rnd g h HH HU HA S1 HS) as [(start & SM & EQ)|[(_ & EQ)|(_ & EQ)]].
  - exists start. split; [exact SM|]. rewrite E in EQ. symmetry in EQ. apply (finish_add_ok _ _ _ _ _ _ _ _ h) in EQ; [|exact HH].
    destruct EQ as (next & _ & _ & _ & EQ & _). fold n in EQ. rewrite EQ. apply placed_insert, HA.
  - rewrite E in EQ. discriminate.
  - rewrite E in EQ. discriminate.
Qed.
Print Assumptions C27_lowest_position_partial.
(** Not so for every alignment in the release build: with 2^64-1 the computation wraps around, and a
    partition from block 2^64-1 to block 38 is stored. *)
Theorem C27_huge_alignment_refuted : exists g h al id g' p,
  header_of g h /\ usable_ok h /\ arranged h (g_partitions g) /\ 1 <= alignment (Some al) < 2 ^ 64 /\
  add_partition false [] 20480 (mkType linux_fs OsLinux) 0 (Some al) sample_guid g = (Ok id, g') /\
  has (g_partitions g') id p /\ last_usable h < first_lba p /\ last_lba p < first_lba p.
Proof.
  exists (wide_disk []), wide_header, (2 ^ 64 - 1), 1. eexists _, _.
  split; [apply wide_header_of|]. split; [apply wide_usable|]. split; [apply arranged_nil|]. split; [cbn; lia|].
  split; [vm_compute; reflexivity|]. split; [left; reflexivity|]. vm_compute. auto.
Qed.
Print Assumptions C27_huge_alignment_refuted.
Example C27_case :
  match add_partition true [120] 1025 (mkType linux_fs OsLinux) 0 (Some 8) sample_guid (wide_disk two_parts) with
  | (Ok id, g') => id = 2 /\ has (g_partitions g') 2 (mkPart (mkType linux_fs OsLinux) sample_guid 56 58 0 [120])
  | _ => False
  end.
Proof. vm_compute. auto. Qed.

(** C28.  NotEnoughSpace means that nothing fits, and leaves the disk alone. *)
Theorem C28_not_enough_space_partial : forall oc nm size ty fl al rnd g h,
  header_of g h -> usable_ok h -> arranged h (g_partitions g) ->
  let n := blocks_for size (c_lb (g_config g)) in
  1 <= size -> 1 <= alignment al -> alignment al + n < 2 ^ 64 ->
  (fst (add_partition oc nm size ty fl al rnd g) = Err GNotEnoughSpace <->
   forall start, ~ fits_at h (g_partitions g) n (alignment al) start) /\
  (fst (add_partition oc nm size ty fl al rnd g) = Err GNotEnoughSpace ->
   snd (add_partition oc nm size ty fl al rnd g) = g).
Proof.
  intros oc nm size ty fl al rnd g h HH HU HA n S1 A1 A2.
  destruct (add_partition_choose oc nm size ty fl al rnd g h HH HU HA S1 (conj A1 (or_intror A2)))
    as [(start & (SM & _) & EQ)|[(NF & EQ)|(GE & _)]].
  - fold n in EQ. rewrite EQ. pose proof (finish_add_not_space oc nm n ty fl rnd start g) as NS. split; [|intros X; contradiction].
    split; [intros X; contradiction|]. intros X. destruct (X start SM).
  - rewrite EQ. cbn [fst snd]. split; [|auto]. split; auto.
  - fold n in GE. lia.
Qed.
Print Assumptions C28_not_enough_space_partial.
(** With an alignment of 0 or a huge one it panics instead, in the debug build. *)
Theorem C28_alignment_panics_refuted : exists g h,
  header_of g h /\ usable_ok h /\ arranged h (g_partitions g) /\
  fst (add_partition false [] 512 (mkType linux_fs OsLinux) 0 (Some 0) sample_guid g) = Panic /\
  fst (add_partition true [] 20480 (mkType linux_fs OsLinux) 0 (Some (2 ^ 64 - 1)) sample_guid g) = Panic /\
  forall start, ~ fits_at h (g_partitions g) (blocks_for 20480 Lb512) (2 ^ 64 - 1) start.
Proof.
  exists (wide_disk []), wide_header. split; [apply wide_header_of|]. split; [apply wide_usable|].
  split; [apply arranged_nil|]. split; [vm_compute; reflexivity|]. split; [vm_compute; reflexivity|].
  intros start (_ & F). change (blocks_for 20480 Lb512) with 40 in F. unfold free_run, free_lba in F.
  change (first_usable wide_header) with 34 in F. change (last_usable wide_header) with 60 in F.
  pose proof (proj1 (F start ltac:(lia))). pose proof (proj1 (F (start + 39) ltac:(lia))). lia.
Qed.
Print Assumptions C28_alignment_panics_refuted.
Example C28_case : fst (add_partition true [] 5633 (mkType linux_fs OsLinux) 0 None sample_guid (wide_disk two_parts)) = Err GNotEnoughSpace
  /\ fst (add_partition true [] 5120 (mkType linux_fs OsLinux) 0 None sample_guid (wide_disk two_parts)) = Ok 2.
Proof. vm_compute. auto. Qed.

(** C29.  Through any history of additions, removals, changes of GUID and writes - with any I/O faults -
    the used partitions stay inside the usable range and apart from one another. *)
Lemma tidy_step oc o g h g' : c_change_partition_count (g_config g) = false ->
  tidy_op oc (c_lb (g_config g)) o -> addressable (g_device g) -> header_of g h ->
  layout_ok (c_lb (g_config g)) (lenN (data (g_device g))) h -> usable_ok h -> arranged h (g_partitions g) ->
  step oc o g = Some g' ->
  g_config g' = g_config g /\ lenN (data (g_device g')) = lenN (data (g_device g)) /\
  exists h', header_of g' h' /\ layout_ok (c_lb (g_config g)) (lenN (data (g_device g))) h' /\ usable_ok h' /\
    first_usable h' = first_usable h /\ last_usable h <= last_usable h' /\ num_parts h' = num_parts h /\
    arranged h' (g_partitions g').
Proof.
  intros HC T AD HH HL HU HA E.
  assert (KEEP : forall m, arranged h m -> g' = set_partitions m g ->
    g_config g' = g_config g /\ lenN (data (g_device g')) = lenN (data (g_device g)) /\
    exists h', header_of g' h' /\ layout_ok (c_lb (g_config g)) (lenN (data (g_device g))) h' /\ usable_ok h' /\
    first_usable h' = first_usable h /\ last_usable h <= last_usable h' /\ num_parts h' = num_parts h /\
    arranged h' (g_partitions g')).
  { intros m A ->. split; [reflexivity|]. split; [reflexivity|]. exists h.
    do 4 (split; [auto|]). do 2 (split; [auto using N.le_refl|]). exact A. }
  assert (SAME : g' = g -> g' = set_partitions (g_partitions g) g) by (intros ->; destruct g; reflexivity).
  destruct o; cbn [tidy_op] in T; try contradiction; cbn [step] in E.
  - assert (S1 : 1 <= size).
    { destruct (N.eq_dec size 0) as [->|NE]; [|lia]. unfold add_partition in E. cbn in E. discriminate. }
    assert (NP : fst (add_partition oc nm size ty fl al rnd g) <> Panic).
    { destruct (add_partition oc nm size ty fl al rnd g) as [[]]; cbn in E |- *; discriminate. }
    apply kept_some in E.
    destruct (add_partition_choose oc nm size ty fl al rnd g h HH HU HA S1 T) as [(start & (SM & _) & EQ)|[(_ & EQ)|(_ & EQ)]].
    + rewrite EQ in E. clear EQ. set (n := blocks_for size (c_lb (g_config g))) in *.
      destruct (finish_add_cases oc nm n ty fl rnd start g h HH HC) as [X|(id & X)].
      * rewrite X in E. symmetry in E. apply (KEEP _ HA), SAME, E.
      * rewrite X in E. cbn [snd] in E. symmetry in E. apply (fun A => KEEP _ A E).
        apply arranged_insert; [exact HA|]. intros _. cbn [first_lba last_lba].
        assert (N1 : 1 <= n) by (unfold n; rewrite <- blocks_ceil by exact S1; apply N.le_add_l).
        split; [lia|]. intros x Hx. unfold covers in Hx. cbn [first_lba last_lba] in Hx. apply SM. lia.
    + rewrite EQ in E. cbn in E. symmetry in E. apply (KEEP _ HA), SAME, E.
    + rewrite EQ in NP. destruct NP. reflexivity.
  - injection E as E. unfold remove_partition in E. destruct (pm_get id (g_partitions g)); cbn [snd] in E; symmetry in E.
    + apply (fun A => KEEP _ A E). apply arranged_remove, HA.
    + apply (KEEP _ HA), SAME, E.
  - injection E as E. unfold remove_partition_by_guid in E. destruct (find _ _) as [[k p]|]; cbn [snd] in E; symmetry in E.
    + apply (fun A => KEEP _ A E). apply arranged_remove, HA.
    + apply (KEEP _ HA), SAME, E.
  - injection E as E. symmetry in E. apply (fun A => KEEP _ A E). apply arranged_nil.
  - injection E as <-. split; [reflexivity|]. split; [reflexivity|]. exists h.
    do 4 (split; [auto|]). do 2 (split; [auto using N.le_refl|]). exact HA.
  - apply kept_some in E. destruct (wo_write oc g) as (C1 & _ & C3 & _).
    assert (HT := HH). rewrite header_of_iff in HT. assert (AD' := AD). rewrite addressable_iff in AD'.
    pose proof (write_inplace_frame oc g h HT AD' (sane_of _ _ _ HL)) as (FL & _).
    destruct (write_inplace_header oc g h HT AD' (sane_of _ _ _ HL)) as (x & X1 & (X2 & X3 & X4 & X5 & X6 & X7)).
    rewrite E in *. split; [exact C1|]. split; [exact FL|]. exists x. rewrite header_of_iff. split; [exact X1|].
    assert (LX : layout_ok (c_lb (g_config g)) (lenN (data (g_device g))) x).
    { apply layout_ok_iff. exact X2. }
    split; [exact LX|]. split.
    { destruct HU as (U1 & U2 & U3). unfold usable_ok. rewrite X4. split; [exact U1|]. split; [lia|].
      destruct LX as [L1 L2 L3 L4 L5 L6 L7 L8]. unfold addressable in AD.
      assert (1 <= lb_u64 (c_lb (g_config g))) by (destruct (c_lb (g_config g)); discriminate).
      assert (backup_at x + 1 <= (backup_at x + 1) * lb_u64 (c_lb (g_config g))) by nia. lia. }
    split; [exact X4|]. split; [exact X7|]. split; [exact X6|]. rewrite C3. eapply arranged_mono; eassumption.
Qed.
Theorem C29_no_overlap_partial : forall oc ops g h g',
  tidy g h -> c_change_partition_count (g_config g) = false ->
  Forall (tidy_op oc (c_lb (g_config g))) ops -> run oc ops g = Some g' ->
  exists h', tidy g' h' /\ first_usable h' = first_usable h /\ last_usable h <= last_usable h' /\
    num_parts h' = num_parts h.
Proof.
  intros oc. induction ops as [|o ops IH]; intros g h g' T HC F; cbn [run].
  - intros E. injection E as <-. exists h. split; [exact T|]. split; [reflexivity|]. split; [apply N.le_refl|reflexivity].
  - destruct (step oc o g) as [g1|] eqn:E; [|discriminate]. intros R. inversion F as [|a l F1 F2]; subst.
    destruct T as [T1 T2 T3 T4 T5].
    destruct (tidy_step oc o g h g1 HC F1 T1 T2 T3 T4 T5 E) as (C & L & h1 & A1 & A2 & A3 & A4 & A5 & A6 & A7).
    destruct (IH g1 h1 g') as (h2 & B1 & B2 & B3 & B4); auto.
    + constructor; auto; [unfold addressable; rewrite L; exact T1|rewrite C, L; exact A2].
    + rewrite C. exact HC.
    + rewrite C. exact F2.
    + exists h2. split; [exact B1|]. split; [congruence|]. split; [lia|congruence].
Qed.
Print Assumptions C29_no_overlap_partial.
(** Not so for every alignment in the release build (C27_huge_alignment_refuted). *)
Theorem C29_huge_alignment_refuted : exists g h ops g' k p,
  tidy g h /\ c_change_partition_count (g_config g) = false /\
  Forall (fun o => exists nm size ty fl al rnd, o = OpAdd nm size ty fl (Some al) rnd /\ 1 <= size /\ 1 <= al < 2 ^ 64) ops /\
  run false ops g = Some g' /\ has (g_partitions g') k p /\ used p /\ last_usable h < first_lba p.
Proof.
  exists (set_device wide_dev (wide_disk [])), wide_header,
    [OpAdd [120] 20480 (mkType linux_fs OsLinux) 0 (Some (2 ^ 64 - 1)) sample_guid],
    (set_partitions [(1, mkPart (mkType linux_fs OsLinux) sample_guid (2 ^ 64 - 1) 38 0 [120])] (set_device wide_dev (wide_disk []))),
    1, (mkPart (mkType linux_fs OsLinux) sample_guid (2 ^ 64 - 1) 38 0 [120]).
  split.
  { constructor; [unfold addressable; cbn [set_device g_device]; rewrite wide_len; reflexivity|apply wide_header_of
      |apply wide_layout|apply wide_usable|apply arranged_nil]. }
  split; [reflexivity|]. split.
  { constructor; [|constructor]. do 6 eexists. split; [reflexivity|]. lia. }
  split. { generalize wide_dev. intros d. vm_compute. reflexivity. }
  split; [left; reflexivity|]. split; [discriminate|reflexivity].
Qed.
Print Assumptions C29_huge_alignment_refuted.
Example C29_case : tidy (set_device wide_dev (wide_disk two_parts)) wide_header /\
  match run true [OpAdd [120] 1025 (mkType linux_fs OsLinux) 0 (Some 8) sample_guid; OpRemove 1;
                  OpAdd [121] 4096 (mkType linux_fs OsLinux) 0 None other_guid; OpUpdateGuid None other_guid]
          (wide_disk two_parts) with
  | Some g => map (fun x => (fst x, first_lba (snd x), last_lba (snd x))) (g_partitions g) =
              [(1, 34, 41); (2, 56, 58); (3, 50, 50)]
  | None => False
  end.
Proof.
  split; [|vm_compute; reflexivity]. constructor.
  - unfold addressable. cbn [set_device g_device]. rewrite wide_len. reflexivity.
  - apply wide_header_of.
  - apply wide_layout.
  - apply wide_usable.
  - apply two_parts_arranged.
Qed.

(** C30.  False: add_partition_at only compares the first block and the length with those of a free
    section.  Here a partition is put over an existing one, and another behind the usable range. *)
Theorem C30_overlap_refuted : exists g h g1 g2 p q,
  header_of g h /\ usable_ok h /\ arranged h (g_partitions g) /\
  add_partition_at true [] 2 41 3 (mkType linux_fs OsLinux) 0 sample_guid g = (Ok 2, g1) /\
  has (g_partitions g1) 1 p /\ has (g_partitions g1) 2 q /\ used p /\ used q /\ covers p 41 /\ covers q 41 /\
  exists r, add_partition_at true [] 2 60 5 (mkType linux_fs OsLinux) 0 sample_guid g = (Ok 2, g2) /\
  has (g_partitions g2) 2 r /\ last_usable h < last_lba r.
Proof.
  exists (wide_disk two_parts), wide_header. do 4 eexists.
  split; [apply wide_header_of|]. split; [apply wide_usable|]. split; [apply two_parts_arranged|].
  split; [vm_compute; reflexivity|]. split; [left; reflexivity|]. split; [right; left; reflexivity|].
  split; [discriminate|]. split; [discriminate|]. split; [unfold covers; cbn; lia|]. split; [unfold covers; cbn; lia|].
  eexists. split; [vm_compute; reflexivity|]. split; [right; left; reflexivity|]. reflexivity.
Qed.
Print Assumptions C30_overlap_refuted.
(** What success does tell: the id was not in use, and some free run of at least this length starts at
    or before the block asked for. *)
Theorem C30_what_is_checked_partial : forall oc nm id first n ty fl rnd g h k g',
  header_of g h -> usable_ok h -> arranged h (g_partitions g) ->
  add_partition_at oc nm id first n ty fl rnd g = (Ok k, g') ->
  k = id /\ 1 <= id /\ 1 <= n /\ ~ is_in_use id (g_partitions g) /\ first_usable h <= first /\
  exists s len, free_run h (g_partitions g) s len /\ s <= first /\ n <= len.
Proof.
  intros oc nm id first n ty fl rnd g h k g' HH HU HA E.
  destruct (N.eq_dec n 0) as [->|N0]; [unfold add_partition_at in E; cbn in E; discriminate|].
  destruct (N.eq_dec id 0) as [->|I0].
  { unfold add_partition_at in E. replace (n =? 0) with false in E by (symmetry; apply N.eqb_neq; lia). cbn in E. discriminate. }
  assert (NU : ~ is_in_use id (g_partitions g)).
  { intros U. unfold add_partition_at in E. replace (n =? 0) with false in E by (symmetry; apply N.eqb_neq; lia).
    replace (id =? 0) with false in E by (symmetry; apply N.eqb_neq; lia).
    apply (in_use_get _ _ (ar_map _ _ HA)) in U. rewrite U in E. discriminate. }
  destruct (add_at_eq oc nm id first n ty fl rnd g h HH HU HA) as (secs & SF & EQ); [lia|lia|exact NU|].
  rewrite E in EQ. destruct (existsb (takes first n) secs) eqn:X; [|discriminate].
  apply existsb_exists in X. destruct X as ([s len] & Hs & X). unfold takes in X. cbn [fst snd] in X.
  apply andb_prop in X. destruct X as (X1 & X2). apply N.leb_le in X1, X2.
  assert (RUN : free_run h (g_partitions g) s len).
  { intros x Hx. apply (section_run _ _ (s, len) SF Hs). exact Hx. }
  split.
  { unfold finish_at in EQ. unfold bind, lift in EQ. destruct (addw oc 64 first n) as [e|e|]; try discriminate.
    destruct (subw oc 64 e 1) as [l|l|]; try discriminate. unfold check_count in EQ. rewrite (the_header_of g h HH) in EQ.
    cbn [obind] in EQ. destruct (num_parts_would_change h id && negb (c_change_partition_count (g_config g))); [discriminate|].
    symmetry in EQ. apply insert_partition_ok in EQ. apply EQ. }
  split; [lia|]. split; [lia|]. split; [exact NU|]. split.
  - destruct (RUN s) as ((R & _) & _); lia.
  - exists s, len. auto.
Qed.
Print Assumptions C30_what_is_checked_partial.

(** C31.  Every legal placement is accepted and stored as asked. *)
Theorem C31_legal_accepted_partial : forall oc nm id first n ty fl rnd g h,
  header_of g h -> usable_ok h -> arranged h (g_partitions g) ->
  1 <= id <= num_parts h -> 128 <= num_parts h -> ~ is_in_use id (g_partitions g) ->
  1 <= n -> free_run h (g_partitions g) first n ->
  exists m', add_partition_at oc nm id first n ty fl rnd g = (Ok id, set_partitions m' g) /\
    placed (g_partitions g) id (mkPart ty rnd first (first + n - 1) fl nm) m' /\ arranged h m'.
Proof.
  intros oc nm id first n ty fl rnd g h HH HU HA I1 N128 NU N1 FR.
  destruct (add_at_eq oc nm id first n ty fl rnd g h HH HU HA) as (secs & SF & EQ); [lia|lia|exact NU|].
  destruct (run_in_section _ _ _ _ SF N1 FR) as (s & Hs & S1 & S2).
  assert (X : existsb (takes first n) secs = true).
  { apply existsb_exists. exists s. split; [exact Hs|]. unfold takes. apply andb_true_intro. split; apply N.leb_le; lia. }
  rewrite X in EQ. destruct (FR (first + n - 1)) as ((_ & FL) & _); [lia|]. destruct HU as (U1 & U2 & U3).
  rewrite <- two64 in U3.
  exists (pm_insert id (mkPart ty rnd first (first + n - 1) fl nm) (g_partitions g)). split; [|split].
  - rewrite EQ. unfold finish_at. unfold bind at 1, lift at 1. unfold addw.
    replace (first + n <? modulus 64) with true by (symmetry; apply N.ltb_lt; lia).
    unfold bind at 1, lift at 1. unfold subw. replace (1 <=? first + n) with true by (symmetry; apply N.leb_le; lia).
    unfold bind at 1, check_count. rewrite (the_header_of g h HH). cbn [obind].
    destruct (num_parts_would_change h id) eqn:W; [apply would_change_iff in W; lia|]. reflexivity.
  - apply placed_insert, HA.
  - apply arranged_insert; [exact HA|]. intros _. cbn [first_lba last_lba]. split; [lia|]. intros x Hx.
    unfold covers in Hx. cbn [first_lba last_lba] in Hx. apply FR. lia.
Qed.
Print Assumptions C31_legal_accepted_partial.
Theorem C31_id_in_use : forall oc nm id first n ty fl rnd g,
  map_ok (g_partitions g) -> is_in_use id (g_partitions g) -> 1 <= id -> 1 <= n ->
  add_partition_at oc nm id first n ty fl rnd g = (Err GPartitionIdAlreadyUsed, g).
Proof.
  intros oc nm id first n ty fl rnd g MO U I1 N1. unfold add_partition_at.
  replace (n =? 0) with false by (symmetry; apply N.eqb_neq; lia).
  replace (id =? 0) with false by (symmetry; apply N.eqb_neq; lia).
  apply (in_use_get _ _ MO) in U. rewrite U. reflexivity.
Qed.
Print Assumptions C31_id_in_use.
Theorem C31_panics_only_partial : forall oc nm id first n ty fl rnd g h,
  header_of g h -> usable_ok h -> arranged h (g_partitions g) ->
  c_change_partition_count (g_config g) = false \/ N.max id 128 <= num_parts h ->
  fst (add_partition_at oc nm id first n ty fl rnd g) = Panic ->
  id = 0 \/ n = 0 \/ 2 ^ 64 <= first + n.
Proof.
  intros oc nm id first n ty fl rnd g h HH HU HA HC P.
  destruct (N.eq_dec n 0) as [->|N0]; [auto|]. destruct (N.eq_dec id 0) as [->|I0]; [auto|].
  destruct (N.lt_ge_cases (first + n) (2 ^ 64)) as [L|L]; [exfalso|auto].
  assert (NU : ~ is_in_use id (g_partitions g)).
  { intros U. rewrite (C31_id_in_use oc nm id first n ty fl rnd g (ar_map _ _ HA) U) in P by lia. discriminate. }
  destruct (add_at_eq oc nm id first n ty fl rnd g h HH HU HA) as (secs & SF & EQ); [lia|lia|exact NU|].
  rewrite EQ in P. destruct (existsb (takes first n) secs); [|discriminate].
  revert P. rewrite <- two64 in L. unfold finish_at. unfold bind at 1, lift at 1. unfold addw.
  replace (first + n <? modulus 64) with true by (symmetry; apply N.ltb_lt; lia).
  unfold bind at 1, lift at 1. unfold subw. replace (1 <=? first + n) with true by (symmetry; apply N.leb_le; lia).
  unfold bind at 1, check_count. rewrite (the_header_of g h HH). cbn [obind].
  destruct (num_parts_would_change h id) eqn:W.
  - apply would_change_iff in W. destruct HC as [HC|HC]; [|lia]. rewrite HC. discriminate.
  - discriminate.
Qed.
Print Assumptions C31_panics_only_partial.
Example C31_case : free_run wide_header two_parts 45 5 /\ ~ is_in_use 2 two_parts /\ is_in_use 1 two_parts.
Proof.
  split; [|split].
  - intros x Hx. split; [cbn; lia|]. intros k p [E|[E|[]]] _; injection E as <- <-; unfold covers; cbn; lia.
  - intros (p & [E|[E|[]]] & _); discriminate.
  - exists (part_at 40 44). split; [left; reflexivity|discriminate].
Qed.

(** C32.  The next id is the smallest that is not in use. *)
Theorem C32_next_id : forall g h,
  header_of g h -> map_ok (g_partitions g) -> 1 <= num_parts h ->
  exists r, @find_next_partition_id gpt_err g = Ok r /\
  match r with
  | Some k => smallest (fun k => 1 <= k <= num_parts h /\ ~ is_in_use k (g_partitions g)) k
  | None => forall k, 1 <= k <= num_parts h -> is_in_use k (g_partitions g)
  end.
Proof. intros g h. apply next_id_spec. Qed.
Print Assumptions C32_next_id.
(** add_partition uses it, so it overwrites no used partition - if it may not change the number of
    entries. *)
Theorem C32_no_overwrite_partial : forall oc nm size ty fl al rnd g h id g',
  header_of g h -> usable_ok h -> arranged h (g_partitions g) ->
  sensible oc al (blocks_for size (c_lb (g_config g))) ->
  c_change_partition_count (g_config g) = false -> num_parts h + 1 < 2 ^ 32 ->
  add_partition oc nm size ty fl al rnd g = (Ok id, g') ->
  smallest (fun k => 1 <= k <= num_parts h /\ ~ is_in_use k (g_partitions g)) id.
Proof.
  intros oc nm size ty fl al rnd g h id g' HH HU HA HS HC H32 E.
  assert (S1 : 1 <= size).
  { destruct (N.eq_dec size 0) as [->|NE]; [|lia]. unfold add_partition in E. cbn in E. discriminate. }
  destruct (add_partition_choose oc nm size ty fl al rnd g h HH HU HA S1 HS) as [(start & SM & EQ)|[(_ & EQ)|(_ & EQ)]];
    try (rewrite E in EQ; discriminate).
  rewrite E in EQ. symmetry in EQ. assert (EQ' := EQ). apply (finish_add_ok _ _ _ _ _ _ _ _ h) in EQ'; [|exact HH].
  destruct EQ' as (next & _ & _ & X & _).
  destruct (N.lt_ge_cases (num_parts h) (N.max id 128)) as [L|L]; [specialize (X L); congruence|].
  destruct (finish_add_fixed oc nm (blocks_for size (c_lb (g_config g))) ty fl rnd start g h HH (ar_map _ _ HA))
    as [(i & I & EI)|(_ & EI)]; auto; [lia| |].
  - rewrite EI in EQ. injection EQ as <- _. exact I.
  - rewrite EI in EQ. discriminate.
Qed.
Print Assumptions C32_no_overwrite_partial.
(** With that permission it can: see C32_overwrite_refuted in Props_Count.v. *)
Example C32_case : first_free_id two_parts 1 128 = Some 2.
Proof. reflexivity. Qed.

(** C37.  The alignment found is the largest power of two, at most 2048, that divides the first block
    of every used partition. *)
Theorem C37_alignment : forall g,
  (g_partitions g = [] -> calculate_alignment g = 0) /\
  (g_partitions g <> [] ->
   exists e, e <= 11 /\ calculate_alignment g = 2 ^ e /\
   Forall (fun p => first_lba p mod 2 ^ e = 0) (used_in_order (g_partitions g)) /\
   forall k, k <= 11 -> Forall (fun p => first_lba p mod 2 ^ k = 0) (used_in_order (g_partitions g)) -> k <= e).
Proof.
  intros g. split; [intros E; unfold calculate_alignment; rewrite E; reflexivity|]. intros NE.
  set (r := fold_left (fun e (p : N * partition) => lower_exponent e (first_lba (snd p))) (used_parts (g_partitions g)) 11%nat).
  assert (EC : calculate_alignment g = 2 ^ N.of_nat r).
  { unfold calculate_alignment. destruct (g_partitions g); [congruence|reflexivity]. }
  destruct (fold_lower (used_parts (g_partitions g)) 11) as (A & B & C). fold r in A, B, C.
  exists (N.of_nat r). rewrite used_in_order_eq. unfold used_list. rewrite !Forall_map.
  split; [lia|]. split; [exact EC|]. split; [exact B|]. intros k K F. rewrite Forall_map in F.
  specialize (C (N.to_nat k)). rewrite N2Nat.id in C. assert (N.to_nat k <= r)%nat by (apply C; [lia|exact F]). lia.
Qed.
Print Assumptions C37_alignment.
Example C37_case : calculate_alignment (wide_disk two_parts) = 2.
Proof. reflexivity. Qed.

(** C38.  Removal. *)
Theorem C38_remove : forall id g, map_ok (g_partitions g) ->
  ((exists p, has (g_partitions g) id p) ->
   exists m', remove_partition id g = (Some id, set_partitions m' g) /\ dropped (g_partitions g) id m') /\
  ((forall p, ~ has (g_partitions g) id p) -> remove_partition id g = (None, g)).
Proof.
  intros id g MO. unfold remove_partition. split.
  - intros (p & H). apply (pm_get_some _ MO) in H. rewrite H. eexists. split; [reflexivity|].
    split; [apply map_ok_remove, MO|]. intros j q. apply has_remove, MO.
  - intros H. apply (pm_get_none _ MO) in H. rewrite H. reflexivity.
Qed.
Print Assumptions C38_remove.
Theorem C38_remove_by_guid : forall u g, map_ok (g_partitions g) ->
  (forall id, smallest (fun k => exists p, has (g_partitions g) k p /\ part_guid p = u) id ->
   exists m', remove_partition_by_guid u g = (Some id, set_partitions m' g) /\ dropped (g_partitions g) id m') /\
  ((forall k p, has (g_partitions g) k p -> part_guid p <> u) -> remove_partition_by_guid u g = (None, g)).
Proof.
  intros u g MO. unfold remove_partition_by_guid.
  assert (X : match find (fun p => uuid_eqb (part_guid (snd p)) u) (g_partitions g) with
    | Some (k, p) => smallest (fun k => exists p, has (g_partitions g) k p /\ part_guid p = u) k
    | None => forall k p, has (g_partitions g) k p -> part_guid p <> u end).
  { revert MO. induction (g_partitions g) as [|[k p] m IH]; intros MO; [intros k p []|].
    apply map_ok_cons in MO. destruct MO as (MO & F). rewrite Forall_forall in F. specialize (IH MO).
    cbn [find snd]. destruct (uuid_eqb (part_guid p) u) eqn:E.
    - apply uuid_eqb_eq in E. split; [exists p; split; [left; reflexivity|exact E]|].
      intros j (q & [H|H] & _); [injection H as <- _; apply N.le_refl|]. apply F in H. cbn in H. lia.
    - assert (NE : part_guid p <> u) by (intros H; apply uuid_eqb_eq in H; congruence).
      destruct (find _ m) as [[j q]|].
      + destruct IH as ((q' & I1 & I2) & I3). split; [exists q'; split; [right; exact I1|exact I2]|].
        intros i (r & [H|H] & R); [injection H as <- <-; contradiction|]. apply I3. exists r. auto.
      + intros j q [H|H]; [injection H as <- <-; exact NE|]. apply (IH j q H). }
  destruct (find _ _) as [[k p]|].
  - split.
    + intros id S. assert (id = k) as ->.
      { destruct S as (S1 & S2), X as (X1 & X2). pose proof (S2 _ X1). pose proof (X2 _ S1). lia. }
      eexists. split; [reflexivity|]. split; [apply map_ok_remove, MO|]. intros j q. apply has_remove, MO.
    + intros H. destruct X as ((q & X1 & X2) & _). destruct (H k q X1 X2).
  - split; [|auto]. intros id ((p & H1 & H2) & _). destruct (X id p H1 H2).
Qed.
Print Assumptions C38_remove_by_guid.
Example C38_case : remove_partition_by_guid other_guid (wide_disk two_parts) = (Some 1, wide_disk [(3, part_at 50 50)]) /\
  remove_partition 2 (wide_disk two_parts) = (None, wide_disk two_parts).
Proof. split; reflexivity. Qed.
