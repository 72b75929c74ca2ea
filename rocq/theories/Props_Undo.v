(** Props_Undo.v - adding a partition and removing it again, and the other way round (C85). *)
From Verif Require Import SpecUndo UndoFacts Samples Props_Alloc.
Open Scope list_scope.
Open Scope N_scope.

Lemma undo rnd oc g id g1 : map_ok (g_partitions g) -> added rnd g id g1 -> in_memory g g1 -> ~ is_in_use id (g_partitions g) ->
  exists g2, remove_partition id g1 = (Some id, g2) /\ as_before oc g id g2 /\
    ((forall k p, has (g_partitions g) k p -> k <> id -> part_guid p <> rnd) -> remove_partition_by_guid rnd g1 = (Some id, g2)).
Proof.
  intros MO ((p & HP & HM & HF) & HC & h & HH) IM NU.
  set (m := g_partitions g) in *.
  assert (MI : map_ok (pm_insert id p m)) by (apply map_ok_insert, MO).
  assert (HI : has (pm_insert id p m) id p) by (apply has_insert; auto).
  assert (PG : pm_get id (g_partitions g1) = Some p) by (rewrite HM; apply pm_get_some; auto).
  exists (set_partitions (pm_remove id m) g1). split; [|split].
  - unfold remove_partition. rewrite PG, HM, remove_insert by auto. reflexivity.
  - assert (D : forall j q, has (pm_remove id m) j q <-> j <> id /\ has m j q) by (intros; apply has_remove; auto).
    constructor; cbn [set_partitions g_partitions g_config g_guid g_sync g_device].
    + split; [apply map_ok_remove, MO|exact D].
    + intros k q U. rewrite D. split; [tauto|]. intros X. split; [|exact X]. intros ->. apply NU. exists q. auto.
    + destruct IM as (A & B & C & E). repeat split; auto; apply A.
    + intros X. assert (L : N.max id 128 <= num_parts h).
      { destruct X as [X|(h' & H' & L)]; [apply HC; auto|]. apply header_of_iff in HH, H'. congruence. }
      pose proof (HF h HH L) as G1. subst g1. split; [reflexivity|]. split.
      * unfold find_free_sectors. cbn [set_partitions g_partitions]. fold m.
        rewrite used_remove by auto. reflexivity.
      * intros N. rewrite remove_absent by auto. destruct g; reflexivity.
  - intros FR. unfold remove_partition_by_guid. rewrite HM.
    assert (X : find (fun x => uuid_eqb (part_guid (snd x)) rnd) (pm_insert id p m) = Some (id, p)).
    { destruct (find _ (pm_insert id p m)) as [(k, q)|] eqn:E.
      - apply find_some in E. destruct E as (E1 & E2). cbn in E2. change (has (pm_insert id p m) k q) in E1.
        pose proof E1 as E3. apply has_insert in E3; auto. destruct E3 as [(-> & ->)|(NE & E3)]; [reflexivity|].
        apply bytes_eqb_eq in E2. destruct (FR k q E3 NE E2).
      - apply (find_none _ _ E) in HI. cbn in HI. rewrite HP in HI. unfold uuid_eqb in HI. rewrite bytes_eqb_refl in HI. discriminate. }
    rewrite X. rewrite remove_insert by auto. reflexivity.
Qed.

(** C85.  A partition that was added and is removed again, by its id or by its GUID, leaves the disk as it was. *)
Theorem C85_add_then_remove : forall oc nm size ty fl al rnd g id g1, map_ok (g_partitions g) ->
  add_partition oc nm size ty fl al rnd g = (Ok id, g1) -> ~ is_in_use id (g_partitions g) ->
  exists g2, remove_partition id g1 = (Some id, g2) /\ as_before oc g id g2 /\
    ((forall k p, has (g_partitions g) k p -> k <> id -> part_guid p <> rnd) -> remove_partition_by_guid rnd g1 = (Some id, g2)).
Proof.
  intros oc nm size ty fl al rnd g id g1 MO E NU. apply undo; auto.
  - eapply add_added, E.
  - pose proof (mo_add oc nm size ty fl al rnd g) as X. rewrite E in X. exact X.
Qed.
Print Assumptions C85_add_then_remove.
(** On a disk in good order whose count is fixed the id is never in use, and everything is as it was. *)
Theorem C85_add_then_remove_tidy : forall oc nm size ty fl al rnd g h id g1, tidy g h ->
  sensible oc al (blocks_for size (c_lb (g_config g))) -> c_change_partition_count (g_config g) = false ->
  num_parts h + 1 < 2 ^ 32 -> add_partition oc nm size ty fl al rnd g = (Ok id, g1) ->
  exists g2, remove_partition id g1 = (Some id, g2) /\ as_before oc g id g2 /\
    ((forall p, ~ has (g_partitions g) id p) -> g2 = g).
Proof.
  intros oc nm size ty fl al rnd g h id g1 [T1 T2 T3 T4 T5] S C L E.
  pose proof (C32_no_overwrite_partial oc nm size ty fl al rnd g h id g1 T2 T4 T5 S C L E) as ((_ & NU) & _).
  destruct (C85_add_then_remove oc nm size ty fl al rnd g id g1 (ar_map _ _ T5) E NU) as (g2 & R & B & _).
  exists g2. split; [exact R|]. split; [exact B|]. apply B. left. exact C.
Qed.
Print Assumptions C85_add_then_remove_tidy.
Theorem C85_add_at_then_remove : forall oc nm id first n ty fl rnd g k g1, map_ok (g_partitions g) ->
  add_partition_at oc nm id first n ty fl rnd g = (Ok k, g1) ->
  k = id /\ exists g2, remove_partition id g1 = (Some id, g2) /\ as_before oc g id g2 /\
    ((forall k p, has (g_partitions g) k p -> k <> id -> part_guid p <> rnd) -> remove_partition_by_guid rnd g1 = (Some id, g2)).
Proof.
  intros oc nm id first n ty fl rnd g k g1 MO E. pose proof (mo_add_at oc nm id first n ty fl rnd g) as X. rewrite E in X.
  apply add_at_added in E. destruct E as (-> & A & U). split; [reflexivity|]. apply undo; auto.
  intros (p & P1 & P2). apply pm_get_some in P1; auto. rewrite P1 in U. apply used_is in P2. congruence.
Qed.
Print Assumptions C85_add_at_then_remove.
(** The other way round: a partition that was removed can be put back under its id, and nothing has changed. *)
Theorem C85_remove_then_add_at : forall oc g h id p, header_of g h -> usable_ok h -> arranged h (g_partitions g) ->
  has (g_partitions g) id p -> used p -> 1 <= id <= num_parts h -> 128 <= num_parts h ->
  exists g1, remove_partition id g = (Some id, g1) /\
    add_partition_at oc (name p) id (first_lba p) (last_lba p - first_lba p + 1) (part_type p) (flags p) (part_guid p) g1 = (Ok id, g).
Proof.
  intros oc g h id p HH HU HA HP UP HI HN. set (m := g_partitions g) in *.
  pose proof (ar_map _ _ HA) as MO. exists (set_partitions (pm_remove id m) g).
  split; [unfold remove_partition; fold m; rewrite (proj2 (pm_get_some m MO id p) HP); reflexivity|].
  assert (D : forall j q, has (pm_remove id m) j q <-> j <> id /\ has m j q) by (intros; apply has_remove; auto).
  destruct (ar_range _ _ HA id p HP UP) as (R1 & R2 & R3).
  destruct (C31_legal_accepted_partial oc (name p) id (first_lba p) (last_lba p - first_lba p + 1) (part_type p) (flags p) (part_guid p)
    (set_partitions (pm_remove id m) g) h) as (m' & E & (M1 & M2) & _); auto.
  - constructor; cbn [set_partitions g_partitions].
    + apply map_ok_remove, MO.
    + intros k q HQ U. apply D in HQ. eapply (ar_range _ _ HA); [apply HQ|exact U].
    + intros j q k r H1 H2 U1 U2 NE. apply D in H1, H2. eapply (ar_apart _ _ HA); [apply H1|apply H2|..]; auto.
  - cbn [set_partitions g_partitions]. intros (q & Q1 & Q2). apply D in Q1. destruct Q1 as (Q1 & _). apply Q1. reflexivity.
  - lia.
  - cbn [set_partitions g_partitions]. intros x Hx. split; [lia|]. intros k q Q1 Q2 Q3. apply D in Q1.
    apply (ar_apart _ _ HA id p k q HP (proj2 Q1) UP Q2 (fun e => proj1 Q1 (eq_sym e)) x). split; [|exact Q3]. unfold covers. lia.
  - rewrite E. f_equal. unfold set_partitions at 1. cbn [set_partitions g_config g_device g_guid g_primary g_backup g_sync].
    assert (EM : m' = m).
    { apply pmap_ext; auto. intros j q. rewrite M2. cbn [set_partitions g_partitions]. rewrite D.
      replace (first_lba p + (last_lba p - first_lba p + 1) - 1) with (last_lba p) by lia.
      assert (EP : mkPart (part_type p) (part_guid p) (first_lba p) (last_lba p) (flags p) (name p) = p) by (destruct p; reflexivity).
      rewrite EP. split.
      - intros [(-> & ->)|X]; [exact HP|apply X].
      - intros X. destruct (N.eq_dec j id) as [->|NE]; [left|right; auto]. split; [reflexivity|]. exact (has_unique m id q p MO X HP). }
    rewrite EM. unfold m. destruct g; reflexivity.
Qed.
Print Assumptions C85_remove_then_add_at.

Example C85_applies :
  let g := wide_disk two_parts in
  match add_partition true [97] 1024 (mkType linux_fs OsLinux) 0 None sample_guid g with
  | (Ok id, g1) => id = 2 /\ lenN (g_partitions g1) = 3 /\ ~ is_in_use id two_parts /\ snd (remove_partition id g1) = g /\
      snd (remove_partition_by_guid sample_guid g1) = g /\
      @find_free_sectors gpt_err true g1 <> find_free_sectors true g
  | _ => False
  end.
Proof.
  vm_compute. repeat split; try discriminate. intros (p & H & _).
  destruct H as [H|[H|[]]]; discriminate.
Qed.

(** Where the number of entries has to grow for the new partition it stays grown: the array keeps the blocks. *)
Definition few_header : header := mkHeader EFI_PART 1 0 92 0 0 1 93 3 91 sample_guid 2 4 128 0.
Definition few_disk : gdisk :=
  mkGdisk (mkConfig Lb512 true false false true) wide_dev sample_guid (Ok few_header) (Err HInvalidGptSignature) [] false.
Lemma few_free : @find_free_sectors gpt_err true few_disk = Ok [(3, 89)].
Proof. vm_compute. reflexivity. Qed.
Lemma few_tidy : tidy few_disk few_header.
Proof.
  constructor.
  - unfold addressable. cbn [few_disk g_device]. rewrite wide_len. reflexivity.
  - left. reflexivity.
  - cbn [few_disk g_device g_config c_lb]. rewrite wide_len. constructor; try reflexivity; vm_compute; discriminate.
  - unfold usable_ok. cbn. lia.
  - apply arranged_nil.
Qed.
Definition summary (a : outcome gpt_err N * gdisk) : outcome gpt_err N * pmap * option (N * N * N) :=
  (fst a, g_partitions (snd a),
   match g_primary (snd a) with Ok h => Some (first_usable h, last_usable h, num_parts h) | _ => None end).
Lemma few_added : summary (add_partition true [97] 512 (mkType linux_fs OsLinux) 0 None other_guid few_disk) =
  (Ok 1, [(1, mkPart (mkType linux_fs OsLinux) other_guid 3 3 0 [97])], Some (34, 91, 128)).
Proof. vm_compute. reflexivity. Qed.
Lemma summary_removed a p : summary a = (Ok 1, [(1, p)], Some (34, 91, 128)) ->
  a = (Ok 1, snd a) /\ let g2 := snd (remove_partition 1 (snd a)) in
  g_partitions g2 = [] /\ @find_free_sectors gpt_err true g2 = Ok [(34, 58)] /\
  exists h2, header_of g2 h2 /\ num_parts h2 = 128.
Proof.
  destruct a as [r g1]. unfold summary. cbn [fst snd]. intros E. injection E as E1 E2 E3. subst r. split; [reflexivity|].
  destruct g1 as [c d u pr ba m s]. cbn [g_partitions g_primary] in E2, E3. subst m. cbn zeta. split; [reflexivity|].
  destruct pr as [h2|e|]; [|discriminate|discriminate]. injection E3 as F1 F2 F3.
  split; [|exists h2; split; [left; reflexivity|auto]].
  destruct h2. cbn in F1, F2, F3. subst. vm_compute. reflexivity.
Qed.
Theorem C85_grown_refuted : exists g h id g1, tidy g h /\ fault_free (g_device g) /\ g_partitions g = [] /\
  add_partition true [97] 512 (mkType linux_fs OsLinux) 0 None other_guid g = (Ok id, g1) /\
  let g2 := snd (remove_partition id g1) in
  g_partitions g2 = [] /\ @find_free_sectors gpt_err true g = Ok [(3, 89)] /\ @find_free_sectors gpt_err true g2 = Ok [(34, 58)] /\
  exists h2, header_of g2 h2 /\ num_parts h = 4 /\ num_parts h2 = 128.
Proof.
  pose proof (summary_removed _ _ few_added) as S.
  set (a := add_partition true [97] 512 (mkType linux_fs OsLinux) 0 None other_guid few_disk) in S.
  destruct S as (S1 & S2 & S3 & h2 & S4 & S5).
  exists few_disk, few_header, 1, (snd a). split; [exact few_tidy|]. split; [reflexivity|]. split; [reflexivity|].
  split; [exact S1|]. cbn zeta. split; [exact S2|]. split; [exact few_free|]. split; [exact S3|].
  exists h2. split; [exact S4|]. split; [reflexivity|exact S5].
Qed.
Print Assumptions C85_grown_refuted.
