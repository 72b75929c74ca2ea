(** Props_Open.v - properties C10-C13: opening a disk. *)
From Verif Require Import MapFacts.
Open Scope list_scope.
Open Scope N_scope.

(** C10.  Opening changes nothing on the medium, whatever the contents, configuration and faults; on
    success the disk holds the same device. *)
Theorem C10_open_changes_nothing : forall oc cfg d,
  same_medium d (snd (open_from_device oc cfg d)) /\
  same_medium d (snd (open_path oc cfg d)) /\
  forall g, fst (open_from_device oc cfg d) = Ok g -> g_device g = snd (open_from_device oc cfg d).
Proof.
  intros oc cfg d. split; [apply untouched_open|]. split.
  - unfold open_path, with_sync. pose proof (untouched_open oc cfg d) as U. unfold bind.
    destruct (open_from_device oc cfg d) as [[g|e|] d']; exact U.
  - intros g E. destruct (open_from_device oc cfg d) as [r d'] eqn:O. cbn [fst snd] in *. subst r.
    unfold open_from_device in O.
    apply bind_inv in O. destruct O as (h1 & s1 & _ & O). apply bind_inv in O. destruct O as (h2 & s2 & _ & O).
    apply bind_inv in O. destruct O as ((a1 & a2) & s3 & _ & O).
    apply bind_inv in O. destruct O as (h & s4 & _ & O). apply bind_inv in O. destruct O as (t & s5 & _ & O).
    injection O as <- <-. reflexivity.
Qed.
Print Assumptions C10_open_changes_nothing.

(** C11.  Default configuration, no faults; [r1] and [r2] are what the places of the two headers hold.
    Opening fails with a header error exactly if both are unreadable, and the error is the
    primary's ... *)
Theorem C11_header_error : forall oc cfg d r1 r2 e,
  fault_free d -> addressable d -> c_only_valid_headers cfg = false ->
  header_at (data d) (lb_u64 (c_lb cfg)) r1 -> backup_header_at (c_lb cfg) d r2 ->
  (fst (open_from_device oc cfg d) = Err (GHeader e) <-> r1 = Err e /\ exists e2, r2 = Err e2).
Proof.
  intros oc cfg d r1 r2 e F A V H1 H2. rewrite addressable_iff in A.
  pose proof (header_at_fun _ _ _ _ H1 (read_header_at_spec (lb_u64 (c_lb cfg)) (data d))).
  pose proof (backup_header_fun _ _ _ _ H2 (backup_header_spec (c_lb cfg) d)). subst r1 r2.
  rewrite (open_ok oc cfg d F A). unfold select. rewrite V.
  assert (X : forall h d0 x y, fst match map_err GIo (file_read_partitions oc h (c_lb cfg)) d0 with
      | (Ok t, d') => (Ok (mkGdisk cfg d' (disk_guid h) x y t false), d')
      | (Err e0, d') => (Err e0, d') | (Panic, d') => (Panic, d') end <> Err (GHeader e)).
  { intros h d0 x y. unfold map_err. destruct (file_read_partitions oc h (c_lb cfg) d0) as [[t|i|] d'];
      cbn; discriminate. }
  pose proof (read_backup_at_no_panic (c_lb cfg) d) as NP.
  inversion H1 as [E1 E2|E1 E2 E3|E1 E2 E3 E4|x E1 E2 E3 E4 E5];
    destruct (read_backup_at (c_lb cfg) d) as [h2|e2|]; try congruence;
    (split; [|intros (B1 & e3 & B2); try discriminate; injection B1 as <-; reflexivity]);
    try (intros B; exfalso; revert B; apply X);
    (intros B; cbn [fst] in B; injection B as <-; split; [reflexivity|eexists; reflexivity]).
Qed.
Print Assumptions C11_header_error.
(** ... otherwise the primary header is used if it is readable, else the backup, and GUID, headers and
    partitions are those of the header used ([opened_with]). *)
Theorem C11_header_used : forall oc cfg d r1 r2 h,
  fault_free d -> addressable d -> c_only_valid_headers cfg = false ->
  header_at (data d) (lb_u64 (c_lb cfg)) r1 -> backup_header_at (c_lb cfg) d r2 ->
  r1 = Ok h \/ (exists e, r1 = Err e) /\ r2 = Ok h ->
  part_size h = 128 -> countable oc h (data d) ->
  opened_with cfg d r1 r2 h (fst (open_from_device oc cfg d)).
Proof.
  intros oc cfg d r1 r2 h F A V H1 H2 U P Hn. apply open_with_header; auto.
  assert (NP : r2 <> Panic).
  { rewrite (backup_header_fun _ _ _ _ H2 (backup_header_spec (c_lb cfg) d)). apply read_backup_at_no_panic. }
  unfold select. rewrite V. destruct U as [->|((e & ->) & ->)]; [|reflexivity].
  destruct r2; congruence.
Qed.
Print Assumptions C11_header_used.
(** The partition list is determined by the bytes. *)
Theorem C11_table_unique : forall lb h l m m', table_read lb h l m -> table_read lb h l m' -> m = m'.
Proof. exact table_read_fun. Qed.
Print Assumptions C11_table_unique.

(** C12.  With only_valid_headers. *)
Theorem C12_only_valid_headers : forall oc cfg d r1 r2,
  fault_free d -> addressable d -> c_only_valid_headers cfg = true ->
  header_at (data d) (lb_u64 (c_lb cfg)) r1 -> backup_header_at (c_lb cfg) d r2 ->
  let res := fst (open_from_device oc cfg d) in
  (forall e, r1 = Err e -> res = Err (GHeader e)) /\
  (forall h e, r1 = Ok h -> r2 = Err e -> res = Err (GHeader e)) /\
  (forall g, res = Ok g -> exists h1 h2, r1 = Ok h1 /\ r2 = Ok h2) /\
  (forall h1 h2, r1 = Ok h1 -> r2 = Ok h2 -> part_size h1 = 128 -> countable oc h1 (data d) ->
     opened_with cfg d r1 r2 h1 res).
Proof.
  intros oc cfg d r1 r2 F A V H1 H2 res. assert (A' := A). rewrite addressable_iff in A'.
  assert (E1 := header_at_fun _ _ _ _ H1 (read_header_at_spec (lb_u64 (c_lb cfg)) (data d))).
  assert (E2 := backup_header_fun _ _ _ _ H2 (backup_header_spec (c_lb cfg) d)).
  assert (NP := read_backup_at_no_panic (c_lb cfg) d). rewrite <- E2 in NP.
  assert (O := open_ok oc cfg d F A'). cbv zeta in O. rewrite <- E1, <- E2 in O.
  assert (NP1 : r1 <> Panic) by (inversion H1; discriminate).
  unfold res. split; [|split; [|split]].
  - intros e ->. rewrite O. unfold select. rewrite V. destruct r2; try congruence; reflexivity.
  - intros h e -> ->. rewrite O. unfold select. rewrite V. reflexivity.
  - intros g. rewrite O. unfold select. rewrite V.
    destruct r1 as [h1|e1|], r2 as [h2|e2|]; try congruence; cbn [fst]; try discriminate.
    intros _. eauto.
  - intros h1 h2 -> -> P Hn. apply open_with_header; auto.
Qed.
Print Assumptions C12_only_valid_headers.

(** C13.  The property is false: a header asking for entries of another size than 128 makes open
    panic although its checksum is right. *)
Definition odd_header : header := mkHeader EFI_PART 1 0 92 0 0 1 5 3 3 sample_guid 2 4 256 0.
Definition odd_dev : dev := snd (snd (write_primary odd_header Lb512 mini_dev)).
Theorem C13_entry_size_panics_refuted : exists d, fault_free d /\ lenN (data d) = 3072 /\
  fst (open_from_device true config_default d) = Panic /\
  fst (open_from_device false config_default d) = Panic.
Proof. exists odd_dev. repeat split; vm_compute; reflexivity. Qed.
Print Assumptions C13_entry_size_panics_refuted.
(** That is the only way, for every device contents, in a release build (no overflow checks), and in
    every build if the device is below 2^38 bytes (256 GiB) ... *)
Theorem C13_panics_iff_partial : forall oc cfg d r1 r2,
  fault_free d -> addressable d -> oc = false \/ lenN (data d) < 2 ^ 38 ->
  header_at (data d) (lb_u64 (c_lb cfg)) r1 -> backup_header_at (c_lb cfg) d r2 ->
  (fst (open_from_device oc cfg d) = Panic <->
   exists h, (if c_only_valid_headers cfg then r1 = Ok h /\ exists h2, r2 = Ok h2
              else r1 = Ok h \/ (exists e, r1 = Err e) /\ r2 = Ok h) /\
     part_size h <> 128 /\ array_at (c_lb cfg) h < 2 ^ 64).
Proof.
  intros oc cfg d r1 r2 F A OC H1 H2. rewrite addressable_iff in A.
  assert (E1 := header_at_fun _ _ _ _ H1 (read_header_at_spec (lb_u64 (c_lb cfg)) (data d))).
  assert (E2 := backup_header_fun _ _ _ _ H2 (backup_header_spec (c_lb cfg) d)).
  assert (NP := read_backup_at_no_panic (c_lb cfg) d). rewrite <- E2 in NP.
  assert (O := open_ok oc cfg d F A). cbv zeta in O. rewrite <- E1, <- E2 in O.
  assert (NP1 : r1 <> Panic) by (inversion H1; discriminate).
  rewrite O.
  assert (X : forall h x y, fst match map_err GIo (file_read_partitions oc h (c_lb cfg)) d with
      | (Ok t, d') => (Ok (mkGdisk cfg d' (disk_guid h) x y t false), d')
      | (Err e0, d') => (Err e0, d') | (Panic, d') => (Panic, d') end = Panic <->
      part_size h <> 128 /\ array_at (c_lb cfg) h < 2 ^ 64).
  { intros h x y. unfold map_err. destruct (N.eq_dec (part_size h) 128) as [P|P].
    - assert (C : fst (file_read_partitions oc h (c_lb cfg) d) <> Panic).
      { destruct (file_read_partitions_ok oc h (c_lb cfg) d F P) as (p & ->); auto.
        - apply (proj1 (countable_iff _ _ _)). unfold countable. tauto.
        - unfold read_parts_at. repeat (destruct (_ <=? _) || destruct (_ =? _)); cbn; discriminate. }
      destruct (file_read_partitions oc h (c_lb cfg) d) as [[t|i|] d']; cbn in *;
        (split; [congruence|intros (? & _); contradiction]).
    - unfold file_read_partitions, checked_mul64, array_at. rewrite <- two64.
      destruct (N.ltb_spec (part_start h * lb_u64 (c_lb cfg)) (modulus 64)) as [L|L].
      + cbn [ok_or lift]. unfold bind at 1. cbn [lift]. unfold bind at 1.
        rewrite seek_start_ok by assumption.
        replace (part_size h =? 128) with false by (symmetry; apply N.eqb_neq; exact P). cbn. tauto.
      + cbn. split; [discriminate|lia]. }
  unfold select. destruct (c_only_valid_headers cfg).
  - destruct r1 as [h1|e1|], r2 as [h2|e2|]; try congruence; cbn [fst].
    2,3,4: split; [discriminate|]; intros (h & (Q1 & h2' & Q2) & _); discriminate.
    rewrite X. split.
    + intros Y. exists h1. split; [split; [reflexivity|eauto]|exact Y].
    + intros (h & (Q & _) & Y). injection Q as <-. exact Y.
  - destruct r1 as [h1|e1|], r2 as [h2|e2|]; try congruence; cbn [fst].
    1,2: rewrite X; split; [intros Y; exists h1; split; [left; reflexivity|exact Y]|];
      intros (h & [Q|((e & Q) & _)] & Y); [injection Q as <-; exact Y|discriminate].
    + rewrite X. split; [intros Y; exists h2; split; [right; split; [eexists|]; reflexivity|exact Y]|].
      intros (h & [Q|(_ & Q)] & Y); [discriminate|injection Q as <-; exact Y].
    + split; [discriminate|]. intros (h & [Q|(_ & Q)] & _); discriminate.
Qed.
Print Assumptions C13_panics_iff_partial.
(** ... and in a build with overflow checks if the header in use has fewer than 2^31 entries. *)
Theorem C13_debug_open_partial : forall oc cfg d,
  fault_free d -> addressable d ->
  (forall h, header_at (data d) (lb_u64 (c_lb cfg)) (Ok h) \/ backup_header_at (c_lb cfg) d (Ok h) ->
     part_size h = 128 /\ countable oc h (data d)) ->
  fst (open_from_device oc cfg d) <> Panic.
Proof.
  intros oc cfg d F A H. rewrite addressable_iff in A. apply open_calm; auto.
  intros h Q. destruct (H h) as (P & Hn); [|split; [auto|apply (proj1 (countable_iff _ _ _)); auto]].
  destruct Q as [Q|Q]; [left|right]; rewrite <- Q; [apply read_header_at_spec|apply backup_header_spec].
Qed.
Print Assumptions C13_debug_open_partial.

(** A mini disk with one partition, written; and the same with the primary header destroyed. *)
Definition mini_one : gdisk := mini_disk [(1, sample_part)].
Definition mini_one_dev : dev := g_device (snd (write_inplace true mini_one)).
Definition wiped_dev : dev := set_data mini_one_dev (store 512 [x00] (data mini_one_dev)) 0.
Example opened_cases :
  (exists h, fst (read_primary_header Lb512 mini_one_dev) = Ok h /\ part_size h = 128 /\ num_parts h = 4) /\
  match fst (open_from_device true config_default mini_one_dev) with
  | Ok g => map fst (g_partitions g) = [1] /\ g_guid g = sample_guid
  | _ => False
  end /\
  match fst (open_from_device true config_default wiped_dev) with
  | Ok g => g_primary g = Err HInvalidGptSignature /\ map fst (g_partitions g) = [1]
  | _ => False
  end /\
  fst (open_from_device true (cset_only_valid_headers true config_default) wiped_dev)
    = Err (GHeader HInvalidGptSignature) /\
  fst (open_from_device true config_default mini_dev) = Err (GHeader HInvalidGptSignature).
Proof. split; [eexists; split; [vm_compute; reflexivity|split; reflexivity]|]. vm_compute. auto. Qed.
