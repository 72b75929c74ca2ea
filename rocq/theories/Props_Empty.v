(** Props_Empty.v - exactly when opening panics, in every build and on a device of any size (C13). *)
From Verif Require Import Samples EmptyFacts MapFacts Props_Open.
Open Scope list_scope.
Open Scope N_scope.

(** Opening panics exactly if the header in use has its array at an offset of 64 bits and either asks for entries of
    another size than 128 bytes or, with overflow checks, has 2^31 empty entries on the device. *)
Theorem C13_panics_exactly : forall oc cfg d r1 r2,
  fault_free d -> addressable d ->
  header_at (data d) (lb_u64 (c_lb cfg)) r1 -> backup_header_at (c_lb cfg) d r2 ->
  (fst (open_from_device oc cfg d) = Panic <->
   exists h, (if c_only_valid_headers cfg then r1 = Ok h /\ exists h2, r2 = Ok h2
              else r1 = Ok h \/ (exists e, r1 = Err e) /\ r2 = Ok h) /\
     array_at (c_lb cfg) h < 2 ^ 64 /\
     (part_size h <> 128 \/ oc = true /\ empty_entries (c_lb cfg) h (data d) (2 ^ 31))).
Proof.
  intros oc cfg d r1 r2 F A H1 H2. rewrite addressable_iff in A.
  assert (E1 := header_at_fun _ _ _ _ H1 (read_header_at_spec (lb_u64 (c_lb cfg)) (data d))).
  assert (E2 := backup_header_fun _ _ _ _ H2 (backup_header_spec (c_lb cfg) d)).
  assert (NP := read_backup_at_no_panic (c_lb cfg) d). rewrite <- E2 in NP.
  assert (O := open_ok oc cfg d F A). cbv zeta in O. rewrite <- E1, <- E2 in O.
  assert (NP1 : r1 <> Panic) by (inversion H1; discriminate).
  rewrite O.
  assert (X : forall h x y, fst match map_err GIo (file_read_partitions oc h (c_lb cfg)) d with
      | (Ok t, d') => (Ok (mkGdisk cfg d' (disk_guid h) x y t false), d')
      | (Err e0, d') => (Err e0, d') | (Panic, d') => (Panic, d') end = Panic <->
      array_at (c_lb cfg) h < 2 ^ 64 /\
      (part_size h <> 128 \/ oc = true /\ empty_entries (c_lb cfg) h (data d) (2 ^ 31))).
  { intros h x y. rewrite <- (read_partitions_panics oc h (c_lb cfg) d F A). unfold map_err.
    destruct (file_read_partitions oc h (c_lb cfg) d) as [[t|i|] d']; cbn; split; congruence. }
  unfold select. destruct (c_only_valid_headers cfg).
  - destruct r1 as [h1|e1|], r2 as [h2|e2|]; try congruence; cbn [fst].
    2,3,4: split; [discriminate|]; intros (h & (Q1 & h2' & Q2) & _); discriminate.
    rewrite X. split.
    + intros Y. exists h1. split; [split; [reflexivity|eauto]|exact Y].
    + intros (h & (Q & _) & Y). injection Q as <-. exact Y.
  - destruct r1 as [h1|e1|], r2 as [h2|e2|]; try congruence; cbn [fst].
    1,2: rewrite X; split; [intros Y; exists h1; split; [left; reflexivity|exact Y]|];
      intros (h & [Q|((e & Q) & _)] & Y); [injection Q as <-; exact Y|discriminate].
    + rewrite X. split; [intros Y; exists h2; split; [right; split; [eexists|]; reflexivity|exact Y]|].
      intros (h & [Q|(_ & Q)] & Y); [discriminate|injection Q as <-; exact Y].
    + split; [discriminate|]. intros (h & [Q|(_ & Q)] & _); discriminate.
Qed.
Print Assumptions C13_panics_exactly.
(** The same for the function that reads a table alone. *)
Theorem C13_read_partitions : forall oc h lb d, fault_free d -> addressable d ->
  (fst (file_read_partitions oc h lb d) = Panic <->
   array_at lb h < 2 ^ 64 /\ (part_size h <> 128 \/ oc = true /\ empty_entries lb h (data d) (2 ^ 31))).
Proof. intros oc h lb d F A. rewrite addressable_iff in A. apply read_partitions_panics; assumption. Qed.
Print Assumptions C13_read_partitions.
(** An array with one partition and three empty entries. *)
Example C13_count_case : match fst (open_from_device true config_default mini_one_dev) with
  | Ok g => exists h, header_of g h /\ num_parts h = 4 /\ empty_entries Lb512 h (data mini_one_dev) 3 /\
      ~ empty_entries Lb512 h (data mini_one_dev) 4
  | _ => False
  end.
Proof.
  destruct (fst (open_from_device true config_default mini_one_dev)) as [g|e|] eqn:E; [|vm_compute in E; discriminate..].
  assert (X : exists h, fst (open_from_device true config_default mini_one_dev) = Ok g /\ g_primary g = Ok h /\
    num_parts h = 4 /\ voids (N.to_nat (num_parts h)) (array_at Lb512 h) (data mini_one_dev) = 3).
  { vm_compute in E. injection E as <-. eexists. split; [vm_compute; reflexivity|]. split; [reflexivity|].
    split; vm_compute; reflexivity. }
  destruct X as (h & _ & P & N4 & V). exists h. split; [left; exact P|]. split; [exact N4|].
  rewrite !empty_entries_iff, V. lia.
Qed.
