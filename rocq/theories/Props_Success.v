(** Props_Success.v - what follows from a call that succeeded, without further conditions on the headers, and what
    holds however device operations fail: additions to C09, C11, C12, C57, C61 and C74. *)
From Verif Require Import TraceFacts RefuseFacts Props_Open Props_Header Props_Write Props_Fault Props_Mbr Props_Refuse.
Open Scope list_scope.
Open Scope N_scope.

(** C57.  Whatever the header says and whatever operations failed on the way: if the entries were read, they are what
    the bytes say. *)
Theorem C57_whenever_read : forall oc h lb d m d',
  addressable d -> file_read_partitions oc h lb d = (Ok m, d') ->
  part_size h = 128 /\ array_intact lb h (data d) /\
  forall k p, has m k p <->
    1 <= k <= num_parts h /\
    let entry := slot k (range (array_at lb h) (array_len h) (data d)) in
    ~ all_zero entry /\ entry_decodes entry p.
Proof.
  intros oc h lb d m d' A H. destruct (table_stored oc h lb d m d' H A) as (P & I & _ & T).
  split; [exact P|]. split; [exact I|exact T].
Qed.
Print Assumptions C57_whenever_read.

(** C09.  A changed array is not read, whatever the header says and whatever operations fail. *)
Theorem C09_damaged_never_read : forall oc oc' lb h d d' m k n,
  addressable d -> fst (file_read_partitions oc h lb d) = Ok m ->
  changed_only_in (between (array_at lb h + k) (array_at lb h + k + n)) (data d) (data d') ->
  data d <> data d' -> n <= 4 -> k + n <= array_len h ->
  forall m', fst (file_read_partitions oc' h lb d') <> Ok m'.
Proof.
  intros oc oc' lb h d d' m k n A R C D Hn Hk m' R'.
  destruct (file_read_partitions oc h lb d) as [r d1] eqn:E. cbn [fst] in R. subst r.
  destruct (file_read_partitions oc' h lb d') as [r d2] eqn:E'. cbn [fst] in R'. subst r.
  assert (L : lenN (data d) = lenN (data d')) by (destruct C as [C _]; symmetry; exact C).
  assert (A' : addressable d') by (unfold addressable in *; rewrite <- L; exact A).
  destruct (table_stored _ _ _ _ _ _ E A) as (P & (_ & S & I) & _). destruct (table_stored _ _ _ _ _ _ E' A') as (_ & (_ & _ & I') & _).
  assert (K : n = 0 \/ array_at lb h + array_len h <= lenN (data d)).
  { destruct S as [Z|S]; [left|right; exact S]. unfold array_len in Hk. rewrite Z in Hk. lia. }
  destruct K as [->|K].
  - apply D. destruct C as (CL & CB). apply nth_ext with (d := x00) (d' := x00); [unfold lenN in L; lia|].
    intros i Hi. specialize (CB (N.of_nat i)). unfold byte_no in CB. rewrite Nat2N.id in CB.
    assert (X : nth_error (data d) i = nth_error (data d') i).
    { symmetry. apply CB. unfold between. lia. }
    rewrite (nth_error_nth' _ x00) in X by exact Hi.
    rewrite (nth_error_nth' (data d') x00) in X by (unfold lenN in L; lia). congruence.
  - rewrite <- I' in I. revert I. change range with slice. apply (crc32_changed k n).
    + eapply changed_only_in_weaken; [|apply changed_slice; [exact C|exact K]]. unfold between. intros i. cbn beta. lia.
    + rewrite slice_length by exact K. exact Hk.
    + exact Hn.
    + intros X. apply D. eapply (changed_in_slice k n); [exact C|exact Hk|exact K|exact X].
Qed.
Print Assumptions C09_damaged_never_read.

(** C11.  Every disk that opens: the headers are what the two places hold, and GUID and partitions are those of the
    header in use, whatever that header says. *)
Theorem C11_opened : forall oc cfg d g d' r1 r2,
  fault_free d -> addressable d -> open_from_device oc cfg d = (Ok g, d') ->
  header_at (data d) (lb_u64 (c_lb cfg)) r1 -> backup_header_at (c_lb cfg) d r2 ->
  exists h, (r1 = Ok h \/ (exists e, r1 = Err e) /\ r2 = Ok h) /\ part_size h = 128 /\
    opened_with cfg d r1 r2 h (Ok g).
Proof.
  intros oc cfg d g d' r1 r2 F A H H1 H2. assert (A' := A). rewrite addressable_iff in A'.
  assert (E1 := header_at_fun _ _ _ _ H1 (read_header_at_spec (lb_u64 (c_lb cfg)) (data d))).
  assert (E2 := backup_header_fun _ _ _ _ H2 (backup_header_spec (c_lb cfg) d)).
  assert (NP := read_backup_at_no_panic (c_lb cfg) d). rewrite <- E2 in NP.
  assert (NP1 : r1 <> Panic) by (inversion H1; discriminate).
  assert (O := open_ok oc cfg d F A'). cbv zeta in O. rewrite <- E1, <- E2, H in O.
  destruct (select cfg r1 r2) as [h|e|] eqn:SE; try discriminate. unfold map_err in O.
  destruct (file_read_partitions oc h (c_lb cfg) d) as [[t|e|] d1] eqn:E; cbn [omap_err] in O; try discriminate.
  injection O as -> ->. destruct (table_stored _ _ _ _ _ _ E A) as (P & I & T).
  exists h. split; [|split; [exact P|]].
  - unfold select in SE. destruct (c_only_valid_headers cfg), r1 as [a|a|], r2 as [b|b|]; try congruence; cbn in SE;
      try discriminate; injection SE as <-; eauto.
  - pose proof (untouched_file_read_partitions oc h (c_lb cfg) d) as U. rewrite E in U. cbn [snd] in U.
    unfold opened_with. cbn [g_config g_guid g_primary g_backup g_device g_sync g_partitions].
    split; [exact I|]. split; [exact T|]. repeat (split; [reflexivity|]). split; [apply same_medium_of, U|reflexivity].
Qed.
Print Assumptions C11_opened.

(** C12.  With only_valid_headers, however device operations fail: [r1] and [r2] are what reading the two headers
    gives. *)
Theorem C12_any_faults : forall oc cfg d r1 d1 r2 d2,
  c_only_valid_headers cfg = true ->
  read_primary_header (c_lb cfg) d = (r1, d1) -> read_backup_header (c_lb cfg) d1 = (r2, d2) ->
  let res := fst (open_from_device oc cfg d) in
  (forall e, r1 = Err e -> res = Err (GHeader e)) /\
  (forall h e, r1 = Ok h -> r2 = Err e -> res = Err (GHeader e)) /\
  (forall g, res = Ok g -> exists h1 h2, r1 = Ok h1 /\ r2 = Ok h2 /\ primary_header g = Ok h1 /\ backup_header g = Ok h2).
Proof.
  intros oc cfg d r1 d1 r2 d2 V E1 E2 res.
  assert (N1 : r1 <> Panic).
  { pose proof (proj1 (C07_reading_never_panics (c_lb cfg) d)) as N. rewrite E1 in N. exact N. }
  assert (N2 : r2 <> Panic).
  { pose proof (proj2 (C07_reading_never_panics (c_lb cfg) d1)) as N. rewrite E2 in N. exact N. }
  assert (O : res = match r1, r2 with
    | Ok h1, Ok h2 => match file_read_partitions oc h1 (c_lb cfg) d2 with
                      | (Ok t, d3) => Ok (mkGdisk cfg d3 (disk_guid h1) (Ok h1) (Ok h2) t false)
                      | (Err e, _) => Err (GIo e)
                      | (Panic, _) => Panic
                      end
    | Err e, _ | Ok _, Err e => Err (GHeader e)
    | _, _ => Panic
    end).
  { unfold res, open_from_device. unfold bind at 1, attempt at 1. rewrite E1.
    destruct r1 as [h1|e1|]; [| |congruence]; unfold bind at 1, attempt at 1; rewrite E2;
      (destruct r2 as [h2|e2|]; [| |congruence]); rewrite V; cbn [omap_err lift]; try reflexivity.
    unfold bind, lift, ret, map_err. cbn [or_else].
    destruct (file_read_partitions oc h1 (c_lb cfg) d2) as [[t|e|] d3]; reflexivity. }
  clearbody res. subst res. split; [intros e ->; destruct r2; congruence|]. split; [intros h e -> ->; reflexivity|].
  intros g X. destruct r1 as [h1|e1|]; [| |congruence]; [|discriminate]. destruct r2 as [h2|e2|]; [| |congruence]; [|discriminate].
  destruct (file_read_partitions oc h1 (c_lb cfg) d2) as [[t|e|] d3]; try discriminate.
  injection X as <-. exists h1, h2. repeat split.
Qed.
Print Assumptions C12_any_faults.

(** C74.  Creating and [write_header] too, however device operations fail. *)
Theorem C74_too_small_new : forall oc cfg u rnd lb d,
  lenN (data d) < 3 * lb_u64 lb -> c_lb cfg = lb ->
  (exists e, fst (create_from_device oc cfg u rnd d) = Err e) /\
  same_medium d (snd (create_from_device oc cfg u rnd d)) /\
  (exists e, fst (write_header oc u rnd lb d) = Err e) /\
  same_medium d (snd (write_header oc u rnd lb d)).
Proof.
  intros oc cfg u rnd lb d L CL.
  pose proof (untouched_find_backup_lba lb d) as U.
  assert (NP : fst (find_backup_lba lb d) <> Panic) by apply calm_find_backup_lba.
  assert (NOK : forall n d1, find_backup_lba lb d <> (Ok n, d1)).
  { intros n d1 E. apply find_backup_len in E. unfold dev_len in E. lia. }
  unfold create_from_device, init_headers, write_header, bind, on_device, map_err. cbn [g_config g_device]. rewrite CL.
  destruct (find_backup_lba lb d) as [[n|e|] d1]; cbn [omap_err fst snd] in *.
  - exfalso. exact (NOK n d1 eq_refl).
  - cbn [g_device set_device fst snd]. apply same_medium_of in U. repeat split; eauto; apply U.
  - congruence.
Qed.
Print Assumptions C74_too_small_new.

(** C61.  [write], which gives the device back. *)
Theorem C61_write_back : forall oc g d' g', write oc g = (Ok d', g') ->
  no_fault_between (g_device g) d' /\ write oc (repaired_disk g) = (Ok (repaired d'), repaired_disk g').
Proof.
  intros oc g d' g' H. unfold write, bind in *. destruct (write_inplace oc g) as [[[]|e|] g1] eqn:E; try discriminate.
  injection H as <- <-. destruct (C61_write oc g tt g1 E) as (A & B). split; [exact A|]. rewrite B. reflexivity.
Qed.
Print Assumptions C61_write_back.
(** A disk with both headers and one partition; the same disk with a byte of the array changed, with both headers
    asked for; and with a device that fails at the third call (the read of the primary header). *)
Definition saved_dev : dev := g_device (snd (write_inplace true (mini_disk [(1, sample_part)]))).
Definition hurt_dev : dev := set_data saved_dev (store 1030 [x77] (data saved_dev)) 0.
Definition strict_config : config := mkConfig Lb512 true true false false.
Example C09_never_read_case :
  match read_primary_header Lb512 saved_dev with
  | (Ok h, _) => match file_read_partitions true h Lb512 saved_dev, file_read_partitions true h Lb512 hurt_dev with
                 | (Ok m, _), (Err e, _) => map fst m = [1] /\ array_at Lb512 h = 1024 /\ array_len h = 512 /\
                     e = IoOther "partition table CRC mismatch"
                 | _, _ => False
                 end
  | _ => False
  end.
Proof. vm_compute. repeat split. Qed.
Example C12_faults_case :
  let failing := with_faults [None; None; Some 10%nat] saved_dev in
  (exists g, fst (open_from_device true strict_config saved_dev) = Ok g) /\
  (exists h, fst (read_primary_header Lb512 saved_dev) = Ok h) /\
  fst (read_primary_header Lb512 failing) = Err (HIo IoFault) /\
  fst (open_from_device true strict_config failing) = Err (GHeader (HIo IoFault)) /\
  exists g, fst (open_from_device true mini_config failing) = Ok g.
Proof. cbv zeta. repeat split; try (eexists; vm_compute; reflexivity); vm_compute; reflexivity. Qed.
Example C74_new_case :
  let d := with_faults [None; Some 0%nat] (mkDev (zeros 1535) 0 false false [] []) in
  fst (create_from_device true mini_config None sample_guid d) = Err (GHeader (HIo IoFault)) /\
  fst (write_header true None sample_guid Lb512 (repaired d)) = Err HToSmallForBackup.
Proof. vm_compute. repeat split. Qed.
Example C61_back_case : exists d' g', write true (mini_disk [(1, sample_part)]) = (Ok d', g') /\ data d' <> data mini_dev.
Proof. eexists _, _. split; [vm_compute; reflexivity|vm_compute; discriminate]. Qed.
(** The public [parse_uuid] takes the first 16 bytes, in the order of a GUID on disk, and leaves the rest; of less than
    16 bytes it takes none. *)
Theorem C57_parse_uuid : forall r,
  (16 <= lenN r -> exists u, parse_uuid r = (Ok u, skipn 16 r) /\ guid_ok u /\ guid_on_disk u = firstn 16 r) /\
  (lenN r < 16 -> parse_uuid r = (Err IoUnexpectedEof, r)).
Proof.
  intros r. unfold lenN. split; intros L.
  - assert (F : length (firstn 16 r) = 16%nat) by (rewrite firstn_length; lia).
    exists (uuid_of_disk (firstn 16 r)). assert (W := uuid_of_disk_wf _ F).
    split; [|split; [exact W|rewrite guid_on_disk_le by exact W; apply uuid_of_disk_le, F]].
    pose proof (parse_uuid_raw (firstn 16 r) (skipn 16 r) F) as X. rewrite firstn_skipn in X. exact X.
  - unfold parse_uuid. destruct (Nat.ltb_spec (length r) 16); [reflexivity|lia].
Qed.
Print Assumptions C57_parse_uuid.
Example C57_parse_uuid_case :
  parse_uuid [xaf;x3d;xc6;x0f;x83;x84;x72;x47;x8e;x79;x3d;x69;xd8;x47;x7d;xe4;x01;x02] = (Ok linux_fs, [x01; x02]) /\
  parse_uuid [xaf;x3d;xc6;x0f;x83;x84;x72;x47;x8e;x79;x3d;x69;xd8;x47;x7d] =
    (Err IoUnexpectedEof, [xaf;x3d;xc6;x0f;x83;x84;x72;x47;x8e;x79;x3d;x69;xd8;x47;x7d]).
Proof. vm_compute. split; reflexivity. Qed.
