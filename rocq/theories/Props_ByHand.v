(** Props_ByHand.v - changing one entry of a partition array without opening the disk (C88). *)
From Verif Require Import SpecByHand ByHandFacts Samples.
Open Scope list_scope.
Open Scope N_scope.

(** C88.  Partition::write_to_device followed by Header::write_primary replaces exactly one entry: nothing else changes
    on the device but the header's block, and opening shows the old table with that one partition in it. *)
Theorem C88_replace : forall oc oc' cfg d h g p i, fault_free d -> addressable d -> let lb := c_lb cfg in
  primary_on lb (data d) h -> i < num_parts h -> countable oc' h (data d) -> c_only_valid_headers cfg = false ->
  fst (open_from_device oc' cfg d) = Ok g -> partition_ok p -> used p ->
  exists d1 h' d2 g2, write_to_device oc p i (part_start h) lb 128 d = (Ok tt, d1) /\
    write_primary h lb d1 = (Ok (lb_u64 lb), (h', d2)) /\ fst (open_from_device oc' cfg d2) = Ok g2 /\ g_guid g2 = g_guid g /\
    changed_only_in (fun j => between (lb_u64 lb) (2 * lb_u64 lb) j \/ entry_no lb h i j) (data d) (data d2) /\
    entry_set (i + 1) p (g_partitions g) (g_partitions g2).
Proof.
  intros oc oc' cfg d h g p i F A lb PO LI C V E P U.
  destruct (by_hand oc oc' cfg d h g p i F A PO LI C V E) as (d1 & h' & d2 & g2 & W1 & W2 & O & G & CH & M & T).
  exists d1, h', d2, g2. do 5 (split; [assumption|]). split; [exact M|]. intros j q. rewrite T.
  pose proof P as P'. rewrite partition_ok_iff in P'. rewrite used_iff in U.
  assert (GO : guid_ok (guid (part_type p))) by apply P'.
  assert (NZ : ~ all_zero (as_bytes p 128)).
  { rewrite all_zero_128 by apply as_bytes_length. apply used_entry_nonzero; assumption. }
  split; (intros [X|(X & Y)]; [left; exact X|right; split; [exact X|]]).
  - destruct Y as (_ & Y). rewrite (entry_decodes_fun _ _ _ Y (as_bytes_decodes p P')). apply same_entry_normal, GO.
  - split; [exact NZ|]. rewrite (same_entry_is p q GO Y). apply as_bytes_decodes, P'.
Qed.
Print Assumptions C88_replace.
(** Writing the empty entry takes the partition away. *)
Theorem C88_clear : forall oc oc' cfg d h g i, fault_free d -> addressable d -> let lb := c_lb cfg in
  primary_on lb (data d) h -> i < num_parts h -> countable oc' h (data d) -> c_only_valid_headers cfg = false ->
  fst (open_from_device oc' cfg d) = Ok g ->
  exists d1 h' d2 g2, write_to_device oc partition_zero i (part_start h) lb 128 d = (Ok tt, d1) /\
    write_primary h lb d1 = (Ok (lb_u64 lb), (h', d2)) /\ fst (open_from_device oc' cfg d2) = Ok g2 /\ g_guid g2 = g_guid g /\
    changed_only_in (fun j => between (lb_u64 lb) (2 * lb_u64 lb) j \/ entry_no lb h i j) (data d) (data d2) /\
    entry_cleared (i + 1) (g_partitions g) (g_partitions g2).
Proof.
  intros oc oc' cfg d h g i F A lb PO LI C V E.
  destruct (by_hand oc oc' cfg d h g partition_zero i F A PO LI C V E) as (d1 & h' & d2 & g2 & W1 & W2 & O & G & CH & M & T).
  exists d1, h', d2, g2. do 5 (split; [assumption|]). split; [exact M|]. intros j q. rewrite T. split; [|auto].
  intros [X|(_ & X & _)]; [exact X|]. exfalso. apply X.
  rewrite as_bytes_zero. apply all_zero_iff. rewrite zeros_length. reflexivity.
Qed.
Print Assumptions C88_clear.
(** Stopping after the entry, or writing the header before the entry, leaves a disk that does not open whenever the
    array's CRC-32 is no longer what it was. *)
Theorem C88_unfinished : forall oc oc' cfg d d1 h g p i, fault_free d -> addressable d -> let lb := c_lb cfg in
  primary_on lb (data d) h -> i < num_parts h -> countable oc' h (data d) -> c_only_valid_headers cfg = false ->
  fst (open_from_device oc' cfg d) = Ok g -> write_to_device oc p i (part_start h) lb 128 d = (Ok tt, d1) ->
  crc32 (range (array_at lb h) (array_len h) (data d1)) <> crc32 (range (array_at lb h) (array_len h) (data d)) ->
  exists e, fst (open_from_device oc' cfg d1) = Err (GIo e).
Proof.
  intros oc oc' cfg d d1 h g p i F A lb PO LI C V E W NE.
  destruct (open_lax oc' cfg d h F A V (po_header _ _ _ PO) (po_psize _ _ _ PO) C) as (r & O). rewrite E in O.
  exact (entry_only oc oc' cfg d d1 h p i F A PO LI C V (proj1 O) W NE).
Qed.
Print Assumptions C88_unfinished.
Theorem C88_header_first : forall oc oc' cfg d d1 d2 h h' w p i, fault_free d -> addressable d -> let lb := c_lb cfg in
  primary_on lb (data d) h -> i < num_parts h -> countable oc' h (data d) -> c_only_valid_headers cfg = false ->
  write_primary h lb d = (Ok w, (h', d1)) -> write_to_device oc p i (part_start h) lb 128 d1 = (Ok tt, d2) ->
  crc32 (range (array_at lb h) (array_len h) (data d2)) <> crc32 (range (array_at lb h) (array_len h) (data d)) ->
  exists e, fst (open_from_device oc' cfg d2) = Err (GIo e).
Proof. intros. eapply header_first; eassumption. Qed.
Print Assumptions C88_header_first.

(** A disk all this applies to: a small disk with one partition, opened with a lax configuration, whose third entry
    becomes a partition; both wrong ways end in a device with another checksum. *)
Definition hand_dev : dev := g_device (snd (write_inplace true (mini_disk [(1, sample_part)]))).
Definition hand_header : header := match read_header_at 512 (data hand_dev) with Ok h => h | _ => mini_header end.
Definition hand_entry : dev := snd (write_to_device true sample_part 2 2 Lb512 128 hand_dev).
Definition hand_rest : dev := snd (snd (write_primary hand_header Lb512 hand_dev)).
Definition hand_wrong : dev := snd (write_to_device true sample_part 2 2 Lb512 128 hand_rest).
Lemma hand_facts : faults hand_dev = [] /\ lenN (data hand_dev) = 3072 /\ read_header_at 512 (data hand_dev) = Ok hand_header /\
  hand_header = mkHeader EFI_PART 1 0 92 (crc32_hdr hand_header) 0 1 5 3 3 sample_guid 2 4 128 (crc32_parts hand_header) /\
  (exists g, fst (open_from_device true mini_config hand_dev) = Ok g /\ lenN (g_partitions g) = 1) /\
  fst (write_to_device true sample_part 2 2 Lb512 128 hand_dev) = Ok tt /\
  fst (write_primary hand_header Lb512 hand_dev) = Ok 512 /\
  fst (write_to_device true sample_part 2 2 Lb512 128 hand_rest) = Ok tt /\
  (crc32 (slice 1024 512 (data hand_entry)) =? crc32 (slice 1024 512 (data hand_dev))) = false /\
  (crc32 (slice 1024 512 (data hand_wrong)) =? crc32 (slice 1024 512 (data hand_dev))) = false.
Proof.
  unfold hand_wrong, hand_rest, hand_entry.
  assert (D : hand_dev = ltac:(let x := eval vm_compute in hand_dev in exact x)) by (vm_compute; reflexivity).
  unfold hand_header. rewrite D. clear D.
  do 4 (split; [vm_compute; reflexivity|]).
  split; [eexists; split; vm_compute; reflexivity|].
  do 4 (split; [vm_compute; reflexivity|]). vm_compute. reflexivity.
Qed.
Example C88_case : fault_free hand_dev /\ addressable hand_dev /\ primary_on Lb512 (data hand_dev) hand_header /\
  2 < num_parts hand_header /\ countable true hand_header (data hand_dev) /\ c_only_valid_headers mini_config = false /\
  (exists g k p, fst (open_from_device true mini_config hand_dev) = Ok g /\ has (g_partitions g) k p) /\
  partition_ok sample_part /\ used sample_part /\
  write_to_device true sample_part 2 (part_start hand_header) Lb512 128 hand_dev = (Ok tt, hand_entry) /\
  (exists h', write_primary hand_header Lb512 hand_dev = (Ok 512, (h', hand_rest))) /\
  write_to_device true sample_part 2 (part_start hand_header) Lb512 128 hand_rest = (Ok tt, hand_wrong) /\
  let array d := range (array_at Lb512 hand_header) (array_len hand_header) (data d) in
  crc32 (array hand_entry) <> crc32 (array hand_dev) /\ crc32 (array hand_wrong) <> crc32 (array hand_dev).
Proof.
  destruct hand_facts as (F & L & R & H & O & W1 & W2 & W3 & N1 & N2).
  assert (HP : part_start hand_header = 2 /\ num_parts hand_header = 4 /\ part_size hand_header = 128 /\
    current_lba hand_header = 1 /\ backup_lba hand_header = 5) by (rewrite H; repeat split).
  destruct HP as (P1 & P2 & P3 & P4 & P5). cbn zeta. unfold countable, array_at, array_len. rewrite P1, P2, P3.
  assert (PO : primary_on Lb512 (data hand_dev) hand_header).
  { constructor.
    - change (lb_u64 Lb512) with 512. rewrite <- R. apply read_header_at_spec.
    - exact P3.
    - rewrite P4, P5. exact (conj eq_refl eq_refl).
    - rewrite P1. discriminate.
    - unfold array_at, array_len. rewrite P1, P2, P3, L. discriminate. }
  split; [exact F|]. split; [unfold addressable; rewrite L; reflexivity|]. split; [exact PO|]. split; [reflexivity|].
  split; [right; left; reflexivity|]. split; [reflexivity|]. split.
  { destruct O as (g & O & G). exists g. destruct (g_partitions g) as [|(k, p) m]; [discriminate G|].
    exists k, p. split; [exact O|]. left. reflexivity. }
  split; [apply sample_part_ok|]. split; [apply sample_part_used|].
  split; [rewrite (surjective_pairing (write_to_device _ _ _ _ _ _ hand_dev)), W1; unfold hand_entry; reflexivity|].
  split; [exists (fst (snd (write_primary hand_header Lb512 hand_dev)));
          rewrite (surjective_pairing (write_primary hand_header Lb512 hand_dev)), W2; unfold hand_rest;
          destruct (snd (write_primary hand_header Lb512 hand_dev)); reflexivity|].
  split; [rewrite (surjective_pairing (write_to_device _ _ _ _ _ _ hand_rest)), W3; unfold hand_wrong; reflexivity|].
  split; [apply N.eqb_neq, N1|apply N.eqb_neq, N2].
Qed.

(** The same with the backup copy of a disk whose primary header is lost. *)
Theorem C88_backup_replace : forall oc oc' cfg d h e g p i, fault_free d -> addressable d -> let lb := c_lb cfg in
  backup_on lb d h e -> i < num_parts h -> countable oc' h (data d) -> c_only_valid_headers cfg = false ->
  fst (open_from_device oc' cfg d) = Ok g -> partition_ok p -> used p ->
  exists d1 h' d2 g2, write_to_device oc p i (part_start h) lb 128 d = (Ok tt, d1) /\
    write_backup h lb d1 = (Ok (lb_u64 lb), (h', d2)) /\ fst (open_from_device oc' cfg d2) = Ok g2 /\ g_guid g2 = g_guid g /\
    g_primary g2 = Err e /\
    changed_only_in (fun j => between (current_lba h * lb_u64 lb) ((current_lba h + 1) * lb_u64 lb) j \/ entry_no lb h i j) (data d) (data d2) /\
    entry_set (i + 1) p (g_partitions g) (g_partitions g2).
Proof.
  intros oc oc' cfg d h e g p i F A lb BO LI C V E P U.
  destruct (by_hand_backup oc oc' cfg d h e g p i F A BO LI C V E) as (d1 & h' & d2 & g2 & W1 & W2 & O & G & GP & CH & M & T).
  exists d1, h', d2, g2. do 6 (split; [assumption|]). split; [exact M|]. intros j q. rewrite T.
  pose proof P as P'. rewrite partition_ok_iff in P'. rewrite used_iff in U.
  assert (GO : guid_ok (guid (part_type p))) by apply P'.
  assert (NZ : ~ all_zero (as_bytes p 128)).
  { rewrite all_zero_128 by apply as_bytes_length. apply used_entry_nonzero; assumption. }
  split; (intros [X|(X & Y)]; [left; exact X|right; split; [exact X|]]).
  - destruct Y as (_ & Y). rewrite (entry_decodes_fun _ _ _ Y (as_bytes_decodes p P')). apply same_entry_normal, GO.
  - split; [exact NZ|]. rewrite (same_entry_is p q GO Y). apply as_bytes_decodes, P'.
Qed.
Print Assumptions C88_backup_replace.
Theorem C88_backup_clear : forall oc oc' cfg d h e g i, fault_free d -> addressable d -> let lb := c_lb cfg in
  backup_on lb d h e -> i < num_parts h -> countable oc' h (data d) -> c_only_valid_headers cfg = false ->
  fst (open_from_device oc' cfg d) = Ok g ->
  exists d1 h' d2 g2, write_to_device oc partition_zero i (part_start h) lb 128 d = (Ok tt, d1) /\
    write_backup h lb d1 = (Ok (lb_u64 lb), (h', d2)) /\ fst (open_from_device oc' cfg d2) = Ok g2 /\ g_guid g2 = g_guid g /\
    g_primary g2 = Err e /\
    changed_only_in (fun j => between (current_lba h * lb_u64 lb) ((current_lba h + 1) * lb_u64 lb) j \/ entry_no lb h i j) (data d) (data d2) /\
    entry_cleared (i + 1) (g_partitions g) (g_partitions g2).
Proof.
  intros oc oc' cfg d h e g i F A lb BO LI C V E.
  destruct (by_hand_backup oc oc' cfg d h e g partition_zero i F A BO LI C V E) as (d1 & h' & d2 & g2 & W1 & W2 & O & G & GP & CH & M & T).
  exists d1, h', d2, g2. do 6 (split; [assumption|]). split; [exact M|]. intros j q. rewrite T. split; [|auto].
  intros [X|(_ & X & _)]; [exact X|]. exfalso. apply X.
  rewrite as_bytes_zero. apply all_zero_iff. rewrite zeros_length. reflexivity.
Qed.
Print Assumptions C88_backup_clear.
(** The small disk again, its block 1 wiped. *)
Definition lost_dev : dev := set_data hand_dev (store 512 (zeros 512) (data hand_dev)) 0.
Definition lost_header : header := match read_header_at 2560 (data lost_dev) with Ok h => h | _ => mini_header end.
Lemma lost_facts : faults lost_dev = [] /\ lenN (data lost_dev) = 3072 /\ read_header_at 512 (data lost_dev) = Err HInvalidGptSignature /\
  read_header_at 2560 (data lost_dev) = Ok lost_header /\
  lost_header = mkHeader EFI_PART 1 0 92 (crc32_hdr lost_header) 0 5 1 3 3 sample_guid 4 4 128 (crc32_parts lost_header) /\
  (exists g, fst (open_from_device true mini_config lost_dev) = Ok g /\ lenN (g_partitions g) = 1).
Proof.
  assert (D : lost_dev = ltac:(let x := eval vm_compute in lost_dev in exact x)) by (vm_compute; reflexivity).
  unfold lost_header. rewrite D. clear D.
  do 5 (split; [vm_compute; reflexivity|]). eexists. split; vm_compute; reflexivity.
Qed.
Example C88_backup_case : fault_free lost_dev /\ addressable lost_dev /\ backup_on Lb512 lost_dev lost_header HInvalidGptSignature /\
  2 < num_parts lost_header /\ countable true lost_header (data lost_dev) /\
  (exists g k p, fst (open_from_device true mini_config lost_dev) = Ok g /\ has (g_partitions g) k p).
Proof.
  destruct lost_facts as (F & L & R1 & R & H & O).
  assert (HP : part_start lost_header = 4 /\ num_parts lost_header = 4 /\ part_size lost_header = 128 /\
    current_lba lost_header = 5 /\ backup_lba lost_header = 1) by (rewrite H; repeat split).
  destruct HP as (P1 & P2 & P3 & P4 & P5).
  assert (LW : last_whole_block Lb512 lost_dev = 5) by (unfold last_whole_block; rewrite L; reflexivity).
  split; [exact F|]. split; [unfold addressable; rewrite L; reflexivity|]. split; [|split; [rewrite P2; reflexivity|split]].
  - constructor.
    + change (lb_u64 Lb512) with 512. rewrite <- R1. apply read_header_at_spec.
    + split; [|rewrite L; change (lb_u64 Lb512) with 512; lia]. intros _. rewrite LW. change (5 * lb_u64 Lb512) with 2560. rewrite <- R. apply read_header_at_spec.
    + exact P3.
    + rewrite P4, P5, LW. split; reflexivity.
    + rewrite P1. discriminate.
    + unfold array_at, array_len. rewrite P1, P2, P3, P4. discriminate.
  - right. left. rewrite P2. reflexivity.
  - destruct O as (g & O & G). exists g. destruct (g_partitions g) as [|(k, p) m]; [discriminate G|].
    exists k, p. split; [exact O|]. left. reflexivity.
Qed.
