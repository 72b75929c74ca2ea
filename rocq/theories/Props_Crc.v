(** Props_Crc.v - properties C78 to C81: the checksum and the damage it finds. *)
From Verif Require Import FlipFacts Props_Header Props_Uefi Fixture FixtureUefi.
Open Scope list_scope.
Open Scope N_scope.

(** C78.  The checksum is CRC-32 as published, the remainder of a division of polynomials. *)
Theorem C78_crc : forall l c, checksum_of l c <-> c = crc32 l.
Proof.
  intros l c. split.
  - intros (r & B & C & ->). symmetry. apply crc32_polynomial; assumption.
  - intros ->. destruct (crc_remainder l) as (q & E). exists (mirror 32 (crc_update crc_ones l)).
    assert (B : mirror 32 (crc_update crc_ones l) < 2 ^ 32) by apply (mirror_bound 32).
    split; [exact B|]. split; [exists q; exact E|]. apply crc32_polynomial; [exact B|exists q; exact E].
Qed.
Print Assumptions C78_crc.
(** A header is accepted exactly if it is there, has the signature and that checksum ... *)
Theorem C78_headers : forall lb d, fault_free d -> addressable d -> let l := data d in
  let good off := off + 92 <= lenN l /\ range off 8 l = efi_part /\
    checksum_of (range off 16 l ++ repeat x00 4 ++ range (off + 20) 72 l) (num_at (off + 16) 4 l) in
  ((exists h, fst (read_primary_header lb d) = Ok h) <-> good (lb_u64 lb)) /\
  (3 * lb_u64 lb <= lenN l ->
   ((exists h, fst (read_backup_header lb d) = Ok h) <-> good (last_whole_block lb d * lb_u64 lb))).
Proof.
  intros lb d HF HA l good.
  assert (X : forall off r, header_at l off r -> ((exists h, r = Ok h) <-> good off)).
  { intros off r H. pose proof (checksum_92 off l) as K. change (92 - 20) with 72 in K.
    unfold good. rewrite C78_crc, <- K.
    destruct H as [H|H1 H2|H1 H2 H3|h H1 H2 H3 H4].
    - split; [intros (h & E); discriminate E|lia].
    - split; [intros (h & E); discriminate E|tauto].
    - split; [intros (h & E); discriminate E|tauto].
    - split; [auto|]. intros _. exists h. reflexivity. }
  split; [apply X, C07_primary_header_acceptance; exact HF|].
  intros HL. apply X. apply C07_backup_header_acceptance; auto.
Qed.
Print Assumptions C78_headers.
(** ... and an array on the device exactly if the header has its checksum. *)
Theorem C78_arrays : forall oc lb h d, fault_free d -> addressable d -> part_size h = 128 ->
  countable oc h (data d) -> array_at lb h + array_len h <= lenN (data d) ->
  ((exists m, fst (file_read_partitions oc h lb d) = Ok m) <->
   checksum_of (range (array_at lb h) (array_len h) (data d)) (crc32_parts h)).
Proof.
  intros oc lb h d F HA HP HN HL. rewrite C78_crc. split; [|intros E; apply C09_intact_array; auto].
  intros (m & R). rewrite addressable_iff in HA. rewrite countable_iff in HN.
  destruct (file_read_partitions_ok oc h lb d F HP HN HA) as (p & E). rewrite E in R. cbn [fst] in R.
  unfold array_at, array_len, read_parts_at, dev_len in *. rewrite HP in *.
  rewrite (proj2 (N.leb_gt (modulus 64) (part_start h * lb_u64 lb))) in R by lia.
  rewrite (proj2 (N.leb_le _ (lenN (data d))) HL) in R. rewrite range_slice.
  unfold table_of in R. rewrite HP in R. destruct (N.eqb_spec (crc32 (slice (part_start h * lb_u64 lb) (num_parts h * 128) (data d))) (crc32_parts h)) as [X|X]; [|discriminate R].
  symmetry. exact X.
Qed.
Print Assumptions C78_arrays.
(** The check value of the catalogue: the checksum of "123456789" is cbf43926, by its definition. *)
Example C78_check : checksum_of [x31; x32; x33; x34; x35; x36; x37; x38; x39] 0xcbf43926.
Proof. apply C78_crc. vm_compute. reflexivity. Qed.
Example C78_case : (exists h, fst (read_primary_header Lb512 mini_written) = Ok h) /\
  3 * lb_u64 Lb512 <= lenN (data mini_written) /\ fault_free mini_written.
Proof. split; [eexists; vm_compute; reflexivity|]. split; vm_compute; [discriminate|reflexivity]. Qed.

(** C79.  Flip up to four bits, one of them at least in a readable header: it can no longer be read. *)
Theorem C79_primary_header : forall lb d d' h ps, fault_free d -> fault_free d' ->
  fst (read_primary_header lb d) = Ok h -> flipped ps (data d) (data d') -> (length ps <= 4)%nat ->
  (exists p, In p ps /\ 8 * lb_u64 lb <= p < 8 * (lb_u64 lb + 92)) ->
  exists e, fst (read_primary_header lb d') = Err e.
Proof.
  intros lb d d' h ps F F' R C L W. rewrite read_primary_header_ok in * by assumption. cbn [fst] in *.
  eapply read_header_bits; eauto.
Qed.
Print Assumptions C79_primary_header.
Theorem C79_backup_header : forall lb d d' h ps, fault_free d -> addressable d -> fault_free d' ->
  fst (read_backup_header lb d) = Ok h -> flipped ps (data d) (data d') -> (length ps <= 4)%nat ->
  let off := last_whole_block lb d * lb_u64 lb in
  (exists p, In p ps /\ 8 * off <= p < 8 * (off + 92)) ->
  exists e, fst (read_backup_header lb d') = Err e.
Proof.
  intros lb d d' h ps F HA F' R C L off W. rewrite addressable_iff in HA.
  assert (HL : dev_len d' = dev_len d) by (destruct C as [C _]; exact C).
  rewrite read_backup_header_ok in R by auto. rewrite read_backup_header_ok by (auto; rewrite HL; exact HA). cbn [fst] in *.
  unfold read_backup_at in *. replace (last_block lb d') with (last_block lb d) by (unfold last_block; congruence).
  rewrite HL. destruct (dev_len d <? lb_u64 lb * 3); [discriminate R|].
  eapply read_header_bits; eauto.
Qed.
Print Assumptions C79_backup_header.
(** One bit in the checksum, one in a field, one in the signature and one elsewhere on the device. *)
Example C79_case : let ps := [8 * 512 + 130; 8 * 512 + 330; 8 * 512 + 3; 77] in
  let d' := set_data mini_written (flips ps (data mini_written)) 0 in
  fault_free mini_written /\ fault_free d' /\ (exists h, fst (read_primary_header Lb512 mini_written) = Ok h) /\
  flipped ps (data mini_written) (data d') /\ (length ps <= 4)%nat /\ In (8 * 512 + 130) ps.
Proof.
  cbv zeta. split; [reflexivity|]. split; [reflexivity|]. split; [eexists; vm_compute; reflexivity|]. split.
  - apply flips_flipped; [repeat constructor; cbn; intuition lia|].
    assert (X : lenN (data mini_written) = 3072) by (vm_compute; reflexivity). rewrite X. repeat constructor.
  - split; [cbn; lia|left; reflexivity].
Qed.

(** C80.  Flip one or two bits of an intact array of less than half a gigabyte: it is rejected. *)
Theorem C80_arrays : forall oc lb h d d' m ps, fault_free d -> addressable d -> fault_free d' ->
  part_size h = 128 -> num_parts h < 2 ^ 22 -> array_at lb h + array_len h <= lenN (data d) ->
  fst (file_read_partitions oc h lb d) = Ok m ->
  flipped ps (data d) (data d') -> (length ps <= 2)%nat ->
  (exists p, In p ps /\ 8 * array_at lb h <= p < 8 * (array_at lb h + array_len h)) ->
  fst (file_read_partitions oc h lb d') = Err (IoOther "partition table CRC mismatch").
Proof.
  intros oc lb h d d' m ps F HA F' HP HN HL R C L2 W. rewrite addressable_iff in HA.
  assert (HL' : dev_len d' = dev_len d) by (destruct C as [C _]; exact C).
  assert (CT : forall x, counts oc h x) by (intros x; right; left; eapply N.lt_trans; [exact HN|reflexivity]).
  destruct (file_read_partitions_ok oc h lb d F HP (CT _) HA) as (p & E). rewrite E in R. cbn [fst] in R.
  destruct (file_read_partitions_ok oc h lb d' F' HP (CT _)) as (p' & E'); [rewrite HL'; exact HA|]. rewrite E'. cbn [fst].
  unfold array_at, array_len in *. rewrite HP in *. eapply read_parts_bits; eauto.
Qed.
Print Assumptions C80_arrays.
(** Three bits are too many: whatever is in the array, flipping bits p, p + 49961 and p + 91639 of it goes
    unnoticed. *)
Theorem C80_three_bits_unnoticed : forall oc lb h d d' m p, fault_free d -> addressable d -> fault_free d' ->
  part_size h = 128 -> countable oc h (data d) -> array_at lb h + array_len h <= lenN (data d) ->
  fst (file_read_partitions oc h lb d) = Ok m -> 8 * array_at lb h <= p -> p + 91639 < 8 * (array_at lb h + array_len h) ->
  flipped [p; p + 49961; p + 91639] (data d) (data d') ->
  exists m', fst (file_read_partitions oc h lb d') = Ok m'.
Proof.
  intros oc lb h d d' m p F HA F' HP HN HL R L1 L2 C.
  assert (HL' : lenN (data d') = lenN (data d)) by (destruct C as [C _]; exact C).
  assert (X : crc32_parts h = crc32 (range (array_at lb h) (array_len h) (data d))).
  { apply C78_crc. apply (C78_arrays oc); auto. exists m. exact R. }
  apply C09_intact_array; auto.
  - unfold addressable in *. rewrite HL'. exact HA.
  - unfold countable in *. rewrite HL'. exact HN.
  - rewrite HL'. exact HL.
  - rewrite X, !range_slice. apply (blind_bits _ _ (p - 8 * array_at lb h)).
    pose proof (flipped_slice _ _ _ (array_at lb h) (array_len h) C HL) as S.
    replace (part_of (array_at lb h) (array_len h) [p; p + 49961; p + 91639]) with (blind (p - 8 * array_at lb h)) in S; [exact S|].
    unfold part_of, blind. cbn [filter].
    rewrite !(proj2 (within_bits_iff (array_at lb h) (array_len h) _)) by lia. cbn [map].
    f_equal. f_equal; [lia|]. f_equal. lia.
Qed.
Print Assumptions C80_three_bits_unnoticed.
(** On the disk of the crate's own tests: the same two headers, and partition 1 now overlaps partition 2. *)
Definition fixture_flipped : dev := set_data fixture (flips [8512; 8512 + 49961; 8512 + 91639] (data fixture)) 0.
Definition extents (r : outcome gpt_err gdisk) : list (N * N * N) :=
  match r with Ok g => map (fun x => (fst x, first_lba (snd x), last_lba (snd x))) (g_partitions g) | _ => [] end.
Lemma fixture_three_bits : exists g g', fault_free fixture /\ addressable fixture /\ fault_free fixture_flipped /\
  flipped [8512; 8512 + 49961; 8512 + 91639] (data fixture) (data fixture_flipped) /\
  fst (open_from_device true config_default fixture) = Ok g /\ extents (Ok g) = [(1, 34, 34); (2, 35, 38)] /\
  fst (open_from_device true config_default fixture_flipped) = Ok g' /\ firstn 2 (extents (Ok g')) = [(1, 34, 35); (2, 35, 38)].
Proof.
  assert (E1 : extents (fst (open_from_device true config_default fixture)) = [(1, 34, 34); (2, 35, 38)])
    by (vm_compute; reflexivity).
  assert (E2 : firstn 2 (extents (fst (open_from_device true config_default fixture_flipped))) = [(1, 34, 35); (2, 35, 38)])
    by (vm_compute; reflexivity).
  destruct (fst (open_from_device true config_default fixture)) as [g|e|]; [|discriminate E1 ..].
  destruct (fst (open_from_device true config_default fixture_flipped)) as [g'|e|]; [|discriminate E2 ..].
  exists g, g'. assert (HL : lenN (data fixture) = 36864) by exact fixture_len.
  split; [reflexivity|]. split; [unfold addressable; rewrite HL; reflexivity|]. split; [reflexivity|]. split.
  - assert (D : forall d x, data (set_data d x 0) = x) by reflexivity. unfold fixture_flipped. rewrite D.
    apply flips_flipped; [repeat constructor; cbn; intuition lia|]. rewrite HL. repeat constructor.
  - auto.
Qed.
Theorem C80_three_bits_on_test_image : exists cfg d d' p g g', fault_free d /\ addressable d /\ fault_free d' /\
  flipped [p; p + 49961; p + 91639] (data d) (data d') /\
  fst (open_from_device true cfg d) = Ok g /\ extents (Ok g) = [(1, 34, 34); (2, 35, 38)] /\
  fst (open_from_device true cfg d') = Ok g' /\ firstn 2 (extents (Ok g')) = [(1, 34, 35); (2, 35, 38)].
Proof. destruct fixture_three_bits as (g & g' & H). exists config_default, fixture, fixture_flipped, 8512, g, g'. exact H. Qed.
Print Assumptions C80_three_bits_on_test_image.
Example C80_case : let h := set_crc32_parts mini_header (crc32 (range 1024 512 (data mini_dev))) in
  let d' := set_data mini_dev (flips [8192; 12287] (data mini_dev)) 0 in
  fault_free mini_dev /\ addressable mini_dev /\ fault_free d' /\ part_size h = 128 /\ num_parts h < 2 ^ 22 /\
  array_at Lb512 h + array_len h <= lenN (data mini_dev) /\ fst (file_read_partitions true h Lb512 mini_dev) = Ok [] /\
  flipped [8192; 12287] (data mini_dev) (data d') /\ 8 * array_at Lb512 h <= 8192 < 8 * (array_at Lb512 h + array_len h).
Proof.
  cbv zeta. split; [reflexivity|]. split; [exact mini_addressable|]. split; [reflexivity|]. split; [reflexivity|]. split; [reflexivity|].
  split; [vm_compute; discriminate|]. split; [vm_compute; reflexivity|]. split.
  - apply flips_flipped; [repeat constructor; cbn; intuition lia|].
    assert (X : lenN (data mini_dev) = 3072) by (vm_compute; reflexivity). rewrite X. repeat constructor.
  - vm_compute. split; [discriminate|reflexivity].
Qed.

(** C81.  Flip up to two bits anywhere on a disk with a valid GPT: opening it gives the same partitions and disk
    GUID, or an error. *)
Theorem C81_disk : forall oc cfg d d' last ps, fault_free d -> addressable d -> fault_free d' ->
  let lb := c_lb cfg in let l := data d in
  uefi_disk lb l last -> num_at (1 * lb_u64 lb + 12) 4 l = 92 -> num_at (last * lb_u64 lb + 12) 4 l = 92 ->
  entry_count lb l 1 < 2 ^ 22 -> flipped ps l (data d') -> (length ps <= 2)%nat ->
  exists g, fst (open_from_device oc cfg d) = Ok g /\
    ((exists e, fst (open_from_device oc cfg d') = Err e) \/
     exists g', fst (open_from_device oc cfg d') = Ok g' /\ g_partitions g' = g_partitions g /\ g_guid g' = g_guid g).
Proof. intros. eapply open_flipped; eauto. Qed.
Print Assumptions C81_disk.
(** Three bits can change the table unnoticed: the image of the crate's tests is a valid GPT. *)
Theorem C81_three_bits : exists cfg d d' last ps g g', fault_free d /\ addressable d /\ fault_free d' /\
  let lb := c_lb cfg in let l := data d in
  uefi_disk lb l last /\ num_at (1 * lb_u64 lb + 12) 4 l = 92 /\ num_at (last * lb_u64 lb + 12) 4 l = 92 /\
  entry_count lb l 1 < 2 ^ 22 /\ flipped ps l (data d') /\ length ps = 3%nat /\
  fst (open_from_device true cfg d) = Ok g /\ fst (open_from_device true cfg d') = Ok g' /\
  g_partitions g' <> g_partitions g.
Proof.
  destruct fixture_three_bits as (g & g' & F1 & F2 & F3 & F4 & F5 & F6 & F7 & F8).
  exists config_default, fixture, fixture_flipped, 71, [8512; 8512 + 49961; 8512 + 91639], g, g'.
  split; [exact F1|]. split; [exact F2|]. split; [exact F3|]. cbv zeta. change (c_lb config_default) with Lb512.
  split; [exact fixture_uefi|]. split; [vm_compute; reflexivity|]. split; [vm_compute; reflexivity|].
  split; [assert (X : entry_count Lb512 (data fixture) 1 = 128) by exact fixture_count; rewrite X; reflexivity|]. split; [exact F4|]. split; [reflexivity|]. split; [exact F5|].
  split; [exact F7|]. intros E. unfold extents in *. rewrite E, F6 in F8. discriminate F8.
Qed.
Print Assumptions C81_three_bits.
(** Both outcomes occur. *)
Example C81_cases : exists g', write_inplace true (mini_disk [(1, sample_part)]) = (Ok tt, g') /\
  let d := g_device g' in let d1 := set_data d (flips [4100; 9000] (data d)) 0 in
  let d2 := set_data d (flips [4100; 9000 + 8 * 1024] (data d)) 0 in
  fault_free d /\ addressable d /\ uefi_disk Lb512 (data d) 5 /\ entry_count Lb512 (data d) 1 = 4 /\
  flipped [4100; 9000] (data d) (data d1) /\
  let cfg := mkConfig Lb512 true false false false in
  extents (fst (open_from_device true cfg d)) = [(1, 3, 3)] /\
  extents (fst (open_from_device true cfg d1)) = [(1, 3, 3)] /\
  fst (open_from_device true cfg d2) = Err (GIo (IoOther "partition table CRC mismatch")).
Proof.
  destruct C77_case as (g' & E & U & _ & _ & N4 & _). exists g'. split; [exact E|]. cbv zeta.
  assert (X : g' = snd (write_inplace true (mini_disk [(1, sample_part)]))) by (rewrite E; reflexivity).
  assert (HL : lenN (data (g_device g')) = 3072) by (subst g'; vm_compute; reflexivity).
  split; [subst g'; vm_compute; reflexivity|]. split; [unfold addressable; rewrite HL; reflexivity|].
  split; [exact U|]. split; [exact N4|]. split.
  - apply flips_flipped; [repeat constructor; cbn; intuition lia|]. rewrite HL. repeat constructor.
  - subst g'. split; [vm_compute; reflexivity|]. split; vm_compute; reflexivity.
Qed.
