(** Props_Text.v - printed texts, names of operating systems, attributes. *)
From Verif Require Import Samples TextFacts Props_Types.
Open Scope list_scope.
Open Scope N_scope.

(** * C67: what is printed of a partition or a header *)
Theorem C67_partition : forall p, partition_ok p -> prints_partition p (show_partition p).
Proof.
  intros p [A1 A2 A3 A4 A5 A6]. exists (show_uuid (part_guid p)), (show_uuid (guid (part_type p))),
    (show_int (first_lba p)), (show_int (last_lba p)), (show_int (flags p)).
  split; [apply show_uuid_spells|]. split; [apply show_uuid_spells|].
  split; [apply show_int_ok; assumption|]. split; [apply show_int_ok; assumption|]. split; [apply show_int_ok; assumption|].
  reflexivity.
Qed.
Print Assumptions C67_partition.
(** Whatever the name contains (line breaks, or text that looks like the other lines), a text is that of one
    partition only, up to the OS label. *)
Theorem C67_partition_unique : forall p q s, partition_ok p -> partition_ok q ->
  prints_partition p s -> prints_partition q s ->
  name p = name q /\ part_guid p = part_guid q /\ guid (part_type p) = guid (part_type q) /\
  first_lba p = first_lba q /\ last_lba p = last_lba q /\ flags p = flags q.
Proof.
  intros p q s [A1 A2 A3 A4 A5 A6] [B1 B2 B3 B4 B5 B6] (g1 & g2 & a & b & f & P1 & P2 & P3 & P4 & P5 & ->)
    (g1' & g2' & a' & b' & f' & Q1 & Q2 & Q3 & Q4 & Q5 & E).
  assert (T : ~ digit 9) by (unfold digit; lia). assert (S : ~ digit 32) by (unfold digit; lia).
  pose proof P5 as (_ & D5 & _). pose proof Q5 as (_ & D5' & _). pose proof P4 as (_ & D4 & _).
  pose proof Q4 as (_ & D4' & _). pose proof P3 as (_ & D3 & _). pose proof Q3 as (_ & D3' & _).
  set (x1 := chars "Partition:" ++ [9; 9]) in *.
  set (x2 := [10] ++ chars "Partition GUID:" ++ [9; 9]).
  set (x3 := [10] ++ chars "Partition Type:" ++ [9; 9]).
  set (x4 := [10] ++ chars "Span:" ++ [9; 9]).
  set (x5 := chars " -"). set (x6 := [10] ++ chars "Flags:" ++ [9; 9]).
  assert (N : forall n g g' a b f, chars "Partition:" ++ [9; 9] ++ n ++ [10] ++ chars "Partition GUID:" ++ [9; 9] ++ g ++ [10] ++
        chars "Partition Type:" ++ [9; 9] ++ g' ++ [10] ++
        chars "Span:" ++ [9; 9; 9] ++ a ++ chars " - " ++ b ++ [10] ++ chars "Flags:" ++ [9; 9; 9] ++ f =
      ((((((x1 ++ n) ++ x2) ++ g) ++ x3) ++ g') ++ x4 ++ [9] ++ a ++ x5 ++ [32] ++ b ++ x6 ++ [9] ++ f)).
  { intros. unfold x1, x2, x3, x4, x5, x6. rewrite <- !app_assoc. reflexivity. }
  rewrite !N in E. clear N.
  assert (R : forall y a b f, y ++ x4 ++ [9] ++ a ++ x5 ++ [32] ++ b ++ x6 ++ [9] ++ f =
    (((((y ++ x4) ++ [9] ++ a) ++ x5) ++ [32] ++ b) ++ x6) ++ [9] ++ f) by (intros; rewrite <- !app_assoc; reflexivity).
  rewrite !R in E. clear R.
  apply (split_tail 9 digit) in E; auto. destruct E as (E & ->).
  apply app_inv_tail in E. apply (split_tail 32 digit) in E; auto. destruct E as (E & ->).
  apply app_inv_tail in E. apply (split_tail 9 digit) in E; auto. destruct E as (E & ->).
  apply app_inv_tail in E. apply split_len in E; [|rewrite (spells_length _ _ A1 P2), (spells_length _ _ B1 Q2); reflexivity].
  destruct E as (E & ->). apply app_inv_tail in E.
  apply split_len in E; [|rewrite (spells_length _ _ A2 P1), (spells_length _ _ B2 Q1); reflexivity].
  destruct E as (E & ->). apply app_inv_tail in E. apply app_inv_head in E.
  split; [exact E|]. split; [exact (spells_fun _ _ _ A2 B2 P1 Q1)|]. split; [exact (spells_fun _ _ _ A1 B1 P2 Q2)|].
  split; [exact (numeral_fun _ _ _ P3 Q3)|]. split; [exact (numeral_fun _ _ _ P4 Q4)|exact (numeral_fun _ _ _ P5 Q5)].
Qed.
Print Assumptions C67_partition_unique.
Theorem C67_header : forall h, crc32_hdr h < 2 ^ 64 -> crc32_parts h < 2 ^ 64 -> prints_header h (show_header h).
Proof.
  intros h A B. exists (show_uuid (disk_guid h)), (show_int (crc32_hdr h)), (show_int (crc32_parts h)).
  split; [apply show_uuid_spells|]. split; [apply show_int_ok, A|]. split; [apply show_int_ok, B|]. reflexivity.
Qed.
Print Assumptions C67_header.
Theorem C67_header_unique : forall h k s, guid_ok (disk_guid h) -> guid_ok (disk_guid k) ->
  prints_header h s -> prints_header k s ->
  disk_guid h = disk_guid k /\ crc32_hdr h = crc32_hdr k /\ crc32_parts h = crc32_parts k.
Proof.
  intros h k s A B (g & a & b & P1 & P2 & P3 & ->) (g' & a' & b' & Q1 & Q2 & Q3 & E).
  assert (T : ~ digit 9) by (unfold digit; lia).
  pose proof P2 as (_ & D2 & _). pose proof Q2 as (_ & D2' & _). pose proof P3 as (_ & D3 & _). pose proof Q3 as (_ & D3' & _).
  set (x1 := chars "Disk:" ++ [9; 9]). set (x2 := [10] ++ chars "CRC32:" ++ [9]). set (x3 := [10] ++ chars "Table CRC:").
  assert (N : forall g a b, chars "Disk:" ++ [9; 9] ++ g ++ [10] ++ chars "CRC32:" ++ [9; 9] ++ a ++ [10] ++
        chars "Table CRC:" ++ [9] ++ b = (((((x1 ++ g) ++ x2) ++ [9] ++ a) ++ x3) ++ [9] ++ b)).
  { intros. unfold x1, x2, x3. rewrite <- !app_assoc. reflexivity. }
  rewrite !N in E. apply (split_tail 9 digit) in E; auto. destruct E as (E & ->).
  apply app_inv_tail in E. apply (split_tail 9 digit) in E; auto. destruct E as (E & ->).
  apply app_inv_tail in E. apply app_inv_head in E. subst g'.
  split; [exact (spells_fun _ _ _ A B P1 Q1)|]. split; [exact (numeral_fun _ _ _ P2 Q2)|exact (numeral_fun _ _ _ P3 Q3)].
Qed.
Print Assumptions C67_header_unique.
(** A printed type GUID can be given back to [Type::from_str], a printed block size is its number of bytes. *)
Theorem C67_reread : forall u t, guid_ok u -> show_uuid u = chars t -> type_from_str t = Ok (type_from_uuid u).
Proof.
  intros u t U E. destruct (show_uuid_spells u) as (s & E2 & S). rewrite E in E2. apply chars_inj in E2. subst s.
  apply C50_hyphenated_partial; assumption.
Qed.
Print Assumptions C67_reread.
Theorem C67_block_size : forall l, numeral (show_lb l) (lb_u64 l).
Proof. intros []; (split; [discriminate|]); (split; [repeat constructor; vm_compute; discriminate|]); (split; [reflexivity|]); intros r E; discriminate. Qed.
Print Assumptions C67_block_size.
(** A name made to look like the following lines. *)
Definition sly_part : partition :=
  mkPart (mkType linux_fs OsLinux) sample_guid 34 2047 5
    (chars "a" ++ [10] ++ chars "Partition GUID:" ++ [9; 9] ++ show_uuid other_guid).
Example C67_case : partition_ok sly_part /\
  show_partition (part_at 34 2047) = chars "Partition:" ++ [9; 9] ++ chars "x" ++ [10] ++
    chars "Partition GUID:" ++ [9; 9] ++ chars "11121314-1516-1718-191a-1b1c1d1e1f20" ++ [10] ++
    chars "Partition Type:" ++ [9; 9] ++ chars "0fc63daf-8483-4772-8e79-3d69d8477de4" ++ [10] ++
    chars "Span:" ++ [9; 9; 9] ++ chars "34 - 2047" ++ [10] ++ chars "Flags:" ++ [9; 9; 9] ++ chars "0".
Proof.
  split; [|vm_compute; reflexivity].
  constructor; try reflexivity. apply Forall_forall. intros c H.
  assert (X : forallb (fun c => c <? 128) (name sly_part) = true) by (vm_compute; reflexivity).
  rewrite forallb_forall in X. specialize (X c H). apply N.ltb_lt in X. left. lia.
Qed.

(** * C68: an error message tells which error it is *)
(** Two errors with the same message are equal, up to what std prints alike. *)
Theorem C68_gpt_message : forall io_text e e', show_gpt_err io_text e = show_gpt_err io_text e' ->
  e = e' \/ exists x y, io_text x = io_text y /\
    (e = GIo x /\ e' = GIo y \/ e = GHeader (HIo x) /\ e' = GHeader (HIo y)).
Proof.
  assert (H : forall io_text x y, show_hdr_err io_text x = show_hdr_err io_text y ->
    x = y \/ exists a b, io_text a = io_text b /\ x = HIo a /\ y = HIo b).
  { intros io x y E. destruct x, y; try discriminate E; try (left; reflexivity).
    - right. exists e, e0. cbn in E. injection E as E. auto.
    - left. cbn [show_hdr_err] in E. apply app_inv_head in E. apply chars_inj in E. congruence. }
  intros io e e' E. destruct e, e'; try discriminate E; try (left; reflexivity).
  - right. exists e, e0. cbn [show_gpt_err] in E. apply app_inv_head in E. auto.
  - cbn [show_gpt_err] in E. apply app_inv_head in E. apply H in E. destruct E as [->|(a & b & E & -> & ->)]; [left; reflexivity|].
    right. exists a, b. auto.
  - left. cbn [show_gpt_err] in E. apply app_inv_head in E. apply chars_inj in E. congruence.
Qed.
Print Assumptions C68_gpt_message.
Theorem C68_header_message : forall io_text e e', show_hdr_err io_text e = show_hdr_err io_text e' ->
  e = e' \/ exists x y, io_text x = io_text y /\ e = HIo x /\ e' = HIo y.
Proof.
  intros io x y E. destruct (C68_gpt_message io (GHeader x) (GHeader y)) as [H|(a & b & H & [(H1 & _)|(H1 & H2)])].
  - cbn [show_gpt_err]. rewrite E. reflexivity.
  - left. congruence.
  - discriminate.
  - right. exists a, b. injection H1 as ->. injection H2 as ->. auto.
Qed.
Print Assumptions C68_header_message.
Theorem C68_mbr_message : forall io_text e e', show_mbr_err io_text e = show_mbr_err io_text e' ->
  e = e' \/ exists x y, io_text x = io_text y /\ e = MIo x /\ e' = MIo y.
Proof.
  intros io e e' E. destruct e, e'; try discriminate E; try (left; reflexivity).
  - right. exists e, e0. cbn [show_mbr_err] in E. apply app_inv_head in E. auto.
  - left. cbn [show_mbr_err] in E. apply app_inv_head in E. apply chars_inj in E. congruence.
Qed.
Print Assumptions C68_mbr_message.
Example C68_case : show_gpt_err (fun _ => []) (GHeader HInvalidGptSignature) =
    chars "GPT Header Error: Invalid GPT Signature, the header does not exist or is invalid" /\
  show_gpt_err (fun _ => chars "failed to fill whole buffer") (GHeader (HIo IoUnexpectedEof)) =
    chars "GPT Header Error: Header IO Error: failed to fill whole buffer".
Proof. split; reflexivity. Qed.

(** * C69: every operating system has a name *)
(** Exactly these names are understood, each in one spelling. *)
Theorem C69_names_partial : forall s o, os_from_str s = Ok o <-> In (s, o) os_names.
Proof.
  intros s o. unfold os_from_str, os_names. cbn [find_os os_table]. split.
  - repeat match goal with |- context [String.eqb s ?t] =>
      destruct (String.eqb_spec s t) as [->|_]; [intros E; cbn in E; injection E as <-; cbn; tauto|] end. intros E; discriminate E.
  - cbn [In]. intros H. repeat destruct H as [H|H]; try (injection H as <- <-; reflexivity). destruct H.
Qed.
Print Assumptions C69_names_partial.
(** Several have none, among them ones the table of types uses. *)
Theorem C69_no_name_refuted :
  (exists nm g, In (nm, g, OsWindows) type_table) /\ (exists nm g, In (nm, g, OsNetBsd) type_table) /\
  forall s o, In o [OsWindows; OsNetBsd; OsOpenBsd; OsPlan9; OsVmWare; OsQNX; OsCoreOs] -> os_from_str s <> Ok o.
Proof.
  split; [|split].
  - assert (X : existsb (fun x => match snd x with OsWindows => true | _ => false end) type_table = true) by reflexivity.
    apply existsb_exists in X. destruct X as ([[nm g] o] & X1 & X2). exists nm, g. cbn in X2. destruct o; try discriminate. exact X1.
  - assert (X : existsb (fun x => match snd x with OsNetBsd => true | _ => false end) type_table = true) by reflexivity.
    apply existsb_exists in X. destruct X as ([[nm g] o] & X1 & X2). exists nm, g. cbn in X2. destruct o; try discriminate. exact X1.
  - intros s o O E. apply C69_names_partial in E.
    assert (X : Forall (fun x => ~ In (snd x) [OsWindows; OsNetBsd; OsOpenBsd; OsPlan9; OsVmWare; OsQNX; OsCoreOs]) os_names).
    { repeat constructor; cbn; intuition discriminate. }
    rewrite Forall_forall in X. exact (X _ E O).
Qed.
Print Assumptions C69_no_name_refuted.
(** Names are told apart by letter case, unlike those of types. *)
Theorem C69_case_refuted : exists s t, same_text s t /\ (exists o, os_from_str s = Ok o) /\ exists e, os_from_str t = Err e.
Proof.
  exists "Linux"%string, "linux"%string. split; [apply same_text_upper; reflexivity|].
  split; [exists OsLinux; reflexivity|eexists; reflexivity].
Qed.
Print Assumptions C69_case_refuted.
Example C69_case : os_from_str "HP-UX" = Ok OsHpUnix /\ os_from_str "Windows" = Err "Unknown operating system: Windows"%string.
Proof. split; reflexivity. Qed.

(** * C70: attributes *)
(** The constants are the bits 0, 1 and 2 of UEFI's attribute field ... *)
Theorem C70_bits : forall n i, N.testbit ATTR_PLATFORM i = (i =? 0) /\ N.testbit ATTR_EFI i = (i =? 1) /\
  N.testbit ATTR_BOOTABLE i = (i =? 2) /\
  N.testbit (attr_from_bits_truncate n) i = (N.testbit n i && (i <? 3))%bool.
Proof.
  assert (P : forall k i, N.testbit (N.shiftl 1 k) i = (i =? k)).
  { intros k i. rewrite N.shiftl_1_l. destruct (N.eqb_spec i k) as [->|NE]; [apply N.pow2_bits_true|apply N.pow2_bits_false; congruence]. }
  intros n i. split; [apply (P 0)|]. split; [apply (P 1)|]. split; [apply (P 2)|].
  unfold attr_from_bits_truncate. rewrite N.land_spec. f_equal. unfold attr_all. rewrite !N.lor_spec.
  change ATTR_PLATFORM with (N.shiftl 1 0). unfold ATTR_EFI, ATTR_BOOTABLE. rewrite !P.
  destruct (N.eqb_spec i 0), (N.eqb_spec i 1), (N.eqb_spec i 2), (N.ltb_spec i 3); try reflexivity; lia.
Qed.
Print Assumptions C70_bits.
(** ... and only flags made of these three can be looked at as [PartitionAttributes]: the attributes that
    belong to partition types (bits 48 to 63) cannot. *)
Theorem C70_from_bits : forall n, n < 2 ^ 64 -> (attr_from_bits n = Some n <-> n < 8) /\ (attr_from_bits n = None <-> 8 <= n).
Proof.
  intros n H.
  assert (K : N.land n (N.lxor attr_all (modulus 64 - 1)) = N.shiftl (N.shiftr n 3) 3).
  { apply N.bits_inj. intros i. rewrite N.land_spec.
    replace (N.lxor attr_all (modulus 64 - 1)) with (N.shiftl (N.ones 61) 3) by reflexivity.
    destruct (N.ltb_spec i 3) as [L|L].
    - rewrite !N.shiftl_spec_low by exact L. apply Bool.andb_false_r.
    - rewrite !N.shiftl_spec_high' by exact L. rewrite N.shiftr_spec'. replace (i - 3 + 3) with i by lia.
      destruct (N.ltb_spec i 64) as [M|M].
      + rewrite N.ones_spec_low by lia. apply Bool.andb_true_r.
      + assert (Z : N.testbit n i = false).
        { destruct (N.eq_dec n 0) as [->|NZ]; [apply N.bits_0|]. apply N.bits_above_log2.
          apply N.lt_le_trans with 64; [|exact M]. apply N.log2_lt_pow2; lia. }
        rewrite Z. reflexivity. }
  unfold attr_from_bits. rewrite K, N.shiftl_mul_pow2, N.shiftr_div_pow2. change (2 ^ 3) with 8.
  pose proof (N.div_mod n 8 ltac:(discriminate)) as D. pose proof (N.mod_lt n 8 ltac:(discriminate)) as M.
  destruct (N.eqb_spec (n / 8 * 8) 0) as [E|E]; split; split; intros X; try discriminate; try reflexivity; try lia.
Qed.
Print Assumptions C70_from_bits.
Example C70_case : attr_from_bits 5 = Some 5 /\ attr_from_bits (2 ^ 60) = None /\ attr_from_bits_truncate (2 ^ 60 + 4) = ATTR_BOOTABLE.
Proof. repeat split; vm_compute; reflexivity. Qed.
