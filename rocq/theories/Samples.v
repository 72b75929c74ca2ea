(** Samples.v - small concrete values used to show that hypotheses can be met. *)
From Verif Require Export LayoutFacts.
Open Scope list_scope.
Open Scope N_scope.

Definition sample_guid : uuid := [x01;x02;x03;x04;x05;x06;x07;x08;x09;x0a;x0b;x0c;x0d;x0e;x0f;x10].
Definition other_guid : uuid := [x11;x12;x13;x14;x15;x16;x17;x18;x19;x1a;x1b;x1c;x1d;x1e;x1f;x20].
Definition linux_fs : uuid := [x0f;xc6;x3d;xaf;x84;x83;x47;x72;x8e;x79;x3d;x69;xd8;x47;x7d;xe4].
(** A used partition whose name has a character outside the basic plane. *)
Definition sample_part : partition :=
  mkPart (mkType linux_fs OsLinux) sample_guid 3 3 4 [98; 111; 0x1F600; 116].
Lemma sample_part_ok : partition_ok sample_part.
Proof. constructor; try reflexivity. repeat constructor; unfold char_ok; lia. Qed.
Lemma sample_part_used : used sample_part.
Proof. discriminate. Qed.

(** Six blocks: LBA 0, header, 4-entry array, one usable block, array, header. *)
Definition mini_header : header := mkHeader EFI_PART 1 0 92 0 0 1 5 3 3 sample_guid 2 4 128 0.
Definition mini_dev : dev := mkDev (zeros (N.to_nat 3072)) 0 false false [] [].
Lemma mini_len : lenN (data mini_dev) = 3072.
Proof. reflexivity. Qed.
Lemma mini_fault_free : fault_free mini_dev.
Proof. reflexivity. Qed.
Lemma mini_addressable : addressable mini_dev.
Proof. unfold addressable. rewrite mini_len. reflexivity. Qed.
Lemma mini_layout : layout_ok Lb512 (lenN (data mini_dev)) mini_header.
Proof. rewrite mini_len. constructor; try reflexivity; vm_compute; discriminate. Qed.
Lemma mini_header_ok : header_ok mini_header.
Proof. constructor; try reflexivity; repeat split. Qed.

Definition mini_config : config := mkConfig Lb512 true false false false.
Definition mini_disk (m : pmap) : gdisk :=
  mkGdisk mini_config mini_dev sample_guid (Ok mini_header) (Err HInvalidGptSignature) m false.
Lemma mini_header_of m : header_of (mini_disk m) mini_header.
Proof. left. reflexivity. Qed.

(** 94 blocks with 128 entries: the usable blocks are 34 to 60. *)
Definition wide_header : header := mkHeader EFI_PART 1 0 92 0 0 1 93 34 60 sample_guid 2 128 128 0.
Definition wide_dev : dev := mkDev (zeros (N.to_nat 48128)) 0 false false [] [].
(** A disk with this header in memory; placing partitions does not look at the device. *)
Definition wide_disk (m : pmap) : gdisk :=
  mkGdisk mini_config (mkDev [] 0 false false [] []) sample_guid (Ok wide_header) (Err HInvalidGptSignature) m false.
Lemma wide_header_of m : header_of (wide_disk m) wide_header.
Proof. left. reflexivity. Qed.
Lemma wide_usable : usable_ok wide_header.
Proof. unfold usable_ok. cbn. lia. Qed.
Lemma wide_len : lenN (data wide_dev) = 48128.
Proof. cbn [wide_dev data]. unfold lenN, zeros. rewrite repeat_length. reflexivity. Qed.
Lemma wide_layout : layout_ok Lb512 (lenN (data wide_dev)) wide_header.
Proof. rewrite wide_len. constructor; try reflexivity; vm_compute; discriminate. Qed.
(** A partition of the type used by Linux, at the given blocks. *)
Definition part_at (a b : N) : partition := mkPart (mkType linux_fs OsLinux) other_guid a b 0 [120].
Definition two_parts : pmap := [(1, part_at 40 44); (3, part_at 50 50)].
Lemma two_parts_arranged : arranged wide_header two_parts.
Proof.
  constructor.
  - repeat constructor.
  - intros k p [E|[E|[]]] _; injection E as <- <-; cbn; lia.
  - intros j p k q [E|[E|[]]] [E'|[E'|[]]] _ _ NE x; injection E as <- <-; injection E' as <- <-;
      unfold covers; cbn; lia.
Qed.
