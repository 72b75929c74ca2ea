(** Text.v - the [Display] implementations and the constants of [PartitionAttributes]. *)
From Verif Require Export Mbr Disk.
Open Scope list_scope.
Open Scope N_scope.

(** A text is the list of its Unicode scalar values, as for partition names. *)
Definition chars (s : string) : list N := map Ascii.N_of_ascii (list_ascii_of_string s).

(** [Display] of an unsigned integer (core::fmt): decimal, most significant digit first.  20 digits are
    enough for a u64. *)
Fixpoint show_digits (fuel : nat) (n : N) : list N :=
  match fuel with
  | O => [48 + n mod 10]
  | S f => if n <? 10 then [48 + n] else show_digits f (n / 10) ++ [48 + n mod 10]
  end.
Definition show_int (n : N) : list N := show_digits 20 n.

(** [Display] of a [Uuid] (crate uuid): lower-case hexadecimal, hyphenated. *)
Definition low_digit (n : N) : N := if n <? 10 then 48 + n else 87 + n.
Definition show_byte (b : byte) : list N := [low_digit (Byte.to_N b / 16); low_digit (Byte.to_N b mod 16)].
Definition show_uuid (u : uuid) : list N :=
  flat_map show_byte (firstn 4 u) ++ [45] ++ flat_map show_byte (firstn 2 (skipn 4 u)) ++ [45] ++
  flat_map show_byte (firstn 2 (skipn 6 u)) ++ [45] ++ flat_map show_byte (firstn 2 (skipn 8 u)) ++ [45] ++
  flat_map show_byte (skipn 10 u).

(** [Display for LogicalBlockSize] (src/disk.rs:62-69). *)
Definition show_lb (l : lbsize) : list N := match l with Lb512 => chars "512" | Lb4096 => chars "4096" end.

(** [Display for Partition] (src/partition.rs:204-218). *)
Definition show_partition (p : partition) : list N :=
  chars "Partition:" ++ [9; 9] ++ name p ++ [10] ++
  chars "Partition GUID:" ++ [9; 9] ++ show_uuid (part_guid p) ++ [10] ++
  chars "Partition Type:" ++ [9; 9] ++ show_uuid (guid (part_type p)) ++ [10] ++
  chars "Span:" ++ [9; 9; 9] ++ show_int (first_lba p) ++ chars " - " ++ show_int (last_lba p) ++ [10] ++
  chars "Flags:" ++ [9; 9; 9] ++ show_int (flags p).

(** [Display for Header] (src/header/mod.rs:258-266). *)
Definition show_header (h : header) : list N :=
  chars "Disk:" ++ [9; 9] ++ show_uuid (disk_guid h) ++ [10] ++
  chars "CRC32:" ++ [9; 9] ++ show_int (crc32_hdr h) ++ [10] ++
  chars "Table CRC:" ++ [9] ++ show_int (crc32_parts h).

(** [Display for HeaderError] (src/header/mod.rs:73-94).  [io_text] is what std prints for an I/O error. *)
Definition show_hdr_err (io_text : io_err -> list N) (e : hdr_err) : list N :=
  match e with
  | HIo e => chars "Header IO Error: " ++ io_text e
  | HInvalidGptSignature => chars "Invalid GPT Signature, the header does not exist or is invalid"
  | HInvalidCRC32Checksum => chars "CRC32 Checksum Mismatch, the header is corrupted"
  | HMissingBackupLba => chars "HeaderBuilder expects the field backup_lba to be set"
  | HBackupLbaToEarly => chars "HeaderBuilder: there isn't enough space between first_lba and backup_lba"
  | HWritingToWrongLba =>
      chars "you trying to write to the wrong lba (example calling write_primary instead of write_backup)"
  | HOverflow m => chars "Header error Overflow: " ++ chars m
  | HToSmallForBackup => chars "the disk is to small to hold a backup header"
  end.

(** [Display for GptError] (src/lib.rs:140-167). *)
Definition show_gpt_err (io_text : io_err -> list N) (e : gpt_err) : list N :=
  match e with
  | GIo e => chars "GPT IO Error: " ++ io_text e
  | GHeader e => chars "GPT Header Error: " ++ show_hdr_err io_text e
  | GCreatingInitializedDisk =>
      chars "we were expecting to read an existing partition table, but instead we're attempting to create a new blank table"
  | GOverflow m => chars "GTP error Overflow: " ++ chars m
  | GNotEnoughSpace => chars "Unable to find enough space on drive"
  | GReadOnly => chars "disk not opened in writable mode"
  | GOverflowPartitionCount => chars "not enough partition slots"
  | GPartitionCountWouldChange => chars "partition would change but is not allowed"
  | GPartitionIdAlreadyUsed => chars "partition id already used"
  end.

(** [Display for MBRError] (src/mbr.rs:37-50). *)
Definition show_mbr_err (io_text : io_err -> list N) (e : mbr_err) : list N :=
  match e with
  | MIo e => chars "MBR IO Error: " ++ io_text e
  | MInvalidMBRLength => chars "The provided buffer does not match the expected mbr length"
  | MInvalidMBRSignature => chars "Invalid MBR signature"
  | MInvalidPartitionLength => chars "Invalid Partition length expected 16"
  | MOverflow m => chars "MBR error Overflow: " ++ chars m
  end.

(** [PartitionAttributes] (src/partition.rs:21-31): the three constants; [from_bits] and [from_bits_truncate]
    as generated by the crate bitflags. *)
Definition ATTR_PLATFORM : N := 1.
Definition ATTR_EFI : N := N.shiftl 1 1.
Definition ATTR_BOOTABLE : N := N.shiftl 1 2.
Definition attr_all : N := N.lor ATTR_PLATFORM (N.lor ATTR_EFI ATTR_BOOTABLE).
Definition attr_from_bits (n : N) : option N := if N.land n (N.lxor attr_all (modulus 64 - 1)) =? 0 then Some n else None.
Definition attr_from_bits_truncate (n : N) : N := N.land n attr_all.
