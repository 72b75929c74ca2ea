(** SpecUefi.v - what the UEFI specification (5.3) calls a valid GPT, in terms of the bytes of the device. *)
From Verif Require Export Spec.
Open Scope list_scope.
Open Scope N_scope.

(** The checks on a header in block [lba]: signature, size, checksum of as many bytes as the header says, and
    MyLBA. *)
Definition uefi_header (lb : lbsize) (l : list byte) (lba : N) : Prop :=
  let off := lba * lb_u64 lb in
  off + lb_u64 lb <= lenN l /\
  range off 8 l = efi_part /\
  92 <= num_at (off + 12) 4 l <= lb_u64 lb /\
  num_at (off + 16) 4 l =
    crc32 (range off 16 l ++ repeat x00 4 ++ range (off + 20) (num_at (off + 12) 4 l - 20) l) /\
  num_at (off + 24) 8 l = lba.
(** Fields of the header in block [lba]. *)
Definition array_start (lb : lbsize) (l : list byte) (lba : N) : N := num_at (lba * lb_u64 lb + 72) 8 l.
Definition entry_count (lb : lbsize) (l : list byte) (lba : N) : N := num_at (lba * lb_u64 lb + 80) 4 l.
Definition usable_from (lb : lbsize) (l : list byte) (lba : N) : N := num_at (lba * lb_u64 lb + 40) 8 l.
Definition usable_to (lb : lbsize) (l : list byte) (lba : N) : N := num_at (lba * lb_u64 lb + 48) 8 l.
(** The array of 128-byte entries it describes, and entry [i] of it, counting from 0. *)
Definition array_bytes (lb : lbsize) (l : list byte) (lba : N) : list byte :=
  range (array_start lb l lba * lb_u64 lb) (entry_count lb l lba * 128) l.
Definition array_entry (lb : lbsize) (l : list byte) (lba i : N) : list byte :=
  range (128 * i) 128 (array_bytes lb l lba).
Definition entry_used (b : list byte) : Prop := ~ all_zero (range 0 16 b).
Definition entry_first (b : list byte) : N := num_at 32 8 b.
Definition entry_last (b : list byte) : N := num_at 40 8 b.
(** One copy of the metadata: header in block [lba], the other header in block [other]. *)
Record uefi_copy (lb : lbsize) (l : list byte) (lba other : N) : Prop := mkUefiCopy {
  uc_header : uefi_header lb l lba;
  uc_revision : num_at (lba * lb_u64 lb + 8) 2 l = 0 /\ num_at (lba * lb_u64 lb + 10) 2 l = 1;
  uc_reserved : num_at (lba * lb_u64 lb + 20) 4 l = 0;
  uc_rest : all_zero (range (lba * lb_u64 lb + 92) (lb_u64 lb - 92) l);
  uc_other : num_at (lba * lb_u64 lb + 32) 8 l = other;
  uc_size : num_at (lba * lb_u64 lb + 84) 4 l = 128;
  uc_fit : array_start lb l lba * lb_u64 lb + entry_count lb l lba * 128 <= lenN l;
  uc_array : num_at (lba * lb_u64 lb + 88) 4 l = crc32 (array_bytes lb l lba)
}.
(** The whole disk, [last] being its last block. *)
Record uefi_disk (lb : lbsize) (l : list byte) (last : N) : Prop := mkUefiDisk {
  ud_last : last = lenN l / lb_u64 lb - 1;
  ud_primary : uefi_copy lb l 1 last;
  ud_backup : uefi_copy lb l last 1;
  ud_usable : usable_from lb l 1 = usable_from lb l last /\ usable_to lb l 1 = usable_to lb l last;
  ud_guid : range (1 * lb_u64 lb + 56) 16 l = range (last * lb_u64 lb + 56) 16 l;
  ud_count : entry_count lb l 1 = entry_count lb l last;
  ud_arrays : array_bytes lb l 1 = array_bytes lb l last;
  ud_order : 2 <= array_start lb l 1 /\
    array_start lb l 1 * lb_u64 lb + entry_count lb l 1 * 128 <= usable_from lb l 1 * lb_u64 lb /\
    usable_from lb l 1 <= usable_to lb l 1 /\ usable_to lb l 1 < array_start lb l last /\
    array_start lb l last * lb_u64 lb + entry_count lb l last * 128 <= last * lb_u64 lb;
  ud_inside : forall i, i < entry_count lb l 1 -> let e := array_entry lb l 1 i in
    entry_used e -> usable_from lb l 1 <= entry_first e /\ entry_first e <= entry_last e /\ entry_last e <= usable_to lb l 1;
  ud_apart : forall i j, i < j -> j < entry_count lb l 1 ->
    let e := array_entry lb l 1 i in let e' := array_entry lb l 1 j in
    entry_used e -> entry_used e' -> entry_last e < entry_first e' \/ entry_last e' < entry_first e
}.
