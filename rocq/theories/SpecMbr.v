(** SpecMbr.v - vocabulary of the properties of the protective MBR (C44-C48).  As in Spec.v, only the
    data types of the model are used. *)
From Verif Require Export Spec.
Open Scope list_scope.
Open Scope N_scope.

(** Field values that the Rust types allow; every MBR value a program can have carries 55 AA (the
    field is private and only ever set to that). *)
Definition record_ok (r : part_record) : Prop := lb_start r < 2 ^ 32 /\ lb_size r < 2 ^ 32.
Record mbr_ok (m : mbr) : Prop := mkMbrOk {
  mo_boot : length (bootcode m) = 440%nat;
  mo_disk : length (disk_signature m) = 4%nat;
  mo_unknown : unknown m < 2 ^ 16;
  mo_parts : length (partitions_mbr m) = 4%nat;
  mo_recs : Forall record_ok (partitions_mbr m);
  mo_sig : mbr_sig m = [x55; xaa]
}.
(** The layout of a 16-byte record and of the 512-byte sector. *)
Record record_bytes (b : list byte) (r : part_record) : Prop := mkRecordBytes {
  rb_len : lenN b = 16;
  rb_boot : byte_no b 0 = Some (boot_indicator r);
  rb_start : byte_no b 1 = Some (start_head r) /\ byte_no b 2 = Some (start_sector r) /\
             byte_no b 3 = Some (start_track r);
  rb_type : byte_no b 4 = Some (os_type r);
  rb_end : byte_no b 5 = Some (end_head r) /\ byte_no b 6 = Some (end_sector r) /\
           byte_no b 7 = Some (end_track r);
  rb_first : num_at 8 4 b = lb_start r;
  rb_size : num_at 12 4 b = lb_size r
}.
(** The four records at byte 446. *)
Definition records_bytes (b : list byte) (l : list part_record) : Prop :=
  length l = 4%nat /\
  forall i r, nth_error l i = Some r -> record_bytes (range (446 + 16 * N.of_nat i) 16 b) r.
Record mbr_bytes (b : list byte) (m : mbr) : Prop := mkMbrBytes {
  mb_len : lenN b = 512;
  mb_boot : range 0 440 b = bootcode m;
  mb_disk : range 440 4 b = disk_signature m;
  mb_unknown : num_at 444 2 b = unknown m;
  mb_recs : records_bytes b (partitions_mbr m);
  mb_sig : range 510 2 b = [x55; xaa]
}.
(** Every byte that was there outside [lo, hi) is unchanged; nothing was cut off, and a device that can
    grow did not grow beyond [hi]. *)
Definition wrote_within (lo hi : N) (l l' : list byte) : Prop :=
  lenN l <= lenN l' <= N.max (lenN l) hi /\
  forall i, i < lenN l -> ~ between lo hi i -> byte_no l' i = byte_no l i.
